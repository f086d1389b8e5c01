(** What to_chars writes into the caller's buffer. *)
From Coq Require Import ZArith List Bool Lia.
From Verif Require Import Mem IntStrModel IntStrProofs RyuModel RyuArith RyuFmtModel.
Import ListNotations.
Open Scope Z_scope.

Definition at_ (b : buf) (j : Z) : option Z := nth (Z.to_nat j) b None.
Notation len b := (Z.of_nat (length b)).

Lemma set_nth_length {A} (l : list A) : forall i x, length (set_nth l i x) = length l.
Proof. induction l as [|a l IH]; intros [|i] x; cbn; [reflexivity..|]. now rewrite IH. Qed.
Lemma nth_set_nth {A} (l : list A) d : forall i j x, (i < length l)%nat -> nth j (set_nth l i x) d = if Nat.eqb j i then x else nth j l d.
Proof.
  induction l as [|a l IH]; intros i j x H; [cbn in H; lia|]. destruct i, j; cbn; try reflexivity. apply IH. cbn in H. lia.
Qed.

Lemma bstore_ok b i c : 0 <= i < len b -> 0 <= c < 256 ->
  exists b', bstore b i c = Ok b' /\ length b' = length b /\
    forall j, 0 <= j -> at_ b' j = if j =? i then Some c else at_ b j.
Proof.
  intros Hi Hc. unfold bstore. replace ((0 <=? i) && (i <? len b)) with true by lia. rewrite Z.mod_small by lia.
  eexists. split; [reflexivity|]. split; [apply set_nth_length|]. intros j Hj. unfold at_. rewrite nth_set_nth by lia.
  destruct (Z.eqb_spec j i) as [->|N]; [now rewrite Nat.eqb_refl|]. destruct (Nat.eqb_spec (Z.to_nat j) (Z.to_nat i)); [lia|reflexivity].
Qed.

Lemma digit_table_ok : forallb (fun n => let c := Z.of_nat n in
  (nth (2 * n) DIGIT_TABLE 0 =? 48 + c / 10) && (nth (2 * n + 1) DIGIT_TABLE 0 =? 48 + c mod 10)) (seq 0 100) = true.
Proof. vm_compute. reflexivity. Qed.

Lemma digit_char_ok c : 0 <= c < 100 ->
  digit_char (c * 2) = Ok (48 + c / 10) /\ digit_char (c * 2 + 1) = Ok (48 + c mod 10).
Proof.
  intro H. pose proof digit_table_ok as T. rewrite forallb_forall in T. specialize (T (Z.to_nat c)).
  rewrite in_seq in T. specialize (T ltac:(lia)). cbv zeta in T. apply andb_prop in T. destruct T as [T1 T2].
  apply Z.eqb_eq in T1, T2. rewrite Z2Nat.id in T1, T2 by lia. unfold digit_char.
  replace ((0 <=? c * 2) && (c * 2 <? 200)) with true by lia. replace ((0 <=? c * 2 + 1) && (c * 2 + 1 <? 200)) with true by lia.
  replace (Z.to_nat (c * 2)) with (2 * Z.to_nat c)%nat by lia. replace (Z.to_nat (c * 2 + 1)) with (2 * Z.to_nat c + 1)%nat by lia.
  now rewrite T1, T2.
Qed.

Lemma copy2_ok b pos c : 0 <= c < 100 -> 0 <= pos -> pos + 2 <= len b ->
  exists b', copy2 b pos (c * 2) = Ok b' /\ length b' = length b /\
    forall j, 0 <= j -> at_ b' j = if j =? pos then Some (48 + c / 10) else if j =? pos + 1 then Some (48 + c mod 10) else at_ b j.
Proof.
  intros Hc Hp Hl. unfold copy2. destruct (digit_char_ok c Hc) as [-> ->]. cbn [bind].
  assert (0 <= c / 10 < 10 /\ 0 <= c mod 10 < 10) by (Z.to_euclidean_division_equations; lia).
  destruct (bstore_ok b pos (48 + c / 10)) as (b1 & -> & L1 & A1); [lia|lia|]. cbn [bind].
  destruct (bstore_ok b1 (pos + 1) (48 + c mod 10)) as (b2 & -> & L2 & A2); [lia|lia|].
  exists b2. split; [reflexivity|]. split; [congruence|]. intros j Hj. rewrite A2, A1 by exact Hj.
  destruct (Z.eqb_spec j (pos + 1)), (Z.eqb_spec j pos); try reflexivity; lia.
Qed.

Section D.
Variables (d p idx : Z) (b0 : buf).
Hypothesis Hd : 10 ^ (p - 1) <= d < 10 ^ p.
Hypothesis Hp : 1 <= p.
Hypothesis Hidx : 0 <= idx.
Hypothesis Hlen : idx + p + 1 <= len b0 \/ p = 1 /\ idx + 1 <= len b0.

(** [i] digits written, [out] the rest *)
Definition inv (i out : Z) (b : buf) : Prop :=
  0 <= i < p /\ out = d / 10 ^ i /\ length b = length b0 /\
  (forall j, 0 <= j < idx -> at_ b j = at_ b0 j) /\
  (forall u, 0 <= u < i -> at_ b (idx + p - u) = Some (48 + (d / 10 ^ u) mod 10)).

Lemma out_range i : 0 <= i < p -> 10 ^ (p - 1 - i) <= d / 10 ^ i < 10 ^ (p - i).
Proof.
  intro Hi. assert (P : 0 < 10 ^ i) by (apply Z.pow_pos_nonneg; lia). split.
  - apply Z.div_le_lower_bound; [exact P|]. rewrite <- Z.pow_add_r by lia. replace (i + (p - 1 - i)) with (p - 1) by lia. lia.
  - apply Z.div_lt_upper_bound; [exact P|]. rewrite <- Z.pow_add_r by lia. replace (i + (p - i)) with p by lia. lia.
Qed.

Lemma remaining i a : 0 <= i < p -> 0 <= a -> 10 ^ a <= d / 10 ^ i -> a < p - i.
Proof.
  intros Hi Ha H. pose proof (out_range i Hi) as R. apply Z.nle_gt. intro L.
  assert (10 ^ (p - i) <= 10 ^ a) by (apply Z.pow_le_mono_r; lia). lia.
Qed.

Lemma div_pow_add i k : 0 <= i -> 0 <= k -> d / 10 ^ i / 10 ^ k = d / 10 ^ (i + k).
Proof. intros. rewrite Z.div_div by (try apply Z.pow_pos_nonneg; try apply Z.pow_nonzero; lia). now rewrite Z.pow_add_r by lia. Qed.

Lemma pair_step i out b : inv i out b -> 100 <= out ->
  exists b', copy2 b (idx + p - i - 1) (out mod 100 * 2) = Ok b' /\ inv (i + 2) (out / 100) b'.
Proof.
  intros (Hi & Eo & L & K & W) Ho. pose proof (remaining i 2 Hi ltac:(lia) ltac:(rewrite <- Eo; exact Ho)) as R.
  pose proof (Z.mod_pos_bound out 100 ltac:(lia)) as B.
  destruct (copy2_ok b (idx + p - i - 1) (out mod 100) B) as (b' & E & L' & A); [lia|lia|].
  exists b'. split; [exact E|]. split; [lia|]. split; [|split; [congruence|split]].
  - rewrite Eo. change 100 with (10 ^ 2). apply div_pow_add; lia.
  - intros j Hj. rewrite A by lia. replace (j =? idx + p - i - 1) with false by lia. replace (j =? idx + p - i - 1 + 1) with false by lia. now apply K.
  - intros u Hu. rewrite A by lia. destruct (Z.eqb_spec (idx + p - u) (idx + p - i - 1)) as [E1|N1].
    + replace u with (i + 1) by lia. rewrite <- div_pow_add by lia. change (10 ^ 1) with 10. rewrite <- Eo. do 2 f_equal. Z.to_euclidean_division_equations. lia.
    + destruct (Z.eqb_spec (idx + p - u) (idx + p - i - 1 + 1)) as [E2|N2]; [|apply W; lia].
      replace u with i by lia. rewrite <- Eo. do 2 f_equal. Z.to_euclidean_division_equations. lia.
Qed.

Lemma put4_ok fuel : forall i out b, inv i out b -> out < 10000 ^ (Z.of_nat fuel + 1) ->
  exists i' out' b', put4_loop fuel b idx p out i = Ok (b', out', i') /\ inv i' out' b' /\ out' < 10000.
Proof.
  induction fuel as [|n IH]; intros i out b I Hf; cbn [put4_loop].
  - cbn in Hf. replace (10000 <=? out) with false by lia. exists i, out, b. split; [reflexivity|]. split; [exact I|lia].
  - destruct (Z.leb_spec 10000 out) as [G|G]; [|exists i, out, b; split; [reflexivity|]; split; [exact I|lia]].
    destruct (pair_step i out b I ltac:(lia)) as (b1 & E1 & I1).
    destruct (pair_step (i + 2) (out / 100) b1 I1 ltac:(Z.to_euclidean_division_equations; lia)) as (b2 & E2 & I2).
    replace ((out mod 10000) mod 100) with (out mod 100) by (Z.to_euclidean_division_equations; lia).
    rewrite E1. cbn [bind]. replace (out mod 10000 / 100) with ((out / 100) mod 100) by (Z.to_euclidean_division_equations; lia).
    replace (idx + p - i - 3) with (idx + p - (i + 2) - 1) by lia. rewrite E2. cbn [bind].
    replace (out / 10000) with (out / 100 / 100) by (rewrite Z.div_div by lia; reflexivity).
    replace (i + 4) with (i + 2 + 2) by lia. apply IH; [exact I2|].
    rewrite Nat2Z.inj_succ in Hf. replace (Z.succ (Z.of_nat n) + 1) with (Z.succ (Z.of_nat n + 1)) in Hf by lia. rewrite Z.pow_succ_r in Hf by lia.
    rewrite Z.div_div by lia. apply Z.div_lt_upper_bound; lia.
Qed.

Definition mant_len : Z := if 1 <? p then p + 1 else 1.

Lemma put_digits_ok i out b : inv i out b -> out < 2 ^ 32 ->
  exists b', put_digits b idx p out i = Ok (b', idx + mant_len) /\ length b' = length b0 /\
    (forall j, 0 <= j < idx -> at_ b' j = at_ b0 j) /\
    at_ b' idx = Some (48 + d / 10 ^ (p - 1)) /\ (1 < p -> at_ b' (idx + 1) = Some 46) /\
    (forall t, 1 <= t < p -> at_ b' (idx + 1 + t) = Some (48 + (d / 10 ^ (p - 1 - t)) mod 10)).
Proof.
  intros I Ho. unfold put_digits.
  destruct (put4_ok 8 i out b I) as (i1 & o1 & b1 & -> & I1 & O1). { apply Z.lt_trans with (1 := Ho). reflexivity. }
  cbn [bind].
  assert (X : exists i2 o2 b2, (if 100 <=? o1
      then b <- copy2 b1 (idx + p - i1 - 1) (o1 mod 100 * 2);; Ok (b, o1 / 100, i1 + 2)
      else Ok (b1, o1, i1)) = Ok (b2, o2, i2) /\ inv i2 o2 b2 /\ o2 < 100).
  { destruct (Z.leb_spec 100 o1) as [G|G].
    - destruct (pair_step i1 o1 b1 I1 G) as (b2 & E2 & I2). rewrite E2. cbn [bind]. exists (i1 + 2), (o1 / 100), b2. split; [reflexivity|].
      split; [exact I2|]. apply Z.div_lt_upper_bound; lia.
    - exists i1, o1, b1. split; [reflexivity|]. split; [exact I1|exact G]. }
  destruct X as (i2 & o2 & b2 & -> & I2 & O2). cbn [bind].
  destruct I2 as (Hi & Eo & L & K & W). pose proof (out_range i2 Hi) as R. rewrite <- Eo in R.
  (* the top one or two digits *)
  assert (Y : exists b3, (if 10 <=? o2
      then x <- digit_char (o2 * 2 + 1);; b <- bstore b2 (idx + p - i2) x;; y <- digit_char (o2 * 2);; bstore b idx y
      else bstore b2 idx (48 + o2)) = Ok b3 /\ length b3 = length b0 /\
      (forall j, 0 <= j < idx -> at_ b3 j = at_ b0 j) /\ at_ b3 idx = Some (48 + d / 10 ^ (p - 1)) /\
      (forall u, 0 <= u < p - 1 -> at_ b3 (idx + p - u) = Some (48 + (d / 10 ^ u) mod 10))).
  { destruct (Z.leb_spec 10 o2) as [G|G].
    - assert (Ri : i2 = p - 2).
      { assert (1 < p - i2) by (apply remaining; [exact Hi|lia|rewrite <- Eo; exact G]).
        destruct (Z.eq_dec i2 (p - 2)); [assumption|]. assert (10 ^ 2 <= 10 ^ (p - 1 - i2)) by (apply Z.pow_le_mono_r; lia). change (10 ^ 2) with 100 in *. lia. }
      destruct (digit_char_ok o2 ltac:(lia)) as [-> ->]. cbn [bind].
      assert (0 <= o2 / 10 < 10 /\ 0 <= o2 mod 10 < 10) by (Z.to_euclidean_division_equations; lia).
      destruct (bstore_ok b2 (idx + p - i2) (48 + o2 mod 10)) as (b3 & -> & L3 & A3); [lia|lia|]. cbn [bind].
      destruct (bstore_ok b3 idx (48 + o2 / 10)) as (b4 & -> & L4 & A4); [lia|lia|].
      exists b4. split; [reflexivity|]. split; [congruence|]. split; [|split].
      + intros j Hj. rewrite A4, A3 by lia. replace (j =? idx) with false by lia. replace (j =? idx + p - i2) with false by lia. now apply K.
      + rewrite A4 by lia. rewrite Z.eqb_refl. do 2 f_equal. rewrite Eo. change 10 with (10 ^ 1) at 2. rewrite div_pow_add by lia. do 2 f_equal. lia.
      + intros u Hu. rewrite A4, A3 by lia. replace (idx + p - u =? idx) with false by lia.
        destruct (Z.eqb_spec (idx + p - u) (idx + p - i2)) as [E|N]; [|apply W; lia]. replace u with i2 by lia. now rewrite <- Eo.
    - assert (Ri : i2 = p - 1).
      { destruct (Z.eq_dec i2 (p - 1)); [assumption|]. assert (10 ^ 1 <= 10 ^ (p - 1 - i2)) by (apply Z.pow_le_mono_r; lia). change (10 ^ 1) with 10 in *. lia. }
      assert (0 <= o2) by (assert (0 < 10 ^ (p - 1 - i2)) by (apply Z.pow_pos_nonneg; lia); lia).
      destruct (bstore_ok b2 idx (48 + o2)) as (b4 & -> & L4 & A4); [lia|lia|].
      exists b4. split; [reflexivity|]. split; [congruence|]. split; [|split].
      + intros j Hj. rewrite A4 by lia. replace (j =? idx) with false by lia. now apply K.
      + rewrite A4 by lia. rewrite Z.eqb_refl. now rewrite Eo, Ri.
      + intros u Hu. rewrite A4 by lia. replace (idx + p - u =? idx) with false by lia. apply W; lia. }
  destruct Y as (b3 & -> & L3 & K3 & A3 & W3). cbn [bind]. unfold mant_len.
  clear R Eo Hi W K Ho I I1 O1 O2 Hd.
  destruct (Z.ltb_spec 1 p) as [P1|P1].
  - destruct (bstore_ok b3 (idx + 1) 46) as (b4 & -> & L4 & A4); [lia|lia|]. cbn [bind].
    exists b4. split; [do 2 f_equal; lia|]. split; [congruence|]. split; [|split; [|split]].
    + intros j Hj. rewrite A4 by lia. replace (j =? idx + 1) with false by lia. now apply K3.
    + rewrite A4 by lia. replace (idx =? idx + 1) with false by lia. exact A3.
    + intros _. rewrite A4 by lia. now rewrite Z.eqb_refl.
    + intros t Ht. rewrite A4 by lia. replace (idx + 1 + t =? idx + 1) with false by lia.
      replace (idx + 1 + t) with (idx + p - (p - 1 - t)) by lia. apply W3. lia.
  - exists b3. split; [reflexivity|]. split; [exact L3|]. split; [exact K3|]. split; [exact A3|]. split; [lia|]. intros; lia.
Qed.
End D.

(** ** Text pieces *)
Definition holds (b : buf) (pos : Z) (l : list Z) : Prop :=
  forall t, (t < length l)%nat -> at_ b (pos + Z.of_nat t) = Some (nth t l 0).
(** [b'] is [b] with [l] written at [pos]; nothing below [pos] changes *)
Definition ext (b b' : buf) (pos : Z) (l : list Z) : Prop :=
  length b' = length b /\ (forall j, 0 <= j < pos -> at_ b' j = at_ b j) /\ holds b' pos l.

Lemma ext_nil b pos : ext b b pos [].
Proof. split; [reflexivity|]. split; [reflexivity|]. intros t Ht. cbn in Ht. lia. Qed.
Lemma ext_app b b1 b2 pos l1 l2 : 0 <= pos -> ext b b1 pos l1 -> ext b1 b2 (pos + len l1) l2 -> ext b b2 pos (l1 ++ l2).
Proof.
  intros Hp (L1 & K1 & H1) (L2 & K2 & H2). split; [congruence|]. split.
  - intros j Hj. rewrite K2 by lia. now apply K1.
  - intros t Ht. rewrite app_length in Ht. destruct (Nat.lt_ge_cases t (length l1)) as [A|A].
    + rewrite app_nth1 by exact A. rewrite K2 by lia. now apply H1.
    + rewrite app_nth2 by exact A. specialize (H2 (t - length l1)%nat ltac:(lia)). rewrite <- H2. f_equal. lia.
Qed.
Lemma ext_store b pos c : 0 <= pos < len b -> 0 <= c < 256 -> exists b', bstore b pos c = Ok b' /\ ext b b' pos [c].
Proof.
  intros Hp Hc. destruct (bstore_ok b pos c Hp Hc) as (b' & E & L & A). exists b'. split; [exact E|]. split; [exact L|]. split.
  - intros j Hj. rewrite A by lia. replace (j =? pos) with false by lia. reflexivity.
  - intros t Ht. cbn in Ht. replace t with O by lia. rewrite A by lia. replace (pos + Z.of_nat 0 =? pos) with true by lia. reflexivity.
Qed.
Lemma ext_copy2 b pos c : 0 <= c < 100 -> 0 <= pos -> pos + 2 <= len b ->
  exists b', copy2 b pos (c * 2) = Ok b' /\ ext b b' pos [48 + c / 10; 48 + c mod 10].
Proof.
  intros Hc Hp Hl. destruct (copy2_ok b pos c Hc Hp Hl) as (b' & E & L & A). exists b'. split; [exact E|]. split; [exact L|]. split.
  - intros j Hj. rewrite A by lia. replace (j =? pos) with false by lia. replace (j =? pos + 1) with false by lia. reflexivity.
  - intros t Ht. cbn in Ht. assert (Et : t = O \/ t = 1%nat) by lia. destruct Et as [-> | ->]; rewrite A by lia.
    + replace (pos + Z.of_nat 0 =? pos) with true by lia. reflexivity.
    + replace (pos + Z.of_nat 1 =? pos) with false by lia. replace (pos + Z.of_nat 1 =? pos + 1) with true by lia. reflexivity.
Qed.
Lemma ext_bytes l : forall b pos, 0 <= pos -> pos + len l <= len b -> Forall (fun c => 0 <= c < 256) l ->
  exists b', copy_bytes b pos l = Ok b' /\ ext b b' pos l.
Proof.
  induction l as [|c l IH]; intros b pos Hp Hl F; [exists b; split; [reflexivity|apply ext_nil]|].
  inversion F as [|? ? Fc Fl]; subst. cbn [length] in Hl. cbn [copy_bytes].
  destruct (ext_store b pos c ltac:(lia) Fc) as (b1 & -> & E1). cbn [bind].
  destruct (IH b1 (pos + 1)) as (b2 & -> & E2); [lia|destruct E1 as (-> & _); lia|exact Fl|].
  exists b2. split; [reflexivity|]. change (c :: l) with ([c] ++ l). apply (ext_app b b1 b2); [exact Hp|exact E1|exact E2].
Qed.

(** digit characters of [d], most significant first *)
Definition dchar (d p : Z) (t : nat) : Z := 48 + (d / 10 ^ (p - 1 - Z.of_nat t)) mod 10.
Definition mant_text (d p : Z) : list Z :=
  dchar d p 0 :: (if 1 <? p then 46 :: map (dchar d p) (seq 1 (Z.to_nat (p - 1))) else []).
Definition exp_digits (e : Z) : list Z :=
  if e <? 10 then [48 + e] else if e <? 100 then [48 + e / 10; 48 + e mod 10]
  else [48 + e / 10 / 10; 48 + (e / 10) mod 10; 48 + e mod 10].
Definition exp_text (x : Z) : list Z := 69 :: (if x <? 0 then [45] else []) ++ exp_digits (Z.abs x).
Definition sign_text (s : bool) : list Z := if s then [45] else [].
Definition sci_text (s : bool) (d k p : Z) : list Z := sign_text s ++ mant_text d p ++ exp_text (k + p - 1).

Lemma mant_text_len d p : 1 <= p -> len (mant_text d p) = mant_len p.
Proof.
  intro H. unfold mant_text, mant_len. destruct (Z.ltb_spec 1 p); cbn [length]; [|reflexivity].
  rewrite map_length, seq_length. lia.
Qed.

Lemma put_digits_ext d p idx b i out bb : 10 ^ (p - 1) <= d < 10 ^ p -> 1 <= p -> 0 <= idx -> idx + mant_len p <= len b ->
  inv d p idx b i out bb -> out < 2 ^ 32 ->
  exists b', put_digits bb idx p out i = Ok (b', idx + mant_len p) /\ ext b b' idx (mant_text d p).
Proof.
  intros Hd Hp Hi Hl I Ho.
  assert (Hl' : idx + p + 1 <= len b \/ p = 1 /\ idx + 1 <= len b) by (unfold mant_len in Hl; destruct (Z.ltb_spec 1 p); lia).
  destruct (put_digits_ok d p idx b Hd Hp Hi Hl' i out bb I Ho) as (b' & E & L & K & A0 & A1 & At).
  exists b'. split; [exact E|]. split; [exact L|]. split; [exact K|]. intros t Ht.
  assert (Dt : at_ b' idx = Some (dchar d p 0)).
  { rewrite A0. unfold dchar. rewrite Z.sub_0_r. rewrite (Z.mod_small (d / _)); [reflexivity|].
    assert (P : 0 < 10 ^ (p - 1)) by (apply Z.pow_pos_nonneg; lia). split; [apply Z.div_pos; lia|]. apply Z.div_lt_upper_bound; [exact P|].
    assert (Q : 10 ^ p = 10 ^ (p - 1) * 10) by (replace p with (Z.succ (p - 1)) at 1 by lia; rewrite Z.pow_succ_r by lia; ring). lia. }
  unfold mant_text in *. destruct t as [|t].
  - cbn [nth]. replace (idx + Z.of_nat 0) with idx by lia. exact Dt.
  - destruct (Z.ltb_spec 1 p) as [P1|P1]; [|cbn in Ht; lia]. cbn [nth]. destruct t as [|t].
    + cbn [nth]. replace (idx + Z.of_nat 1) with (idx + 1) by lia. apply A1. exact P1.
    + cbn [length] in Ht. rewrite map_length, seq_length in Ht. cbn [nth].
      rewrite (nth_indep _ 0 (dchar d p 0)) by (rewrite map_length, seq_length; lia).
      rewrite map_nth, seq_nth by lia. replace (idx + Z.of_nat (S (S t))) with (idx + 1 + Z.of_nat (S t)) by lia.
      rewrite At by lia. reflexivity.
Qed.

Lemma put_exp_ok (put : buf -> Z -> Z -> res (buf * Z)) (W : Z) b idx x :
  (forall b idx e, 0 <= idx -> 0 <= e < W -> idx + len (exp_digits e) <= len b ->
     exists b', put b idx e = Ok (b', idx + len (exp_digits e)) /\ ext b b' idx (exp_digits e)) ->
  0 <= idx -> Z.abs x < W -> idx + len (exp_text x) <= len b ->
  exists b', ('(b, index, e) <- put_exp_sign b idx x ;; put b index e) = Ok (b', idx + len (exp_text x)) /\ ext b b' idx (exp_text x).
Proof.
  intros Hput Hi Hx Hl. unfold put_exp_sign, exp_text in *. cbn [length] in Hl. rewrite app_length in Hl.
  destruct (ext_store b idx 69) as (b1 & -> & E1); [lia|lia|]. cbn [bind]. pose proof E1 as (L1 & _).
  destruct (Z.ltb_spec x 0) as [N|N].
  - cbn [length] in Hl. destruct (ext_store b1 (idx + 1) 45) as (b2 & -> & E2); [lia|lia|]. cbn [bind]. pose proof E2 as (L2 & _).
    replace (- x) with (Z.abs x) by lia. destruct (Hput b2 (idx + 2) (Z.abs x)) as (b3 & -> & E3); [lia|lia|lia|].
    exists b3. split; [do 2 f_equal; cbn [length app]; lia|].
    change (69 :: [45] ++ exp_digits (Z.abs x)) with ([69] ++ [45] ++ exp_digits (Z.abs x)).
    apply (ext_app b b1); [exact Hi|exact E1|]. apply (ext_app b1 b2); [cbn; lia|exact E2|].
    replace (idx + len [69] + len [45]) with (idx + 2) by (cbn; lia). exact E3.
  - cbn [length] in Hl. cbn [bind]. replace (Z.abs x) with x in * by lia. destruct (Hput b1 (idx + 1) x) as (b3 & -> & E3); [lia|lia|lia|].
    exists b3. split; [do 2 f_equal; cbn [length app]; lia|].
    change (69 :: [] ++ exp_digits x) with ([69] ++ exp_digits x).
    apply (ext_app b b1); [exact Hi|exact E1|exact E3].
Qed.

Lemma put_exp2_ok b idx e : 0 <= idx -> 0 <= e < 100 -> idx + len (exp_digits e) <= len b ->
  exists b', put_exp2 b idx e = Ok (b', idx + len (exp_digits e)) /\ ext b b' idx (exp_digits e).
Proof.
  intros Hi He. unfold put_exp2, exp_digits. destruct (Z.ltb_spec e 10) as [A|A].
  - intro Hl. replace (10 <=? e) with false by lia. cbn [length] in Hl.
    destruct (ext_store b idx (48 + e)) as (b' & -> & E); [lia|lia|]. cbn [bind]. exists b'. split; [reflexivity|exact E].
  - replace (10 <=? e) with true by lia. replace (e <? 100) with true by lia. intro Hl. cbn [length] in Hl.
    rewrite (Z.mul_comm 2 e). destruct (ext_copy2 b idx e) as (b' & -> & E); [lia|lia|lia|]. cbn [bind]. exists b'. split; [reflexivity|exact E].
Qed.

Lemma put_exp3_ok b idx e : 0 <= idx -> 0 <= e < 1000 -> idx + len (exp_digits e) <= len b ->
  exists b', put_exp3 b idx e = Ok (b', idx + len (exp_digits e)) /\ ext b b' idx (exp_digits e).
Proof.
  intros Hi He Hl. unfold put_exp3. destruct (Z.leb_spec 100 e) as [A|A]; [|apply put_exp2_ok; [exact Hi|lia|exact Hl]].
  unfold exp_digits in *. replace (e <? 10) with false in * by lia. replace (e <? 100) with false in * by lia. cbn [length] in *.
  assert (0 <= e / 10 < 100 /\ 0 <= e mod 10 < 10) by (Z.to_euclidean_division_equations; lia).
  rewrite (Z.mul_comm 2). destruct (ext_copy2 b idx (e / 10)) as (b1 & -> & E1); [lia|lia|lia|]. cbn [bind]. pose proof E1 as (L1 & _).
  destruct (ext_store b1 (idx + 2) (48 + e mod 10)) as (b2 & -> & E2); [lia|lia|]. cbn [bind].
  exists b2. split; [reflexivity|]. change [48 + e / 10 / 10; 48 + (e / 10) mod 10; 48 + e mod 10] with ([48 + e / 10 / 10; 48 + (e / 10) mod 10] ++ [48 + e mod 10]).
  apply (ext_app b b1); [exact Hi|exact E1|exact E2].
Qed.

Lemma inv_start d p idx b : 1 <= p -> inv d p idx b 0 d b.
Proof.
  intro Hp. split; [lia|]. split; [now rewrite Z.div_1_r|]. split; [reflexivity|]. split; [reflexivity|]. intros; lia.
Qed.

Lemma sign_ext (s : bool) b : 1 <= len b -> exists b1, (if s then bstore b 0 45 else Ok b) = Ok b1 /\ ext b b1 0 (sign_text s) /\ len (sign_text s) = b2z s.
Proof.
  intro H. destruct s.
  - destruct (ext_store b 0 45) as (b' & -> & E); [lia|lia|]. exists b'. split; [reflexivity|]. split; [exact E|reflexivity].
  - exists b. split; [reflexivity|]. split; [apply ext_nil|reflexivity].
Qed.

Lemma to_chars32_ok d k s b p : 1 <= d < 10 ^ 9 -> 10 ^ (p - 1) <= d < 10 ^ p -> 1 <= p ->
  Z.abs (k + p - 1) < 100 -> len (sci_text s d k p) <= len b ->
  exists b', to_chars32 d k s b = Ok (b', len (sci_text s d k p)) /\ ext b b' 0 (sci_text s d k p).
Proof.
  intros Hd Hdp Hp Hx Hl. assert (Bs : 0 <= b2z s) by (destruct s; cbn; lia). unfold to_chars32, sci_text in *. rewrite !app_length in Hl. pose proof (mant_text_len d p Hp) as ML.
  assert (0 < mant_len p) by (unfold mant_len; destruct (1 <? p); lia).
  destruct (sign_ext s b ltac:(lia)) as (b1 & -> & E1 & S1). cbn [bind]. pose proof E1 as (L1 & _).
  destruct (decimalLength9_eq d Hd) as (n & -> & Hn & Dn). cbn [bind].
  assert (n = p). { apply Z.le_antisymm; apply Z.nlt_ge; intro Q.
    - assert (10 ^ p <= 10 ^ (n - 1)) by (apply Z.pow_le_mono_r; lia). lia.
    - assert (10 ^ n <= 10 ^ (p - 1)) by (apply Z.pow_le_mono_r; lia). lia. }
  subst n. destruct (put_digits_ext d p (b2z s) b1 0 d b1) as (b2 & -> & E2); [exact Hdp|exact Hp|lia|lia|now apply inv_start|change (2 ^ 32) with 4294967296; change (10 ^ 9) with 1000000000 in Hd; lia|].
  cbn [bind]. pose proof E2 as (L2 & _).
  destruct (put_exp_ok put_exp2 100 b2 (b2z s + mant_len p) (k + p - 1) put_exp2_ok) as (b3 & E & E3); [lia|exact Hx|lia|].
  rewrite E. exists b3. split; [do 2 f_equal; rewrite !app_length; lia|].
  apply (ext_app b b1); [lia|exact E1|]. rewrite S1. rewrite Z.add_0_l. apply (ext_app b1 b2); [lia|exact E2|]. rewrite ML. exact E3.
Qed.

Lemma to_chars64_ok d k s b p : 1 <= d < 10 ^ 17 -> 10 ^ (p - 1) <= d < 10 ^ p -> 1 <= p ->
  Z.abs (k + p - 1) < 1000 -> len (sci_text s d k p) <= len b ->
  exists b', to_chars64 d k s b = Ok (b', len (sci_text s d k p)) /\ ext b b' 0 (sci_text s d k p).
Proof.
  intros Hd Hdp Hp Hx Hl. unfold to_chars64, sci_text in *. rewrite !app_length in Hl. pose proof (mant_text_len d p Hp) as ML.
  assert (0 < mant_len p) by (unfold mant_len; destruct (1 <? p); lia).
  destruct (sign_ext s b ltac:(lia)) as (b1 & -> & E1 & S1). cbn [bind]. pose proof E1 as (L1 & _).
  cbv zeta. destruct (decimalLength17_eq d Hd) as (n & -> & Hn & Dn). cbn [bind].
  assert (n = p). { apply Z.le_antisymm; apply Z.nlt_ge; intro Q.
    - assert (10 ^ p <= 10 ^ (n - 1)) by (apply Z.pow_le_mono_r; lia). lia.
    - assert (10 ^ n <= 10 ^ (p - 1)) by (apply Z.pow_le_mono_r; lia). lia. }
  subst n. change (10 ^ 17) with 100000000000000000 in Hd.
  assert (Bs : 0 <= b2z s) by (destruct s; cbn; lia).
  assert (X : exists i out bb, (if negb (d / 2 ^ 32 =? 0)
      then b <- copy2 b1 (b2z s + p - 0 - 1) ((rem32 d 100000000 (div1e8 d) mod 10000) mod 100 * 2);;
           b <- copy2 b (b2z s + p - 0 - 3) (rem32 d 100000000 (div1e8 d) mod 10000 / 100 * 2);;
           b <- copy2 b (b2z s + p - 0 - 5) ((rem32 d 100000000 (div1e8 d) / 10000) mod 10000 mod 100 * 2);;
           b <- copy2 b (b2z s + p - 0 - 7) ((rem32 d 100000000 (div1e8 d) / 10000) mod 10000 / 100 * 2);;
           Ok (b, div1e8 d, 8)
      else Ok (b1, d, 0)) = Ok (bb, out, i) /\ inv d p (b2z s) b1 i out bb /\ 0 <= out < 2 ^ 32).
  { pose proof (inv_start d p (b2z s) b1 Hp) as I0. change (2 ^ 32) with 4294967296.
    destruct (Z.eqb_spec (d / 4294967296) 0) as [Z0|N0]; cbn [negb].
    - exists 0, d, b1. split; [reflexivity|]. split; [exact I0|]. Z.to_euclidean_division_equations. lia.
    - assert (G : 4294967296 <= d) by (Z.to_euclidean_division_equations; lia). clear N0.
      unfold div1e8. rewrite rem32_eq by (change (2 ^ 32) with 4294967296; lia).
      assert (P10 : 1 < p). { apply Z.nle_gt. intro Q. assert (10 ^ p <= 10 ^ 1) by (apply Z.pow_le_mono_r; lia). change (10 ^ 1) with 10 in *. lia. }
      assert (HL : b2z s + p + 1 <= len b1 \/ p = 1 /\ b2z s + 1 <= len b1) by (unfold mant_len in *; replace (1 <? p) with true in * by lia; lia).
      destruct (pair_step d p (b2z s) b1 Hdp Hp Bs HL 0 d b1 I0 ltac:(lia)) as (c1 & C1 & I1).
      destruct (pair_step d p (b2z s) b1 Hdp Hp Bs HL _ _ _ I1 ltac:(Z.to_euclidean_division_equations; lia)) as (c2 & C2 & I2).
      destruct (pair_step d p (b2z s) b1 Hdp Hp Bs HL _ _ _ I2 ltac:(Z.to_euclidean_division_equations; lia)) as (c3 & C3 & I3).
      destruct (pair_step d p (b2z s) b1 Hdp Hp Bs HL _ _ _ I3 ltac:(Z.to_euclidean_division_equations; lia)) as (c4 & C4 & I4).
      replace ((d mod 100000000) mod 10000 mod 100) with (d mod 100) by (clear; Z.to_euclidean_division_equations; lia).
      rewrite C1. cbn [bind].
      replace ((d mod 100000000) mod 10000 / 100) with ((d / 100) mod 100) by (clear; Z.to_euclidean_division_equations; lia).
      replace (b2z s + p - 0 - 3) with (b2z s + p - (0 + 2) - 1) by lia. rewrite C2. cbn [bind].
      replace ((d mod 100000000 / 10000) mod 10000 mod 100) with ((d / 100 / 100) mod 100) by (clear; Z.to_euclidean_division_equations; lia).
      replace (b2z s + p - 0 - 5) with (b2z s + p - (0 + 2 + 2) - 1) by lia. rewrite C3. cbn [bind].
      replace ((d mod 100000000 / 10000) mod 10000 / 100) with ((d / 100 / 100 / 100) mod 100) by (clear; Z.to_euclidean_division_equations; lia).
      replace (b2z s + p - 0 - 7) with (b2z s + p - (0 + 2 + 2 + 2) - 1) by lia. rewrite C4. cbn [bind].
      exists 8, (d / 100000000), c4. split; [reflexivity|].
      replace (d / 100 / 100 / 100 / 100) with (d / 100000000) in I4 by (clear; Z.to_euclidean_division_equations; lia).
      split; [exact I4|]. Z.to_euclidean_division_equations. lia. }
  destruct X as (i & out & bb & -> & I & Ho). cbn [bind]. rewrite u32_id by exact Ho.
  destruct (put_digits_ext d p (b2z s) b1 i out bb) as (b2 & -> & E2); [exact Hdp|exact Hp|exact Bs|lia|exact I|lia|].
  cbn [bind]. pose proof E2 as (L2 & _).
  destruct (put_exp_ok put_exp3 1000 b2 (b2z s + mant_len p) (k + p - 1) put_exp3_ok) as (b3 & E & E3); [lia|exact Hx|lia|].
  rewrite E. exists b3. split; [do 2 f_equal; rewrite !app_length; lia|].
  apply (ext_app b b1); [lia|exact E1|]. rewrite S1. rewrite Z.add_0_l. apply (ext_app b1 b2); [exact Bs|exact E2|]. rewrite ML. exact E3.
Qed.

(** reading the terminated text back *)
Lemma holds_split l : forall b, holds b 0 l -> (length l <= length b)%nat -> b = map Some l ++ skipn (length l) b.
Proof.
  induction l as [|c l IH]; intros b H L; [reflexivity|]. destruct b as [|x b]; [cbn in L; lia|].
  cbn [map app length skipn]. f_equal.
  - specialize (H O ltac:(cbn; lia)). cbn in H. exact H.
  - apply IH; [|cbn in L; lia]. intros t Ht. specialize (H (S t) ltac:(cbn; lia)).
    unfold at_ in *. replace (Z.to_nat (0 + Z.of_nat (S t))) with (S t) in H by lia. replace (Z.to_nat (0 + Z.of_nat t)) with t by lia. exact H.
Qed.
Lemma read_terminated b b' l : ext b b' 0 (l ++ [0]) -> len l < len b -> Forall (fun c => c <> 0) l -> read_cstr b' = Ok l.
Proof.
  intros (L & _ & H) Hl F. rewrite (holds_split _ _ H) by (rewrite app_length; cbn; lia).
  rewrite map_app, <- app_assoc. cbn [map app]. now apply read_cstr_ok.
Qed.
