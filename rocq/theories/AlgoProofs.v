(** Lemmas for AlgoModel.v. *)
From Coq Require Import ZArith List Bool Lia Znumtheory.
From Verif Require Import Mem AlgoModel.
Import ListNotations.
Open Scope Z_scope.

Record strict_weak {V} (ltb : V -> V -> bool) : Prop := {
  sw_irrefl : forall a, ltb a a = false;
  sw_trans : forall a b c, ltb a b = true -> ltb b c = true -> ltb a c = true;
  sw_neg : forall a b c, ltb a c = true -> ltb a b = true \/ ltb b c = true }.

Section Algo.
  Context {V : Type}.
  Variables (ltb gtb : V -> V -> bool).
  Hypothesis SW : strict_weak ltb.
  Hypothesis GT : forall a b, gtb a b = ltb b a.

  Lemma sw_asym a b : ltb a b = true -> ltb b a = false.
  Proof.
    intros H. destruct (ltb b a) eqn:E; [|reflexivity].
    pose proof (sw_trans _ SW _ _ _ H E). rewrite (sw_irrefl _ SW) in H0. discriminate.
  Qed.

  Lemma min_ok a b : (min_ ltb a b = a \/ min_ ltb a b = b) /\
    ltb a (min_ ltb a b) = false /\ ltb b (min_ ltb a b) = false /\
    (ltb b a = false -> min_ ltb a b = a).
  Proof.
    unfold min_. destruct (ltb b a) eqn:E; cbn.
    - repeat split; auto; [apply sw_asym; auto|apply (sw_irrefl _ SW)|discriminate].
    - repeat split; auto. apply (sw_irrefl _ SW).
  Qed.
  Lemma max_ok a b : (max_ gtb a b = a \/ max_ gtb a b = b) /\
    ltb (max_ gtb a b) a = false /\ ltb (max_ gtb a b) b = false /\
    (ltb a b = false -> max_ gtb a b = a).
  Proof.
    unfold max_. rewrite GT. destruct (ltb a b) eqn:E; cbn.
    - repeat split; auto; [apply sw_asym; auto|apply (sw_irrefl _ SW)|discriminate].
    - repeat split; auto. apply (sw_irrefl _ SW).
  Qed.

  Definition elems_are (h : heap V) (p : ptr) (f : Z -> V) (lo hi : Z) : Prop :=
    forall i, lo <= i < hi -> rd h p i = Ok (f i).

  Lemma max_loop_ok fuel : forall h p f lo largest first last,
    elems_are h p f lo last -> lo <= largest < first -> first <= last ->
    (Z.to_nat (last - first) <= fuel)%nat ->
    (forall i, lo <= i < first -> ltb (f largest) (f i) = false) ->
    (forall i, lo <= i < largest -> ltb (f i) (f largest) = true) ->
    exists r, max_loop ltb fuel h p largest first last = Ok r /\ lo <= r < last /\
      (forall i, lo <= i < last -> ltb (f r) (f i) = false) /\
      (forall i, lo <= i < r -> ltb (f i) (f r) = true).
  Proof.
    induction fuel as [|fuel IH]; intros h p f lo lg fi la He Hl Hle Hf H1 H2; cbn [max_loop];
      destruct (Z.eqb_spec fi la).
    - subst. exists lg. repeat split; auto; lia.
    - lia.
    - subst. exists lg. repeat split; auto; lia.
    - rewrite (He lg) by lia. cbn [bind]. rewrite (He fi) by lia. cbn [bind].
      destruct (ltb (f lg) (f fi)) eqn:E.
      + apply IH with (lo := lo); auto; try lia.
        * intros i Hi. destruct (Z.eq_dec i fi) as [->|Hne]; [apply (sw_irrefl _ SW)|].
          destruct (ltb (f fi) (f i)) eqn:E2; [|reflexivity].
          pose proof (sw_trans _ SW _ _ _ E E2) as E3. rewrite H1 in E3 by lia. discriminate.
        * intros i Hi. destruct (Z.lt_ge_cases i lg).
          -- eapply (sw_trans _ SW); [apply H2; lia|exact E].
          -- destruct (sw_neg _ SW (f lg) (f i) (f fi) E) as [E2|E2]; [|exact E2].
             rewrite H1 in E2 by lia. discriminate.
      + apply IH with (lo := lo); auto; try lia.
        intros i Hi. destruct (Z.eq_dec i fi) as [->|Hne]; [exact E|apply H1; lia].
  Qed.

  Lemma rd_extent (h : heap V) p i v : rd h p i = Ok v -> 0 <= i /\ (Z.to_nat i + 2 <= extent h p)%nat.
  Proof.
    unfold rd, load, extent. destruct p as [b|]; [|discriminate].
    destruct (mem h b) as [a|]; [|discriminate]. 
    destruct ((0 <=? i) && (i <? Z.of_nat (length a))) eqn:E; [|discriminate].
    intros _. apply andb_true_iff in E. rewrite Z.leb_le, Z.ltb_lt in E. lia.
  Qed.

  Lemma max_element_ok h p f first last : first <= last -> elems_are h p f first last ->
    if first =? last then max_element ltb h p first last = Ok last
    else exists r, max_element ltb h p first last = Ok r /\ first <= r < last /\
      (forall i, first <= i < last -> ltb (f r) (f i) = false) /\
      (forall i, first <= i < r -> ltb (f i) (f r) = true).
  Proof.
    intros Hle He. unfold max_element. destruct (Z.eqb_spec first last); [reflexivity|].
    apply max_loop_ok with (lo := first); auto; try lia.
    - pose proof (rd_extent h p (last - 1) _ (He (last - 1) ltac:(lia))).
      pose proof (rd_extent h p first _ (He first ltac:(lia))). lia.
    - intros i Hi. assert (i = first) by lia. subst. apply (sw_irrefl _ SW).
  Qed.

  Lemma set_nth_nth {A} (l : list A) i j x d : (i < length l)%nat ->
    nth j (set_nth l i x) d = if Nat.eqb j i then x else nth j l d.
  Proof.
    revert i j. induction l as [|a l IH]; intros i j Hi; cbn in Hi; [lia|].
    destruct i as [|i], j as [|j]; cbn; auto. apply IH. lia.
  Qed.
  Lemma set_nth_len {A} (l : list A) i x : length (set_nth l i x) = length l.
  Proof. revert i. induction l as [|a l IH]; intros [|i]; cbn; auto. Qed.

  Lemma fill_loop_ok fuel : forall (h : heap V) b a first last v,
    mem h b = Some a -> 0 <= first <= last -> last <= Z.of_nat (length a) ->
    (Z.to_nat (last - first) <= fuel)%nat ->
    exists h' a', fill_loop fuel h (Some b) first last v = Ok h' /\
      mem h' b = Some a' /\ length a' = length a /\
      (forall b', b' <> b -> mem h' b' = mem h b') /\
      (forall i, nth i a' None = if (first <=? Z.of_nat i) && (Z.of_nat i <? last) then Some v else nth i a None).
  Proof.
    induction fuel as [|fuel IH]; intros h b a first last v Hm Hr Hl Hf; cbn [fill_loop];
      destruct (Z.eqb_spec first last).
    1, 3: exists h, a; split; [reflexivity|]; split; [exact Hm|]; split; [reflexivity|]; split; [auto|];
      intros i; destruct (Z.leb_spec first (Z.of_nat i)), (Z.ltb_spec (Z.of_nat i) last); cbn; auto; lia.
    - lia.
    - cbn [store]. rewrite Hm.
      replace ((0 <=? first) && (first <? Z.of_nat (length a))) with true
        by (symmetry; apply andb_true_iff; rewrite Z.leb_le, Z.ltb_lt; lia).
      cbn [bind].
      match goal with |- context [fill_loop fuel ?h1 _ _ _ _] =>
        destruct (IH h1 b (set_nth a (Z.to_nat first) (Some v)) (first + 1) last v)
          as (h' & a' & E & M & L & F & N) end.
      + cbn [mem]. unfold upd_mem. rewrite Nat.eqb_refl. reflexivity.
      + lia.
      + rewrite set_nth_len. lia.
      + lia.
      + exists h', a'. split; [exact E|]. split; [exact M|]. split; [rewrite L; apply set_nth_len|].
        split.
        * intros b' Hb. rewrite F by exact Hb. cbn [mem]. unfold upd_mem.
          destruct (Nat.eqb_spec b' b); [contradiction|reflexivity].
        * intros i. rewrite N. rewrite set_nth_nth by lia.
          destruct (Nat.eqb_spec i (Z.to_nat first)) as [->|Hne].
          -- replace (first + 1 <=? Z.of_nat (Z.to_nat first)) with false by (symmetry; apply Z.leb_gt; lia).
             replace (first <=? Z.of_nat (Z.to_nat first)) with true by (symmetry; apply Z.leb_le; lia).
             replace (Z.of_nat (Z.to_nat first) <? last) with true by (symmetry; apply Z.ltb_lt; lia).
             reflexivity.
          -- destruct (Z.leb_spec first (Z.of_nat i)), (Z.leb_spec (first + 1) (Z.of_nat i)); try lia; reflexivity.
  Qed.
End Algo.

(** ** memcpy *)
Definition accessible (m : bytes) (a n : Z) : Prop := forall i, 0 <= i < n -> m (a + i) <> None.

Lemma memcpy_loop_ok k : forall i m m0 dest src,
  0 <= i -> let n := i + Z.of_nat k in
  accessible m0 dest n -> accessible m0 src n ->
  (dest <= src \/ src + n <= dest) ->
  (forall x, m x = if (dest <=? x) && (x <? dest + i) then m0 (src + (x - dest)) else m0 x) ->
  exists m', memcpy_loop k i m dest src = Ok m' /\
    (forall x, m' x = if (dest <=? x) && (x <? dest + n) then m0 (src + (x - dest)) else m0 x).
Proof.
  induction k as [|k IH]; intros i m m0 dest src Hi n Hd Hs Ho Hm; cbn [memcpy_loop].
  - exists m. split; [reflexivity|]. subst n. rewrite Z.add_0_r. exact Hm.
  - assert (E1 : m (src + i) = m0 (src + i)).
    { rewrite Hm. destruct (Z.leb_spec dest (src + i)), (Z.ltb_spec (src + i) (dest + i)); cbn; auto.
      subst n. exfalso. lia. }
    assert (E2 : m (dest + i) = m0 (dest + i)).
    { rewrite Hm. replace (dest + i <? dest + i) with false by (symmetry; apply Z.ltb_ge; lia).
      rewrite andb_false_r. reflexivity. }
    rewrite E1, E2. pose proof (Hs i ltac:(subst n; lia)) as Hsi. pose proof (Hd i ltac:(subst n; lia)) as Hdi.
    destruct (m0 (src + i)) as [v|] eqn:Ev; [|congruence].
    destruct (m0 (dest + i)) as [u|] eqn:Eu; [|congruence].
    destruct (IH (i + 1) (wr m (dest + i) v) m0 dest src) as (m' & E & H).
    + lia.
    + replace (i + 1 + Z.of_nat k) with n by (subst n; lia). exact Hd.
    + replace (i + 1 + Z.of_nat k) with n by (subst n; lia). exact Hs.
    + replace (i + 1 + Z.of_nat k) with n by (subst n; lia). exact Ho.
    + intros x. unfold wr. destruct (Z.eqb_spec x (dest + i)).
      * subst x. replace (dest <=? dest + i) with true by (symmetry; apply Z.leb_le; lia).
        replace (dest + i <? dest + (i + 1)) with true by (symmetry; apply Z.ltb_lt; lia).
        cbn. rewrite <- Ev. f_equal. lia.
      * rewrite Hm. destruct (Z.leb_spec dest x); cbn; auto.
        destruct (Z.ltb_spec x (dest + i)), (Z.ltb_spec x (dest + (i + 1))); auto; lia.
    + exists m'. split; [exact E|]. replace (i + 1 + Z.of_nat k) with n in H by (subst n; lia). exact H.
Qed.

Lemma memcpy_ok m dest src num : 0 <= num -> accessible m dest num -> accessible m src num ->
  (dest <= src \/ src + num <= dest) ->
  exists m', memcpy m dest src num = Ok (m', dest) /\
    (forall i, 0 <= i < num -> m' (dest + i) = m (src + i)) /\
    (forall x, ~ (dest <= x < dest + num) -> m' x = m x).
Proof.
  intros Hn Hd Hs Ho.
  destruct (memcpy_loop_ok (Z.to_nat num) 0 m m dest src) as (m' & E & H);
    rewrite ?Z.add_0_l, ?Z2Nat.id by lia; auto; try lia.
  - intros x. destruct (Z.leb_spec dest x), (Z.ltb_spec x (dest + 0)); cbn; auto; lia.
  - exists m'. unfold memcpy. rewrite E. cbn [bind]. split; [reflexivity|].
    rewrite Z.add_0_l, Z2Nat.id in H by lia. split.
    + intros i Hi. rewrite H.
      replace (dest <=? dest + i) with true by (symmetry; apply Z.leb_le; lia).
      replace (dest + i <? dest + num) with true by (symmetry; apply Z.ltb_lt; lia). cbn. f_equal. lia.
    + intros x Hx. rewrite H.
      destruct (Z.leb_spec dest x), (Z.ltb_spec x (dest + num)); cbn; auto; lia.
Qed.

(** overlap with src < dest < src + num: the first dest - src bytes repeat *)
Lemma memcpy_loop_overlap k : forall i m m0 dest src,
  0 <= i -> let n := i + Z.of_nat k in
  accessible m0 dest n -> accessible m0 src n -> src < dest ->
  (forall x, m x = if (dest <=? x) && (x <? dest + i) then m0 (src + (x - dest) mod (dest - src)) else m0 x) ->
  exists m', memcpy_loop k i m dest src = Ok m' /\
    (forall x, m' x = if (dest <=? x) && (x <? dest + n) then m0 (src + (x - dest) mod (dest - src)) else m0 x).
Proof.
  induction k as [|k IH]; intros i m m0 dest src Hi n Hd Hs Ho Hm; cbn [memcpy_loop].
  - exists m. split; [reflexivity|]. subst n. rewrite Z.add_0_r. exact Hm.
  - assert (E1 : m (src + i) = m0 (src + i mod (dest - src))).
    { rewrite Hm. destruct (Z.leb_spec dest (src + i)).
      - replace (src + i <? dest + i) with true by (symmetry; apply Z.ltb_lt; lia). cbn.
        f_equal. f_equal. replace (src + i - dest) with (i + (-1) * (dest - src)) by lia.
        apply Z.mod_add. lia.
      - cbn. rewrite Z.mod_small by lia. reflexivity. }
    assert (E2 : m (dest + i) = m0 (dest + i)).
    { rewrite Hm. replace (dest + i <? dest + i) with false by (symmetry; apply Z.ltb_ge; lia).
      rewrite andb_false_r. reflexivity. }
    rewrite E1, E2.
    pose proof (Z.mod_pos_bound i (dest - src) ltac:(lia)).
    pose proof (Z.mod_le i (dest - src) ltac:(lia) ltac:(lia)).
    pose proof (Hs (i mod (dest - src)) ltac:(subst n; lia)) as Hsi.
    pose proof (Hd i ltac:(subst n; lia)) as Hdi.
    destruct (m0 (src + i mod (dest - src))) as [v|] eqn:Ev; [|congruence].
    destruct (m0 (dest + i)) as [u|] eqn:Eu; [|congruence].
    destruct (IH (i + 1) (wr m (dest + i) v) m0 dest src) as (m' & E & H').
    + lia.
    + replace (i + 1 + Z.of_nat k) with n by (subst n; lia). exact Hd.
    + replace (i + 1 + Z.of_nat k) with n by (subst n; lia). exact Hs.
    + exact Ho.
    + intros x. unfold wr. destruct (Z.eqb_spec x (dest + i)).
      * subst x. replace (dest <=? dest + i) with true by (symmetry; apply Z.leb_le; lia).
        replace (dest + i <? dest + (i + 1)) with true by (symmetry; apply Z.ltb_lt; lia).
        cbn. rewrite <- Ev. f_equal. f_equal. f_equal. lia.
      * rewrite Hm. destruct (Z.leb_spec dest x); cbn; auto.
        destruct (Z.ltb_spec x (dest + i)), (Z.ltb_spec x (dest + (i + 1))); auto; lia.
    + exists m'. split; [exact E|]. replace (i + 1 + Z.of_nat k) with n in H' by (subst n; lia). exact H'.
Qed.

Lemma memcpy_overlap m dest src num : 0 <= num -> accessible m dest num -> accessible m src num ->
  src < dest ->
  exists m', memcpy m dest src num = Ok (m', dest) /\
    (forall i, 0 <= i < num -> m' (dest + i) = m (src + i mod (dest - src))) /\
    (forall x, ~ (dest <= x < dest + num) -> m' x = m x).
Proof.
  intros Hn Hd Hs Ho.
  destruct (memcpy_loop_overlap (Z.to_nat num) 0 m m dest src) as (m' & E & H);
    rewrite ?Z.add_0_l, ?Z2Nat.id by lia; auto; try lia.
  - intros x. destruct (Z.leb_spec dest x), (Z.ltb_spec x (dest + 0)); cbn; auto; lia.
  - exists m'. unfold memcpy. rewrite E. cbn [bind]. split; [reflexivity|].
    rewrite Z.add_0_l, Z2Nat.id in H by lia. split.
    + intros i Hi. rewrite H.
      replace (dest <=? dest + i) with true by (symmetry; apply Z.leb_le; lia).
      replace (dest + i <? dest + num) with true by (symmetry; apply Z.ltb_lt; lia). cbn.
      f_equal. f_equal. f_equal. lia.
    + intros x Hx. rewrite H.
      destruct (Z.leb_spec dest x), (Z.ltb_spec x (dest + num)); cbn; auto; lia.
Qed.

(** ** ratio *)
Lemma nanogcd_ok : forall fuel a b, 0 <= a -> 0 <= b < 2 ^ (Z.of_nat fuel / 2) ->
  (b <= a -> True) ->
  nanogcd fuel a b = Some (if (a =? 0) && (b =? 0) then 1 else Z.gcd a b) \/ (fuel < 2)%nat.
Proof.
  (* two steps at least halve b *)
  fix IH 1. intros fuel a b Ha Hb _.
  destruct fuel as [|[|fuel]]; [right; lia|right; lia|].
  left. cbn [nanogcd]. destruct (Z.eqb_spec b 0) as [->|Hb0].
  { destruct (Z.eqb_spec a 0); cbn; [reflexivity|]. rewrite Z.gcd_0_r, Z.abs_eq by lia. reflexivity. }
  rewrite andb_false_r.
  assert (R : Z.rem a b = a mod b) by (apply Z.rem_mod_nonneg; lia). rewrite R.
  pose proof (Z.mod_pos_bound a b ltac:(lia)) as B.
  destruct (Z.eqb_spec (a mod b) 0) as [E|E].
  { destruct (Z.eqb_spec b 0); [contradiction|]. f_equal.
    rewrite (Z.gcd_comm a b), <- (Z.gcd_mod a b) by lia. rewrite E. rewrite Z.gcd_0_l, Z.abs_eq by lia. reflexivity. }
  rewrite Z.rem_mod_nonneg by lia. set (r := a mod b) in *.
  pose proof (Z.mod_pos_bound b r ltac:(lia)) as B2.
  assert (EF : Z.of_nat (S (S fuel)) / 2 = Z.of_nat fuel / 2 + 1).
  { replace (Z.of_nat (S (S fuel))) with (Z.of_nat fuel + 1 * 2) by lia. apply Z.div_add. lia. }
  rewrite EF, Z.pow_add_r in Hb by (try lia; apply Z.div_pos; lia). change (2 ^ 1) with 2 in Hb.
  assert (B3 : 2 * (b mod r) < b).
  { pose proof (Z.div_mod b r ltac:(lia)). assert (1 <= b / r) by (apply Z.div_le_lower_bound; lia). nia. }
  destruct (IH fuel r (b mod r) ltac:(lia) ltac:(lia) (fun _ => I)) as [H|H].
  - rewrite H. f_equal. destruct (Z.eqb_spec r 0); [contradiction|]. cbn [andb].
    rewrite (Z.gcd_comm r (b mod r)), Z.gcd_mod by lia. subst r.
    rewrite (Z.gcd_mod a b) by lia. apply Z.gcd_comm.
  - assert (fuel = 0 \/ fuel = 1)%nat as [-> | ->] by lia; cbn in Hb; [lia|].
    cbn [nanogcd]. assert (b = 1) by lia. subst b. subst r. rewrite Z.mod_1_r in E. lia.
Qed.

Lemma nanogcd_val a b : 0 <= a -> 0 <= b < 2 ^ 64 ->
  nanogcd gcd_depth a b = Some (if (a =? 0) && (b =? 0) then 1 else Z.gcd a b).
Proof.
  intros Ha Hb. destruct (nanogcd_ok gcd_depth a b Ha) as [H|H]; auto.
  - split; [lia|]. apply Z.lt_le_trans with (2 ^ 64); [lia|]. apply Z.pow_le_mono_r; [lia|].
    vm_compute. discriminate.
  - unfold gcd_depth in H. lia.
Qed.

Lemma fits_ok z : - 2 ^ 63 <= z < 2 ^ 63 -> fits z = Some z.
Proof.
  intros H. unfold fits. replace ((- 2 ^ 63 <=? z) && (z <? 2 ^ 63)) with true; [reflexivity|].
  symmetry. apply andb_true_iff. rewrite Z.leb_le, Z.ltb_lt. lia.
Qed.

Lemma ratio_ok n d : - 2 ^ 63 < n < 2 ^ 63 -> - 2 ^ 63 < d < 2 ^ 63 -> d <> 0 ->
  exists num den, ratio n d = Some (num, den) /\ 0 < den /\ Z.gcd num den = 1 /\ num * d = n * den /\
    den <= Z.abs d /\ Z.abs num <= Z.abs n.
Proof.
  intros Hn Hd Hd0. unfold ratio. destruct (Z.eqb_spec d 0); [contradiction|].
  assert (NA : forall v, - 2 ^ 63 < v < 2 ^ 63 -> nanoabs v = Some (Z.abs v)).
  { intros v Hv. unfold nanoabs. destruct (Z.ltb_spec v 0).
    - rewrite fits_ok by lia. f_equal. lia.
    - f_equal. lia. }
  rewrite (NA n Hn). cbn [obind]. rewrite (NA d Hd). cbn [obind].
  rewrite nanogcd_val by lia. cbn [obind].
  replace (Z.abs d =? 0) with false by (symmetry; apply Z.eqb_neq; lia). rewrite andb_false_r.
  assert (SS : nanosign n * nanosign d * Z.abs n = Z.sgn d * n).
  { unfold nanosign. destruct (Z.eqb_spec n 0), (Z.ltb_spec n 0), (Z.eqb_spec d 0), (Z.ltb_spec d 0);
      try lia; rewrite ?Z.abs_eq, ?Z.abs_neq by lia;
      destruct d; try lia; cbn [Z.sgn]; lia. }
  rewrite SS, fits_ok by (destruct d; cbn [Z.sgn]; lia). cbn [obind].
  rewrite Z.gcd_abs_l, Z.gcd_abs_r.
  set (g := Z.gcd n d). assert (G : 0 < g).
  { pose proof (Z.gcd_nonneg n d). assert (g <> 0); [|unfold g in *; lia].
    unfold g. intros E. apply Z.gcd_eq_0_r in E. contradiction. }
  destruct (Z.gcd_divide_l n d) as [a Ea]. destruct (Z.gcd_divide_r n d) as [b Eb]. fold g in Ea, Eb.
  assert (E1 : Z.quot (Z.sgn d * n) g = Z.sgn d * a).
  { rewrite Ea at 1. rewrite Z.mul_assoc. apply Z.quot_mul. lia. }
  assert (E2 : Z.quot (Z.abs d) g = Z.abs b).
  { rewrite Eb at 1. rewrite Z.abs_mul, (Z.abs_eq g) by lia. apply Z.quot_mul. lia. }
  rewrite E1, E2. exists (Z.sgn d * a), (Z.abs b).
  assert (Hb : b <> 0) by (intros ->; lia).
  assert (AB : Z.gcd a b = 1).
  { pose proof (Z.gcd_mul_mono_r_nonneg a b g ltac:(lia)) as M. rewrite <- Ea, <- Eb in M. fold g in M. nia. }
  assert (SG : Z.sgn d = 1 \/ Z.sgn d = -1) by (destruct d; cbn; lia).
  split; [reflexivity|]. split; [lia|]. split; [|split; [|split]].
  - rewrite Z.gcd_abs_r. destruct SG as [-> | ->]; [rewrite Z.mul_1_l; exact AB|].
    replace (-1 * a) with (- a) by lia. rewrite Z.gcd_opp_l. exact AB.
  - assert (Z.sgn d * d = Z.abs d) by (destruct d; cbn; lia).
    replace (Z.sgn d * a * d) with (a * (Z.sgn d * d)) by lia. rewrite H.
    rewrite Ea at 1. rewrite Eb. rewrite Z.abs_mul, (Z.abs_eq g) by lia. lia.
  - rewrite Eb. rewrite Z.abs_mul. nia.
  - rewrite Ea at 1. rewrite Z.abs_mul. destruct SG as [-> | ->]; rewrite Z.abs_mul; change (Z.abs 1) with 1;
      change (Z.abs (-1)) with 1; nia.
Qed.

Lemma nanolcm_ok a b : 0 < a < 2 ^ 63 -> 0 < b < 2 ^ 63 -> Z.lcm a b < 2 ^ 63 ->
  nanolcm a b = Some (Z.lcm a b).
Proof.
  intros Ha Hb HL. unfold nanolcm. rewrite nanogcd_val by lia. cbn [obind].
  replace (a =? 0) with false by (symmetry; apply Z.eqb_neq; lia). cbn [andb].
  assert (G : 0 < Z.gcd a b).
  { pose proof (Z.gcd_nonneg a b). assert (Z.gcd a b <> 0); [|lia]. intros E. apply Z.gcd_eq_0_l in E. lia. }
  destruct (Z.gcd_divide_l a b) as [x Ex].
  assert (Eq : Z.quot a (Z.gcd a b) = x) by (rewrite Ex at 1; apply Z.quot_mul; lia).
  rewrite Eq. assert (Hx : 0 < x <= a) by nia.
  rewrite fits_ok by lia. cbn [obind].
  assert (EL : Z.lcm a b = x * b).
  { destruct (Z.gcd_divide_r a b) as [y Ey]. unfold Z.lcm.
    assert (0 < y) by nia.
    assert (b / Z.gcd a b = y) as ->.
    { symmetry. apply Z.div_unique_exact; [lia|]. rewrite Z.mul_comm. exact Ey. }
    rewrite Z.abs_eq by nia.
    assert (a * y = x * Z.gcd a b * y) by (f_equal; exact Ex).
    assert (x * b = x * (y * Z.gcd a b)) by (f_equal; exact Ey). lia. }
  rewrite <- EL. apply fits_ok. pose proof (Z.lcm_nonneg a b). lia.
Qed.

(** ** pair *)
Record strict_total {V} (eqb ltb : V -> V -> bool) : Prop := {
  st_eq : forall a b, eqb a b = true <-> a = b;
  st_irrefl : forall a, ltb a a = false;
  st_trans : forall a b c, ltb a b = true -> ltb b c = true -> ltb a c = true;
  st_total : forall a b, ltb a b = true \/ a = b \/ ltb b a = true }.

Section Pair.
  Context {A B : Type}.
  Variables (aeq alt : A -> A -> bool) (beq blt : B -> B -> bool).
  Hypotheses (TA : strict_total aeq alt) (TB : strict_total beq blt).

  Lemma st_asym {V} (eqb ltb : V -> V -> bool) : strict_total eqb ltb ->
    forall a b, ltb a b = true -> ltb b a = false.
  Proof.
    intros T a b H. destruct (ltb b a) eqn:E; [|reflexivity].
    pose proof (st_trans _ _ T _ _ _ H E). rewrite (st_irrefl _ _ T) in H0. discriminate.
  Qed.

  Lemma pair_lt_lex x y : pair_lt alt blt x y = true <->
    alt (fst x) (fst y) = true \/ (fst x = fst y /\ blt (snd x) (snd y) = true).
  Proof.
    unfold pair_lt. destruct x as [a b], y as [c d]. cbn. rewrite orb_true_iff, andb_true_iff, negb_true_iff.
    split.
    - intros [H|[H1 H2]]; [auto|]. destruct (st_total _ _ TA a c) as [?|[?|?]]; auto. congruence.
    - intros [H|[-> H2]]; [auto|]. right. split; [apply (st_irrefl _ _ TA)|exact H2].
  Qed.

  Lemma pair_total : strict_total (pair_eq aeq beq) (pair_lt alt blt).
  Proof.
    constructor.
    - intros [a b] [c d]. unfold pair_eq. cbn. rewrite andb_true_iff, (st_eq _ _ TA), (st_eq _ _ TB).
      split; [intros [-> ->]; reflexivity|intros H; inversion H; auto].
    - intros x. destruct (pair_lt alt blt x x) eqn:E; [|reflexivity]. apply pair_lt_lex in E.
      rewrite (st_irrefl _ _ TA), (st_irrefl _ _ TB) in E. destruct E as [?|[_ ?]]; discriminate.
    - intros x y z. rewrite !pair_lt_lex. intros [H|[H1 H2]] [G|[G1 G2]].
      + left. eapply (st_trans _ _ TA); eauto.
      + left. rewrite <- G1. exact H.
      + left. rewrite H1. exact G.
      + right. split; [congruence|]. eapply (st_trans _ _ TB); eauto.
    - intros [a b] [c d]. rewrite !pair_lt_lex. cbn.
      destruct (st_total _ _ TA a c) as [?|[->|?]]; auto.
      destruct (st_total _ _ TB b d) as [?|[->|?]]; auto.
  Qed.
End Pair.
