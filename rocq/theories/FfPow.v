(** The table of powers of five (fast_table.h) and the product approximation of
    decimal_to_binary.h. *)
From Coq Require Import ZArith List Bool Lia Reals Lra Znumtheory.
From Flocq Require Import Core.
From Verif Require Import Mem FpModel FpProofs LitModel LitProofs LimProps RyuRound RyuArith FfTable FfModel FfWord.
Import ListNotations.
Open Scope Z_scope.

(** ** The table *)
Definition t0 (q : Z) : Z := nth (Z.to_nat (2 * (q + 342))) power_of_five_128 0.
Definition t1 (q : Z) : Z := nth (Z.to_nat (2 * (q + 342) + 1)) power_of_five_128 0.
Definition T (q : Z) : Z := t0 q * 2 ^ 64 + t1 q.
(** exponent of the last bit of the 128-bit significand of 5^q *)
Definition e5 (q : Z) : Z := 217706 * q / 65536 - q - 127.

(** inverse of an odd number modulo D = 2^n, n <= 128 *)
Definition inverse (D o : Z) : Z :=
  Nat.iter 7 (fun x => (x * (2 - o * x)) mod D) o.
Lemma inverse_range D o : 0 < D -> 0 <= inverse D o < D.
Proof. intro H. unfold inverse. change 7%nat with (S 6). rewrite Nat_iter_S || cbn [Nat.iter nat_rect]. apply Z.mod_pos_bound. exact H. Qed.
(** w * t0 cannot be 0 or 1 modulo 2^(64+d), for a 64-bit w *)
Definition no_fake_tie (d t : Z) : bool :=
  if Z.odd t then (2 ^ 64 <=? inverse (2 ^ (64 + d)) t) && ((inverse (2 ^ (64 + d)) t * t) mod 2 ^ (64 + d) =? 1)
  else (0 <? t) && negb (t mod 2 ^ (d + 1) =? 0).

Definition entry_ok (q : Z) : bool :=
  (2 ^ 63 <=? t0 q) && (t0 q <? 2 ^ 64) && (0 <=? t1 q) && (t1 q <? 2 ^ 64) &&
  (if 0 <=? q then
     (if 0 <=? e5 q then (T q * 2 ^ e5 q <=? 5 ^ q) && (5 ^ q <? (T q + 1) * 2 ^ e5 q) else T q =? 5 ^ q * 2 ^ (- e5 q))
     && ((55 <? q) || (T q * 2 ^ (e5 q + 127) =? 5 ^ q * 2 ^ 127)) && ((27 <? q) || (t1 q =? 0) && Z.even (t0 q))
   else (128 <=? - e5 q) &&
     (if q <? -27 then (T q * 5 ^ (- q) <=? 2 ^ (- e5 q)) && (2 ^ (- e5 q) <? (T q + 1) * 5 ^ (- q))
      else ((T q - 1) * 5 ^ (- q) <? 2 ^ (- e5 q)) && (2 ^ (- e5 q) <? T q * 5 ^ (- q)) && (1 <=? t1 q)))
  && (if (q <? -4) || (0 <=? q) then true else no_fake_tie 9 (t0 q)) && (if (q <? -17) || (0 <=? q) then true else no_fake_tie 38 (t0 q)).

(** The same with 5^|q| and the two words given, so that the check of the table runs along the powers *)
Definition row (q p h l : Z) : bool :=
  let t := h * 2 ^ 64 + l in
  (2 ^ 63 <=? h) && (h <? 2 ^ 64) && (0 <=? l) && (l <? 2 ^ 64) &&
  (if 0 <=? q then
     (if 0 <=? e5 q then let d := p - Z.shiftl t (e5 q) in (0 <=? d) && (d <? Z.shiftl 1 (e5 q)) else t =? Z.shiftl p (- e5 q))
     && ((55 <? q) || (Z.shiftl t (e5 q + 127) =? Z.shiftl p 127)) && ((27 <? q) || (l =? 0) && Z.even h)
   else (128 <=? - e5 q) &&
     (if q <? -27 then let d := Z.shiftl 1 (- e5 q) - t * p in (0 <=? d) && (d <? p)
      else let d := t * p - Z.shiftl 1 (- e5 q) in (0 <? d) && (d <? p) && (1 <=? l)))
  && (if (q <? -4) || (0 <=? q) then true else no_fake_tie 9 h) && (if (q <? -17) || (0 <=? q) then true else no_fake_tie 38 h).
Fixpoint rows_up (q p : Z) (tb : list Z) : bool :=
  match tb with h :: l :: r => if row q p h l then rows_up (q + 1) (5 * p) r else false | _ => true end.
Fixpoint rows_down (q p : Z) (tb : list Z) : bool :=
  match tb with l :: h :: r => if row q p h l then rows_down (q - 1) (5 * p) r else false | _ => true end.
Lemma rows_up_ok : forall n tb q p, (length tb <= n)%nat -> rows_up q p tb = true -> forall k, (2 * k + 1 < length tb)%nat ->
  row (q + Z.of_nat k) (5 ^ Z.of_nat k * p) (nth (2 * k) tb 0) (nth (2 * k + 1) tb 0) = true.
Proof.
  induction n; intros [|h [|l r]] q p L H k K; cbn [length] in L, K; try lia.
  cbn [rows_up] in H. destruct (row q p h l) eqn:R; [|discriminate H]. destruct k as [|k].
  - replace (q + Z.of_nat 0) with q by lia. replace (5 ^ Z.of_nat 0 * p) with p by (change (5 ^ Z.of_nat 0) with 1; lia). exact R.
  - specialize (IHn r (q + 1) (5 * p) ltac:(lia) H k ltac:(lia)).
    replace (q + Z.of_nat (S k)) with (q + 1 + Z.of_nat k) by lia.
    replace (5 ^ Z.of_nat (S k) * p) with (5 ^ Z.of_nat k * (5 * p)) by (rewrite Nat2Z.inj_succ, Z.pow_succ_r by lia; ring).
    replace (2 * S k)%nat with (S (S (2 * k))) by lia. replace (S (S (2 * k)) + 1)%nat with (S (S (2 * k + 1))) by lia. exact IHn.
Qed.
Lemma rows_down_ok : forall n tb q p, (length tb <= n)%nat -> rows_down q p tb = true -> forall k, (2 * k + 1 < length tb)%nat ->
  row (q - Z.of_nat k) (5 ^ Z.of_nat k * p) (nth (2 * k + 1) tb 0) (nth (2 * k) tb 0) = true.
Proof.
  induction n; intros [|h [|l r]] q p L H k K; cbn [length] in L, K; try lia.
  cbn [rows_down] in H. destruct (row q p l h) eqn:R; [|discriminate H]. destruct k as [|k].
  - replace (q - Z.of_nat 0) with q by lia. replace (5 ^ Z.of_nat 0 * p) with p by (change (5 ^ Z.of_nat 0) with 1; lia). exact R.
  - specialize (IHn r (q - 1) (5 * p) ltac:(lia) H k ltac:(lia)).
    replace (q - Z.of_nat (S k)) with (q - 1 - Z.of_nat k) by lia.
    replace (5 ^ Z.of_nat (S k) * p) with (5 ^ Z.of_nat k * (5 * p)) by (rewrite Nat2Z.inj_succ, Z.pow_succ_r by lia; ring).
    replace (2 * S k)%nat with (S (S (2 * k))) by lia. replace (S (S (2 * k)) + 1)%nat with (S (S (2 * k + 1))) by lia. exact IHn.
Qed.
Lemma row_entry q : row q (5 ^ Z.abs q) (t0 q) (t1 q) = true -> entry_ok q = true.
Proof.
  unfold row, entry_ok. fold (T q). cbv zeta. rewrite !andb_true_iff. intros ((((((A1 & A2) & A3) & A4) & A5) & A6) & A7).
  repeat (split; [|assumption]). split; [now repeat split|]. clear A1 A2 A3 A4 A6 A7.
  destruct (Z.leb_spec 0 q) as [Q|Q].
  - rewrite Z.abs_eq in A5 by exact Q. assert (E0 : 0 <= e5 q + 127) by (unfold e5; pose proof (Z.div_mod (217706 * q) 65536 ltac:(lia)); pose proof (Z.mod_pos_bound (217706 * q) 65536 ltac:(lia)); lia).
    rewrite !andb_true_iff in *. destruct A5 as ((B1 & B2) & B3). split; [|exact B3]. split.
    + destruct (Z.leb_spec 0 (e5 q)) as [E|E].
      * rewrite !Z.shiftl_mul_pow2 in B1 by exact E. apply andb_true_iff in B1. rewrite Z.leb_le, Z.ltb_lt in B1. apply andb_true_iff. rewrite Z.leb_le, Z.ltb_lt. lia.
      * rewrite Z.shiftl_mul_pow2 in B1 by lia. exact B1.
    + rewrite !Z.shiftl_mul_pow2 in B2 by lia. exact B2.
  - rewrite Z.abs_neq in A5 by lia. rewrite !andb_true_iff in *. destruct A5 as (B1 & B2). split; [exact B1|]. apply Z.leb_le in B1.
    rewrite Z.shiftl_mul_pow2, Z.mul_1_l in B2 by lia.
    destruct (q <? -27); rewrite !andb_true_iff in *; rewrite ?Z.leb_le, ?Z.ltb_lt in *; lia.
Qed.
Lemma table_length : length power_of_five_128 = 1302%nat. Proof. vm_compute. reflexivity. Qed.
Lemma rows_pos : rows_up 0 1 (skipn 684 power_of_five_128) = true. Proof. vm_cast_no_check (eq_refl true). Qed.
Lemma rows_neg : rows_down (-1) 5 (rev (firstn 684 power_of_five_128)) = true. Proof. vm_cast_no_check (eq_refl true). Qed.
Lemma nth_skipn_Z (l : list Z) n k : nth k (skipn n l) 0 = nth (n + k) l 0.
Proof. revert l. induction n; intro l; [reflexivity|]. destruct l; [now destruct k|]. cbn [skipn Nat.add nth]. apply IHn. Qed.
Lemma nth_firstn_Z (l : list Z) n k : (k < n)%nat -> nth k (firstn n l) 0 = nth k l 0.
Proof. revert l k. induction n; intros [|x l] k H; try lia; [reflexivity|]. destruct k; [reflexivity|]. cbn [firstn nth]. apply IHn. lia. Qed.
Lemma entries_ok q : -342 <= q <= 308 -> entry_ok q = true.
Proof.
  intro H. apply row_entry. pose proof table_length as L. destruct (Z.le_gt_cases 0 q) as [Q|Q].
  - pose proof (rows_up_ok _ _ _ _ (Nat.le_refl _) rows_pos (Z.to_nat q)) as R. rewrite skipn_length, L in R. specialize (R ltac:(lia)).
    rewrite !nth_skipn_Z, Z2Nat.id, Z.add_0_l, Z.mul_1_r in R by lia. rewrite Z.abs_eq by lia. unfold t0, t1.
    replace (Z.to_nat (2 * (q + 342))) with (684 + 2 * Z.to_nat q)%nat by lia.
    replace (Z.to_nat (2 * (q + 342) + 1)) with (684 + (2 * Z.to_nat q + 1))%nat by lia. exact R.
  - assert (LF : length (firstn 684 power_of_five_128) = 684%nat) by (apply firstn_length_le; rewrite L; lia).
    pose proof (rows_down_ok _ _ _ _ (Nat.le_refl _) rows_neg (Z.to_nat (-1 - q))) as R. rewrite rev_length, LF in R. specialize (R ltac:(lia)).
    rewrite !rev_nth, LF in R by (rewrite LF; lia). rewrite !nth_firstn_Z, Z2Nat.id in R by lia. rewrite Z.abs_neq by lia.
    replace (5 ^ (-1 - q) * 5) with (5 ^ (- q)) in R by (rewrite <- (Z.pow_1_r 5) at 3; rewrite <- Z.pow_add_r by lia; f_equal; lia).
    replace (-1 - (-1 - q)) with q in R by lia. unfold t0, t1.
    replace (684 - S (2 * Z.to_nat (-1 - q) + 1))%nat with (Z.to_nat (2 * (q + 342))) in R by lia.
    replace (684 - S (2 * Z.to_nat (-1 - q)))%nat with (Z.to_nat (2 * (q + 342) + 1)) in R by lia. exact R.
Qed.
Lemma table_t0 q : -342 <= q <= 308 -> table (2 * (q - smallest_power_of_five)) = Ok (t0 q) /\ table (2 * (q - smallest_power_of_five) + 1) = Ok (t1 q).
Proof.
  intro H. unfold table, smallest_power_of_five. replace (q - -342) with (q + 342) by lia.
  replace (2 * (q + 342) <? 0) with false by lia. replace (2 * (q + 342) + 1 <? 0) with false by lia. pose proof table_length as L. unfold t0, t1. split.
  - rewrite (nth_error_nth' power_of_five_128 0); [reflexivity|]. rewrite L. lia.
  - rewrite (nth_error_nth' power_of_five_128 0); [reflexivity|]. rewrite L. lia.
Qed.

(** ** As reals *)
Definition F5 (q : Z) : R := (powerRZ 5 q * bpow radix2 (- e5 q))%R.
Lemma five_pow k : 0 <= k -> powerRZ 5 k = IZR (5 ^ k).
Proof. intro H. rewrite <- (Z2Nat.id k H) at 1. rewrite <- pow_powerRZ, pow_IZR, Z2Nat.id by exact H. reflexivity. Qed.
Lemma five_inv k : (powerRZ 5 k * powerRZ 5 (- k) = 1)%R.
Proof. rewrite <- powerRZ_add by lra. replace (k + - k) with 0 by lia. reflexivity. Qed.
Lemma two_inv k : (bpow radix2 k * bpow radix2 (- k) = 1)%R.
Proof. rewrite <- bpow_plus. replace (k + - k) with 0 by lia. reflexivity. Qed.

Record entry (q : Z) : Prop := {
  en_t0 : 2 ^ 63 <= t0 q < 2 ^ 64;
  en_t1 : 0 <= t1 q < 2 ^ 64;
  en_trunc : 0 <= q \/ q < -27 -> (IZR (T q) <= F5 q < IZR (T q) + 1)%R;
  en_up : -27 <= q < 0 -> (IZR (T q) - 1 < F5 q < IZR (T q))%R /\ 1 <= t1 q;
  en_exact : 0 <= q <= 55 -> F5 q = IZR (T q);
  en_small : 0 <= q <= 27 -> t1 q = 0 /\ Z.even (t0 q) = true;
  en_neg : q < 0 -> (F5 q * IZR (5 ^ (- q)) = IZR (2 ^ (- e5 q)))%R /\ 128 <= - e5 q;
  en_tie9 : -4 <= q < 0 -> no_fake_tie 9 (t0 q) = true;
  en_tie38 : -17 <= q < 0 -> no_fake_tie 38 (t0 q) = true }.

Lemma entry_facts q : -342 <= q <= 308 -> entry q.
Proof.
  intro H. pose proof (entries_ok q H) as E. unfold entry_ok in E. rewrite !andb_true_iff in E. destruct E as (((((( A1 & A2) & A3) & A4) & A5) & A6) & A7).
  rewrite Z.leb_le in A1, A3. rewrite Z.ltb_lt in A2, A4.
  assert (N : q < 0 -> (F5 q * IZR (5 ^ (- q)) = bpow radix2 (- e5 q))%R).
  { intro Q. unfold F5. rewrite <- five_pow by lia. replace (powerRZ 5 q * bpow radix2 (- e5 q) * powerRZ 5 (- q))%R with (powerRZ 5 q * powerRZ 5 (- q) * bpow radix2 (- e5 q))%R by ring. rewrite five_inv. ring. }
  assert (P5 : (0 < IZR (5 ^ (- q)))%R \/ 0 <= q). { destruct (Z.lt_ge_cases q 0); [left; apply IZR_lt; apply Z.pow_pos_nonneg; lia|right; lia]. }
  destruct (Z.leb_spec 0 q) as [Q|Q].
  - rewrite !andb_true_iff in A5. destruct A5 as ((B1 & B2) & B3).
    assert (EX : 0 <= q <= 55 -> F5 q = IZR (T q)).
    { intro K. rewrite orb_true_iff, Z.ltb_lt, Z.eqb_eq in B2. destruct B2 as [B2|B2]; [lia|]. unfold F5. rewrite five_pow by lia.
      assert (R : -127 <= e5 q) by (unfold e5; enough (0 <= 217706 * q / 65536 - q) by lia; assert (q <= 217706 * q / 65536) by (apply Z.div_le_lower_bound; lia); lia).
      apply (f_equal IZR) in B2. rewrite !mult_IZR, <- !bpow2 in B2 by lia. rewrite bpow_plus in B2. 
      pose proof (bpow_gt_0 radix2 127). assert (B : (IZR (T q) * bpow radix2 (e5 q) = IZR (5 ^ q))%R) by (apply (Rmult_eq_reg_r (bpow radix2 127)); lra).
      rewrite <- B, Rmult_assoc, two_inv. ring. }
    split; try lia; try exact EX.
    + intros _. destruct (Z.leb_spec 0 (e5 q)) as [K|K].
      * rewrite andb_true_iff, Z.leb_le, Z.ltb_lt in B1. destruct B1 as [C1 C2]. apply IZR_le in C1. apply IZR_lt in C2. rewrite mult_IZR, <- bpow2 in C1, C2 by lia. rewrite plus_IZR in C2.
        unfold F5. rewrite five_pow by lia. pose proof (bpow_gt_0 radix2 (e5 q)) as G. pose proof (two_inv (e5 q)) as I. split.
        -- apply (Rmult_le_reg_r (bpow radix2 (e5 q))); [exact G|]. replace (IZR (5 ^ q) * bpow radix2 (- e5 q) * bpow radix2 (e5 q))%R with (IZR (5 ^ q) * (bpow radix2 (e5 q) * bpow radix2 (- e5 q)))%R by ring. rewrite I. lra.
        -- apply (Rmult_lt_reg_r (bpow radix2 (e5 q))); [exact G|]. replace (IZR (5 ^ q) * bpow radix2 (- e5 q) * bpow radix2 (e5 q))%R with (IZR (5 ^ q) * (bpow radix2 (e5 q) * bpow radix2 (- e5 q)))%R by ring. rewrite I. lra.
      * rewrite Z.eqb_eq in B1. unfold F5. rewrite five_pow by lia. rewrite B1, mult_IZR, <- bpow2 by lia. lra.
    + intro K. rewrite orb_true_iff, andb_true_iff, Z.ltb_lt, Z.eqb_eq in B3. destruct B3 as [B3|B3]; [lia|exact B3].
  - rewrite andb_true_iff, Z.leb_le in A5. destruct A5 as (B1 & B2). specialize (N Q). destruct P5 as [P5|P5]; [|lia].
    assert (EN : (F5 q * IZR (5 ^ (- q)) = IZR (2 ^ (- e5 q)))%R) by (rewrite N, bpow2 by lia; reflexivity).
    split; try lia; try (intros _; split; assumption).
    + intros [K|K]; [lia|]. replace (q <? -27) with true in B2 by lia. rewrite andb_true_iff, Z.leb_le, Z.ltb_lt in B2. destruct B2 as [C1 C2].
      apply IZR_le in C1. apply IZR_lt in C2. rewrite mult_IZR in C1, C2. rewrite <- EN in C1, C2. rewrite plus_IZR in C2. split.
      * apply (Rmult_le_reg_r (IZR (5 ^ (- q)))); [exact P5|lra].
      * apply (Rmult_lt_reg_r (IZR (5 ^ (- q)))); [exact P5|lra].
    + intro K. replace (q <? -27) with false in B2 by lia. rewrite !andb_true_iff, Z.leb_le, !Z.ltb_lt in B2. destruct B2 as ((C1 & C2) & C3).
      apply IZR_lt in C1. apply IZR_lt in C2. rewrite mult_IZR in C1, C2. rewrite <- EN in C1, C2. rewrite minus_IZR in C1. split; [|exact C3]. split.
      * apply (Rmult_lt_reg_r (IZR (5 ^ (- q)))); [exact P5|lra].
      * apply (Rmult_lt_reg_r (IZR (5 ^ (- q)))); [exact P5|lra].
    + intro K. replace (q <? -4) with false in A6 by lia. exact A6.
    + intro K. replace (q <? -17) with false in A7 by lia. exact A7.
Qed.
