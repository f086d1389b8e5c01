(** Proofs about FpModel. *)
From Coq Require Import ZArith Bool Lia Reals Lra List.
From Flocq Require Import Core IEEE754.Binary IEEE754.Bits.
From Verif Require Import Mem AlgoModel FpModel.
Open Scope Z_scope.

Section F.
Variable f : fmt.
Notation prec := (mw f + 1).
Notation emax := (2 ^ (ew f - 1)).

Lemma mwp : 0 < 2 ^ mw f.
Proof. pose proof (mw_pos f). apply Z.pow_pos_nonneg; lia. Qed.
Lemma ewp : 2 <= 2 ^ ew f.
Proof. pose proof (ew_pos f). change 2 with (2 ^ 1) at 1. apply Z.pow_le_mono_r; lia. Qed.

Lemma val_FF x : B2FF _ _ (val f x) = binary_float_of_bits_aux (mw f) (ew f) x.
Proof. unfold val, binary_float_of_bits. apply B2FF_FF2B. Qed.

Lemma val_is_nan x : is_nan _ _ (val f x) = is_nan_FF (binary_float_of_bits_aux (mw f) (ew f) x).
Proof. unfold val, binary_float_of_bits. apply is_nan_FF2B. Qed.
Lemma val_is_finite x : is_finite _ _ (val f x) = is_finite_FF (binary_float_of_bits_aux (mw f) (ew f) x).
Proof. unfold val, binary_float_of_bits. apply is_finite_FF2B. Qed.
Lemma val_sign x : Bsign _ _ (val f x) = sign_FF (binary_float_of_bits_aux (mw f) (ew f) x).
Proof. unfold val, binary_float_of_bits. apply Bsign_FF2B. Qed.
Lemma val_R x : B2R _ _ (val f x) = FF2R radix2 (binary_float_of_bits_aux (mw f) (ew f) x).
Proof. unfold val, binary_float_of_bits. apply B2R_FF2B. Qed.

(** sign of a pattern as a boolean *)
Definition sgn (x : Z) : bool := 2 ^ mw f * 2 ^ ew f <=? x.

Lemma mant_range x : 0 <= mantissa f x < 2 ^ mw f.
Proof. apply Z.mod_pos_bound, mwp. Qed.
Lemma expo_range x : 0 <= exponent f x < 2 ^ ew f.
Proof. pose proof ewp. apply Z.mod_pos_bound. lia. Qed.

(** What a pattern denotes, by its fields. *)
Lemma aux_cases x :
  binary_float_of_bits_aux (mw f) (ew f) x =
  if exponent f x =? 0 then
    match mantissa f x with
    | Zpos p => F754_finite (sgn x) p (SpecFloat.emin prec emax)
    | _ => F754_zero (sgn x) end
  else if exponent f x =? 2 ^ ew f - 1 then
    match mantissa f x with
    | Zpos p => F754_nan (sgn x) p
    | _ => F754_infinity (sgn x) end
  else F754_finite (sgn x) (Z.to_pos (mantissa f x + 2 ^ mw f)) (exponent f x + SpecFloat.emin prec emax - 1).
Proof.
  unfold binary_float_of_bits_aux, split_bits. cbv zeta. fold (mantissa f x). fold (exponent f x). fold (sgn x).
  pose proof (mant_range x) as M. pose proof mwp as P.
  assert (Q : forall a b, Zeq_bool a b = (a =? b)).
  { intros a b. pose proof (Zeq_is_eq_bool a b) as [H1 H2].
    destruct (Z.eqb_spec a b) as [->|N]; [now apply H1|].
    destruct (Zeq_bool a b); [exfalso; auto|reflexivity]. }
  rewrite !Q. destruct (exponent f x =? 0).
  - destruct (mantissa f x); try reflexivity. lia.
  - destruct (exponent f x =? 2 ^ ew f - 1).
    + destruct (mantissa f x); try reflexivity. lia.
    + destruct (mantissa f x + 2 ^ mw f) eqn:E; try lia. reflexivity.
Qed.

Ltac fields x := rewrite ?val_is_nan, ?val_is_finite, ?val_sign, ?val_R, ?aux_cases;
  unfold is_zero_, is_subnormal_, isfinite, isinf, isnan, isnormal.

Lemma isnan_spec x : isnan f x = is_nan _ _ (val f x).
Proof.
  fields x. pose proof (mant_range x). pose proof ewp.
  destruct (Z.eqb_spec (exponent f x) 0), (Z.eqb_spec (exponent f x) (2 ^ ew f - 1)); try (exfalso; lia); cbn [andb].
  - destruct (mantissa f x); reflexivity.
  - destruct (mantissa f x) eqn:E; try reflexivity. lia.
  - reflexivity.
Qed.

Lemma isfinite_spec x : isfinite f x = is_finite _ _ (val f x).
Proof.
  fields x. pose proof (mant_range x). pose proof ewp.
  destruct (Z.eqb_spec (exponent f x) 0), (Z.eqb_spec (exponent f x) (2 ^ ew f - 1)); try (exfalso; lia); cbn [negb].
  - destruct (mantissa f x); reflexivity.
  - destruct (mantissa f x) eqn:E; reflexivity.
  - reflexivity.
Qed.

Definition is_inf_float (v : binary_float prec emax) : bool :=
  match v with B754_infinity _ _ _ => true | _ => false end.
Definition is_zero_float (v : binary_float prec emax) : bool :=
  match v with B754_zero _ _ _ => true | _ => false end.

Lemma is_inf_FF v : is_inf_float v = match B2FF _ _ v with F754_infinity _ => true | _ => false end.
Proof. destruct v; reflexivity. Qed.
Lemma is_zero_FF v : is_zero_float v = match B2FF _ _ v with F754_zero _ => true | _ => false end.
Proof. destruct v; reflexivity. Qed.

Lemma isinf_spec x : isinf f x = is_inf_float (val f x).
Proof.
  rewrite is_inf_FF, val_FF. fields x. pose proof (mant_range x). pose proof ewp.
  destruct (Z.eqb_spec (exponent f x) 0), (Z.eqb_spec (exponent f x) (2 ^ ew f - 1)); try (exfalso; lia); cbn [andb].
  - destruct (mantissa f x); reflexivity.
  - destruct (mantissa f x) eqn:E; try reflexivity. lia.
  - reflexivity.
Qed.

Lemma iszero_spec x : is_zero_ f x = is_zero_float (val f x).
Proof.
  rewrite is_zero_FF, val_FF. fields x. pose proof (mant_range x). pose proof ewp.
  destruct (Z.eqb_spec (exponent f x) 0), (Z.eqb_spec (exponent f x) (2 ^ ew f - 1)); try (exfalso; lia); rewrite ?andb_false_r, ?andb_true_r.
  - destruct (mantissa f x) eqn:E; try reflexivity. lia.
  - destruct (mantissa f x); reflexivity.
  - reflexivity.
Qed.

(** magnitude of finite patterns *)
Lemma abs_R_sub x : exponent f x = 0 ->
  Rabs (B2R _ _ (val f x)) = (IZR (mantissa f x) * bpow radix2 (SpecFloat.emin prec emax))%R.
Proof.
  intro E. rewrite val_R, aux_cases, E. cbn [Z.eqb].
  destruct (mantissa f x) eqn:M; cbn [FF2R].
  - rewrite Rabs_R0. ring.
  - rewrite <- F2R_Zabs, abs_cond_Zopp. reflexivity.
  - pose proof (mant_range x). lia.
Qed.

Lemma abs_R_norm x : exponent f x <> 0 -> exponent f x <> 2 ^ ew f - 1 ->
  Rabs (B2R _ _ (val f x)) =
  (IZR (mantissa f x + 2 ^ mw f) * bpow radix2 (exponent f x + SpecFloat.emin prec emax - 1))%R.
Proof.
  intros E1 E2. rewrite val_R, aux_cases.
  destruct (Z.eqb_spec (exponent f x) 0); [lia|]. destruct (Z.eqb_spec (exponent f x) (2 ^ ew f - 1)); [lia|].
  cbn [FF2R]. rewrite <- F2R_Zabs, abs_cond_Zopp. unfold F2R. cbn [Fnum Fexp]. do 2 f_equal.
  pose proof (mant_range x). pose proof mwp. rewrite Z2Pos.id; lia.
Qed.

Lemma bpow_min : bpow radix2 (2 - emax) = (IZR (2 ^ mw f) * bpow radix2 (SpecFloat.emin prec emax))%R.
Proof.
  pose proof (mw_pos f).
  change (IZR (2 ^ mw f)) with (IZR (radix_val radix2 ^ mw f)). rewrite IZR_Zpower by lia. rewrite <- bpow_plus.
  f_equal. unfold SpecFloat.emin. lia.
Qed.

Lemma subnormal_spec x : is_subnormal_ f x = true <->
  is_finite _ _ (val f x) = true /\ (0 < Rabs (B2R _ _ (val f x)) < bpow radix2 (2 - emax))%R.
Proof.
  rewrite <- isfinite_spec. unfold is_subnormal_, isfinite. pose proof (mant_range x) as M. pose proof ewp.
  pose proof (bpow_gt_0 radix2 (SpecFloat.emin prec emax)) as B.
  rewrite bpow_min.
  destruct (Z.eqb_spec (exponent f x) 0) as [E|E].
  - rewrite andb_true_r, abs_R_sub by exact E.
    destruct (Z.eqb_spec (exponent f x) (2 ^ ew f - 1)); [lia|]. cbn [negb].
    destruct (Z.eqb_spec (mantissa f x) 0) as [M0|M0]; cbn [negb].
    + split; [discriminate|]. intros [_ [H1 _]]. rewrite M0 in H1. lra.
    + split; [|auto]. intros _. split; [reflexivity|]. split.
      * apply Rmult_lt_0_compat; [apply IZR_lt; lia|exact B].
      * apply Rmult_lt_compat_r; [exact B|]. apply IZR_lt. lia.
  - rewrite andb_false_r. split; [discriminate|].
    destruct (Z.eqb_spec (exponent f x) (2 ^ ew f - 1)) as [E2|E2]; [intros [? _]; discriminate|].
    intros [_ [_ H1]]. exfalso. rewrite abs_R_norm in H1 by assumption.
    pose proof (expo_range x).
    assert ((IZR (2 ^ mw f) * bpow radix2 (SpecFloat.emin prec emax) <=
            IZR (mantissa f x + 2 ^ mw f) * bpow radix2 (exponent f x + SpecFloat.emin prec emax - 1))%R).
    { apply Rmult_le_compat; [apply IZR_le; pose proof mwp; lia|apply bpow_ge_0| apply IZR_le; lia|apply bpow_le; lia]. }
    lra.
Qed.

Lemma normal_spec x : isnormal f x = true <->
  is_finite _ _ (val f x) = true /\ (bpow radix2 (2 - emax) <= Rabs (B2R _ _ (val f x)))%R.
Proof.
  rewrite <- isfinite_spec. unfold isnormal, isfinite. pose proof (mant_range x) as M. pose proof ewp.
  pose proof (bpow_gt_0 radix2 (SpecFloat.emin prec emax)) as B.
  rewrite bpow_min.
  destruct (Z.eqb_spec (exponent f x) 0) as [E|E]; cbn [negb andb].
  - split; [discriminate|]. intros [_ H1]. rewrite abs_R_sub in H1 by exact E.
    assert (IZR (mantissa f x) * bpow radix2 (SpecFloat.emin prec emax) <
            IZR (2 ^ mw f) * bpow radix2 (SpecFloat.emin prec emax))%R
      by (apply Rmult_lt_compat_r; [exact B|apply IZR_lt; lia]). lra.
  - destruct (Z.eqb_spec (exponent f x) (2 ^ ew f - 1)) as [E2|E2]; cbn [negb].
    { split; [discriminate|]. intros [? _]; discriminate. }
    split; [|auto]. intros _. split; [reflexivity|]. rewrite abs_R_norm by assumption.
    pose proof (expo_range x).
    apply Rmult_le_compat; [apply IZR_le; pose proof mwp; lia|apply bpow_ge_0| apply IZR_le; lia|apply bpow_le; lia].
Qed.

Lemma partition x : exists! i : nat, (i < 5)%nat /\
  nth i (isnan f x :: isinf f x :: is_zero_ f x :: is_subnormal_ f x :: isnormal f x :: nil)%list false = true.
Proof.
  unfold is_zero_, is_subnormal_, isfinite, isinf, isnan, isnormal. pose proof ewp.
  destruct (Z.eqb_spec (exponent f x) 0), (Z.eqb_spec (exponent f x) (2 ^ ew f - 1)), (Z.eqb_spec (mantissa f x) 0);
    try (exfalso; lia); cbn [andb negb].
  1: exists 2%nat. 2: exists 3%nat. 3: exists 1%nat. 4: exists 0%nat. 5,6: exists 4%nat.
  all: (split; [split; [lia|reflexivity]|]);
    intros i [Hi Hn]; destruct i as [|[|[|[|[|i]]]]]; cbn in Hn; try discriminate; try lia.
Qed.

(** ** Order *)
Lemma lt_irrefl x : flt f x x = false.
Proof.
  unfold flt. pose proof (Bcompare_swap _ _ (val f x) (val f x)) as S.
  destruct (Bcompare _ _ (val f x) (val f x)) as [[]|]; try reflexivity; discriminate.
Qed.

Lemma gt_lt x y : fgt f x y = flt f y x.
Proof.
  unfold fgt, flt. rewrite (Bcompare_swap _ _ (val f x) (val f y)).
  destruct (Bcompare _ _ (val f x) (val f y)) as [[]|]; reflexivity.
Qed.

Lemma lt_asym x y : flt f x y = true -> flt f y x = false.
Proof.
  unfold flt. rewrite (Bcompare_swap _ _ (val f x) (val f y)).
  destruct (Bcompare _ _ (val f x) (val f y)) as [[]|]; cbn; congruence.
Qed.

(** x <= y: comparable and not greater. *)
Definition fle (x y : Z) : Prop :=
  match Bcompare _ _ (val f x) (val f y) with Some Lt | Some Eq => True | _ => False end.

Lemma lt_le x y : flt f x y = true -> fle x y.
Proof. unfold flt, fle. destruct (Bcompare _ _ (val f x) (val f y)) as [[]|]; try discriminate; auto. Qed.

Lemma compare_some x y : isnan f x = false -> isnan f y = false ->
  Bcompare _ _ (val f x) (val f y) <> None.
Proof.
  rewrite !isnan_spec. destruct (val f x) as [[]|[]|[] ? ?|[] ? ? ?], (val f y) as [[]|[]|[] ? ?|[] ? ? ?]; cbn; try discriminate;
    try (intros; congruence);
    intros; try (destruct (e ?= e1); [|discriminate..]); try discriminate.
Qed.

Lemma not_lt_le x y : isnan f x = false -> isnan f y = false -> flt f x y = false -> fle y x.
Proof.
  intros Hx Hy H. pose proof (compare_some x y Hx Hy) as C. unfold flt, fle in *.
  rewrite (Bcompare_swap _ _ (val f x) (val f y)).
  destruct (Bcompare _ _ (val f x) (val f y)) as [[]|]; cbn; try discriminate; auto.
Qed.

Lemma le_refl x : isnan f x = false -> fle x x.
Proof. intro H. apply not_lt_le; auto using lt_irrefl. Qed.

Lemma fmin_ok x y : isnan f x = false -> isnan f y = false ->
  (fmin f x y = x \/ fmin f x y = y) /\ fle (fmin f x y) x /\ fle (fmin f x y) y.
Proof.
  intros Hx Hy. unfold fmin. rewrite Hx, Hy. cbn [andb].
  destruct (flt f x y) eqn:E.
  - split; [auto|]. split; [now apply le_refl|now apply lt_le].
  - split; [auto|]. split; [now apply not_lt_le|now apply le_refl].
Qed.

Lemma fmax_ok x y : isnan f x = false -> isnan f y = false ->
  (fmax f x y = x \/ fmax f x y = y) /\ fle x (fmax f x y) /\ fle y (fmax f x y).
Proof.
  intros Hx Hy. unfold fmax. rewrite Hx, Hy, gt_lt. cbn [andb].
  destruct (flt f y x) eqn:E.
  - split; [auto|]. split; [now apply le_refl|now apply lt_le].
  - split; [auto|]. split; [now apply not_lt_le|now apply le_refl].
Qed.

Lemma fminmax_nan x y : isnan f x = true ->
  (isnan f y = false -> fmin f x y = y /\ fmin f y x = y /\ fmax f x y = y /\ fmax f y x = y) /\
  (isnan f y = true -> isnan f (fmin f x y) = true /\ isnan f (fmax f x y) = true).
Proof.
  intro Hx. unfold fmin, fmax. rewrite Hx. split; intro Hy; rewrite !Hy; cbn [andb]; auto.
Qed.

Lemma fle_R x y : is_finite _ _ (val f x) = true -> is_finite _ _ (val f y) = true ->
  (fle x y <-> (B2R _ _ (val f x) <= B2R _ _ (val f y))%R).
Proof.
  intros Hx Hy. unfold fle. rewrite Bcompare_correct by assumption.
  destruct (Rcompare_spec (B2R _ _ (val f x)) (B2R _ _ (val f y))); split; intro; try lra; try tauto.
Qed.

Lemma fin_nan x : isfinite f x = true -> isnan f x = false.
Proof. unfold isfinite, isnan. destruct (exponent f x =? 2 ^ ew f - 1); cbn; congruence. Qed.

Lemma fmin_R x y : isfinite f x = true -> isfinite f y = true ->
  B2R _ _ (val f (fmin f x y)) = Rmin (B2R _ _ (val f x)) (B2R _ _ (val f y)) /\
  B2R _ _ (val f (fmax f x y)) = Rmax (B2R _ _ (val f x)) (B2R _ _ (val f y)).
Proof.
  intros Hx Hy.
  destruct (fmin_ok x y (fin_nan x Hx) (fin_nan y Hy)) as ([E|E] & A & B);
  destruct (fmax_ok x y (fin_nan x Hx) (fin_nan y Hy)) as ([E'|E'] & A' & B'); rewrite E, E' in *;
  rewrite isfinite_spec in Hx, Hy; rewrite fle_R in A, B, A', B' by assumption;
  split; (rewrite ?Rmin_left, ?Rmax_left by assumption || idtac); 
  try (symmetry; (apply Rmin_left || apply Rmax_left); lra);
  try (symmetry; (apply Rmin_right || apply Rmax_right); lra); try lra.
Qed.

Lemma clamp_ok a lo hi : fle lo hi -> fle lo (clamp f a lo hi) /\ fle (clamp f a lo hi) hi /\
  (fle lo a -> fle a hi -> Bcompare _ _ (val f (clamp f a lo hi)) (val f a) = Some Eq).
Proof.
  intro L.
  assert (NN : isnan f lo = false /\ isnan f hi = false).
  { unfold fle in L. rewrite !isnan_spec.
    destruct (val f lo) as [[]|[]|[] ? ?|[] ? ? ?], (val f hi) as [[]|[]|[] ? ?|[] ? ? ?]; cbn in L; try tauto; split; reflexivity. }
  destruct NN as [Nl Nh].
  assert (EQ : forall x y, fle x y -> fle y x -> Bcompare _ _ (val f x) (val f y) = Some Eq).
  { intros x y. unfold fle. rewrite (Bcompare_swap _ _ (val f x) (val f y)).
    destruct (Bcompare _ _ (val f x) (val f y)) as [[]|]; cbn; tauto. }
  unfold clamp, max_, min_. destruct (flt f a hi) eqn:E1; cbn [negb]; rewrite gt_lt.
  - destruct (flt f lo a) eqn:E2; cbn [negb].
    + split; [now apply lt_le|]. split; [now apply lt_le|]. intros H1 H2.
      apply EQ; apply le_refl; unfold fle in H1; rewrite isnan_spec in *;
      destruct (val f a) as [[]|[]|[] ? ?|[] ? ? ?], (val f lo) as [[]|[]|[] ? ?|[] ? ? ?]; cbn in H1; try tauto; reflexivity.
    + split; [now apply le_refl|]. split; [exact L|]. intros H1 H2. apply EQ; [exact H1|].
      apply not_lt_le; try assumption. unfold fle in H1. rewrite isnan_spec in *.
      destruct (val f a) as [[]|[]|[] ? ?|[] ? ? ?], (val f lo) as [[]|[]|[] ? ?|[] ? ? ?]; cbn in H1; try tauto; reflexivity.
  - assert (Na : fle lo a -> isnan f a = false).
    { intro H1. unfold fle in H1. rewrite isnan_spec in *.
      destruct (val f a) as [[]|[]|[] ? ?|[] ? ? ?], (val f lo) as [[]|[]|[] ? ?|[] ? ? ?]; cbn in H1; try tauto; reflexivity. }
    destruct (flt f lo hi) eqn:E2; cbn [negb].
    + split; [exact L|]. split; [now apply le_refl|]. intros H1 H2. apply EQ; [|exact H2].
      apply not_lt_le; auto.
    + split; [now apply le_refl|]. split; [exact L|]. intros H1 H2.
      apply EQ; [exact H1|].
      (* lo and hi compare equal, a = hi *)
      assert (fle hi lo) by now apply not_lt_le.
      assert (X1 : Bcompare _ _ (val f a) (val f hi) = Some Eq).
      { apply EQ; [exact H2|]. apply not_lt_le; auto. }
      unfold fle. 
      assert (X2 : Bcompare _ _ (val f hi) (val f lo) = Some Eq) by now apply EQ.
      clear -X1 X2. revert X1 X2.
      destruct (is_finite _ _ (val f a)) eqn:Fa, (is_finite _ _ (val f hi)) eqn:Fh, (is_finite _ _ (val f lo)) eqn:Fl.
      { rewrite !Bcompare_correct by assumption. intros X1 X2.
        assert (Y1 : Rcompare (B2R _ _ (val f a)) (B2R _ _ (val f hi)) = Eq) by congruence.
        assert (Y2 : Rcompare (B2R _ _ (val f hi)) (B2R _ _ (val f lo)) = Eq) by congruence.
        apply Rcompare_Eq_inv in Y1. apply Rcompare_Eq_inv in Y2.
        rewrite Rcompare_Eq by congruence. auto. }
      all: destruct (val f a) as [[]|[]|[] ? ?|[] ? ? ?]; try discriminate;
        destruct (val f hi) as [[]|[]|[] ? ?|[] ? ? ?]; try discriminate;
        destruct (val f lo) as [[]|[]|[] ? ?|[] ? ? ?]; try discriminate; cbn; intros; try discriminate; auto.
Qed.

(** ** Sign bit *)
Lemma pat_pow : 2 ^ (mw f + ew f) = 2 ^ mw f * 2 ^ ew f.
Proof. pose proof (mw_pos f). pose proof (ew_pos f). apply Z.pow_add_r; lia. Qed.

Lemma fneg_arith x : pattern f x ->
  fneg f x = if sgn x then x - 2 ^ (mw f + ew f) else x + 2 ^ (mw f + ew f).
Proof.
  unfold pattern, fneg, sgn. intros Hx. rewrite <- pat_pow.
  pose proof (mw_pos f). pose proof (ew_pos f).
  set (k := mw f + ew f) in *. assert (0 < k) by lia.
  assert (P : 0 < 2 ^ k) by (apply Z.pow_pos_nonneg; lia).
  assert (E : 2 ^ (k + 1) = 2 * 2 ^ k) by (rewrite Z.pow_add_r by lia; lia).
  assert (T : forall n, 0 <= n -> Z.testbit x n = (if n =? k then 2 ^ k <=? x else Z.testbit (x mod 2 ^ k) n)).
  { intros n Hn. destruct (Z.eqb_spec n k) as [->|N].
    - rewrite Z.testbit_eqb by lia. destruct (Z.leb_spec (2 ^ k) x).
      + replace (x / 2 ^ k) with 1; [reflexivity|]. apply Z.div_unique with (x - 2 ^ k); lia.
      + rewrite Z.div_small by lia. reflexivity.
    - destruct (Z.ltb_spec n k).
      + now rewrite Z.mod_pow2_bits_low.
      + rewrite Z.mod_pow2_bits_high by lia.
        destruct (Z.eq_dec x 0) as [->|]; [apply Z.bits_0|].
        apply Z.bits_above_log2; [lia|]. assert (Z.log2 x < k + 1) by (apply Z.log2_lt_pow2; lia). lia. }
  destruct (Z.leb_spec (2 ^ k) x) as [L|L].
  - apply Z.bits_inj'. intros n Hn. rewrite Z.lxor_spec, Z.pow2_bits_eqb by lia.
    replace (x - 2 ^ k) with (x mod 2 ^ k) by (symmetry; apply Z.mod_unique with 1; lia).
    rewrite T by lia. destruct (Z.eqb_spec n k) as [->|N].
    + rewrite Z.eqb_refl. rewrite Z.mod_pow2_bits_high by lia. reflexivity.
    + destruct (Z.eqb_spec k n); [lia|]. apply xorb_false_r.
  - rewrite Z.add_nocarry_lxor; [reflexivity|].
    apply Z.bits_inj'. intros n Hn. rewrite Z.land_spec, Z.pow2_bits_eqb, Z.bits_0 by lia.
    destruct (Z.eqb_spec k n) as [<-|N]; [|apply andb_false_r].
    rewrite T by lia. rewrite Z.eqb_refl. reflexivity.
Qed.

Lemma fneg_fields x : pattern f x ->
  mantissa f (fneg f x) = mantissa f x /\ exponent f (fneg f x) = exponent f x /\ sgn (fneg f x) = negb (sgn x) /\ pattern f (fneg f x).
Proof.
  intro Hx. rewrite (fneg_arith x Hx). unfold pattern in *.
  assert (E1 : 2 ^ (mw f + ew f + 1) = 2 * 2 ^ (mw f + ew f)).
  { pose proof (mw_pos f). pose proof (ew_pos f). rewrite Z.pow_add_r by lia. lia. }
  rewrite E1 in *. clear E1.
  assert (S : forall k, mantissa f (x + k * 2 ^ (mw f + ew f)) = mantissa f x /\ exponent f (x + k * 2 ^ (mw f + ew f)) = exponent f x).
  { intro k. rewrite pat_pow. unfold mantissa, exponent. pose proof mwp. pose proof ewp.
    replace (k * (2 ^ mw f * 2 ^ ew f)) with ((k * 2 ^ ew f) * 2 ^ mw f) by ring.
    rewrite Z.mod_add, Z.div_add by lia. split; [reflexivity|]. now rewrite Z.mod_add by lia. }
  unfold sgn in *. rewrite <- pat_pow.
  destruct (Z.leb_spec (2 ^ (mw f + ew f)) x) as [L|L].
  - destruct (S (-1)) as [A B]. replace (x + -1 * 2 ^ (mw f + ew f)) with (x - 2 ^ (mw f + ew f)) in A, B by ring.
    repeat apply conj; try assumption; try lia.
  - destruct (S 1) as [A B]. rewrite Z.mul_1_l in A, B.
    repeat apply conj; try assumption; try lia.
Qed.

Lemma sgn_bit x : pattern f x -> signbit f x = if sgn x then 1 else 0.
Proof.
  unfold pattern, signbit, sgn. intro Hx. rewrite <- pat_pow.
  assert (E1 : 2 ^ (mw f + ew f + 1) = 2 * 2 ^ (mw f + ew f)).
  { pose proof (mw_pos f). pose proof (ew_pos f). rewrite Z.pow_add_r by lia. lia. }
  destruct (Z.leb_spec (2 ^ (mw f + ew f)) x).
  - symmetry. apply Z.div_unique with (x - 2 ^ (mw f + ew f)); lia.
  - apply Z.div_small. lia.
Qed.

Lemma val_zero : val f fzero = B754_zero _ _ false.
Proof.
  apply B2FF_inj. rewrite val_FF, aux_cases. unfold exponent, mantissa, fzero, sgn.
  pose proof mwp. pose proof ewp.
  rewrite Z.div_0_l by lia. rewrite !Z.mod_0_l by lia. cbn [Z.eqb].
  destruct (Z.leb_spec (2 ^ mw f * 2 ^ ew f) 0); [nia|reflexivity].
Qed.

(** Comparison with zero, by class and sign. *)
Lemma lt_zero x : pattern f x -> flt f x fzero = sgn x && negb (isnan f x) && negb (is_zero_ f x).
Proof.
  intro Hx. unfold flt. rewrite val_zero, isnan_spec, iszero_spec.
  assert (S : is_nan _ _ (val f x) = false -> Bsign _ _ (val f x) = sgn x).
  { intros N. rewrite val_sign. rewrite val_is_nan in N. rewrite aux_cases in *.
    destruct (exponent f x =? 0); [destruct (mantissa f x); reflexivity|].
    destruct (exponent f x =? 2 ^ ew f - 1); [destruct (mantissa f x); reflexivity|reflexivity]. }
  destruct (val f x) as [[]|[]|[] ? ?|[] ? ? ?]; cbn in *; rewrite <- ?S by reflexivity; try reflexivity;
    try (rewrite ?andb_false_r; reflexivity); now rewrite andb_false_r.
Qed.

Lemma fabs_ok x : pattern f x -> isnan f x = false ->
  pattern f (fabs f x) /\ mantissa f (fabs f x) = mantissa f x /\ exponent f (fabs f x) = exponent f x /\
  (is_zero_ f x = false -> signbit f (fabs f x) = 0) /\
  (is_zero_ f x = true -> fabs f x = x).
Proof.
  intros Hx N. unfold fabs. rewrite lt_zero, N by assumption. cbn [negb]. rewrite andb_true_r.
  destruct (fneg_fields x Hx) as (A & B & C & D).
  destruct (sgn x) eqn:S, (is_zero_ f x) eqn:Z0; cbn [andb negb].
  - split; [exact Hx|]. repeat apply conj; auto; intros; discriminate.
  - split; [exact D|]. repeat apply conj; auto; try congruence. intros _. rewrite sgn_bit, C by assumption. reflexivity.
  - split; [exact Hx|]. repeat apply conj; auto; try congruence.
  - split; [exact Hx|]. repeat apply conj; auto; try congruence. intros _. rewrite sgn_bit, S by assumption. reflexivity.
Qed.

Lemma fabs_R x : pattern f x -> isfinite f x = true ->
  B2R _ _ (val f (fabs f x)) = Rabs (B2R _ _ (val f x)).
Proof.
  intros Hx Fx. pose proof (fin_nan x Fx) as N.
  unfold fabs. rewrite lt_zero, N by assumption. cbn [negb]. rewrite andb_true_r.
  destruct (fneg_fields x Hx) as (A & B & C & D).
  assert (R : B2R _ _ (val f (fneg f x)) = (- B2R _ _ (val f x))%R).
  { rewrite !val_R, !aux_cases, A, B, C.
    destruct (exponent f x =? 0); [|destruct (exponent f x =? 2 ^ ew f - 1)].
    - destruct (mantissa f x); cbn [FF2R]; try (ring);
      rewrite <- F2R_Zopp; f_equal; f_equal; destruct (sgn x); reflexivity.
    - destruct (mantissa f x); cbn [FF2R]; ring.
    - cbn [FF2R]. rewrite <- F2R_Zopp. f_equal. f_equal. destruct (sgn x); reflexivity. }
  assert (S : Bsign _ _ (val f x) = sgn x).
  { rewrite val_sign. rewrite aux_cases in *.
    destruct (exponent f x =? 0); [destruct (mantissa f x); reflexivity|].
    destruct (exponent f x =? 2 ^ ew f - 1); [destruct (mantissa f x); reflexivity|reflexivity]. }
  rewrite isfinite_spec in Fx.
  assert (Z0 : is_zero_ f x = true -> B2R _ _ (val f x) = 0%R).
  { rewrite iszero_spec. destruct (val f x); cbn; try discriminate. reflexivity. }
  assert (SR : if sgn x then (B2R _ _ (val f x) <= 0)%R else (0 <= B2R _ _ (val f x))%R).
  { rewrite <- S. destruct (val f x) as [[]|[]|[] ? ?|[] m e ?]; cbn; try lra; try discriminate.
    - apply F2R_le_0. cbn. lia.
    - apply F2R_ge_0. cbn. lia. }
  destruct (sgn x), (is_zero_ f x) eqn:Z1; cbn [andb negb].
  - rewrite Z0 by reflexivity. now rewrite Rabs_R0.
  - rewrite R. now rewrite Rabs_left1.
  - rewrite Z0 by reflexivity. now rewrite Rabs_R0.
  - now rewrite Rabs_pos_eq.
Qed.

(** ** Hash *)
Lemma val_inj x y : pattern f x -> pattern f y -> val f x = val f y -> x = y.
Proof.
  intros Hx Hy E. unfold pattern in *.
  rewrite <- (bits_of_binary_float_of_bits (mw f) (ew f) (mw_pos f) (ew_pos f) (mw_ew f) x) by assumption.
  rewrite <- (bits_of_binary_float_of_bits (mw f) (ew f) (mw_pos f) (ew_pos f) (mw_ew f) y) by assumption.
  unfold val in E. now rewrite E.
Qed.

Lemma feq_zero x : feq f x fzero = is_zero_ f x.
Proof. unfold feq. rewrite val_zero, iszero_spec. destruct (val f x) as [[]|[]|[] ? ?|[] ? ? ?]; reflexivity. Qed.

Lemma feq_cases x y : pattern f x -> pattern f y -> feq f x y = true ->
  x = y \/ (is_zero_ f x = true /\ is_zero_ f y = true).
Proof.
  intros Hx Hy E. unfold feq in E. rewrite !iszero_spec.
  destruct (is_finite _ _ (val f x)) eqn:Fx, (is_finite _ _ (val f y)) eqn:Fy.
  - rewrite Bcompare_correct in E by assumption.
    destruct (Rcompare_spec (B2R _ _ (val f x)) (B2R _ _ (val f y))) as [| R |]; try discriminate.
    destruct (val f x) as [s1|s1|s1 ? ?|s1 m1 e1 v1] eqn:Vx; try discriminate;
    destruct (val f y) as [s2|s2|s2 ? ?|s2 m2 e2 v2] eqn:Vy; try discriminate; auto.
    + exfalso. cbn in R. destruct s2; cbn in R; symmetry in R; apply eq_0_F2R in R; discriminate.
    + exfalso. cbn in R. destruct s1; cbn in R; apply eq_0_F2R in R; discriminate.
    + left. apply val_inj; try assumption. rewrite Vx, Vy. apply B2R_inj; auto.
  - exfalso. destruct (val f x) as [[]|[]|[] ? ?|[] ? ? ?], (val f y) as [[]|[]|[] ? ?|[] ? ? ?]; cbn in *; discriminate.
  - exfalso. destruct (val f x) as [[]|[]|[] ? ?|[] ? ? ?], (val f y) as [[]|[]|[] ? ?|[] ? ? ?]; cbn in *; discriminate.
  - left. apply val_inj; try assumption.
    destruct (val f x) as [[]|[]|[] ? ?|[] ? ? ?], (val f y) as [[]|[]|[] ? ?|[] ? ? ?]; cbn in *; try discriminate; reflexivity.
Qed.

Lemma zero_pattern x : pattern f x -> is_zero_ f x = false -> x <> 0.
Proof. intros Hx H ->. rewrite <- feq_zero in H. unfold feq in H. change 0 with fzero in H. rewrite val_zero in H. discriminate. Qed.

Lemma hash_fp_ok x y : pattern f x -> pattern f y ->
  (hash_fp f x = hash_fp f y <-> feq f x y = true \/ x = y).
Proof.
  intros Hx Hy. unfold hash_fp, scalar_hash. rewrite !feq_zero.
  assert (ZZ : is_zero_ f x = true -> is_zero_ f y = true -> feq f x y = true).
  { rewrite !iszero_spec. unfold feq. destruct (val f x) as [[]|[]|[] ? ?|[] ? ? ?]; try discriminate;
    destruct (val f y) as [[]|[]|[] ? ?|[] ? ? ?]; try discriminate; reflexivity. }
  destruct (is_zero_ f x) eqn:Zx, (is_zero_ f y) eqn:Zy.
  - split; auto.
  - split.
    + intro E. exfalso. apply (zero_pattern y Hy Zy). auto.
    + intros [E|E]; [|subst; congruence].
      destruct (feq_cases x y Hx Hy E) as [->|[_ ?]]; congruence.
  - split.
    + intro E. exfalso. apply (zero_pattern x Hx Zx). auto.
    + intros [E|E]; [|subst; congruence].
      destruct (feq_cases x y Hx Hy E) as [->|[? _]]; congruence.
  - split; [auto|]. intros [E|E]; [|exact E].
    destruct (feq_cases x y Hx Hy E) as [->|[? _]]; congruence.
Qed.

Lemma hash_fp_range x : pattern f x -> 0 <= hash_fp f x < 2 ^ (mw f + ew f + 1).
Proof.
  intro Hx. unfold hash_fp, scalar_hash. destruct (feq f x fzero); [|exact Hx].
  pose proof (mw_pos f). pose proof (ew_pos f). split; [lia|apply Z.pow_pos_nonneg; lia].
Qed.
End F.

Lemma copysign_bits x y : pattern float32 x -> pattern float32 y ->
  pattern float32 (copysign x y) /\
  mantissa float32 (copysign x y) = mantissa float32 x /\
  exponent float32 (copysign x y) = exponent float32 x /\
  signbit float32 (copysign x y) = signbit float32 y.
Proof.
  unfold pattern, mantissa, exponent, signbit, copysign. cbn [mw ew float32]. intros Hx Hy.
  change (23 + 8 + 1) with 32 in *. change (23 + 8) with 31.
  assert (E1 : Z.land x 0x7fffffff = x mod 2 ^ 31) by (change 0x7fffffff with (Z.ones 31); now rewrite Z.land_ones by lia).
  assert (E2 : Z.land y 0x80000000 = (y / 2 ^ 31) * 2 ^ 31).
  { apply Z.bits_inj'. intros n Hn. rewrite Z.land_spec. rewrite <- Z.shiftr_div_pow2, <- Z.shiftl_mul_pow2 by lia.
    change 0x80000000 with (2 ^ 31). rewrite Z.pow2_bits_eqb by lia.
    destruct (Z.eqb_spec 31 n) as [<-|N].
    - rewrite Z.shiftl_spec, Z.shiftr_spec by lia. rewrite andb_true_r. reflexivity.
    - rewrite andb_false_r. destruct (Z.ltb_spec n 31).
      + rewrite Z.shiftl_spec_low by lia. reflexivity.
      + rewrite Z.shiftl_spec, Z.shiftr_spec by lia. replace (n - 31 + 31) with n by lia.
        symmetry. destruct (Z.eq_dec y 0) as [->|]; [apply Z.bits_0|].
        apply Z.bits_above_log2; [lia|]. assert (Z.log2 y < 32) by (apply Z.log2_lt_pow2; lia). lia. }
  rewrite E1, E2, Z.lor_comm.
  assert (P : 0 <= x mod 2 ^ 31 < 2 ^ 31) by (apply Z.mod_pos_bound; lia).
  assert (L : Z.lor (x mod 2 ^ 31) (y / 2 ^ 31 * 2 ^ 31) = x mod 2 ^ 31 + y / 2 ^ 31 * 2 ^ 31).
  { rewrite <- Z.lxor_lor; [symmetry; apply Z.add_nocarry_lxor|];
    (apply Z.bits_inj'; intros n Hn; rewrite Z.land_spec, Z.bits_0, <- Z.shiftl_mul_pow2 by lia;
     destruct (Z.ltb_spec n 31);
     [rewrite (Z.shiftl_spec_low _ _ n) by lia; apply andb_false_r
     |rewrite Z.mod_pow2_bits_high by lia; reflexivity]). }
  rewrite L.
  assert (Y : 0 <= y / 2 ^ 31 <= 1).
  { split; [apply Z.div_pos; lia|]. assert (y / 2 ^ 31 < 2) by (apply Z.div_lt_upper_bound; lia). lia. }
  repeat apply conj.
  - lia.
  - change (2 ^ 32) with (2 * 2 ^ 31). lia.
  - replace (y / 2 ^ 31 * 2 ^ 31) with ((y / 2 ^ 31 * 2 ^ 8) * 2 ^ 23) by (change (2 ^ 31) with (2 ^ 8 * 2 ^ 23); ring).
    rewrite Z.mod_add by lia. change (2 ^ 31) with (2 ^ 23 * 2 ^ 8). rewrite Z.rem_mul_r by lia.
    rewrite Z.mul_comm, Z.mod_add, Z.mod_mod by lia. reflexivity.
  - replace (y / 2 ^ 31 * 2 ^ 31) with ((y / 2 ^ 31 * 2 ^ 8) * 2 ^ 23) by (change (2 ^ 31) with (2 ^ 8 * 2 ^ 23); ring).
    rewrite Z.div_add by lia. rewrite Z.mod_add by lia.
    change (2 ^ 31) with (2 ^ 23 * 2 ^ 8). rewrite Z.rem_mul_r by lia.
    rewrite (Z.mul_comm (2 ^ 23)), Z.div_add, (Z.div_small (x mod 2 ^ 23)) by (try apply Z.mod_pos_bound; lia).
    rewrite Z.add_0_l, Z.mod_mod by lia. reflexivity.
  - rewrite Z.div_add, (Z.div_small (x mod 2 ^ 31)) by lia. lia.
Qed.

Lemma hash_int_inj lo hi x y : lo <= x <= hi -> lo <= y <= hi -> hi - lo < 2 ^ 64 ->
  (hash_int x = hash_int y <-> x = y).
Proof.
  unfold hash_int. intros Hx Hy H. split; [|congruence]. intro E.
  pose proof (Z.div_mod x (2 ^ 64) ltac:(lia)). pose proof (Z.div_mod y (2 ^ 64) ltac:(lia)).
  assert (x - y = 2 ^ 64 * (x / 2 ^ 64 - y / 2 ^ 64)) by lia. 
  assert (x / 2 ^ 64 = y / 2 ^ 64) by nia. lia.
Qed.
