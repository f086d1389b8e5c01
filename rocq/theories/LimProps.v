(** C38: numeric_limits values are the true limits. *)
From Coq Require Import ZArith Bool Lia Reals Lra.
From Flocq Require Import Core Relative IEEE754.Binary IEEE754.Bits.
From Verif Require Import FpModel FpProofs LitModel LitProofs LimModel.
Open Scope Z_scope.

(** The values of a C++ integer type: width and signedness. *)
Definition width (t : ity) : Z :=
  match t with TBool => 1 | TChar | TUchar => 8 | TShort | TUshort => 16 | TInt | TUint => 32 | TLonglong | TUlonglong => 64 end.
Definition is_signed (t : ity) : bool :=
  match t with TChar | TShort | TInt | TLonglong => true | _ => false end.
Definition value_of (t : ity) (v : Z) : Prop :=
  if is_signed t then - 2 ^ (width t - 1) <= v < 2 ^ (width t - 1) else 0 <= v < 2 ^ width t.

(** min() and max() are values of the type and bound every value; digits10 is the largest number
    of decimal digits that every number of that length fits. *)
Theorem C38_integer_limits : forall t,
  value_of t (imin t) /\ value_of t (imax t) /\ (forall v, value_of t v -> imin t <= v <= imax t) /\
  (forall v, 0 <= v < 10 ^ idigits10 t -> value_of t v) /\
  (exists v, 0 <= v < 10 ^ (idigits10 t + 1) /\ ~ value_of t v).
Proof.
  intro t. destruct t; cbv -[Z.le Z.lt]; (split; [lia|split; [lia|split; [intros; lia|split; [intros; lia|]]]]).
  - exists 9; lia. - exists 999; lia. - exists 999; lia. - exists 99999; lia. - exists 99999; lia.
  - exists 9999999999; lia. - exists 9999999999; lia. - exists 9999999999999999999; lia. - exists 99999999999999999999; lia.
Qed.
Print Assumptions C38_integer_limits.

(** Real value of a pattern. *)
Notation rv t x := (B2R (mw (format t) + 1) (2 ^ (ew (format t) - 1)) (val (format t) x)).
(** n * 10^k *)
Definition dec (n k : Z) : R := (IZR n * powerRZ 10 k)%R.

Section A.
Variable f : fmt.
(** the pattern of |x| *)
Definition fields (x : Z) : Z := exponent f x * 2 ^ mw f + mantissa f x.
Lemma fields_range x : isfinite f x = true -> 0 <= fields x < inf_pattern f.
Proof.
  unfold isfinite, fields, inf_pattern. rewrite negb_true_iff, Z.eqb_neq. intro H.
  pose proof (mant_range f x). pose proof (expo_range f x). pose proof (mwp f). nia.
Qed.
Lemma fields_units x : isfinite f x = true -> units f (fields x) = units f x.
Proof.
  intro H. unfold fields. pose proof (mant_range f x). pose proof (expo_range f x).
  destruct (mk_fields f (exponent f x) (mantissa f x)) as [A B]; [lia|lia|]. unfold units. now rewrite A, B.
Qed.
Lemma units_le x y : 0 <= x <= y -> y < inf_pattern f -> units f x <= units f y.
Proof. intros H K. destruct (Z.eq_dec x y) as [->|N]; [lia|]. apply Z.lt_le_incl, units_mono; lia. Qed.
Lemma abs_fields x : isfinite f x = true -> Rabs (B2R _ _ (val f x)) = B2R _ _ (val f (fields x)).
Proof. intro H. rewrite units_R by exact H. rewrite units_R_pos by now apply fields_range. now rewrite fields_units. Qed.
Lemma le_pattern x y : 0 <= x <= y -> y < inf_pattern f -> (B2R _ _ (val f x) <= B2R _ _ (val f y))%R.
Proof.
  intros H K. rewrite !units_R_pos by lia. apply Rmult_le_compat_r; [apply bpow_ge_0|]. apply IZR_le. now apply units_le.
Qed.
Lemma lt_pattern x y : 0 <= x < inf_pattern f -> 0 <= y < inf_pattern f ->
  (B2R _ _ (val f x) < B2R _ _ (val f y))%R -> x < y.
Proof.
  intros H K L. destruct (Z.lt_ge_cases x y); [assumption|]. exfalso. apply Rlt_not_le in L. apply L. apply le_pattern; lia.
Qed.
End A.

(** patterns of the literals *)
Lemma fmin_pat t : fmin_ t = 2 ^ mw (format t).
Proof. destruct t; vm_compute; reflexivity. Qed.
Lemma fmax_pat t : fmax_ t = inf_pattern (format t) - 1.
Proof. destruct t; vm_compute; reflexivity. Qed.
Lemma feps_pat t : rv t (fepsilon t) = bpow radix2 (- mw (format t)).
Proof.
  destruct t; (rewrite units_R_pos by (vm_compute; split; congruence)).
  - replace (units (format TFloat) (fepsilon TFloat)) with (2 ^ 126) by (vm_compute; reflexivity).
    rewrite <- bpow2 by lia. rewrite <- bpow_plus. f_equal.
  - replace (units (format TDouble) (fepsilon TDouble)) with (2 ^ 1022) by (vm_compute; reflexivity).
    rewrite <- bpow2 by lia. rewrite <- bpow_plus. f_equal.
Qed.
(** the pattern of 1.0 *)
Definition one (t : fty) : Z := match t with TFloat => 0x3f800000 | TDouble => 0x3ff0000000000000 end.
Lemma one_R t : rv t (one t) = 1%R.
Proof.
  destruct t; (rewrite units_R_pos by (vm_compute; split; congruence)).
  - replace (units (format TFloat) (one TFloat)) with (2 ^ 149) by (vm_compute; reflexivity).
    rewrite <- bpow2 by lia. rewrite <- bpow_plus. reflexivity.
  - replace (units (format TDouble) (one TDouble)) with (2 ^ 1074) by (vm_compute; reflexivity).
    rewrite <- bpow2 by lia. rewrite <- bpow_plus. reflexivity.
Qed.
Lemma next_one_R t : rv t (one t + 1) = (1 + bpow radix2 (- mw (format t)))%R.
Proof.
  destruct t; (rewrite units_R_pos by (vm_compute; split; congruence)).
  - replace (units (format TFloat) (one TFloat + 1)) with (2 ^ 149 + 2 ^ 126) by (vm_compute; reflexivity).
    rewrite plus_IZR, <- !bpow2 by lia. rewrite Rmult_plus_distr_r, <- !bpow_plus. reflexivity.
  - replace (units (format TDouble) (one TDouble + 1)) with (2 ^ 1074 + 2 ^ 1022) by (vm_compute; reflexivity).
    rewrite plus_IZR, <- !bpow2 by lia. rewrite Rmult_plus_distr_r, <- !bpow_plus. reflexivity.
Qed.

(** min() is the least positive normal value, max() the greatest finite value, denorm_min() the
    least positive value, and 1 + epsilon() is the least value above 1. *)
Theorem C38_float_limits : forall t,
  let f := format t in
  (isnormal f (fmin_ t) = true /\ (0 < rv t (fmin_ t))%R /\
   forall x, pattern f x -> isnormal f x = true -> (rv t (fmin_ t) <= Rabs (rv t x))%R) /\
  (isfinite f (fmax_ t) = true /\ forall x, pattern f x -> isfinite f x = true -> (Rabs (rv t x) <= rv t (fmax_ t))%R) /\
  (isfinite f (fdenorm_min t) = true /\ (0 < rv t (fdenorm_min t))%R /\
   forall x, pattern f x -> isfinite f x = true -> (0 < rv t x)%R -> (rv t (fdenorm_min t) <= rv t x)%R) /\
  ((0 < rv t (fepsilon t))%R /\
   (exists x, pattern f x /\ isfinite f x = true /\ rv t x = (1 + rv t (fepsilon t))%R) /\
   forall x, pattern f x -> isfinite f x = true -> (1 < rv t x)%R -> (1 + rv t (fepsilon t) <= rv t x)%R).
Proof.
  intros t f.
  assert (I : 2 ^ mw f < inf_pattern f /\ 1 < 2 ^ mw f) by (unfold f; destruct t; vm_compute; split; reflexivity).
  assert (O : 0 <= one t /\ one t + 1 < inf_pattern f) by (unfold f; destruct t; vm_compute; split; congruence).
  assert (POS : forall x, isfinite f x = true -> (0 < rv t x)%R -> rv t x = rv t (fields f x)).
  { intros x Hx H. pose proof (abs_fields f x Hx) as A. unfold f in *. rewrite <- A. symmetry. apply Rabs_right. lra. }
  split; [|split; [|split]].
  - rewrite fmin_pat. split; [unfold f; destruct t; vm_compute; reflexivity|]. fold f. split.
    + unfold f at 1 2 3. rewrite units_R_pos by (fold f; lia). apply Rmult_lt_0_compat; [|apply bpow_gt_0].
      destruct t; vm_compute units; apply IZR_lt; reflexivity.
    + intros x _ Hx. unfold isnormal in Hx. apply andb_true_iff in Hx. destruct Hx as [H1 H2].
      rewrite (abs_fields f x H2). apply le_pattern; [|now apply fields_range].
      apply negb_true_iff, Z.eqb_neq in H1. unfold fields. pose proof (mant_range f x). pose proof (expo_range f x).
      pose proof (mwp f). nia.
  - rewrite fmax_pat. split; [unfold f; destruct t; vm_compute; reflexivity|]. intros x _ Hx. fold f. rewrite (abs_fields f x Hx).
    pose proof (fields_range f x Hx). apply le_pattern; lia.
  - assert (D : fdenorm_min t = 1) by (destruct t; reflexivity). rewrite D.
    assert (U : (0 < rv t 1)%R).
    { rewrite units_R_pos by (fold f; lia). apply Rmult_lt_0_compat; [|apply bpow_gt_0]. destruct t; vm_compute units; apply IZR_lt; reflexivity. }
    split; [unfold f; destruct t; vm_compute; reflexivity|]. split; [exact U|].
    intros x _ Hx H. rewrite (POS x Hx H). pose proof (fields_range f x Hx) as R. apply le_pattern; [|apply R].
    assert (fields f x <> 0); [|lia]. intro K. rewrite (POS x Hx H), K in H.
    change 0 with fzero in H. rewrite val_zero in H. cbn in H. lra.
  - rewrite feps_pat. split; [apply bpow_gt_0|]. rewrite <- next_one_R. split.
    + exists (one t + 1). split; [unfold f, pattern; destruct t; vm_compute; split; congruence|]. split; [|reflexivity].
      apply finite_pos. fold f. lia.
    + intros x _ Hx H. rewrite (POS x Hx) by lra. apply le_pattern; [|now apply fields_range].
      assert (one t < fields f x); [|lia]. apply (lt_pattern f); [lia|now apply fields_range|].
      pose proof (one_R t) as E1. pose proof (POS x Hx ltac:(lra)) as E2. unfold f in *. rewrite E1, <- E2. exact H.
Qed.
Print Assumptions C38_float_limits.

(** infinity() is +infinity, the two NaNs are NaNs, quiet_NaN() with and signaling_NaN() without the
    quiet bit (the top bit of the mantissa). *)
Theorem C38_special_values : forall t,
  let f := format t in
  val f (finfinity t) = B754_infinity _ _ false /\
  is_nan _ _ (val f (fquiet_NaN t)) = true /\ Z.testbit (fquiet_NaN t) (mw f - 1) = true /\
  is_nan _ _ (val f (fsignaling_NaN t)) = true /\ Z.testbit (fsignaling_NaN t) (mw f - 1) = false.
Proof.
  intro t. cbv zeta. rewrite <- !isnan_spec.
  assert (V : B2FF _ _ (val (format t) (finfinity t)) = F754_infinity false).
  { rewrite val_FF, aux_cases. destruct t; vm_compute; reflexivity. }
  split; [|destruct t; vm_compute; auto]. apply B2FF_inj. rewrite V. reflexivity.
Qed.
Print Assumptions C38_special_values.

Lemma dec_ratio n k : dec n k = (if 0 <=? k then IZR (n * 10 ^ k) / 1 else IZR n / IZR (10 ^ (- k)))%R.
Proof.
  unfold dec. destruct (Z.leb_spec 0 k).
  - rewrite mult_IZR. change 10 with (radix_val (Build_radix 10 eq_refl)). rewrite IZR_Zpower by assumption.
    rewrite bpow_powerRZ. cbn [radix_val]. field.
  - change 10 with (radix_val (Build_radix 10 eq_refl)) at 2. rewrite IZR_Zpower by lia. rewrite bpow_powerRZ. cbn [radix_val].
    rewrite powerRZ_neg'. unfold Rdiv. rewrite Rinv_inv. reflexivity.
Qed.

Lemma literal_ok f n k : 0 <= n ->
  let r := round radix2 (FLT_exp (femin f) (mw f + 1)) ZnearestE (dec n k) in
  literal f n k <> inf_pattern f -> B2R _ _ (val f (literal f n k)) = r.
Proof.
  intros Hn r. subst r. rewrite dec_ratio. unfold literal. destruct (Z.leb_spec 0 k) as [K|K].
  - intro N. destruct (round_ratio_ok f (n * 10 ^ k) 1) as [(_ & _ & E)|(_ & E)]; [|lia|exact E|contradiction].
    apply Z.mul_nonneg_nonneg; [exact Hn|]. apply Z.pow_nonneg. lia.
  - intro N. destruct (round_ratio_ok f n (10 ^ (- k))) as [(_ & _ & E)|(_ & E)]; [exact Hn| |exact E|contradiction].
    apply Z.pow_pos_nonneg; lia.
Qed.

(** digits10: every decimal with that many significant digits, converted to the type within its normal range,
    is recovered as the nearest decimal with that many digits; one digit more is too many. *)
Theorem C38_digits10 : forall t,
  let f := format t in
  (forall n k n', 10 ^ (fdigits10 t - 1) <= n < 10 ^ fdigits10 t ->
     (rv t (fmin_ t) <= dec n k)%R -> literal f n k <> finfinity t ->
     (Rabs (rv t (literal f n k) - dec n' k) <= Rabs (rv t (literal f n k) - dec n k))%R -> n' = n) /\
  (exists n n' k, n <> n' /\ 10 ^ fdigits10 t <= n < 10 ^ (fdigits10 t + 1) /\
     10 ^ fdigits10 t <= n' < 10 ^ (fdigits10 t + 1) /\ literal f n k = literal f n' k /\
     (rv t (fmin_ t) <= dec n k)%R /\ literal f n k <> finfinity t).
Proof.
  intros t f. assert (M : rv t (fmin_ t) = bpow radix2 (femin f + (mw f + 1) - 1)).
  { rewrite fmin_pat. rewrite units_R_pos by (destruct t; vm_compute; split; congruence).
    replace (units (format t) (2 ^ mw (format t))) with (2 ^ mw (format t)) by (destruct t; vm_compute; reflexivity).
    fold f. pose proof (mw_pos f). rewrite <- bpow2 by lia. rewrite <- bpow_plus. f_equal. lia. }
  assert (INF : finfinity t = inf_pattern f) by (unfold f; destruct t; vm_compute; reflexivity).
  rewrite M, INF. split.
  - intros n k n' Hn Hr HI H.
    assert (L : 0 < 10 ^ (fdigits10 t - 1) /\ 10 ^ fdigits10 t <= 2 ^ mw f) by (unfold f; destruct t; vm_compute; split; congruence).
    assert (P10 : (0 < powerRZ 10 k)%R) by (apply powerRZ_lt; lra).
    assert (Hn0 : 0 < n) by lia.
    assert (V : rv t (literal f n k) = round radix2 (FLT_exp (femin f) (mw f + 1)) ZnearestE (dec n k))
      by (apply literal_ok; [lia|exact HI]).
    assert (Pp : 0 < mw f + 1) by (pose proof (mw_pos f); lia).
    assert (D0 : (0 < dec n k)%R) by (apply Rmult_lt_0_compat; [now apply IZR_lt|exact P10]).
    pose proof (relative_error_N_FLT radix2 (femin f) (mw f + 1) Pp (fun x => negb (Z.even x)) (dec n k)) as E.
    rewrite (Rabs_right (dec n k)) in E by lra. specialize (E Hr). fold (rv t (literal f n k)) in V. rewrite <- V in E.
    assert (B : (/ 2 * bpow radix2 (- (mw f + 1) + 1) * dec n k < / 2 * powerRZ 10 k)%R).
    { rewrite Rmult_assoc. apply Rmult_lt_compat_l; [lra|]. unfold dec. rewrite <- Rmult_assoc. rewrite <- (Rmult_1_l (powerRZ 10 k)) at 2.
      apply Rmult_lt_compat_r; [exact P10|]. replace (- (mw f + 1) + 1) with (- mw f) by lia.
      rewrite bpow_opp, bpow2 by lia. assert (0 < IZR (2 ^ mw f))%R by (apply IZR_lt, mwp).
      apply (Rmult_lt_reg_l (IZR (2 ^ mw f))); [assumption|]. rewrite <- Rmult_assoc, Rinv_r by lra. rewrite Rmult_1_l, Rmult_1_r.
      apply IZR_lt. lia. }
    set (a := rv t (literal f n k)) in *.
    assert (T : (Rabs (dec n' k - dec n k) < powerRZ 10 k)%R).
    { replace (dec n' k - dec n k)%R with (- (a - dec n' k) + (a - dec n k))%R by ring.
      eapply Rle_lt_trans; [apply Rabs_triang|]. rewrite Rabs_Ropp. lra. }
    unfold dec in T. rewrite <- Rmult_minus_distr_r, Rabs_mult, (Rabs_right (powerRZ 10 k)) in T by lra.
    rewrite <- (Rmult_1_l (powerRZ 10 k)) in T at 2. apply Rmult_lt_reg_r in T; [|exact P10].
    rewrite <- minus_IZR, <- abs_IZR in T. apply lt_IZR in T. lia.
  - unfold f; destruct t.
    + exists 8589973, 8589974, 3. split; [discriminate|]. split; [cbn; lia|]. split; [cbn; lia|]. split; [vm_compute; reflexivity|].
      split; [|vm_compute; discriminate]. apply Rle_trans with 1%R; [apply (bpow_le radix2 _ 0); vm_compute; discriminate|].
      rewrite dec_ratio. cbn [Z.leb Z.compare]. replace (8589973 * 10 ^ 3) with 8589973000 by reflexivity. lra.
    + exists 9007199254740992, 9007199254740993, 0. split; [discriminate|]. split; [vm_compute; split; congruence|]. split; [vm_compute; split; congruence|]. split; [vm_compute; reflexivity|].
      split; [|vm_compute; discriminate]. apply Rle_trans with 1%R; [apply (bpow_le radix2 _ 0); vm_compute; discriminate|].
      rewrite dec_ratio. cbn [Z.leb Z.compare]. replace (9007199254740992 * 10 ^ 0) with 9007199254740992 by reflexivity. lra.
Qed.
Print Assumptions C38_digits10.

(** Inputs meeting the hypotheses: 1.23457 as a float. *)
Example C38_digits10_case : literal float32 123457 (-5) <> finfinity TFloat /\ 10 ^ (fdigits10 TFloat - 1) <= 123457 < 10 ^ fdigits10 TFloat.
Proof. vm_compute. split; [discriminate|split; congruence]. Qed.
Example C38_literals : fmin_ TFloat = 0x00800000 /\ fmax_ TFloat = 0x7f7fffff /\ fepsilon TFloat = 0x34000000 /\
  fmin_ TDouble = 0x0010000000000000 /\ fmax_ TDouble = 0x7fefffffffffffff /\ fepsilon TDouble = 0x3cb0000000000000.
Proof. vm_compute. repeat split. Qed.
