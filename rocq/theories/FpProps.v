(** Property theorems C21, C24, C25, C26. *)
From Coq Require Import ZArith Bool Lia Reals Lra List.
From Flocq Require Import Core IEEE754.Binary IEEE754.Bits.
From Verif Require Import Mem FpModel FpProofs RoundModel RoundProofs.
Open Scope Z_scope.

(** ** C21 *)

(** Hashing integers is injective on the range of every C++ integer type (at
    most 2^64 consecutive values). *)
Theorem C21_integer_hash : forall lo hi x y, lo <= x <= hi -> lo <= y <= hi -> hi - lo < 2 ^ 64 ->
  (hash_int x = hash_int y <-> x = y).
Proof. exact hash_int_inj. Qed.
Print Assumptions C21_integer_hash.

(** hash<float> / hash<double>: two patterns collide exactly when they compare
    equal with == or are the same NaN pattern. *)
Theorem C21_float_hash : forall f x y, pattern f x -> pattern f y ->
  (hash_fp f x = hash_fp f y <-> feq f x y = true \/ x = y).
Proof. exact hash_fp_ok. Qed.
Print Assumptions C21_float_hash.

Example C21_case : hash_int (-1) = 18446744073709551615 /\ hash_fp float32 0x80000000 = hash_fp float32 0 /\
  feq float32 0x80000000 0 = true /\ hash_fp float64 0x3ff0000000000000 <> hash_fp float64 0xbff0000000000000.
Proof. vm_compute. repeat split; discriminate. Qed.

(** ** C24 *)

(** The class predicates agree with the IEEE-754 datum the pattern encodes: NaN,
    infinity, zero by constructor; finiteness; subnormal and normal by comparing
    the magnitude of the real value with the least normal number 2^(2-emax);
    and each pattern is in exactly one class. *)
Theorem C24_classification : forall f x,
  isnan f x = is_nan _ _ (val f x) /\
  isinf f x = match val f x with B754_infinity _ _ _ => true | _ => false end /\
  isfinite f x = is_finite _ _ (val f x) /\
  is_zero_ f x = match val f x with B754_zero _ _ _ => true | _ => false end /\
  (is_subnormal_ f x = true <->
     is_finite _ _ (val f x) = true /\ (0 < Rabs (B2R _ _ (val f x)) < bpow radix2 (2 - 2 ^ (ew f - 1)))%R) /\
  (isnormal f x = true <->
     is_finite _ _ (val f x) = true /\ (bpow radix2 (2 - 2 ^ (ew f - 1)) <= Rabs (B2R _ _ (val f x)))%R) /\
  exists! i : nat, (i < 5)%nat /\
    nth i (isnan f x :: isinf f x :: is_zero_ f x :: is_subnormal_ f x :: isnormal f x :: nil) false = true.
Proof.
  intros f x. exact (conj (isnan_spec f x) (conj (isinf_spec f x) (conj (isfinite_spec f x) (conj (iszero_spec f x)
    (conj (subnormal_spec f x) (conj (normal_spec f x) (partition f x))))))).
Qed.
Print Assumptions C24_classification.

Example C24_case : isnan float32 0x7fc00000 = true /\ isinf float64 0xfff0000000000000 = true /\
  is_subnormal_ float64 1 = true /\ isnormal float32 0x00800000 = true /\ is_zero_ float32 0x80000000 = true.
Proof. vm_compute. repeat split. Qed.

(** ** C25 *)

(** copysign: the fields of x with the sign bit of y, for every pair of patterns
    including NaNs. *)
Theorem C25_copysign : forall x y, pattern float32 x -> pattern float32 y ->
  pattern float32 (copysign x y) /\
  mantissa float32 (copysign x y) = mantissa float32 x /\
  exponent float32 (copysign x y) = exponent float32 x /\
  signbit float32 (copysign x y) = signbit float32 y.
Proof. exact copysign_bits. Qed.
Print Assumptions C25_copysign.

(** fabs is the absolute value on finite numbers and clears the sign of every
    non-NaN datum except zero (a negative zero is returned unchanged). *)
Theorem C25_fabs_partial : forall f x, pattern f x -> isnan f x = false ->
  (isfinite f x = true -> B2R _ _ (val f (fabs f x)) = Rabs (B2R _ _ (val f x))) /\
  pattern f (fabs f x) /\ mantissa f (fabs f x) = mantissa f x /\ exponent f (fabs f x) = exponent f x /\
  (is_zero_ f x = false -> signbit f (fabs f x) = 0) /\
  (is_zero_ f x = true -> fabs f x = x).
Proof. intros f x Hx N. split; [intro F; now apply FpProofs.fabs_R|now apply fabs_ok]. Qed.
Print Assumptions C25_fabs_partial.

(** The sign is not cleared for -0.0. *)
Theorem C25_fabs_clears_sign_refuted :
  exists x, pattern float32 x /\ isnan float32 x = false /\ signbit float32 (fabs float32 x) = 1.
Proof. exists 0x80000000. vm_compute. repeat split; discriminate. Qed.
Print Assumptions C25_fabs_clears_sign_refuted.

(** fmin / fmax: for non-NaN arguments the result is one of them and bounds both
    in the IEEE order; on finite numbers they are the real minimum and maximum; a
    single NaN is ignored; two NaNs give a NaN. *)
Theorem C25_fmin_fmax : forall f x y,
  (isnan f x = false -> isnan f y = false ->
    (fmin f x y = x \/ fmin f x y = y) /\ fle f (fmin f x y) x /\ fle f (fmin f x y) y /\
    (fmax f x y = x \/ fmax f x y = y) /\ fle f x (fmax f x y) /\ fle f y (fmax f x y)) /\
  (isfinite f x = true -> isfinite f y = true ->
    B2R _ _ (val f (fmin f x y)) = Rmin (B2R _ _ (val f x)) (B2R _ _ (val f y)) /\
    B2R _ _ (val f (fmax f x y)) = Rmax (B2R _ _ (val f x)) (B2R _ _ (val f y))) /\
  (isnan f x = true ->
    (isnan f y = false -> fmin f x y = y /\ fmin f y x = y /\ fmax f x y = y /\ fmax f y x = y) /\
    (isnan f y = true -> isnan f (fmin f x y) = true /\ isnan f (fmax f x y) = true)).
Proof.
  intros f x y. split; [|split; [apply fmin_R|apply fminmax_nan]].
  intros Hx Hy. destruct (fmin_ok f x y Hx Hy) as (A & B & C). destruct (fmax_ok f x y Hx Hy) as (D & E & F). auto 10.
Qed.
Print Assumptions C25_fmin_fmax.

(** clamp(a, lo, hi) lies in [lo, hi] for every a (NaN included) whenever lo <= hi,
    and compares equal to a when a already lies there. *)
Theorem C25_clamp : forall f a lo hi, fle f lo hi ->
  fle f lo (clamp f a lo hi) /\ fle f (clamp f a lo hi) hi /\
  (fle f lo a -> fle f a hi -> Bcompare _ _ (val f (clamp f a lo hi)) (val f a) = Some Eq).
Proof. exact clamp_ok. Qed.
Print Assumptions C25_clamp.

(** [fle] is the order of the values. *)
Theorem C25_fle_meaning : forall f x y, isfinite f x = true -> isfinite f y = true ->
  (fle f x y <-> (B2R _ _ (val f x) <= B2R _ _ (val f y))%R).
Proof. intros f x y Hx Hy. rewrite isfinite_spec in Hx, Hy. now apply fle_R. Qed.
Print Assumptions C25_fle_meaning.

(** The reinterpreting conversions between float and int are inverse bijections that
    keep the sign. *)
Theorem C25_bit_casts :
  (forall x, pattern float32 x -> - 2 ^ 31 <= FloatToInt x < 2 ^ 31 /\ IntToFloat (FloatToInt x) = x /\ (FloatToInt x <? 0) = sgn float32 x) /\
  (forall i, - 2 ^ 31 <= i < 2 ^ 31 -> pattern float32 (IntToFloat i) /\ FloatToInt (IntToFloat i) = i).
Proof.
  split.
  - intros x [A B]. change (2 ^ (mw float32 + ew float32 + 1)) with (2 ^ 32) in B.
    assert (S : sgn float32 x = (2 ^ 31 <=? x)) by reflexivity.
    unfold FloatToInt, IntToFloat. rewrite S. destruct (Z.ltb_spec x (2 ^ 31)) as [H|H].
    + split; [lia|]. split; [apply Z.mod_small; lia|]. destruct (Z.ltb_spec x 0), (Z.leb_spec (2 ^ 31) x); lia || reflexivity.
    + split; [lia|]. split; [symmetry; apply Z.mod_unique with (-1); lia|].
      destruct (Z.ltb_spec (x - 2 ^ 32) 0), (Z.leb_spec (2 ^ 31) x); lia || reflexivity.
  - intros i H. unfold FloatToInt, IntToFloat. split; [apply Z.mod_pos_bound; reflexivity|].
    destruct (Z.ltb_spec i 0) as [N|N].
    + replace (i mod 2 ^ 32) with (i + 2 ^ 32) by (apply Z.mod_unique with (-1); lia). destruct (Z.ltb_spec (i + 2 ^ 32) (2 ^ 31)); lia.
    + rewrite Z.mod_small by lia. destruct (Z.ltb_spec i (2 ^ 31)); lia.
Qed.
Print Assumptions C25_bit_casts.

Example C25_case : copysign 0x3f800000 0x80000000 = 0xbf800000 /\
  fabs float64 0xbff0000000000000 = 0x3ff0000000000000 /\
  fmin float32 0x7fc00000 0x3f800000 = 0x3f800000 /\ fmax float32 0xbf800000 0x3f800000 = 0x3f800000 /\
  clamp float32 0x7fc00000 0x3f800000 0x40000000 = 0x40000000 /\ fle float32 0x3f800000 0x40000000.
Proof. vm_compute. repeat split. Qed.

(** ** C26 *)

(** ceil for float or double: for every finite x with -2^31-1 < x <= 2^31-1 it
    returns the least integer >= x, except that 0 < x < epsilon gives 0; for any
    other argument (NaN and infinities included) the int conversion or the
    increment is undefined behaviour. *)
Theorem C26_ceil_partial : forall f nan2 nan1 x, f = float32 \/ f = float64 ->
  (is_finite _ _ x = true -> (-(2147483649) < B2R _ _ x <= 2147483647)%R ->
   exists r, ceil f nan2 nan1 x = inl r /\ is_finite _ _ r = true /\
    B2R _ _ r = if Rlt_dec 0 (B2R _ _ x) then
                  if Rlt_dec (B2R _ _ x) (bpow radix2 (- mw f)) then 0%R else IZR (Zceil (B2R _ _ x))
                else IZR (Zceil (B2R _ _ x))) /\
  ((is_finite _ _ x = true -> (B2R _ _ x <= -(2147483649))%R \/ (2147483647 < B2R _ _ x)%R) ->
   ceil f nan2 nan1 x = inr tt).
Proof.
  intros f nan2 nan1 x F. assert (B : 31 < 2 ^ (ew f - 1)) by (destruct F; subst f; reflexivity).
  split; [now apply ceil_ok|now apply ceil_bad].
Qed.
Print Assumptions C26_ceil_partial.

Theorem C26_floor_partial : forall f nan2 nan1 x, f = float32 \/ f = float64 ->
  (is_finite _ _ x = true -> (-(2147483648) <= B2R _ _ x < 2147483648)%R ->
   exists r, floor f nan2 nan1 x = inl r /\ is_finite _ _ r = true /\
    B2R _ _ r = if Rlt_dec (B2R _ _ x) 0 then
                  if Rlt_dec (- bpow radix2 (- mw f)) (B2R _ _ x) then 0%R else IZR (Zfloor (B2R _ _ x))
                else IZR (Zfloor (B2R _ _ x))) /\
  ((is_finite _ _ x = true -> (B2R _ _ x < -(2147483648))%R \/ (2147483648 <= B2R _ _ x)%R) ->
   floor f nan2 nan1 x = inr tt).
Proof.
  intros f nan2 nan1 x F. assert (B : 31 < 2 ^ (ew f - 1)) by (destruct F; subst f; reflexivity).
  split; [now apply floor_ok|now apply floor_bad].
Qed.
Print Assumptions C26_floor_partial.

Lemma Zceil_pow k : 0 < k -> Zceil (bpow radix2 (- k)) = 1.
Proof.
  intro H. apply Zceil_imp. cbn. pose proof (bpow_gt_0 radix2 (- k)).
  assert (bpow radix2 (- k) < bpow radix2 0)%R by (apply bpow_lt; lia). cbn in H1. lra.
Qed.

(** ceil(2^-30f) is 0 and ceil(2^31f) is undefined. *)
Theorem C26_ceil_refuted : forall nan2 nan1,
  (exists x r, is_finite _ _ x = true /\ ceil float32 nan2 nan1 x = inl r /\ B2R _ _ r <> IZR (Zceil (B2R _ _ x))) /\
  (exists x, is_finite _ _ x = true /\ ceil float32 nan2 nan1 x = inr tt).
Proof.
  intros nan2 nan1. split.
  - destruct (normalize_ok float32 1 (-30)) as [F V]; [reflexivity|vm_compute; discriminate| |].
    { unfold F2R. cbn [Fnum Fexp]. rewrite Rmult_1_l, Rabs_pos_eq by apply bpow_ge_0. apply bpow_lt. reflexivity. }
    set (x := binary_normalize _ _ _ _ _ 1 (-30) false) in *.
    assert (V' : B2R _ _ x = bpow radix2 (-30)) by (rewrite V; unfold F2R; cbn [Fnum Fexp]; ring).
    pose proof (bpow_gt_0 radix2 (-30)) as P0.
    assert (P1 : (bpow radix2 (-30) < bpow radix2 (- mw float32))%R) by (apply bpow_lt; reflexivity).
    assert (P2 : (bpow radix2 (- mw float32) < bpow radix2 0)%R) by (apply bpow_lt; reflexivity).
    change (bpow radix2 0) with 1%R in P2.
    destruct (ceil_ok float32 nan2 nan1 eq_refl x F) as (r & C & Fr & R); [rewrite V'; lra|].
    exists x, r. split; [exact F|]. split; [exact C|]. rewrite R, V'.
    destruct (Rlt_dec 0 (bpow radix2 (-30))); [|lra]. destruct (Rlt_dec (bpow radix2 (-30)) (bpow radix2 (- mw float32))); [|lra].
    change (-30) with (- (30)). rewrite (Zceil_pow 30) by reflexivity. cbn. lra.
  - destruct (normalize_ok float32 1 31) as [F V]; [reflexivity|vm_compute; discriminate| |].
    { unfold F2R. cbn [Fnum Fexp]. rewrite Rmult_1_l, Rabs_pos_eq by apply bpow_ge_0. apply bpow_lt. reflexivity. }
    set (x := binary_normalize _ _ _ _ _ 1 31 false) in *.
    exists x. split; [exact F|]. apply ceil_bad; [reflexivity|]. intros _. right. rewrite V. unfold F2R. cbn [Fnum Fexp].
    rewrite Rmult_1_l. change (bpow radix2 31) with (IZR (2 ^ 31)). apply IZR_lt. reflexivity.
Qed.
Print Assumptions C26_ceil_refuted.

(** floor(-2^-30f) is 0. *)
Theorem C26_floor_refuted : forall nan2 nan1,
  exists x r, is_finite _ _ x = true /\ floor float32 nan2 nan1 x = inl r /\ B2R _ _ r <> IZR (Zfloor (B2R _ _ x)).
Proof.
  intros nan2 nan1.
  destruct (normalize_ok float32 (-1) (-30)) as [F V]; [reflexivity|vm_compute; discriminate| |].
  { rewrite <- F2R_Zabs. unfold F2R. cbn [Fnum Fexp Z.abs]. rewrite Rmult_1_l. apply bpow_lt. reflexivity. }
  set (x := binary_normalize _ _ _ _ _ (-1) (-30) false) in *.
  assert (V' : B2R _ _ x = (- bpow radix2 (-30))%R) by (rewrite V; unfold F2R; cbn [Fnum Fexp]; ring).
  pose proof (bpow_gt_0 radix2 (-30)) as P0.
  assert (P1 : (bpow radix2 (-30) < bpow radix2 (- mw float32))%R) by (apply bpow_lt; reflexivity).
  assert (P2 : (bpow radix2 (- mw float32) < bpow radix2 0)%R) by (apply bpow_lt; reflexivity).
  change (bpow radix2 0) with 1%R in P2.
  destruct (floor_ok float32 nan2 nan1 eq_refl x F) as (r & C & Fr & R); [rewrite V'; lra|].
  exists x, r. split; [exact F|]. split; [exact C|]. rewrite R, V'.
  destruct (Rlt_dec (- bpow radix2 (-30)) 0); [|lra].
  destruct (Rlt_dec (- bpow radix2 (- mw float32)) (- bpow radix2 (-30))); [|lra].
  replace (Zfloor (- bpow radix2 (-30))) with (-1); [cbn; lra|]. symmetry. apply Zfloor_imp. cbn [Z.add]. cbn. lra.
Qed.
Print Assumptions C26_floor_refuted.

(** sqrt: signed zeros are returned unchanged, negative finite numbers and NaNs
    give NaN, and -inf is returned unchanged. *)
Theorem C26_sqrt_partial : forall x, pattern float32 x ->
  (is_zero_ float32 x = true -> sqrt x = x) /\
  (signbit float32 x = 1 -> is_zero_ float32 x = false -> isfinite float32 x = true -> isnan float32 (sqrt x) = true) /\
  (isnan float32 x = true -> isnan float32 (sqrt x) = true) /\
  (signbit float32 x = 1 -> isinf float32 x = true -> sqrt x = x).
Proof. exact sqrt_special. Qed.
Print Assumptions C26_sqrt_partial.

(** sqrt(+inf) is -inf, and sqrt(-inf) is not a NaN. *)
Theorem C26_sqrt_inf_refuted :
  (exists x, isinf float32 x = true /\ signbit float32 x = 0 /\ isinf float32 (sqrt x) = true /\ signbit float32 (sqrt x) = 1) /\
  (exists x, isinf float32 x = true /\ signbit float32 x = 1 /\ isnan float32 (sqrt x) = false).
Proof. split; [exists 0x7f800000|exists 0xff800000]; vm_compute; repeat split. Qed.
Print Assumptions C26_sqrt_inf_refuted.

Example C26_case : sqrt 0x80000000 = 0x80000000 /\ isnan float32 (sqrt 0xbf800000) = true /\ sqrt 0x40800000 = 1073713423.
Proof. vm_compute. repeat split. Qed.
