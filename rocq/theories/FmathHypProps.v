(** Property C47 (sinh, cosh, tanh).
    [V x] is the real number denoted by the bit pattern x of a float, [fin x] says that it
    is neither infinite nor NaN; sinh, cosh and tanh are those of the real numbers. *)
From Coq Require Import ZArith Bool Lia Reals Lra.
From Flocq Require Import Core IEEE754.Binary IEEE754.Bits.
From Interval Require Import Tactic.
From Verif Require Import Mem AlgoModel FpModel FpProofs RoundModel LitModel LimModel FmathModel FmathReal FmathStep FmathExp FmathLog FmathHyp.
Open Scope R_scope.

(** sinh: absolute error 3e-7 up to 1, relative error of the order of that of exp above. *)
Theorem C47_sinh_accuracy : forall x, pattern float32 x -> fin x -> Rabs (V x) <= 8733 / 100 ->
  exists r, sinh_ x = Ok r /\ fin r /\
    (Rabs (V x) <= 1 -> Rabs (V r - sinh (V x)) <= 3 / 10000000) /\
    (1 <= Rabs (V x) -> Rabs (V r - sinh (V x)) <= (22 / 1000000 + Rabs (V x) * (14 / 100000000)) * Rabs (sinh (V x))).
Proof.
  intros x P F B. destruct (Rle_dec (Rabs (V x)) 1) as [H|H].
  - destruct (sinh_small x P F H) as (r & Q & _ & Fr & E). exists r. split; [exact Q|]. split; [exact Fr|]. split; [intros _; exact E|].
    intro H1. destruct (sinh_large x P F) as (r' & Q' & _ & _ & E'); [lra|]. rewrite Q in Q'. assert (X : r' = r) by congruence. rewrite <- X. exact E'.
  - destruct (sinh_large x P F) as (r & Q & _ & Fr & E); [lra|]. exists r. split; [exact Q|]. split; [exact Fr|]. split; [intro; lra|intros _; exact E].
Qed.
Print Assumptions C47_sinh_accuracy.

(** cosh: relative error of exp. *)
Theorem C47_cosh_accuracy : forall x, pattern float32 x -> fin x -> Rabs (V x) <= 8733 / 100 ->
  exists r, cosh_ x = Ok r /\ fin r /\ Rabs (V r - cosh (V x)) <= (17 / 1000000 + Rabs (V x) / 10000000) * cosh (V x).
Proof. intros x P F B. destruct (cosh_ok x P F B) as (r & Q & _ & H). now exists r. Qed.
Print Assumptions C47_cosh_accuracy.

(** tanh: absolute error below 1e-5 on all finite arguments, and never outside [-1, 1]. *)
Theorem C47_tanh_accuracy : forall x, pattern float32 x -> fin x ->
  exists r, tanh_ x = Ok r /\ fin r /\ Rabs (V r) <= 1 /\ Rabs (V r - tanh (V x)) <= 95 / 10000000.
Proof. intros x P F. destruct (tanh_ok x P F) as (r & Q & _ & H). now exists r. Qed.
Print Assumptions C47_tanh_accuracy.

(** Beyond the range of exp the results are exactly 2^125, with the sign of x for sinh. *)
Theorem C47_saturation : forall x, pattern float32 x -> fin x -> 8734 / 100 <= Rabs (V x) ->
  exists s c, sinh_ x = Ok s /\ V s = (if Rlt_bool (V x) 0 then - bpow radix2 125 else bpow radix2 125) /\
    cosh_ x = Ok c /\ V c = bpow radix2 125.
Proof.
  intros x P F B. destruct (hyp_sat x P F B) as [H1 H2]. destruct sat_const as (Ps & Fs & Vs).
  eexists _, _. split; [exact H2|]. split; [|split; [exact H1|exact Vs]].
  destruct (copysign_ok f_sat x Ps P Fs) as (_ & _ & ->). rewrite Vs, (Rabs_pos_eq (bpow radix2 125)) by apply bpow_ge_0.
  destruct (sgn_V x P F) as [S1 S2]. destruct (sgn float32 x).
  - rewrite Rlt_bool_true; [ring|]. specialize (S1 eq_refl). destruct (Req_dec (V x) 0) as [Z|Z]; [rewrite Z, Rabs_R0 in B; lra|lra].
  - rewrite Rlt_bool_false by (now apply S2). ring.
Qed.
Print Assumptions C47_saturation.

(** The values C requires at infinities and NaN are not produced: sinh(inf) and cosh(inf) are
    finite, tanh(NaN) is 1 and cosh(NaN) is a number. *)
Theorem C47_special_refuted :
  exists pinf nan r1 r2 r3 r4, isinf float32 pinf = true /\ isnan float32 nan = true /\
    sinh_ pinf = Ok r1 /\ isinf float32 r1 = false /\ cosh_ pinf = Ok r2 /\ isinf float32 r2 = false /\
    tanh_ nan = Ok r3 /\ V r3 = 1 /\ cosh_ nan = Ok r4 /\ isnan float32 r4 = false.
Proof.
  exists 0x7f800000%Z, 0x7fc00000%Z, 0x7e000000%Z, 0x7e000000%Z, 0x3f800000%Z, 0x7e000000%Z.
  repeat split; try (vm_compute; reflexivity). apply one_ok.
Qed.
Print Assumptions C47_special_refuted.

(** The error of sinh near 0 is not small relative to sinh x: sinh(2^-26) = 0. *)
Theorem C47_sinh_relative_refuted :
  exists x r, pattern float32 x /\ fin x /\ V x = bpow radix2 (-26) /\ sinh_ x = Ok r /\ V r = 0 /\ 0 < sinh (V x).
Proof.
  destruct (V_mk 101 0) as [A B]; [lia|lia|]. exists (101 * 2 ^ 23 + 0)%Z, 0%Z.
  split; [split; vm_compute; congruence|]. split; [exact A|].
  assert (W : V (101 * 2 ^ 23 + 0) = bpow radix2 (-26)).
  { rewrite B. replace (IZR (2 ^ 23 + 0)) with (bpow radix2 23) by reflexivity. rewrite <- bpow_plus. reflexivity. }
  split; [exact W|]. split; [vm_compute; reflexivity|]. split; [apply fin_zero|]. rewrite W. rewrite <- sinh_0. apply sinh_lt. apply bpow_gt_0.
Qed.
Print Assumptions C47_sinh_relative_refuted.

(** sinh(-100.0f) = -2^125 and tanh(FLT_MAX) = 1; 2.0f and -100.0f meet the hypotheses above *)
Example C47_case : sinh_ 0xc2c80000%Z = Ok 0xfe000000%Z /\ tanh_ 0x7f7fffff%Z = Ok 0x3f800000%Z /\
  (pattern float32 0x40000000 /\ fin 0x40000000 /\ Rabs (V 0x40000000) <= 8733 / 100 /\ 1 <= Rabs (V 0x40000000)) /\
  (pattern float32 0xc2c80000 /\ fin 0xc2c80000 /\ 8734 / 100 <= Rabs (V 0xc2c80000)).
Proof.
  split; [vm_compute; reflexivity|]. split; [vm_compute; reflexivity|]. split.
  - destruct two_ok as (A & B & C). replace 0x40000000%Z with f_two by reflexivity. rewrite C, Rabs_pos_eq by lra. repeat split; try apply A; try exact B; lra.
  - getc H 0xc2c80000%Z. destruct H as (A & B & C). rewrite C. split; [exact A|]. split; [exact B|]. rewrite Rabs_left; lra.
Qed.
