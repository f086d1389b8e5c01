(** Properties C43 (exp) and C44 (logarithms).
    [V x] is the real number denoted by the bit pattern x of a float (Flocq's B2R
    of b32_of_bits), [fin x] says that it is neither infinite nor NaN. *)
From Coq Require Import ZArith Bool Lia Reals Lra.
From Flocq Require Import Core IEEE754.Binary IEEE754.Bits.
From Interval Require Import Tactic.
From Verif Require Import Mem AlgoModel FpModel FpProofs RoundModel LitModel LimModel FmathModel FmathReal FmathStep FmathExp FmathLog.
Open Scope R_scope.

(** ** C43 *)

(** Base-2 exponential: relative error below 1.5e-5, 3e-5 in the last binade. *)
Theorem C43_exp2_accuracy : forall x, pattern float32 x -> fin x -> -126 <= V x <= 126 ->
  exists r, fast_exp2 x = Ok r /\ fin r /\
    Rabs (V r - Rpower 2 (V x)) <= 3 / 100000 * Rpower 2 (V x) /\
    (-125 <= V x -> Rabs (V r - Rpower 2 (V x)) <= 15 / 1000000 * Rpower 2 (V x)).
Proof. intros x P F B. destruct (exp2_ok x P F B) as (r & Q & _ & Fr & E). exists r. split; [exact Q|]. split; [exact Fr|exact E]. Qed.
Print Assumptions C43_exp2_accuracy.

(** Natural exponential on the range given in the comment of the code. *)
Theorem C43_exp_accuracy : forall x, pattern float32 x -> fin x -> Rabs (V x) <= 8733 / 100 ->
  exists r, exp_ x = Ok r /\ fin r /\
    Rabs (V r - exp (V x)) <= (31 / 1000000 + Rabs (V x) / 10000000) * exp (V x) /\
    (-866 / 10 <= V x -> Rabs (V r - exp (V x)) <= (16 / 1000000 + Rabs (V x) / 10000000) * exp (V x)).
Proof. intros x P F B. destruct (exp_ok x P F B) as (r & Q & _ & Fr & E). exists r. split; [exact Q|]. split; [exact Fr|exact E]. Qed.
Print Assumptions C43_exp_accuracy.

(** Outside it the result saturates at 2^126 and 2^-126: no overflow, no zero. *)
Theorem C43_exp_saturates : forall x, pattern float32 x -> fin x ->
  (8734 / 100 <= V x -> exists r, exp_ x = Ok r /\ V r = bpow radix2 126) /\
  (V x <= - (8734 / 100) -> exists r, exp_ x = Ok r /\ V r = bpow radix2 (-126)).
Proof.
  intros x P F. destruct (exp_sat x P F) as [A B]. split; intro H.
  - exists 0x7e800000%Z. split; [now apply A|apply big_const].
  - exists 0x00800000%Z. split; [now apply B|apply small_const].
Qed.
Print Assumptions C43_exp_saturates.

(** For every argument, including infinities and NaN, the result is a positive finite number. *)
Theorem C43_exp_total : forall x, exists r, exp_ x = Ok r /\ fin r /\ 0 < V r < bpow radix2 127.
Proof. intro x. destruct (exp_total x) as (r & Q & _ & H). now exists r. Qed.
Print Assumptions C43_exp_total.

(** Hence the values required by C's exp at +inf, -inf and NaN are not produced. *)
Theorem C43_exp_special_refuted :
  exists pinf minf nan r1 r2 r3, isinf float32 pinf = true /\ V pinf = 0 /\ isinf float32 minf = true /\ isnan float32 nan = true /\
    exp_ pinf = Ok r1 /\ isinf float32 r1 = false /\ exp_ minf = Ok r2 /\ V r2 <> 0 /\ exp_ nan = Ok r3 /\ isnan float32 r3 = false.
Proof.
  exists 0x7f800000%Z, 0xff800000%Z, 0x7fc00000%Z, 0x7e800000%Z, 0x00800000%Z, 0x7e800000%Z.
  repeat split; try (vm_compute; reflexivity).
  destruct small_const as (_ & _ & W). rewrite W. apply Rgt_not_eq, bpow_gt_0.
Qed.
Print Assumptions C43_exp_special_refuted.

(** exp(1.0f) = 0x402df83c = 2.718276..., exp(-87.33f) is defined, exp(100.0f) = 2^126 *)
Example C43_case : exp_ 0x3f800000%Z = Ok 0x402df83c%Z /\ exp_ 0x42c80000%Z = Ok 0x7e800000%Z /\
  fast_exp2 0x40400000%Z = Ok 0x41000000%Z /\
  (pattern float32 0x3f800000 /\ fin 0x3f800000 /\ Rabs (V 0x3f800000) <= 8733 / 100) /\
  (pattern float32 0x42c80000 /\ fin 0x42c80000 /\ 8734 / 100 <= V 0x42c80000).
Proof.
  split; [vm_compute; reflexivity|]. split; [vm_compute; reflexivity|]. split; [vm_compute; reflexivity|]. split.
  - destruct one_ok as (A & B & C). change f_one with 0x3f800000%Z in *. split; [exact A|]. split; [exact B|]. rewrite C. rewrite Rabs_R1. lra.
  - getc H 0x42c80000%Z. destruct H as (A & B & C). split; [exact A|]. split; [exact B|]. rewrite C. lra.
Qed.

(** ** C44 *)
Theorem C44_log2_accuracy : forall x, pattern float32 x -> fin x -> bpow radix2 (-126) <= V x ->
  fin (fast_log2 x) /\
  Rabs (V (fast_log2 x) - ln (V x) / ln 2) <= 6 / 10000000 + 6 / 100000000 * Rabs (ln (V x) / ln 2) /\
  Rabs (V (fast_log2 x) - ln (V x) / ln 2) <= 45 / 10000000.
Proof. intros x P F B. destruct (log2_ok x P F B) as (A & D1 & D2 & _). now split; [|split]. Qed.
Print Assumptions C44_log2_accuracy.

(** Within the 7.62939e-06 claimed by the code, for every positive normal float. *)
Theorem C44_log_accuracy : forall x, pattern float32 x -> fin x -> bpow radix2 (-126) <= V x ->
  fin (log_ x) /\
  Rabs (V (log_ x) - ln (V x)) <= 45 / 100000000 + 13 / 100000000 * Rabs (ln (V x)) /\
  Rabs (V (log_ x) - ln (V x)) <= 72 / 10000000.
Proof. exact log_ok. Qed.
Print Assumptions C44_log_accuracy.

Theorem C44_log10_accuracy : forall x, pattern float32 x -> fin x -> bpow radix2 (-126) <= V x ->
  fin (log10_ x) /\
  Rabs (V (log10_ x) - ln (V x) / ln 10) <= 20 / 100000000 + 17 / 100000000 * Rabs (ln (V x) / ln 10) /\
  Rabs (V (log10_ x) - ln (V x) / ln 10) <= 53 / 10000000.
Proof. exact log10_ok. Qed.
Print Assumptions C44_log10_accuracy.

(** Both zeros give -inf and one gives +0. *)
Theorem C44_log_exact : forall x, pattern float32 x -> fin x ->
  (V x = 0 -> log_ x = 0xff800000%Z /\ log10_ x = 0xff800000%Z) /\
  (V x = 1 -> log_ x = 0%Z /\ log10_ x = 0%Z).
Proof.
  intros x P F. split; intro E.
  - assert (Z : is_zero_ float32 x = true).
    { rewrite iszero_spec. change (val float32 x) with (b32_of_bits x). revert F E. unfold fin, V.
      destruct (b32_of_bits x) as [s|s|s pl e|s m e h]; intros F E; try reflexivity; try discriminate F.
      cbn [B2R] in E. apply eq_0_F2R in E. destruct s; discriminate E. }
    unfold log_, log10_. rewrite Z. split; vm_compute; reflexivity.
  - apply V_one_iff in E; [|exact P|exact F]. subst x. split; vm_compute; reflexivity.
Qed.
Print Assumptions C44_log_exact.

(** Every positive subnormal has the logarithm of 2^-126: the bound fails below 2^-126. *)
Theorem C44_log2_subnormal_refuted :
  exists x, pattern float32 x /\ fin x /\ 0 < V x /\ V (fast_log2 x) = -126 /\ ln (V x) / ln 2 = -149.
Proof.
  destruct (V_mk0 1) as [F W]; [lia|]. rewrite Rmult_1_l in W.
  exists 1%Z. split; [split; [lia|reflexivity]|]. split; [exact F|]. rewrite W. split; [apply bpow_gt_0|]. split.
  - rewrite log2_clamp; [apply fm126_ok|exact F|]. rewrite W. apply bpow_le. lia.
  - rewrite bpow_exp, ln_exp. field. assert (0 < ln 2) by interval. lra.
Qed.
Print Assumptions C44_log2_subnormal_refuted.

(** A negative argument gives +inf (C requires NaN), +inf and NaN give finite numbers. *)
Theorem C44_log_special_refuted :
  (forall x, flt float32 x fzero = true -> log_ x = lim_inf /\ log10_ x = lim_inf) /\
  exists pinf nan, isinf float32 pinf = true /\ isnan float32 nan = true /\ isfinite float32 (log_ pinf) = true /\ isfinite float32 (log_ nan) = true.
Proof.
  split.
  - intros x H. unfold log_, log10_. rewrite H.
    assert (Z : is_zero_ float32 x = false).
    { rewrite iszero_spec. unfold flt in H. change (val float32 fzero) with (B754_zero 24 128 false) in H.
      destruct (val float32 x); try reflexivity. discriminate H. }
    rewrite Z. destruct (Z.eqb_spec x f_one) as [->|]; [vm_compute in H; discriminate H|]. split; reflexivity.
  - exists 0x7f800000%Z, 0x7fc00000%Z. repeat split; vm_compute; reflexivity.
Qed.
Print Assumptions C44_log_special_refuted.

(** log(2.0f) = 0x3f317218, log10(1000.0f) = 3.0f, log2(8.0f) = 3.0f *)
Example C44_case : log_ 0x40000000 = 0x3f317218%Z /\ log10_ 0x447a0000 = 0x40400000%Z /\ fast_log2 0x41000000 = 0x40400000%Z /\
  (pattern float32 0x447a0000 /\ fin 0x447a0000 /\ bpow radix2 (-126) <= V 0x447a0000) /\ flt float32 0xbf800000 fzero = true.
Proof.
  split; [vm_compute; reflexivity|]. split; [vm_compute; reflexivity|]. split; [vm_compute; reflexivity|]. split; [|vm_compute; reflexivity].
  getc H 0x447a0000%Z. destruct H as (A & B & C). split; [exact A|]. split; [exact B|]. rewrite C.
  apply Rle_trans with (bpow radix2 0); [apply bpow_le; lia|]. replace (bpow radix2 0) with 1 by reflexivity. lra.
Qed.
