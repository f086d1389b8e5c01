(** Properties C48 (sqrt) and C49 (cbrt).
    [V x] is the real number denoted by the bit pattern x of a float, [fin x] says that it
    is neither infinite nor NaN. *)
From Coq Require Import ZArith Bool Lia Reals Lra.
From Flocq Require Import Core IEEE754.Binary IEEE754.Bits.
From Interval Require Import Tactic.
From Verif Require Import Mem AlgoModel FpModel FpProofs RoundModel LitModel LimModel FmathModel FmathReal FmathStep FmathExp FmathLog FmathSqrt FmathCbrt.
Open Scope R_scope.

(** ** C48 *)

(** On every positive normal number sqrt is at most 0.176% too small and at most 1.43e-6 too large. *)
Theorem C48_sqrt_accuracy : forall x, pattern float32 x -> fin x -> bpow radix2 (-126) <= V x ->
  fin (sqrt x) /\ (1 - 176 / 100000) * R_sqrt.sqrt (V x) <= V (sqrt x) <= (1 + / 700000) * R_sqrt.sqrt (V x).
Proof. intros x P F B. destruct (sqrt_ok x P F B) as [A H]. split; [exact A|]. lra. Qed.
Print Assumptions C48_sqrt_accuracy.

(** It is not correctly rounded, not even at perfect squares: sqrt(4.0f) < 1.9967. *)
Theorem C48_sqrt_exact_refuted : exists x, pattern float32 x /\ fin x /\ V x = 4 /\ V (sqrt x) < 19967 / 10000.
Proof.
  getc H4 0x40800000%Z. destruct H4 as (A & B & C). exists 0x40800000%Z. split; [exact A|]. split; [exact B|]. split; [rewrite C; lra|].
  replace (sqrt 0x40800000) with 1073713423%Z by (vm_compute; reflexivity).
  getc H 1073713423%Z. destruct H as (_ & _ & ->). lra.
Qed.
Print Assumptions C48_sqrt_exact_refuted.

(** On subnormal numbers it is wrong by orders of magnitude: sqrt(2^-149) is below a thousandth of the root. *)
Theorem C48_sqrt_subnormal_refuted : exists x, pattern float32 x /\ fin x /\ 0 < V x /\ 0 <= 1000 * V (sqrt x) <= R_sqrt.sqrt (V x).
Proof.
  exists 1%Z. destruct (V_mk0 1) as [F W]; [lia|]. split; [split; vm_compute; congruence|]. split; [exact F|].
  rewrite W, Rmult_1_l. split; [apply bpow_gt_0|].
  replace (sqrt 1) with (42 * 2 ^ 23 + 623463)%Z by (vm_compute; reflexivity).
  destruct (V_mk 42 623463) as [_ R]; [lia|lia|]. rewrite R. replace (IZR (2 ^ 23 + 623463)) with 9012071 by reflexivity.
  assert (K := bpow_gt_0 radix2 (42 - 150)). split; [lra|].
  apply Rsqr_incr_0_var; [|apply sqrt_pos]. rewrite Rsqr_sqrt by apply bpow_ge_0. unfold Rsqr.
  replace (1000 * (9012071 * bpow radix2 (42 - 150)) * (1000 * (9012071 * bpow radix2 (42 - 150)))) with (1000 * 1000 * 9012071 * 9012071 * (bpow radix2 (42 - 150) * bpow radix2 (42 - 150))) by ring.
  rewrite <- bpow_plus. replace (-149)%Z with (67 + (42 - 150 + (42 - 150)))%Z by reflexivity. rewrite (bpow_plus radix2 67). apply Rmult_le_compat_r; [apply bpow_ge_0|]. cbn. lra.
Qed.
Print Assumptions C48_sqrt_subnormal_refuted.

(** sqrt(9.0f) = 0x403fcdf3... and the hypotheses of the accuracy theorem hold for 9.0f *)
Example C48_case : sqrt 0x41100000 = 1077921779%Z /\ pattern float32 0x41100000 /\ fin 0x41100000 /\ bpow radix2 (-126) <= V 0x41100000.
Proof.
  split; [vm_compute; reflexivity|]. getc H 0x41100000%Z. destruct H as (A & B & C). split; [exact A|]. split; [exact B|]. rewrite C.
  apply Rle_trans with (bpow radix2 0); [apply bpow_le; lia|cbn; lra].
Qed.

(** ** C49 *)

(** From 2^-23 = epsilon up, cbrt is within 1.5e-6, relatively, of the real cube root. *)
Theorem C49_cbrt_accuracy : forall x, pattern float32 x -> fin x -> bpow radix2 (-23) <= Rabs (V x) ->
  exists c, c * c * c = V x /\ fin (cbrt_ x) /\ Rabs (V (cbrt_ x) - c) <= 15 / 10000000 * Rabs c.
Proof. intros x P F B. destruct (cbrt_ok x P F B) as (c & E & _ & H). now exists c. Qed.
Print Assumptions C49_cbrt_accuracy.

(** Below epsilon the result is zero. *)
Theorem C49_cbrt_tiny : forall x, pattern float32 x -> fin x -> Rabs (V x) < bpow radix2 (-23) -> fin (cbrt_ x) /\ V (cbrt_ x) = 0.
Proof. exact cbrt_tiny. Qed.
Print Assumptions C49_cbrt_tiny.

(** Hence the error is not the 12 units in the last place given in the source:
    the cube root of 2^-24 is 2^-8, the result is 0. *)
Theorem C49_cbrt_documented_refuted : exists x c, pattern float32 x /\ fin x /\ bpow radix2 (-126) <= V x /\
  c * c * c = V x /\ c = bpow radix2 (-8) /\ V (cbrt_ x) = 0.
Proof.
  destruct (V_mk 103 0) as [A B]; [lia|lia|].
  assert (W : V (103 * 2 ^ 23 + 0) = bpow radix2 (-24)).
  { rewrite B. replace (IZR (2 ^ 23 + 0)) with (bpow radix2 23) by reflexivity. rewrite <- bpow_plus. reflexivity. }
  assert (P : pattern float32 (103 * 2 ^ 23 + 0)) by (split; vm_compute; congruence).
  exists (103 * 2 ^ 23 + 0)%Z, (bpow radix2 (-8)). split; [exact P|]. split; [exact A|]. rewrite W.
  split; [apply bpow_le; lia|]. split; [rewrite <- !bpow_plus; reflexivity|]. split; [reflexivity|].
  apply cbrt_tiny; [exact P|exact A|]. rewrite W, Rabs_pos_eq by apply bpow_ge_0. apply bpow_lt. lia.
Qed.
Print Assumptions C49_cbrt_documented_refuted.

(** cbrt(inf) is a NaN *)
Theorem C49_cbrt_special_refuted : exists x, isinf float32 x = true /\ isnan float32 (cbrt_ x) = true.
Proof. exists 0x7f800000%Z. split; vm_compute; reflexivity. Qed.
Print Assumptions C49_cbrt_special_refuted.

(** cbrt(8.0f) is the float after 2; 8.0f meets the hypotheses of the accuracy theorem *)
Example C49_case : cbrt_ 0x41000000 = 0x40000001%Z /\ pattern float32 0x41000000 /\ fin 0x41000000 /\ bpow radix2 (-23) <= Rabs (V 0x41000000).
Proof.
  split; [vm_compute; reflexivity|]. getc H 0x41000000%Z. destruct H as (A & B & C). split; [exact A|]. split; [exact B|]. rewrite C, Rabs_pos_eq by lra.
  apply Rle_trans with (bpow radix2 0); [apply bpow_le; lia|cbn; lra].
Qed.
