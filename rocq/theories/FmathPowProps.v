(** Property C51 (pow).
    [V x] is the real number denoted by the bit pattern x of a float, [fin x] says that it
    is neither infinite nor NaN, [Rpower a b] is a^b for positive a. *)
From Coq Require Import ZArith Bool Lia Reals Lra.
From Flocq Require Import Core IEEE754.Binary IEEE754.Bits.
From Interval Require Import Tactic.
From Verif Require Import Mem AlgoModel FpModel FpProofs RoundModel LitModel LimModel FmathModel FmathReal FmathStep FmathExp FmathLog FmathPow.
Open Scope R_scope.

Lemma log2_ln t u : u * (ln t / ln 2) = u * log2 t.
Proof. reflexivity. Qed.

(** For x >= epsilon and |y| <= 1000, as long as x^y is between 2^-124.99 and 2^124.99. *)
Theorem C51_pow_accuracy : forall x y, pattern float32 x -> fin x -> pattern float32 y -> fin y ->
  bpow radix2 (-23) <= V x -> Rabs (V y) <= 1000 -> Rabs (V y * (ln (V x) / ln 2)) <= 12499 / 100 ->
  exists r, pow_ x y = Ok r /\ fin r /\
    Rabs (V r - Rpower (V x) (V y)) <=
      (16 / 1000000 + 42 / 100000000 * Rabs (V y) + 9 / 100000000 * Rabs (V y * (ln (V x) / ln 2))) * Rpower (V x) (V y).
Proof.
  intros x y Px Fx Py Fy Bx By. rewrite log2_ln, rpower_pow2. intro BL. now apply pow_pos_ok.
Qed.
Print Assumptions C51_pow_accuracy.

(** Outside that range it saturates. *)
Theorem C51_pow_saturates : forall x y, pattern float32 x -> fin x -> pattern float32 y -> fin y ->
  bpow radix2 (-23) <= V x -> Rabs (V y) <= 1000 -> V y <> 1 -> V y <> 2 ->
  (12601 / 100 <= V y * (ln (V x) / ln 2) -> exists r, pow_ x y = Ok r /\ V r = bpow radix2 126) /\
  (V y * (ln (V x) / ln 2) <= - (12601 / 100) -> exists r, pow_ x y = Ok r /\ V r = bpow radix2 (-126)).
Proof. intros x y Px Fx Py Fy Bx By N1 N2. rewrite log2_ln. now apply pow_sat. Qed.
Print Assumptions C51_pow_saturates.

(** The exponents 0 (in fact any |y| < epsilon), 1 and 2, and bases |x| < epsilon. *)
Theorem C51_pow_exact : forall x y, pattern float32 x -> fin x -> pattern float32 y -> fin y ->
  (Rabs (V y) < bpow radix2 (-23) -> exists r, pow_ x y = Ok r /\ V r = 1) /\
  (bpow radix2 (-23) <= Rabs (V y) -> Rabs (V x) < bpow radix2 (-23) -> exists r, pow_ x y = Ok r /\ V r = 0) /\
  (bpow radix2 (-23) <= Rabs (V x) -> V y = 1 -> pow_ x y = Ok x) /\
  (bpow radix2 (-23) <= Rabs (V x) -> V y = 2 -> exists r, pow_ x y = Ok r /\
     V r = let s := round radix2 (FLT_exp (-149) 24) ZnearestE (V x * V x) in
           if Rlt_bool s (bpow radix2 128) then s else bpow radix2 128 - bpow radix2 104).
Proof.
  intros x y Px Fx Py Fy. rewrite pow_guards by assumption.
  assert (K1 : bpow radix2 (-23) <= 1) by (apply (bpow_le radix2 (-23) 0); lia).
  repeat split.
  - intro H. rewrite Rlt_bool_true by exact H. exists f_one. split; [reflexivity|apply one_ok].
  - intros H1 H2. rewrite Rlt_bool_false by exact H1. rewrite Rlt_bool_true by exact H2. exists fzero. split; [reflexivity|apply fin_zero].
  - intros H1 H2. rewrite H2, Rabs_pos_eq, Rlt_bool_false by lra. rewrite Rlt_bool_false by exact H1. now rewrite Req_bool_true.
  - intros H1 H2. rewrite H2, Rabs_pos_eq, Rlt_bool_false by lra. rewrite Rlt_bool_false by exact H1. rewrite Req_bool_false by lra. rewrite Req_bool_true by reflexivity.
    eexists. split; [reflexivity|]. apply pow_sq. exact Fx.
Qed.
Print Assumptions C51_pow_exact.

(** A negative base with an integer exponent: the value for |x|, negated for odd exponents;
    with any other exponent the result is 0. *)
Theorem C51_pow_negative : forall x y, pattern float32 x -> fin x -> pattern float32 y -> fin y ->
  V x < 0 -> bpow radix2 (-23) <= Rabs (V x) -> bpow radix2 (-23) <= Rabs (V y) ->
  (forall n, V y = IZR n -> exists a r r', pattern float32 a /\ fin a /\ V a = - V x /\
     pow_ x y = Ok r /\ pow_ a y = Ok r' /\ V r = if Z.even n then V r' else - V r') /\
  ((forall n, V y <> IZR n) -> exists r, pow_ x y = Ok r /\ V r = 0).
Proof.
  intros x y Px Fx Py Fy Nx Bx By. destruct (pow_neg x y Px Fx Py Fy Nx Bx By) as [H1 H2]. split.
  - intros n En. destruct (H1 n En) as (r & r' & Q). destruct (fabs_ok' x Px Fx) as (A & B & C). exists (fabs float32 x), r, r'.
    split; [exact A|]. split; [exact B|]. split; [rewrite C, Rabs_left; lra|exact Q].
  - intro NI. exists fzero. split; [now apply H2|apply fin_zero].
Qed.
Print Assumptions C51_pow_negative.

(** pow returns a value for all arguments, including infinities and NaN. *)
Theorem C51_pow_total : forall x y, exists r, pow_ x y = Ok r.
Proof. exact pow_total. Qed.
Print Assumptions C51_pow_total.

(** The comment "0^y = 0" is applied to every |x| < epsilon, also for negative y:
    pow(2^-24, -1) is 0 and not 2^24. *)
Theorem C51_pow_tiny_base_refuted : exists x y r, pattern float32 x /\ fin x /\ pattern float32 y /\ fin y /\
  V x = bpow radix2 (-24) /\ V y = -1 /\ pow_ x y = Ok r /\ V r = 0 /\ Rpower (V x) (V y) = bpow radix2 24.
Proof.
  destruct (V_mk 103 0) as [A B]; [lia|lia|]. getc H 0xbf800000%Z. destruct H as (A' & B' & C').
  assert (W : V (103 * 2 ^ 23 + 0) = bpow radix2 (-24)).
  { rewrite B. replace (IZR (2 ^ 23 + 0)) with (bpow radix2 23) by reflexivity. rewrite <- bpow_plus. reflexivity. }
  exists (103 * 2 ^ 23 + 0)%Z, 0xbf800000%Z, 0%Z. split; [split; vm_compute; congruence|]. split; [exact A|]. split; [exact A'|]. split; [exact B'|].
  split; [exact W|]. assert (Y : V 0xbf800000 = -1) by (rewrite C'; lra). split; [exact Y|]. split; [vm_compute; reflexivity|]. split; [apply fin_zero|].
  rewrite W, Y. unfold Rpower. rewrite !bpow_exp, ln_exp. f_equal. ring.
Qed.
Print Assumptions C51_pow_tiny_base_refuted.

(** pow(3.0f, 2.5f) and pow(-3.0f, 3.0f) *)
Example C51_case : pow_ 0x40400000 0x40200000 = Ok 1098476084%Z /\ pow_ 0xc0400000 0x40400000 = Ok 3252158541%Z /\
  pattern float32 0x40400000 /\ fin 0x40400000 /\ bpow radix2 (-23) <= V 0x40400000 /\ Rabs (V 0x40200000 * (ln (V 0x40400000) / ln 2)) <= 12499 / 100.
Proof.
  split; [vm_compute; reflexivity|]. split; [vm_compute; reflexivity|]. getc H 0x40400000%Z. destruct H as (A & B & C). getc H' 0x40200000%Z. destruct H' as (A' & B' & C').
  split; [exact A|]. split; [exact B|]. rewrite C, C'. split; [cbn; lra|]. interval.
Qed.
