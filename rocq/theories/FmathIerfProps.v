(** Property C52 (ierf, the inverse of the error function).
    [V x] is the real number denoted by the bit pattern x of a float, [fin x] says that it
    is neither infinite nor NaN; [erf x] is 2/sqrt(pi) times the integral of exp(-t^2) from 0 to x. *)
From Coq Require Import ZArith Bool Lia Reals Lra.
From Flocq Require Import Core IEEE754.Binary IEEE754.Bits.
From Interval Require Import Tactic.
From Verif Require Import Mem AlgoModel FpModel FpProofs RoundModel LitModel LimModel FmathModel FmathReal FmathStep FmathExp FmathLog FmathErfRef FmathErf FmathErfProps FmathIerfRef FmathIerf.
Open Scope R_scope.

(** The factor is finite and bounded for all arguments. *)
Lemma p_any x : pattern float32 x -> fin x -> fin (ierf_p (ierf_w (ierf_a x))) /\ Rabs (V (ierf_p (ierf_w (ierf_a x)))) <= 10.
Proof.
  intros P F. destruct (a_ok x P F) as (Fa & Ha & _). destruct (w_ok _ Fa Ha) as (HW & Pw & Fw & Dw). revert HW Pw Fw Dw.
  generalize (ierf_w (ierf_a x)) (- ln (1 - V (ierf_a x) * V (ierf_a x))). intros w W HW Pw Fw Dw. clear -HW Pw Fw Dw.
  destruct (Rlt_dec (V w) 5) as [C|C].
  - destruct (p_central w W Fw Dw (proj1 HW) C) as (W5 & Fp & Dp). split; [exact Fp|]. assert (R := Pc_range (W - 5 / 2) ltac:(lra)). apply Rabs_le_inv in Dp. apply Rabs_le. lra.
  - destruct (p_tail w W Pw Fw Dw HW ltac:(lra)) as (S & Fp & Dp). split; [exact Fp|]. assert (R := Pt_range (R_sqrt.sqrt W - 3) ltac:(lra)). apply Rabs_le_inv in Dp. apply Rabs_le. lra.
Qed.

(** ** C52 *)

(** The error function of the result is within 6.7e-5 of the argument everywhere in [-1, 1], and within 1.8e-6 of it,
    relatively, up to 0.9966 (one subnormal step more for tiny arguments). *)
Theorem C52_ierf_accuracy : forall x, pattern float32 x -> fin x -> Rabs (V x) <= 1 ->
  fin (ierf_ x) /\ Rabs (V (ierf_ x)) <= 5 /\ Rabs (erf (V (ierf_ x)) - V x) <= 67 / 1000000 /\
  (Rabs (V x) <= 9966 / 10000 -> Rabs (erf (V (ierf_ x)) - V x) <= 18 / 10000000 * Rabs (V x) + bpow radix2 (-149)).
Proof. exact ierf_ok. Qed.
Print Assumptions C52_ierf_accuracy.

(** The library's own erf undoes it. *)
Theorem C52_round_trip : forall x, pattern float32 x -> fin x -> Rabs (V x) <= 1 ->
  fin (erf_ (ierf_ x)) /\ Rabs (V (erf_ (ierf_ x)) - V x) <= 7 / 100000 /\
  (Rabs (V x) <= 9966 / 10000 -> Rabs (V (erf_ (ierf_ x)) - V x) <= 45 / 10000000).
Proof.
  intros x P F B. destruct (ierf_ok x P F B) as (Fi & _ & D1 & D2). assert (Pi : pattern float32 (ierf_ x)) by (rewrite ierf_unfold; apply pat_mul).
  destruct (erf_ok _ Pi Fi) as (_ & Fe & _ & D). split; [exact Fe|].
  assert (T : forall d, Rabs (erf (V (ierf_ x)) - V x) <= d -> Rabs (V (erf_ (ierf_ x)) - V x) <= 26 / 10000000 + d).
  { intro d. revert D. clear. generalize (V (erf_ (ierf_ x))) (erf (V (ierf_ x))) (V x). intros r e v D Hd. replace (r - v) with ((r - e) + (e - v)) by ring.
    apply Rle_trans with (1 := Rabs_triang _ _). lra. }
  revert D1 D2 T. clear. generalize (V (erf_ (ierf_ x))) (erf (V (ierf_ x))) (V x). intros r e v D1 D2 T.
  split; [specialize (T _ D1); lra|]. intro H. specialize (T _ (D2 H)). destruct b150 as (_ & E & L).
  assert (/ 10 ^ 40 <= / 1000000000) by (apply Rinv_le; lra). lra.
Qed.
Print Assumptions C52_round_trip.

(** Outside [-1, 1] the argument is clamped for the factor only: the result is about 3.83 times the argument. *)
Theorem C52_ierf_outside : forall x, pattern float32 x -> fin x -> 1 < Rabs (V x) <= 10 ^ 30 ->
  fin (ierf_ x) /\ 382 / 100 * Rabs (V x) <= Rabs (V (ierf_ x)) <= 383 / 100 * Rabs (V x) /\ 0 <= V x * V (ierf_ x).
Proof.
  intros x P F B. rewrite ierf_unfold. destruct (fabs_ok' x P F) as (_ & Fa & Va). destruct lim_ok as [FL VL].
  assert (E : ierf_a x = lit 99999994 (-8)). { unfold ierf_a. cbv zeta. rewrite (fgt_ok _ _ Fa FL), VL, Va, Rlt_bool_true by lra. reflexivity. }
  rewrite E. clear E. let c := eval vm_compute in (ierf_p (ierf_w (lit 99999994 (-8)))) in replace (ierf_p (ierf_w (lit 99999994 (-8)))) with c by (vm_compute; reflexivity); set (p := c); getc K c.
  destruct K as (_ & Fp & Vp). fold p in Fp, Vp. clearbody p.
  assert (PB : 3825 / 1000 <= V p <= 3826 / 1000) by (rewrite Vp; lra). clear Vp.
  destruct (mul_ok p x Fp F) as [Fr Vr].
  { rewrite Rabs_mult, (Rabs_pos_eq (V p)) by lra. apply Rle_trans with (4 * 10 ^ 30); [clear -PB B; nra|]. change (bpow radix2 127) with (IZR (2 ^ 127)). replace (4 * 10 ^ 30) with (IZR (4 * 10 ^ 30)) by (rewrite mult_IZR, (pow_IZR 10 30); reflexivity). apply IZR_le. vm_compute. discriminate. }
  split; [exact Fr|]. rewrite Vr. destruct (rnd_rel (V p * V x)) as (e & He & R).
  { apply Rle_trans with (bpow radix2 0); [apply bpow_le; lia|]. change (bpow radix2 0) with 1. rewrite Rabs_mult, (Rabs_pos_eq (V p)) by lra. clear -PB B; nra. }
  rewrite b24 in He. apply Rabs_le_inv in He. rewrite R. split.
  - rewrite !Rabs_mult, (Rabs_pos_eq (V p)), (Rabs_pos_eq (1 + e)) by lra. replace (V p * Rabs (V x) * (1 + e)) with (V p * (1 + e) * Rabs (V x)) by ring.
    split; apply Rmult_le_compat_r; try apply Rabs_pos; clear -PB He; nra.
  - replace (V x * (V p * V x * (1 + e))) with (V p * (1 + e) * (V x * V x)) by ring. apply Rmult_le_pos; [apply Rmult_le_pos; lra|apply Rle_0_sqr].
Qed.
Print Assumptions C52_ierf_outside.

(** The infinities are kept and a NaN gives a NaN. *)
Theorem C52_special : ierf_ 0x7f800000 = 0x7f800000%Z /\ ierf_ 0xff800000 = 0xff800000%Z /\
  forall x, pattern float32 x -> isnan float32 x = true -> isnan float32 (ierf_ x) = true.
Proof.
  split; [vm_compute; reflexivity|]. split; [vm_compute; reflexivity|]. intros x P N. rewrite ierf_unfold.
  apply nan_is; [apply pat_mul|]. apply nan_mul_r. now apply nan_is.
Qed.
Print Assumptions C52_special.

Lemma mul_neg p x : fin p -> pattern float32 x -> fin x -> Rabs (V p) <= 10 -> Rabs (V x) <= 10 ^ 30 -> V (mulf p (negf x)) = - V (mulf p x).
Proof.
  intros Fp P F Bp B. destruct (neg_ok x P F) as (Pn & Fn & Vn).
  assert (L : Rabs (V p * V x) <= bpow radix2 127).
  { apply Rle_trans with (10 * 10 ^ 30).
    - rewrite Rabs_mult. apply Rmult_le_compat; try apply Rabs_pos; lra.
    - change (bpow radix2 127) with (IZR (2 ^ 127)). replace (10 * 10 ^ 30) with (IZR (10 * 10 ^ 30)) by (rewrite mult_IZR, (pow_IZR 10 30); reflexivity). apply IZR_le. vm_compute. discriminate. }
  destruct (mul_ok p x Fp F L) as [_ ->]. destruct (mul_ok p (negf x) Fp Fn) as [_ ->]; rewrite Vn, <- Ropp_mult_distr_r; [now rewrite Rabs_Ropp|apply rnd_opp].
Qed.

Lemma mul_zero p x : fin p -> fin x -> V x = 0 -> V (mulf p x) = 0.
Proof.
  intros Fp F Z. destruct (mul_ok p x Fp F) as [_ ->]; [rewrite Z, Rmult_0_r, Rabs_R0; apply bpow_ge_0|]. now rewrite Z, Rmult_0_r, rnd_0.
Qed.

Lemma a_neg x : pattern float32 x -> fin x -> V x <> 0 -> ierf_a (negf x) = ierf_a x.
Proof.
  intros P F Z. destruct (neg_ok x P F) as (Pn & Fn & Vn). destruct (fabs_ok' x P F) as (P1 & F1 & V1). destruct (fabs_ok' _ Pn Fn) as (P2 & F2 & V2). rewrite Vn, Rabs_Ropp in V2.
  unfold ierf_a. replace (fabs float32 (negf x)) with (fabs float32 x); [reflexivity|]. apply V_inj; try assumption; [congruence|]. rewrite V1. now apply Rabs_no_R0.
Qed.

(** It is odd: negating the argument negates the result. *)
Theorem C52_ierf_odd : forall x, pattern float32 x -> fin x -> Rabs (V x) <= 10 ^ 30 -> V (ierf_ (negf x)) = - V (ierf_ x).
Proof.
  intros x P F B. destruct (neg_ok x P F) as (Pn & Fn & Vn). destruct (p_any x P F) as [Fp Bp]. rewrite !ierf_unfold. destruct (Req_dec (V x) 0) as [Z|Z].
  - rewrite (mul_zero _ x Fp F Z), Ropp_0. apply mul_zero; [apply (p_any _ Pn Fn)|exact Fn|]. now rewrite Vn, Z, Ropp_0.
  - rewrite (a_neg x P F Z). now apply mul_neg.
Qed.
Print Assumptions C52_ierf_odd.

(** It is not an inverse to float accuracy: at some argument below 1 the error function of the result is off by 2e-5,
    over 300 units in the last place. *)
Theorem C52_ierf_float_accuracy_refuted : exists x, pattern float32 x /\ fin x /\ 0 < V x < 1 /\ erf (V (ierf_ x)) <= V x - 2 / 100000.
Proof.
  exists 1065329623%Z. getc H 1065329623%Z. destruct H as (A & B & C). split; [exact A|]. split; [exact B|]. rewrite C. split; [lra|].
  replace (ierf_ 1065329623) with 1074811587%Z by (vm_compute; reflexivity). getc H 1074811587%Z. destruct H as (_ & _ & ->). apply ierf_bad_num.
Qed.
Print Assumptions C52_ierf_float_accuracy_refuted.

(** ierf(0.5f) = 0.4769363 *)
Example C52_case : ierf_ 0x3f000000 = 1056190718%Z /\ pattern float32 0x3f000000 /\ fin 0x3f000000 /\ Rabs (V 0x3f000000) <= 1.
Proof. split; [vm_compute; reflexivity|]. getc H 0x3f000000%Z. destruct H as (A & B & C). split; [exact A|]. split; [exact B|]. rewrite C. interval. Qed.
