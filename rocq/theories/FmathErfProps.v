(** Property C50 (erf and erfc).
    [V x] is the real number denoted by the bit pattern x of a float, [fin x] says that it
    is neither infinite nor NaN; [erf x] is 2/sqrt(pi) times the integral of exp(-t^2) from 0 to x. *)
From Coq Require Import ZArith Bool Lia Reals Lra.
From Flocq Require Import Core IEEE754.Binary IEEE754.Bits.
From Interval Require Import Tactic.
From Verif Require Import Mem AlgoModel FpModel FpProofs RoundModel LitModel LimModel FmathModel FmathReal FmathStep FmathExp FmathErfRef FmathErf FmathLog.
Open Scope R_scope.

(** ** NaN propagation *)
Definition nanp (x : Z) : Prop := is_nan 24 128 (b32_of_bits x) = true.

Lemma nan_is x : pattern float32 x -> nanp x <-> isnan float32 x = true.
Proof. intro P. rewrite isnan_spec by exact P. reflexivity. Qed.

Ltac nan_op x y := unfold nanp; rewrite of_bits_of;
  destruct (b32_of_bits x) as [s|s|s pl e|s m e b0]; try discriminate; intros _;
  destruct (b32_of_bits y) as [s'|s'|s' pl' e'|s' m' e' b1]; reflexivity.
Lemma nan_mul_l x y : nanp x -> nanp (mulf x y).
Proof. unfold mulf. nan_op x y. Qed.
Lemma nan_sub_r x y : nanp x -> nanp (subf y x).
Proof. unfold subf. nan_op x y. Qed.
Lemma nan_div_r x y : nanp x -> nanp (divf y x).
Proof. unfold divf. nan_op x y. Qed.
Lemma nan_add_l x y : nanp x -> nanp (addf x y).
Proof. unfold addf. nan_op x y. Qed.
Lemma nan_mul_r x y : nanp x -> nanp (mulf y x).
Proof. unfold mulf. nan_op x y. Qed.

Lemma nan_madd x y z : nanp x -> nanp (madd x y z).
Proof. intro H. unfold madd. apply nan_add_l, nan_mul_l, H. Qed.
Lemma nan_madd2 x y z : nanp y -> nanp (madd x y z).
Proof. intro H. unfold madd. apply nan_add_l, nan_mul_r, H. Qed.

Lemma nan_fabs x : nanp x -> fabs float32 x = x.
Proof.
  unfold nanp, fabs, flt. change (val float32 x) with (b32_of_bits x). destruct (b32_of_bits x) as [s|s|s pl e|s m e b0]; try discriminate. reflexivity.
Qed.

Lemma nan_copysign x y : pattern float32 x -> pattern float32 y -> nanp x -> isnan float32 (copysign x y) = true.
Proof.
  intros Px Py H. apply (nan_is x Px) in H. destruct (copysign_bits x y Px Py) as (_ & M & E & _). unfold isnan in *. now rewrite M, E.
Qed.

(** ** C50 *)

(** erf is within 2.6e-6 of the error function on all finite arguments, and never leaves [-1, 1]. *)
Theorem C50_erf_accuracy : forall x, pattern float32 x -> fin x ->
  fin (erf_ x) /\ Rabs (V (erf_ x)) <= 1 /\ Rabs (V (erf_ x) - erf (V x)) <= 26 / 10000000.
Proof. intros x P F. destruct (erf_ok x P F) as [_ H]. exact H. Qed.
Print Assumptions C50_erf_accuracy.

(** erfc is within 2.7e-6 of 1 - erf on all finite arguments, and never leaves [0, 2]. *)
Theorem C50_erfc_accuracy : forall x, pattern float32 x -> fin x ->
  fin (erfc_ x) /\ 0 <= V (erfc_ x) <= 2 /\ Rabs (V (erfc_ x) - (1 - erf (V x))) <= 27 / 10000000.
Proof. exact erfc_ok. Qed.
Print Assumptions C50_erfc_accuracy.

(** At the infinities erf is 1 and -1, erfc is 0 and 2; a NaN gives a NaN. *)
Theorem C50_special :
  V (erf_ 0x7f800000) = 1 /\ V (erf_ 0xff800000) = -1 /\ V (erfc_ 0x7f800000) = 0 /\ V (erfc_ 0xff800000) = 2 /\
  forall x, pattern float32 x -> isnan float32 x = true -> isnan float32 (erf_ x) = true /\ isnan float32 (erfc_ x) = true.
Proof.
  replace (erf_ 0x7f800000) with 0x3f800000%Z by (vm_compute; reflexivity). replace (erf_ 0xff800000) with 0xbf800000%Z by (vm_compute; reflexivity).
  replace (erfc_ 0x7f800000) with 0%Z by (vm_compute; reflexivity). replace (erfc_ 0xff800000) with 0x40000000%Z by (vm_compute; reflexivity).
  getc H1 0x3f800000%Z. getc H2 0xbf800000%Z. getc H3 0x40000000%Z. destruct H1 as (_ & _ & ->), H2 as (_ & _ & ->), H3 as (_ & _ & ->).
  split; [lra|]. split; [lra|]. split; [apply fin_zero|]. split; [lra|]. intros x P N. apply (nan_is x P) in N.
  assert (E : nanp (erf_mag (fabs float32 x))).
  { rewrite nan_fabs by exact N. unfold erf_mag, erf_fin. apply nan_sub_r, nan_div_r. do 4 apply nan_mul_l. unfold erf_poly. apply nan_madd2, nan_sub_r, nan_sub_r, N. }
  assert (E' : isnan float32 (erf_ x) = true).
  { rewrite erf_unfold. apply nan_copysign; [apply pat_bits|exact P|exact E]. }
  split; [exact E'|]. apply nan_is; [apply pat_bits|]. unfold erfc_. apply nan_sub_r. apply nan_is; [|exact E'].
  rewrite erf_unfold. apply copysign_bits; [apply pat_bits|exact P].
Qed.
Print Assumptions C50_special.

(** The relative error of erfc is not bounded: erfc(4) is 0, not 1.54e-8. *)
Theorem C50_erfc_relative_refuted :
  exists x, pattern float32 x /\ fin x /\ V x = 4 /\ V (erfc_ x) = 0 /\ 15 / 1000000000 <= 1 - erf (V x).
Proof.
  getc H 0x40800000%Z. destruct H as (A & B & C). exists 0x40800000%Z. split; [exact A|]. split; [exact B|]. rewrite C.
  split; [lra|]. split; [replace (erfc_ 0x40800000) with 0%Z by (vm_compute; reflexivity); apply fin_zero|].
  replace (8388608 / 2097152) with 4 by lra. apply erf_4_low.
Qed.
Print Assumptions C50_erfc_relative_refuted.

(** erf(0.5f) = 0x3f053f7a, about 0.5204998; 0.5f meets the hypotheses. *)
Example C50_case : erf_ 0x3f000000 = 1057308538%Z /\ pattern float32 0x3f000000 /\ fin 0x3f000000.
Proof. split; [vm_compute; reflexivity|]. getc H 0x3f000000%Z. destruct H as (A & B & _). split; [exact A|exact B]. Qed.
