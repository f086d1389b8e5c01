(** Properties C45 (sin, cos) and C46 (tan).
    [V x] is the real number denoted by the bit pattern x of a float, [fin x] says
    that it is neither infinite nor NaN. *)
From Coq Require Import ZArith Bool Lia Reals Lra.
From Flocq Require Import Core IEEE754.Binary IEEE754.Bits.
From Interval Require Import Tactic.
From Verif Require Import Mem AlgoModel FpModel FpProofs RoundModel LitModel LimModel FmathModel FmathReal FmathStep FmathExp FmathLog FmathReduce FmathFast FmathTrig FmathTrig2 FmathTan.
Open Scope R_scope.

(** ** C45 *)
Theorem C45_sin_accuracy : forall x, pattern float32 x -> fin x -> Rabs (V x) <= 25732 ->
  exists r, sin_ x = Ok r /\ fin r /\ Rabs (V r) <= 1 /\ Rabs (V r - sin (V x)) <= 54 / 100000000.
Proof. intros x P F B. destruct (sin_ok x P F B) as (r & Q & _ & Fr & E). exists r. split; [exact Q|]. split; [exact Fr|exact E]. Qed.
Print Assumptions C45_sin_accuracy.

Theorem C45_cos_accuracy : forall x, pattern float32 x -> fin x -> Rabs (V x) <= 25732 ->
  exists r, cos_ x = Ok r /\ fin r /\ Rabs (V r) <= 1 /\ Rabs (V r - cos (V x)) <= 87 / 100000000.
Proof. intros x P F B. destruct (cos_ok x P F B) as (r & Q & _ & Fr & E). exists r. split; [exact Q|]. split; [exact Fr|exact E]. Qed.
Print Assumptions C45_cos_accuracy.

(** The results stay in [-1, 1] as long as x / pi fits an int. *)
Theorem C45_sin_cos_range : forall x, pattern float32 x -> fin x -> Rabs (V x) <= 6746517000 ->
  (exists r, sin_ x = Ok r /\ fin r /\ Rabs (V r) <= 1) /\ (exists r, cos_ x = Ok r /\ fin r /\ Rabs (V r) <= 1).
Proof.
  intros x P F B. split.
  - destruct (sin_range x P F B) as (r & Q & _ & E). now exists r.
  - destruct (cos_range x P F B) as (r & Q & _ & E). now exists r.
Qed.
Print Assumptions C45_sin_cos_range.

(** Beyond that, and at the infinities and NaN, the conversion to int is undefined. *)
Theorem C45_sin_cos_undefined : forall x, pattern float32 x -> (fin x -> 6746521000 <= Rabs (V x)) ->
  sin_ x = UB BadArith /\ cos_ x = UB BadArith.
Proof. exact trig_bad. Qed.
Print Assumptions C45_sin_cos_undefined.

(** "1.19209e-07 max error in total over [-2pi,+2pi]" (nanomath.h:560) does not hold. *)
Theorem C45_sin_documented_error_refuted : exists x r, pattern float32 x /\ fin x /\ - (2 * PI) <= V x <= 2 * PI /\
  sin_ x = Ok r /\ fin r /\ 133 / 1000000000 < Rabs (V r - sin (V x)).
Proof.
  exists 0xbf075ca8%Z, 0xbf01245d%Z. getc H 0xbf075ca8%Z. destruct H as (A & B & C). getc K 0xbf01245d%Z. destruct K as (_ & B' & C').
  split; [exact A|]. split; [exact B|]. rewrite C, C'. split; [split; interval|]. split; [vm_compute; reflexivity|]. split; [exact B'|]. interval with (i_prec 60).
Qed.
Print Assumptions C45_sin_documented_error_refuted.

(** For large arguments the result can have the wrong sign altogether. *)
Theorem C45_sin_large_refuted : exists x r, pattern float32 x /\ fin x /\ sin_ x = Ok r /\ fin r /\ 199 / 100 < Rabs (V r - sin (V x)).
Proof.
  exists 0x4c9d9820%Z, 0xbf7ffce7%Z. getc H 0x4c9d9820%Z. destruct H as (A & B & C). getc K 0xbf7ffce7%Z. destruct K as (_ & B' & C').
  split; [exact A|]. split; [exact B|]. rewrite C, C'. split; [vm_compute; reflexivity|]. split; [exact B'|]. interval with (i_prec 80).
Qed.
Print Assumptions C45_sin_large_refuted.

(** sin(1.0f), cos(1.0f), sin(100.0f), sin(20000.0f), sin(1.5703125f); 20000 is in range; sin(+inf) *)
Example C45_case : sin_ 0x3f800000%Z = Ok 0x3f576aa4%Z /\ cos_ 0x3f800000%Z = Ok 0x3f0a5140%Z /\ sin_ 0x42c80000%Z = Ok 0xbf01a12f%Z /\
  sin_ 0x469c4000%Z = Ok 0x3f14fcf4%Z /\ sin_ 0x3fc90000%Z = Ok 0x3f7ffffe%Z /\
  (pattern float32 0x469c4000 /\ fin 0x469c4000 /\ V 0x469c4000 = 20000 /\ Rabs (V 0x469c4000) <= 25732) /\
  (pattern float32 0x7f800000 /\ ~ fin 0x7f800000 /\ sin_ 0x7f800000%Z = UB BadArith).
Proof.
  split; [vm_compute; reflexivity|]. split; [vm_compute; reflexivity|]. split; [vm_compute; reflexivity|]. split; [vm_compute; reflexivity|].
  split; [vm_compute; reflexivity|]. split.
  - getc H 0x469c4000%Z. destruct H as (A & B & C). split; [exact A|]. split; [exact B|]. rewrite C. split; [lra|]. apply Rabs_le. lra.
  - split; [split; [discriminate|reflexivity]|]. split; [vm_compute; discriminate|vm_compute; reflexivity].
Qed.

(** ** C46 *)

(** Absolute error proportional to the derivative 1 + tan^2, away from the poles. *)
Theorem C46_tan_accuracy : forall x, pattern float32 x -> fin x -> Rabs (V x) <= 12866 -> / 1000000 <= Rabs (cos (V x)) ->
  exists r, tan_ x = Ok r /\ fin r /\ Rabs (V r - tan (V x)) <= 5 / 10000000 * (1 + tan (V x) * tan (V x)).
Proof. intros x P F B C. destruct (tan_ok x P F B C) as (r & Q & _ & E). now exists r. Qed.
Print Assumptions C46_tan_accuracy.

Theorem C46_tan_undefined : forall x, pattern float32 x -> (fin x -> 3373260500 <= Rabs (V x)) -> tan_ x = UB BadArith.
Proof. exact tan_bad. Qed.
Print Assumptions C46_tan_undefined.

(** Outside the range of C46_tan_accuracy the error is not bounded that way. *)
Theorem C46_tan_large_refuted : exists x r, pattern float32 x /\ fin x /\ tan_ x = Ok r /\ fin r /\ / 1000000 <= Rabs (cos (V x)) /\
  / 1000 * (1 + tan (V x) * tan (V x)) < Rabs (V r - tan (V x)).
Proof.
  exists 0x4c9d9820%Z, 0xc1216a4c%Z. getc H 0x4c9d9820%Z. destruct H as (A & B & C). getc K 0xc1216a4c%Z. destruct K as (_ & B' & C').
  split; [exact A|]. split; [exact B|]. rewrite C, C'. split; [vm_compute; reflexivity|]. split; [exact B'|]. split; interval with (i_prec 80).
Qed.
Print Assumptions C46_tan_large_refuted.

(** tan(1.0f), tan(100.0f), and near the pole tan(1.5703125f) = 2066.855... *)
Example C46_case : tan_ 0x3f800000%Z = Ok 0x3fc75924%Z /\ tan_ 0x42c80000%Z = Ok 0xbf1653a7%Z /\ tan_ 0x3fc90000%Z = Ok 0x45012daf%Z /\
  (pattern float32 0x3fc90000 /\ fin 0x3fc90000 /\ Rabs (V 0x3fc90000) <= 12866 /\ / 1000000 <= Rabs (cos (V 0x3fc90000))).
Proof.
  split; [vm_compute; reflexivity|]. split; [vm_compute; reflexivity|]. split; [vm_compute; reflexivity|].
  getc H 0x3fc90000%Z. destruct H as (A & B & C). split; [exact A|]. split; [exact B|]. rewrite C. split; [apply Rabs_le; lra|interval].
Qed.
