(** to_string(int) and to_string(int64_t) (C12, C13).  Model: IntStrModel.v,
    specification of decimal text: IntStrSpec.v. *)
From Coq Require Import ZArith List Lia.
From Verif Require Import Mem IntStrModel IntStrSpec IntStrProofs.
Import ListNotations.
Open Scope Z_scope.

(** C12, ints above -10^9.  Missing: the ints from -2^31 to -10^9, where the
    buffer is one char too small (next theorem). *)
Theorem C12_to_string_int_partial : forall value, - 10 ^ 9 < value < 2 ^ 31 ->
  exists t, to_string_int value = Ok t /\ decimal value t.
Proof. exact to_string_int_ok. Qed.
Print Assumptions C12_to_string_int_partial.

(** Every int from INT_MIN to -10^9 overruns the 11-char buffer (or negates INT_MIN). *)
Theorem C12_to_string_int_overrun : forall value, - 2 ^ 31 <= value <= - 10 ^ 9 ->
  exists u, to_string_int value = UB u.
Proof. exact to_string_int_overflow. Qed.
Print Assumptions C12_to_string_int_overrun.

Theorem C12_to_string_int_refuted : exists value, - 2 ^ 31 < value < 2 ^ 31 /\
  to_string_int value = UB OutOfBounds.
Proof. exists (- 10 ^ 9). split; [lia|]. vm_compute. reflexivity. Qed.
Print Assumptions C12_to_string_int_refuted.

(** Decimal text determines the number and the number its text. *)
Theorem C12_decimal_text_unique : forall z t t', decimal z t -> decimal z t' -> t = t'.
Proof. exact decimal_unique. Qed.
Print Assumptions C12_decimal_text_unique.
Theorem C12_decimal_text_injective : forall z z' t, decimal z t -> decimal z' t -> z = z'.
Proof. exact decimal_injective. Qed.
Print Assumptions C12_decimal_text_injective.

(** Consequently distinct ints give distinct text. *)
Theorem C12_to_string_int_injective : forall a b, - 10 ^ 9 < a < 2 ^ 31 -> - 10 ^ 9 < b < 2 ^ 31 ->
  to_string_int a = to_string_int b -> a = b.
Proof.
  intros a b Ha Hb E. destruct (to_string_int_ok a Ha) as (t & Ea & Da).
  destruct (to_string_int_ok b Hb) as (u & Eb & Db). rewrite Ea, Eb in E. inversion E; subst.
  exact (decimal_injective _ _ _ Da Db).
Qed.
Print Assumptions C12_to_string_int_injective.

Example C12_case : to_string_int (-120) = Ok [45; 49; 50; 48] /\ to_string_int 0 = Ok [48] /\
  to_string_int 2147483647 = Ok [50;49;52;55;52;56;51;54;52;55].
Proof. vm_compute. auto. Qed.

(** C13, for values within int.  Missing: all others, where it is false. *)
Theorem C13_to_string_int64_partial : forall value, - 2 ^ 31 < value < 2 ^ 31 ->
  exists t, to_string_int64 value = Ok t /\ decimal value t.
Proof. exact to_string_int64_ok. Qed.
Print Assumptions C13_to_string_int64_partial.

(** Outside the range of int the text is wrong for every value. *)
Theorem C13_to_string_int64_always_wrong_outside_int : forall value t,
  - 2 ^ 63 <= value < 2 ^ 63 -> 2 ^ 31 <= Z.abs value ->
  to_string_int64 value = Ok t -> ~ decimal value t.
Proof. exact to_string_int64_wrong. Qed.
Print Assumptions C13_to_string_int64_always_wrong_outside_int.

Theorem C13_to_string_int64_refuted : exists value, - 2 ^ 63 <= value < 2 ^ 63 /\
  to_string_int64 value = Ok [48] /\ value = 2 ^ 32.
Proof. exists (2 ^ 32). split; [lia|]. split; [vm_compute; reflexivity|reflexivity]. Qed.
Print Assumptions C13_to_string_int64_refuted.

Example C13_case : to_string_int64 (-1000000000) = Ok [45;49;48;48;48;48;48;48;48;48;48] /\
  to_string_int64 2147483648 = Ok [46;47;44;41;44;40;45;42;44;40] /\
  to_string_int64 (2 ^ 32 + 17) = Ok [49; 55].
Proof. vm_compute. auto. Qed.
