(** Specification: canonical decimal text of an integer. *)
From Coq Require Import ZArith List.
Import ListNotations.
Open Scope Z_scope.

(** Value of a digit string, most significant digit first. *)
Definition digits_value (l : list Z) : Z := fold_left (fun a c => 10 * a + (c - 48)) l 0.

(** [t] is the canonical decimal text of [z]: optional '-' exactly for negative
    numbers, then digits without a superfluous leading zero, of value |z|. *)
Definition decimal (z : Z) (t : list Z) : Prop :=
  exists ds, t = (if z <? 0 then [45] else []) ++ ds /\
    ds <> [] /\ Forall (fun c => 48 <= c <= 57) ds /\
    digits_value ds = Z.abs z /\ (hd 0 ds = 48 -> ds = [48]).
