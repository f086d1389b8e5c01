(** Comparisons and hash of unique_ptr: include/nanomemory.h 847-872 (two unique_ptrs),
    874-882, 884-980 (with nullptr), 982-1008 (hash), less of include/nanofunctional.h
    39-44, common_type of two pointers in include/nanotype_traits.h 487-500, 541-549.

    Simplified: pointer values are addresses, 0 is the null pointer; a pointer to a class
    is converted to a pointer to one of its bases by adding an offset, null staying null;
    pointers differ in no cv-qualifiers.  < on pointers is < on addresses. *)
From Coq Require Import ZArith.
Open Scope Z_scope.

Section M.
  (** [base c b]: the offset of the subobject b in an object of class c, if b is c or an
      unambiguous accessible base of c (no code counterpart: the class definitions of the
      program). *)
  Context (base : nat -> nat -> option Z).

  (** A unique_ptr as far as comparing goes: the class of its pointee, and get(). *)
  Record uptr := U { cls : nat; get : Z }.

  (** Conversion of a pointer to a base (language rule, no code counterpart). *)
  Definition conv (k p : Z) : Z := if p =? 0 then 0 else p + k.

  (** The composite type of two pointers (language rule): the type that == and ?: convert
      both to, so also common_type<_P1, _P2> (nanotype_traits.h 487-500, 541-549), with the
      two offsets. *)
  Definition composite (c d : nat) : option (nat * Z * Z) :=
    match base c d with
    | Some k => Some (d, k, 0)
    | None => match base d c with Some k => Some (c, 0, k) | None => None end
    end.

  (** nanofunctional.h 39-44 less. *)
  Definition less (a b : Z) : bool := a <? b.

  (** 847-850 ==; [None]: does not compile. *)
  Definition eq (x y : uptr) : option bool :=
    match composite (cls x) (cls y) with Some (_, k, l) => Some (conv k (get x) =? conv l (get y)) | None => None end.
  (** 852-855 !=. *)
  Definition ne (x y : uptr) : option bool := option_map negb (eq x y).
  (** 857-866 <: the arguments of less are converted to _Vp. *)
  Definition lt (x y : uptr) : option bool :=
    match composite (cls x) (cls y) with Some (_, k, l) => Some (less (conv k (get x)) (conv l (get y))) | None => None end.
  (** 868-871 >, 873-876 <=, 879-882 >=. *)
  Definition gt (x y : uptr) : option bool := lt y x.
  Definition le (x y : uptr) : option bool := option_map negb (lt y x).
  Definition ge (x y : uptr) : option bool := option_map negb (lt x y).

  (** operator bool (580-582, 801-803): get() is not null. *)
  Definition to_bool (x : uptr) : bool := negb (get x =? 0).
  (** 884-898 == with nullptr on either side, 900-914 !=. *)
  Definition eq_null (x : uptr) : bool := negb (to_bool x).
  Definition null_eq (x : uptr) : bool := negb (to_bool x).
  Definition ne_null (x : uptr) : bool := to_bool x.
  Definition null_ne (x : uptr) : bool := to_bool x.
  (** 916-932 <. *)
  Definition lt_null (x : uptr) : bool := less (get x) 0.
  Definition null_lt (x : uptr) : bool := less 0 (get x).
  (** 934-948 >, 950-964 <=, 966-980 >=. *)
  Definition gt_null (x : uptr) : bool := null_lt x.
  Definition null_gt (x : uptr) : bool := lt_null x.
  Definition le_null (x : uptr) : bool := negb (null_lt x).
  Definition null_le (x : uptr) : bool := negb (lt_null x).
  Definition ge_null (x : uptr) : bool := negb (lt_null x).
  Definition null_ge (x : uptr) : bool := negb (null_lt x).
End M.

(** The types a deleter can name as its pointer, as far as hash goes: a raw pointer,
    nullptr_t, or an integer of [bits] bits (signed or not). *)
Inductive pkind := PRaw | PNull | PInt (signed : bool) (bits : Z).

(** hash<pointer> (nanofunctional.h 50-183): declared but not defined for raw pointers, so
    [None]: does not compile; a constant for nullptr_t (179-183); a cast to the 64-bit
    size_t for integers (54-118). *)
Definition hash_pointer (p : pkind) (v : Z) : option Z :=
  match p with
  | PRaw => None
  | PNull => Some 662607004
  | PInt _ _ => Some (v mod 2 ^ 64)
  end.
(** 982-1008 hash<unique_ptr<T, D>>. *)
Definition hash_uptr (p : pkind) (v : Z) : option Z := hash_pointer p v.
