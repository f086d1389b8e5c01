(** Model of nanostl::type_info (include/nanotypeinfo.h): the three ways of comparing types that the header chooses from by
    platform.  A type_info is the word stored in __type_name (0 <= word < 2^64); memory is a function from addresses
    to bytes.  [None] is a loop that did not end within the fuel (an unterminated name).
    Not modelled: construction (by the compiler), bad_cast, bad_typeid. *)
From Coq Require Import ZArith Bool.
Open Scope Z_scope.

(** nanotypeinfo.h:93-104 _LIBCPP_TYPEINFO_COMPARISON_IMPLEMENTATION = 1, 2, 3 *)
Inductive impl := Unique | NonUnique | ArmBit.

(* no code counterpart: strcmp, byte by byte *)
Fixpoint strcmp (mem : Z -> Z) (fuel : nat) (p q : Z) : option Z :=
  match fuel with
  | O => None
  | S fuel =>
      if mem p =? mem q then if mem p =? 0 then Some 0 else strcmp mem fuel (p + 1) (q + 1)
      else Some (mem p - mem q)
  end.
(** nanotypeinfo.h:140-141 the loop of __non_unique_impl::__hash *)
Fixpoint hash_loop (mem : Z -> Z) (fuel : nat) (ptr hash : Z) : option Z :=
  match fuel with
  | O => None
  | S fuel =>
      let c := mem ptr in
      if c =? 0 then Some hash else hash_loop mem fuel (ptr + 1) (Z.lxor (hash * 33 mod 2 ^ 64) c)
  end.
(** nanotypeinfo.h:138-143 __non_unique_impl::__hash *)
Definition hash_string (mem : Z -> Z) (fuel : nat) (ptr : Z) : option Z := hash_loop mem fuel ptr 5381.

(** nanotypeinfo.h:192-193 __non_unique_rtti_bit *)
Definition rtti_bit : Z := Z.shiftl 1 (8 * 8 - 1).
(** nanotypeinfo.h:195-198 __is_type_name_unique *)
Definition is_unique (v : Z) : bool := negb (negb (Z.land v rtti_bit =? 0)).
(** nanotypeinfo.h:199-202 __is_type_name_unique on two names *)
Definition is_unique2 (l r : Z) : bool := negb (negb (Z.land (Z.land l r) rtti_bit =? 0)).

Section Impl.
  Variables (mem : Z -> Z) (fuel : nat).
  (** nanotypeinfo.h:111-113, 158-161 __type_name_to_string; 237-240 name *)
  Definition to_string (i : impl) (v : Z) : Z :=
    match i with Unique | NonUnique => v | ArmBit => Z.land v (2 ^ 64 - 1 - rtti_bit) end.
  (** nanotypeinfo.h:122-124, 138-143, 168-173 __hash; 249-252 hash_code *)
  Definition hash_code (i : impl) (v : Z) : option Z :=
    match i with
    | Unique => Some v
    | NonUnique => hash_string mem fuel v
    | ArmBit => if is_unique v then Some v else hash_string mem fuel (to_string ArmBit v)
    end.
  (** nanotypeinfo.h:126-128, 145-147, 175-181 __eq; 255-258 operator== *)
  Definition eq (i : impl) (l r : Z) : option bool :=
    match i with
    | Unique => Some (l =? r)
    | NonUnique =>
        if l =? r then Some true else match strcmp mem fuel l r with Some c => Some (c =? 0) | None => None end
    | ArmBit =>
        if l =? r then Some true
        else if is_unique2 l r then Some false
        else match strcmp mem fuel (to_string ArmBit l) (to_string ArmBit r) with Some c => Some (c =? 0) | None => None end
    end.
  (** nanotypeinfo.h:130-132, 149-151, 183-187 __lt; 243-246 before *)
  Definition lt (i : impl) (l r : Z) : option bool :=
    match i with
    | Unique => Some (l <? r)
    | NonUnique => match strcmp mem fuel l r with Some c => Some (c <? 0) | None => None end
    | ArmBit =>
        if is_unique2 l r then Some (l <? r)
        else match strcmp mem fuel (to_string ArmBit l) (to_string ArmBit r) with Some c => Some (c <? 0) | None => None end
    end.
End Impl.
