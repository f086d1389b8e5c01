(** Model of nonstd::any (include/nonstd/any.hpp 438-731), which include/nanoany.h exports
    as nanostl::any.

    An any is a pointer to an object on the heap (a holder with the value), or null.  The
    any at [l] is [disc w l]: its member content.  The heap is [objs w (Tmp p)], [p] the
    address; an object has a type and a value, and the virtual functions of the holder
    (584-622) act by that type.  Every construction of an object counts the clock of
    LifeModel, so the clock is a fresh address for the next one.  Simplifications: element
    types are numbers, typeid tells different numbers apart; the temporary T of the
    in-place functions appears only as an operation that may throw; allocation does not
    fail; overload selection and the C++98 branches are not modelled.  nanostl::swap
    (declared and never defined) is taken to exchange the two pointers. *)
From Coq Require Import List Bool PeanoNat.
From Verif Require Import LifeModel.
Import ListNotations.

Section Any.
  Context {V : Type}.
  Context (promise : nat -> okind -> bool) (torn : V -> V) (thr : nat -> bool).
  (** [noexc]: any_CONFIG_NO_EXCEPTIONS *)
  Context (noexc : bool).
  Notation W := (world V (option nat)).
  Notation M := (@M V (option nat)).

  (** new holder<T>(value) (600-607): the value is copied or moved into it. *)
  Definition new_holder (t : nat) (k : okind) (v : V) : M nat :=
    fun w => (make promise thr (Tmp (clk w)) t k v ;;; ret (clk w)) w.
  (** the object a content pointer leads to *)
  Definition held (p : nat) : M (nat * V) := fun w => match objs w (Tmp p) with Some o => Ret o w | None => Bad NoObj end.
  (** 615-618 clone *)
  Definition clone (p : nat) : M nat := o <-- held p ;; new_holder (fst o) KCopy (snd o).
  (** delete content: nothing for null, else the virtual destructor *)
  Definition delete (c : option nat) : M unit :=
    match c with None => ret tt | Some p => o <-- held p ;; destroy (Tmp p) (fst o) end.

  (* no code counterpart: a new any in scope *)
  Definition declare (l : loc) (c : option nat) : M unit :=
    fun w => match disc w l with None => put_disc l (Some c) w | Some _ => Bad NoVar end.

  (** 443-445 any() *)
  Definition ctor_empty (l : loc) : M unit := declare l None.
  (** 447-449 any(any const &) *)
  Definition ctor_copy (l src : loc) : M unit :=
    c <-- get_disc src ;;
    match c with None => declare l None | Some p => q <-- clone p ;; declare l (Some q) end.
  (** 453-457 any(any &&), noexcept *)
  Definition ctor_move (l src : loc) : M unit :=
    noexcept true (c <-- get_disc src ;; declare l c ;;; put_disc src (Some None)).
  (** 459-465 any(ValueType &&), declared noexcept; [k]: the value is copied or moved *)
  Definition ctor_value (l : loc) (t : nat) (k : okind) (v : V) : M unit :=
    noexcept true (p <-- new_holder t k v ;; declare l (Some p)).
  (** one operation of kind [k] on a temporary *)
  Definition temporary (t : nat) (k : okind) : M unit := th <-- step promise thr t k ;; if th then (fun w => Exn User w) else ret tt.
  (** 467-481 in-place construction, and 633-643 make_any *)
  Definition ctor_in_place (l : loc) (t : nat) (v : V) : M unit :=
    temporary t KNew ;;; p <-- new_holder t KMove v ;; declare l (Some p).

  (** 547-550 reset *)
  Definition reset (l : loc) : M unit := c <-- get_disc l ;; delete c ;;; put_disc l (Some None).
  (** 492-495 destructor *)
  Definition dtor (l : loc) : M unit := reset l ;;; put_disc l None.
  (** 552-555 swap, 626-629 swap(any &, any &) *)
  Definition swap (l src : loc) : M unit :=
    a <-- get_disc l ;; b <-- get_disc src ;; put_disc l (Some b) ;;; put_disc src (Some a).

  (** 497-501 copy assignment *)
  Definition copy_assign (l src : loc) : M unit :=
    ctor_copy (Tmp 0) src ;;; finally (swap (Tmp 0) l) (dtor (Tmp 0)).
  (** 505-509 move assignment, noexcept *)
  Definition move_assign (l src : loc) : M unit :=
    noexcept true (ctor_move (Tmp 0) src ;;; finally (swap (Tmp 0) l) (dtor (Tmp 0))).
  (** x = value.  The template 511-519 cannot deduce ValueType and is never used: the value
      is converted to an any (459-465), which is move-assigned. *)
  Definition assign_value (l : loc) (t : nat) (k : okind) (v : V) : M unit :=
    ctor_value (Tmp 1) t k v ;;; finally (move_assign l (Tmp 1)) (dtor (Tmp 1)).
  (** 521-534 emplace *)
  Definition emplace (l : loc) (t : nat) (v : V) : M unit :=
    temporary t KNew ;;; ctor_value (Tmp 0) t KMove v ;;; finally (swap (Tmp 0) l) (dtor (Tmp 0)).

  (** 557-560 has_value *)
  Definition has_value (l : loc) : M bool := c <-- get_disc l ;; ret (match c with Some _ => true | None => false end).
  (** 562-565 type; [None]: typeid(void) *)
  Definition type (l : loc) : M (option nat) :=
    c <-- get_disc l ;; match c with Some p => o <-- held p ;; ret (Some (fst o)) | None => ret None end.
  (** 571-581 to_ptr: static_cast, no check; the address of the value *)
  Definition to_ptr (l : loc) : M nat := c <-- get_disc l ;; match c with Some p => ret p | None => bad NoObj end.
  (** 719-729 any_cast<T>(&x) ; [None]: the null pointer *)
  Definition cast_ptr (l : loc) (t : nat) : M (option nat) :=
    t' <-- type l ;;
    if match t' with Some t' => Nat.eqb t' t | None => false end then p <-- to_ptr l ;; ret (Some p) else ret None.
  (** 647-715 any_cast<T>(x), also of an rvalue: a copy of the value *)
  Definition cast (l : loc) (t : nat) : M V :=
    r <-- cast_ptr l t ;;
    match r with
    | Some p => v <-- read (Tmp p) t ;; temporary t KCopy ;;; ret v
    | None => if noexc then bad AssertFail else throw_
    end.
  (** the value behind any_cast<T>(&x), if that is not null, and assignment to it *)
  Definition peek (l : loc) (t : nat) : M (option V) :=
    r <-- cast_ptr l t ;; match r with Some p => v <-- read (Tmp p) t ;; ret (Some v) | None => ret None end.
  Definition poke (l : loc) (t : nat) (v : V) : M bool :=
    r <-- cast_ptr l t ;; match r with Some p => assign promise torn thr (Tmp p) t KCopyAsg v ;;; ret true | None => ret false end.
End Any.

(** The calls of a client; variables are numbered. *)
Inductive op (V : Type) : Type :=
| ANew (x : nat) | ACopyNew (x y : nat) | AMoveNew (x y : nat) | AValNew (x t : nat) (mv : bool) (v : V) | AInPlace (x t : nat) (v : V) | ADel (x : nat)
| ACopy (x y : nat) | AMove (x y : nat) | AVal (x t : nat) (mv : bool) (v : V) | AEmplace (x t : nat) (v : V) | AReset (x : nat) | ASwap (x y : nat)
| AHas (x : nat) | AType (x : nat) | ACast (x t : nat) | APeek (x t : nat) | APoke (x t : nat) (v : V).
Arguments ANew {V} x. Arguments ACopyNew {V} x y. Arguments AMoveNew {V} x y. Arguments AValNew {V} x t mv v. Arguments AInPlace {V} x t v.
Arguments ADel {V} x. Arguments ACopy {V} x y. Arguments AMove {V} x y. Arguments AVal {V} x t mv v. Arguments AEmplace {V} x t v.
Arguments AReset {V} x. Arguments ASwap {V} x y. Arguments AHas {V} x. Arguments AType {V} x. Arguments ACast {V} x t. Arguments APeek {V} x t. Arguments APoke {V} x t v.

(* no code counterpart: what a call returns *)
Inductive obs (V : Type) : Type := Nothing | OBool (b : bool) | OType (t : option nat) | OVal (v : V) | OPtr (v : option V).
Arguments Nothing {V}. Arguments OBool {V} b. Arguments OType {V} t. Arguments OVal {V} v. Arguments OPtr {V} v.

Section Run.
  Context {V : Type} (promise : nat -> okind -> bool) (torn : V -> V) (thr : nat -> bool) (noexc : bool).
  Notation M := (@M V (option nat)).
  (* no code counterpart: a call with its result *)
  Definition none (m : M unit) : M (obs V) := m ;;; ret Nothing.
  (* no code counterpart: the constructor that takes the value over *)
  Definition kind (mv : bool) : okind := if mv then KMove else KCopy.
  (** dispatch of the client's calls *)
  Definition exec (o : op V) : M (obs V) :=
    match o with
    | ANew x => none (ctor_empty (Var x))
    | ACopyNew x y => none (ctor_copy promise thr (Var x) (Var y))
    | AMoveNew x y => none (ctor_move (Var x) (Var y))
    | AValNew x t mv v => none (ctor_value promise thr (Var x) t (kind mv) v)
    | AInPlace x t v => none (ctor_in_place promise thr (Var x) t v)
    | ADel x => none (dtor (Var x))
    | ACopy x y => none (copy_assign promise thr (Var x) (Var y))
    | AMove x y => none (move_assign (Var x) (Var y))
    | AVal x t mv v => none (assign_value promise thr (Var x) t (kind mv) v)
    | AEmplace x t v => none (emplace promise thr (Var x) t v)
    | AReset x => none (reset (Var x))
    | ASwap x y => none (swap (Var x) (Var y))
    | AHas x => b <-- has_value (Var x) ;; ret (OBool b)
    | AType x => t <-- type (Var x) ;; ret (OType t)
    | ACast x t => v <-- cast promise thr noexc (Var x) t ;; ret (OVal v)
    | APeek x t => v <-- peek (Var x) t ;; ret (OPtr v)
    | APoke x t v => b <-- poke promise torn thr (Var x) t v ;; ret (OBool b)
    end.
End Run.
