(** Model of nonstd::expected<T,E> and expected<void,E> (include/nonstd/expected.hpp
    456-775, 1358-2160), which include/nanoexpected.h exports as nanostl::expected.

    An expected at [l] is m_has_value ([disc w l]) and the union of value and error
    ([objs w l]); T is type number 0 of LifeModel, E is type number 1.  Simplifications:
    the converting constructors use the same values ([U] values are [T] values);
    arguments of constructors are values outside the expecteds; is_nothrow_swappable is the promise on swap; overload selection is not
    modelled, except that operator=(U&&) (1653-1665) is never viable (it compares T with
    decay<U> instead of decay<U>::type), so that [e = v] converts v to an expected and
    then move-assigns. *)
From Coq Require Import List Bool PeanoNat.
From Verif Require Import LifeModel.
Import ListNotations.

(** the argument of a constructor: a const or non-const lvalue, an rvalue, or arguments
    for construction in place *)
Inductive from : Set := FromConst | FromLvalue | FromRvalue | InPlace.

Section Exp.
  Context {V : Type}.
  Context (promise : nat -> okind -> bool) (moved torn : V -> V) (thr : nat -> bool).
  (** nsel_CONFIG_NO_EXCEPTIONS *)
  Context (noexc : bool).
  Notation M := (@M V bool).
  Notation make := (@make V bool promise thr).
  Notation copy_make := (@copy_make V bool promise thr).
  Notation move_make := (@move_make V bool promise moved thr).
  Notation swap_objs := (@swap_objs V bool promise torn thr).

  (** the alternative that the flag announces *)
  Definition alt (h : bool) : nat := if h then 0 else 1.

  (** 1780-1788 has_value, operator bool. *)
  Definition has_value (l : loc) : M bool := get_disc l.

  (** 1375-1382 expected(): construct_value( value_type() ), a temporary that is moved. *)
  Definition ctor_default (l : loc) (v : V) : M unit :=
    enter l true ;;;
    on_exn (make (Tmp 0) 0 KNew v ;;; finally (move_make l 0 (Tmp 0)) (destroy (Tmp 0) 0)) (put_disc l None).
  (** 1384, 709-714 copy constructor (and the converting ones, 1387-1430). *)
  Definition ctor_copy (l src : loc) : M unit :=
    h <-- has_value src ;; enter l h ;;; on_exn (copy_make l (alt h) src) (put_disc l None).
  (** 1385, 716-721 move constructor (and the converting ones, 1432-1473). *)
  Definition ctor_move (l src : loc) : M unit :=
    h <-- has_value src ;; enter l h ;;; on_exn (move_make l (alt h) src) (put_disc l None).
  (** 1475-1521 from a value, 1577-1598 in place.  A non-const lvalue selects the
      forwarding constructor (1507-1521) with U = T&, whose noexcept only asks whether a
      T& can be moved and whether E can. *)
  Definition src_op (m : from) : okind := match m with FromConst | FromLvalue => KCopy | FromRvalue => KMove | InPlace => KNew end.
  Definition src_noexcept (m : from) : bool :=
    match m with FromLvalue => promise 1 KMove | FromRvalue => promise 0 KMove && promise 1 KMove | _ => false end.
  Definition ctor_value (l : loc) (m : from) (v : V) : M unit :=
    noexcept (src_noexcept m) (enter l true ;;; on_exn (make l 0 (src_op m) v) (put_disc l None)).
  (** 1525-1573 from an unexpected, 1602-1622 in place. *)
  Definition ctor_error (l : loc) (m : from) (v : V) : M unit :=
    enter l false ;;; on_exn (make l 1 (src_op m) v) (put_disc l None).

  (** 1628-1632 destructor. *)
  Definition dtor (l : loc) : M unit :=
    h <-- has_value l ;; (if h then destroy l 0 else destroy l 1) ;;; put_disc l None.

  (** 1745-1774 operator* and operator->, 1822-1842 error(). *)
  Definition deref (l : loc) : M unit := h <-- has_value l ;; assert_ h.
  Definition error (l : loc) : M unit := h <-- has_value l ;; assert_ (negb h).

  (** swap, 1715-1741, the third case: *this has a value and other an error. *)
  Definition swap_mixed (l src : loc) : M unit :=
    error src ;;; move_make (Tmp 3) 1 src ;;;
    finally (destroy src 1 ;;;
             move_make src 0 l ;;;
             destroy l 0 ;;;
             move_make l 1 (Tmp 3) ;;;
             h <-- has_value l ;; ho <-- has_value src ;;
             put_disc src (Some h) ;;; put_disc l (Some ho))
            (destroy (Tmp 3) 1).
  Definition swap_nothrow : bool := promise 0 KMove && promise 0 KSwap && promise 1 KMove && promise 1 KSwap.
  Definition swap (l src : loc) : M unit :=
    noexcept swap_nothrow
     (hx <-- has_value l ;; hy <-- has_value src ;;
      if hx && hy then swap_objs l src 0
      else if negb hx && negb hy then swap_objs l src 1
      else if hx && negb hy then swap_mixed l src
      else noexcept swap_nothrow (swap_mixed src l)).

  (** 1636-1640 copy assignment, 1642-1651 move assignment. *)
  Definition copy_assign (l src : loc) : M unit :=
    ctor_copy (Tmp 1) src ;;; finally (swap (Tmp 1) l) (dtor (Tmp 1)).
  Definition move_assign (l src : loc) : M unit :=
    noexcept (promise 0 KMove && promise 0 KMoveAsg && promise 1 KMove && promise 1 KMoveAsg)
      (ctor_move (Tmp 1) src ;;; finally (swap (Tmp 1) l) (dtor (Tmp 1))).
  (** e = v: conversion, then move assignment. *)
  Definition assign_value (l : loc) (m : from) (v : V) : M unit :=
    ctor_value (Tmp 2) m v ;;; finally (move_assign l (Tmp 2)) (dtor (Tmp 2)).
  (** 1667-1689 e = unexpected(g): expected( unexpect, g ).swap( *this ). *)
  Definition assign_error (l : loc) (m : from) (v : V) : M unit :=
    ctor_error (Tmp 1) m v ;;; finally (swap (Tmp 1) l) (dtor (Tmp 1)).
  (** 1305-1311 rethrow: throws bad_expected_access (1211-1250), whose constructor copies
      the error twice; or asserts (1268-1279). *)
  Definition rethrow {A} (l : loc) : M A :=
    e <-- read l 1 ;; if noexc then bad AssertFail
    else th <-- step promise thr 1 KCopy ;; if th then (fun w => Exn User w)
         else th' <-- step promise thr 1 KCopy ;; if th' then (fun w => Exn User w) else throw_.
  (** 1790-1818 value(). *)
  Definition value (l : loc) : M V := h <-- has_value l ;; if h then read l 0 else rethrow l.
  (** 1691-1711 emplace. *)
  Definition emplace (l : loc) (v : V) : M V :=
    ctor_value (Tmp 1) InPlace v ;;; finally (swap (Tmp 1) l) (dtor (Tmp 1)) ;;; value l.
  (** *e = v and e.error() = v through the references that operator* and error() return. *)
  Definition set_value (l : loc) (v : V) : M unit := deref l ;;; assign promise torn thr l 0 KCopyAsg v.
  Definition set_error (l : loc) (v : V) : M unit := error l ;;; assign promise torn thr l 1 KCopyAsg v.
  (** 1846-1849 get_unexpected: a copy of the error, without an assert. *)
  Definition get_unexpected (l : loc) : M V :=
    e <-- read l 1 ;; th <-- step promise thr 1 KCopy ;; if th then (fun w => Exn User w) else ret e.
  (** 1858-1882 value_or on an lvalue and on an rvalue. *)
  Definition value_or (l : loc) (v : V) : M V :=
    h <-- has_value l ;;
    if h then r <-- read l 0 ;; th <-- step promise thr 0 KCopy ;; if th then (fun w => Exn User w) else ret r
    else th <-- step promise thr 0 KNew ;; if th then (fun w => Exn User w) else ret v.
  Definition value_or_move (l : loc) (v : V) : M V :=
    h <-- has_value l ;;
    if h then r <-- read l 0 ;; th <-- step promise thr 0 KMove ;;
      if th then (fun w => Exn User w) else write l 0 (moved r) ;;; ret r
    else th <-- step promise thr 0 KNew ;; if th then (fun w => Exn User w) else ret v.

  (** * expected<void,E>: no value object; errors are type number 1 *)

  (** 1941-1950 expected(), expected(in_place). *)
  Definition vctor_default (l : loc) : M unit := enter l true.
  (** 735-740 copy constructor, 742-747 move constructor. *)
  Definition vctor_copy (l src : loc) : M unit :=
    h <-- has_value src ;; enter l h ;;; on_exn (if h then ret tt else copy_make l 1 src) (put_disc l None).
  Definition vctor_move (l src : loc) : M unit :=
    h <-- has_value src ;; enter l h ;;; on_exn (if h then ret tt else move_make l 1 src) (put_disc l None).
  (** 1952-2016 from an error. *)
  Definition vctor_error (l : loc) (m : from) (v : V) : M unit := ctor_error l m v.
  (** 2020-2026 destructor. *)
  Definition vdtor (l : loc) : M unit :=
    h <-- has_value l ;; (if negb h then destroy l 1 else ret tt) ;;; put_disc l None.
  (** 2052-2072 swap; the second case does not destroy the error of [other]. *)
  Definition vswap_nothrow : bool := promise 1 KMove && promise 1 KSwap.
  Definition vswap_mixed (l src : loc) : M unit :=
    error src ;;; move_make l 1 src ;;;
    h <-- has_value l ;; ho <-- has_value src ;;
    put_disc src (Some h) ;;; put_disc l (Some ho).
  Definition vswap (l src : loc) : M unit :=
    noexcept vswap_nothrow
     (hx <-- has_value l ;; hy <-- has_value src ;;
      if negb hx && negb hy then swap_objs l src 1
      else if hx && negb hy then vswap_mixed l src
      else if negb hx && hy then noexcept vswap_nothrow (vswap_mixed src l)
      else ret tt).
  (** 2086-2092 value(). *)
  Definition vvalue (l : loc) : M unit := h <-- has_value l ;; if h then ret tt else rethrow l.
  (** 2030-2043 copy and move assignment, 2045-2048 emplace(). *)
  Definition vcopy_assign (l src : loc) : M unit :=
    vctor_copy (Tmp 1) src ;;; finally (vswap (Tmp 1) l) (vdtor (Tmp 1)).
  Definition vmove_assign (l src : loc) : M unit :=
    noexcept (promise 1 KMoveAsg && promise 1 KMove)
      (vctor_move (Tmp 1) src ;;; finally (vswap (Tmp 1) l) (vdtor (Tmp 1))).
  Definition vemplace (l : loc) : M unit :=
    vctor_default (Tmp 1) ;;; finally (vswap (Tmp 1) l) (vdtor (Tmp 1)).
End Exp.

(** Comparison operators 2164-2312 (nsel_P0323R is 7, so there is no operator<), on what
    the operands hold: [inl] a value, [inr] an error. *)
Section Cmp.
  Context {T E : Type} (teq tne : T -> T -> bool) (eeq : E -> E -> bool).
  Notation B := (fun x : T + E => match x with inl _ => true | inr _ => false end).
  (* no code counterpart: *x and x.error() in expressions guarded by bool(x) *)
  Definition vals (f : T -> T -> bool) (x y : T + E) : bool := match x, y with inl a, inl b => f a b | _, _ => false end.
  Definition errs (f : E -> E -> bool) (x y : T + E) : bool := match x, y with inr a, inr b => f a b | _, _ => false end.
  (** 2164-2173 *)
  Definition exp_eq (x y : T + E) : bool :=
    if negb (Bool.eqb (B x) (B y)) then false else if Bool.eqb (B x) false then errs eeq x y else vals teq x y.
  Definition exp_ne (x y : T + E) : bool := negb (exp_eq x y).
  (** 2211-2233 with a value *)
  Definition ev_eq (x : T + E) (v : T) : bool := if B x then vals teq x (inl v) else false.
  Definition ve_eq (v : T) (x : T + E) : bool := if B x then vals teq (inl v) x else false.
  Definition ev_ne (x : T + E) (v : T) : bool := if B x then vals tne x (inl v) else true.
  Definition ve_ne (v : T) (x : T + E) : bool := if B x then vals tne (inl v) x else true.
  (** 2287-2312 with an unexpected *)
  Definition eu_eq (x : T + E) (u : E) : bool := if negb (B x) then errs eeq x (inr u) else false.
  Definition ue_eq (u : E) (x : T + E) : bool := eu_eq x u.
  Definition eu_ne (x : T + E) (u : E) : bool := negb (eu_eq x u).
  Definition ue_ne (u : E) (x : T + E) : bool := negb (eu_eq x u).
End Cmp.

(** The calls a client program can make on expected<T,E>. *)
Inductive op (V : Type) : Type :=
| ONew (x : nat) (v : V) | ONewVal (x : nat) (m : from) (v : V) | ONewErr (x : nat) (m : from) (e : V)
| ONewCopy (x y : nat) | ONewMove (x y : nat) | ODel (x : nat)
| OCopy (x y : nat) | OMove (x y : nat) | OVal (x : nat) (m : from) (v : V) | OErr (x : nat) (m : from) (e : V)
| OEmplace (x : nat) (v : V) | OSwap (x y : nat) | OHas (x : nat) | OGet (x : nat) | OError (x : nat)
| OSet (x : nat) (v : V) | OSetErr (x : nat) (e : V)
| OValue (x : nat) | OUnexpected (x : nat) | OValueOr (x : nat) (v : V) | OValueOrMove (x : nat) (v : V).
Arguments ONew {V} x v. Arguments ONewVal {V} x m v. Arguments ONewErr {V} x m e. Arguments ONewCopy {V} x y. Arguments ONewMove {V} x y.
Arguments ODel {V} x. Arguments OCopy {V} x y. Arguments OMove {V} x y. Arguments OVal {V} x m v. Arguments OErr {V} x m e.
Arguments OEmplace {V} x v. Arguments OSwap {V} x y. Arguments OHas {V} x. Arguments OGet {V} x. Arguments OError {V} x.
Arguments OSet {V} x v. Arguments OSetErr {V} x e.
Arguments OValue {V} x. Arguments OUnexpected {V} x. Arguments OValueOr {V} x v. Arguments OValueOrMove {V} x v.

(** The calls on expected<void,E>. *)
Inductive vop (V : Type) : Type :=
| VNew (x : nat) | VNewErr (x : nat) (m : from) (e : V) | VNewCopy (x y : nat) | VNewMove (x y : nat) | VDel (x : nat)
| VCopy (x y : nat) | VMove (x y : nat) | VEmplace (x : nat) | VSwap (x y : nat) | VHas (x : nat) | VError (x : nat) | VValue (x : nat).
Arguments VNew {V} x. Arguments VNewErr {V} x m e. Arguments VNewCopy {V} x y. Arguments VNewMove {V} x y. Arguments VDel {V} x.
Arguments VCopy {V} x y. Arguments VMove {V} x y. Arguments VEmplace {V} x. Arguments VSwap {V} x y. Arguments VHas {V} x. Arguments VError {V} x.
Arguments VValue {V} x.

(* no code counterpart: what a call returns to the client *)
Inductive obs (V : Type) : Type := Nothing | OBool (b : bool) | OVal_ (v : V).
Arguments Nothing {V}. Arguments OBool {V} b. Arguments OVal_ {V} v.

Section Run.
  Context {V : Type}.
  Context (promise : nat -> okind -> bool) (moved torn : V -> V) (thr : nat -> bool) (noexc : bool).
  Notation M := (@M V bool).
  (* no code counterpart: a call with its result *)
  Definition none (m : M unit) : M (obs V) := m ;;; ret Nothing.
  (** dispatch of the client's calls *)
  Definition exec (o : op V) : M (obs V) :=
    match o with
    | ONew x v => none (ctor_default promise moved thr (Var x) v)
    | ONewVal x m v => none (ctor_value promise thr (Var x) m v)
    | ONewErr x m v => none (ctor_error promise thr (Var x) m v)
    | ONewCopy x y => none (ctor_copy promise thr (Var x) (Var y))
    | ONewMove x y => none (ctor_move promise moved thr (Var x) (Var y))
    | ODel x => none (dtor (Var x))
    | OCopy x y => none (copy_assign promise moved torn thr (Var x) (Var y))
    | OMove x y => none (move_assign promise moved torn thr (Var x) (Var y))
    | OVal x m v => none (assign_value promise moved torn thr (Var x) m v)
    | OErr x m v => none (assign_error promise moved torn thr (Var x) m v)
    | OEmplace x v => v' <-- emplace promise moved torn thr noexc (Var x) v ;; ret (OVal_ v')
    | OSwap x y => none (swap promise moved torn thr (Var x) (Var y))
    | OHas x => b <-- has_value (Var x) ;; ret (OBool b)
    | OGet x => deref (Var x) ;;; v <-- read (Var x) 0 ;; ret (OVal_ v)
    | OError x => error (Var x) ;;; v <-- read (Var x) 1 ;; ret (OVal_ v)
    | OSet x v => none (set_value promise torn thr (Var x) v)
    | OSetErr x v => none (set_error promise torn thr (Var x) v)
    | OValue x => v <-- value promise thr noexc (Var x) ;; ret (OVal_ v)
    | OUnexpected x => v <-- get_unexpected promise thr (Var x) ;; ret (OVal_ v)
    | OValueOr x v => v' <-- value_or promise thr (Var x) v ;; ret (OVal_ v')
    | OValueOrMove x v => v' <-- value_or_move promise moved thr (Var x) v ;; ret (OVal_ v')
    end.
  Definition vexec (o : vop V) : M (obs V) :=
    match o with
    | VNew x => none (vctor_default (Var x))
    | VNewErr x m e => none (vctor_error promise thr (Var x) m e)
    | VNewCopy x y => none (vctor_copy promise thr (Var x) (Var y))
    | VNewMove x y => none (vctor_move promise moved thr (Var x) (Var y))
    | VDel x => none (vdtor (Var x))
    | VCopy x y => none (vcopy_assign promise moved torn thr (Var x) (Var y))
    | VMove x y => none (vmove_assign promise moved torn thr (Var x) (Var y))
    | VEmplace x => none (vemplace promise moved torn thr (Var x))
    | VSwap x y => none (vswap promise moved torn thr (Var x) (Var y))
    | VHas x => b <-- has_value (Var x) ;; ret (OBool b)
    | VError x => error (Var x) ;;; v <-- read (Var x) 1 ;; ret (OVal_ v)
    | VValue x => none (vvalue promise thr noexc (Var x))
    end.
End Run.
