(** Model of nonstd::optional<T> (include/nonstd/optional.hpp 764-1760), which
    include/nanooptional.h exports as nanostl::optional.

    An optional at location [l] is its flag has_value_ ([disc w l]) and its buffer
    ([objs w l]); T is type number 0 of LifeModel.  Simplifications: converting
    constructors and assignments from optional<U> use the same value ([U] values are
    [T] values); arguments of constructors and of emplace are a value or a reference to
    the value of some optional; constexpr, overload selection and the C++98 branches are
    not modelled. *)
From Coq Require Import List Bool PeanoNat.
From Verif Require Import LifeModel.
Import ListNotations.

Section Opt.
  Context {V : Type}.
  Context (promise : nat -> okind -> bool) (moved torn : V -> V) (thr : nat -> bool).
  (** [noexc]: optional_CONFIG_NO_EXCEPTIONS (47-61, 1 unless NANOSTL_ENABLE_EXCEPTION is
      defined); [clang]: optional_COMPILER_CLANG_VERSION is not 0 (1482). *)
  Context (noexc clang : bool).
  Notation W := (world V bool).
  Notation M := (@M V bool).
  Notation make := (@make V bool promise thr).
  Notation copy_make := (@copy_make V bool promise thr).
  Notation move_make := (@move_make V bool promise moved thr).
  Notation assign := (@assign V bool promise torn thr).
  Notation copy_asg := (@copy_asg V bool promise torn thr).
  Notation move_asg := (@move_asg V bool promise moved torn thr).
  Notation swap_objs := (@swap_objs V bool promise torn thr).

  (** 1422-1425 has_value (and 1410-1413 operator bool). *)
  Definition has_value (l : loc) : M bool := get_disc l.

  (** 954-964 optional(), optional(nullopt_t). *)
  Definition ctor_empty (l : loc) : M unit := enter l false.
  (** 975-982 copy constructor (and the converting ones, 1019-1053).  When the
      construction of the value throws there is no optional. *)
  Definition ctor_copy (l src : loc) : M unit :=
    h <-- has_value src ;; enter l h ;;;
    on_exn (if h then copy_make l 0 src else ret tt) (put_disc l None).
  (** 986-1003 move constructor (and the converting ones, 1073-1106). *)
  Definition ctor_move (l src : loc) : M unit :=
    h <-- has_value src ;; enter l h ;;;
    on_exn (if h then move_make l 0 src else ret tt) (put_disc l None).
  (** 1108-1157 in-place construction and construction from a value. *)
  Definition ctor_value (l : loc) (v : V) : M unit :=
    enter l true ;;; on_exn (make l 0 KNew v) (put_disc l None).

  (** 1171-1177 destructor. *)
  Definition dtor (l : loc) : M unit :=
    h <-- has_value l ;; (if h then destroy l 0 else ret tt) ;;; put_disc l None.

  (** 1499-1507 reset. *)
  Definition reset (l : loc) : M unit :=
    h <-- has_value l ;; (if h then destroy l 0 else ret tt) ;;; put_disc l (Some false).
  (** 1182-1186 operator=(nullopt_t). *)
  Definition assign_null (l : loc) : M unit := reset l.

  (** 1383-1405 operator* (and operator->, 1371-1381): assert, then the stored value. *)
  Definition deref (l : loc) : M unit := h <-- has_value l ;; assert_ h.

  (** 1513-1518 initialize(V const &) and 1522-1527 initialize(V &&), the value being the
      object at [src]. *)
  Definition initialize_copy (l src : loc) : M unit :=
    h <-- has_value l ;; assert_ (negb h) ;;; copy_make l 0 src ;;; put_disc l (Some true).
  Definition initialize_move (l src : loc) : M unit :=
    h <-- has_value l ;; assert_ (negb h) ;;; move_make l 0 src ;;; put_disc l (Some true).

  (** 1190-1209 copy assignment; note the condition of its noexcept. *)
  Definition copy_assign (l src : loc) : M unit :=
    noexcept (promise 0 KMoveAsg && promise 0 KMove)
     (hx <-- has_value l ;; hy <-- has_value src ;;
      if hx && negb hy then reset l
      else if negb hx && hy then deref src ;;; initialize_copy l src
      else if hx && hy then deref src ;;; copy_asg l 0 src
      else ret tt).
  (** 1214-1228 move assignment, noexcept. *)
  Definition move_assign (l src : loc) : M unit :=
    noexcept true
     (hx <-- has_value l ;; hy <-- has_value src ;;
      if hx && negb hy then reset l
      else if negb hx && hy then deref src ;;; initialize_move l src
      else if hx && hy then deref src ;;; move_asg l 0 src
      else ret tt).
  (** 1231-1252 assignment of a value from outside ([mv]: an rvalue). *)
  Definition assign_value (l : loc) (v : V) (mv : bool) : M unit :=
    hx <-- has_value l ;;
    if hx then assign l 0 (if mv then KMoveAsg else KCopyAsg) v
    else make (Tmp 0) 0 KNew v ;;; finally (initialize_move l (Tmp 0)) (destroy (Tmp 0) 0).
  (** the same for [x = *y], a reference to the value of an optional, maybe [x] itself. *)
  Definition assign_ref (l src : loc) : M unit :=
    deref src ;;; hx <-- has_value l ;;
    if hx then copy_asg l 0 src
    else copy_make (Tmp 0) 0 src ;;; finally (initialize_move l (Tmp 0)) (destroy (Tmp 0) 0).
  (** 1267-1294 and 1299-1321 converting assignment: *this = optional(other). *)
  Definition conv_copy_assign (l src : loc) : M unit :=
    ctor_copy (Tmp 1) src ;;; finally (move_assign l (Tmp 1)) (dtor (Tmp 1)).
  Definition conv_move_assign (l src : loc) : M unit :=
    ctor_move (Tmp 1) src ;;; finally (move_assign l (Tmp 1)) (dtor (Tmp 1)).

  (** 1329-1349 emplace. *)
  Definition emplace (l : loc) (v : V) : M unit :=
    assign_null l ;;; make l 0 KNew v ;;; put_disc l (Some true).
  (** the same for [x.emplace( *y )]. *)
  Definition emplace_ref (l src : loc) : M unit :=
    deref src ;;; assign_null l ;;; copy_make l 0 src ;;; put_disc l (Some true).

  (** 1355-1367 swap (and 1732-1738); its noexcept holds only when nothing in it throws. *)
  Definition swap (l src : loc) : M unit :=
    noexcept (promise 0 KMove && promise 0 KSwap)
     (hx <-- has_value l ;; hy <-- has_value src ;;
      if hx && hy then deref l ;;; deref src ;;; swap_objs l src 0
      else if negb hx && hy then deref src ;;; initialize_move l src ;;; reset src
      else if hx && negb hy then deref l ;;; initialize_move src l ;;; reset l
      else ret tt).

  (** 1428-1466 value. *)
  Definition value (l : loc) : M V :=
    h <-- has_value l ;; (if noexc then assert_ h else if h then ret tt else throw_) ;;; read l 0.
  (** 1472-1476 value_or on an lvalue; the result is a new T. *)
  Definition value_or (l : loc) (v : V) : M V :=
    h <-- has_value l ;;
    if h then r <-- read l 0 ;; th <-- step promise thr 0 KCopy ;; if th then (fun w => Exn User w) else ret r
    else th <-- step promise thr 0 KNew ;; if th then (fun w => Exn User w) else ret v.
  (** 1478-1485 value_or on an rvalue; moves the value out, with clang copies it. *)
  Definition value_or_move (l : loc) (v : V) : M V :=
    h <-- has_value l ;;
    if h then r <-- read l 0 ;; th <-- step promise thr 0 (if clang then KCopy else KMove) ;;
      if th then (fun w => Exn User w) else if clang then ret r else write l 0 (moved r) ;;; ret r
    else th <-- step promise thr 0 KNew ;; if th then (fun w => Exn User w) else ret v.

  (** *x = v through the reference given by operator*. *)
  Definition deref_assign (l : loc) (v : V) : M unit := deref l ;;; assign l 0 KCopyAsg v.
End Opt.

(** Relational operators 1537-1721 on what the two optionals hold ([None]: no value),
    for an element type with operators [eq], [lt], ... *)
Section Cmp.
  Context {T : Type} (eq ne lt le gt ge : T -> T -> bool).
  Notation B := (fun x => match x with Some _ => true | None => false end).
  (* no code counterpart: *x in an expression guarded by bool(x) *)
  Definition on2 (f : T -> T -> bool) (x y : option T) : bool :=
    match x, y with Some a, Some b => f a b | _, _ => false end.
  Definition on1 (f : T -> bool) (x : option T) : bool := match x with Some a => f a | None => false end.

  (** 1540-1573 *)
  Definition opt_eq (x y : option T) : bool :=
    if negb (Bool.eqb (B x) (B y)) then false else if negb (B x) then true else on2 eq x y.
  Definition opt_ne x y : bool := negb (opt_eq x y).
  Definition opt_lt (x y : option T) : bool := if negb (B y) then false else if negb (B x) then true else on2 lt x y.
  Definition opt_gt x y : bool := opt_lt y x.
  Definition opt_le x y : bool := negb (opt_lt y x).
  Definition opt_ge x y : bool := negb (opt_lt x y).

  (** 1578-1647 comparison with nullopt: [xn_op]: x op nullopt, [nx_op]: nullopt op x *)
  Definition xn_eq (x : option T) : bool := negb (B x).
  Definition nx_eq (x : option T) : bool := negb (B x).
  Definition xn_ne (x : option T) : bool := B x.
  Definition nx_ne (x : option T) : bool := B x.
  Definition xn_lt (x : option T) : bool := false.
  Definition nx_lt (x : option T) : bool := B x.
  Definition xn_le (x : option T) : bool := negb (B x).
  Definition nx_le (x : option T) : bool := true.
  Definition xn_gt (x : option T) : bool := B x.
  Definition nx_gt (x : option T) : bool := false.
  Definition xn_ge (x : option T) : bool := true.
  Definition nx_ge (x : option T) : bool := negb (B x).

  (** 1652-1721 comparison with a value: [xv_op]: x op v, [vx_op]: v op x *)
  Definition xv_eq (x : option T) (v : T) : bool := if B x then on1 (fun a => eq a v) x else false.
  Definition vx_eq (v : T) (x : option T) : bool := if B x then on1 (fun a => eq v a) x else false.
  Definition xv_ne (x : option T) (v : T) : bool := if B x then on1 (fun a => ne a v) x else true.
  Definition vx_ne (v : T) (x : option T) : bool := if B x then on1 (fun a => ne v a) x else true.
  Definition xv_lt (x : option T) (v : T) : bool := if B x then on1 (fun a => lt a v) x else true.
  Definition vx_lt (v : T) (x : option T) : bool := if B x then on1 (fun a => lt v a) x else false.
  Definition xv_le (x : option T) (v : T) : bool := if B x then on1 (fun a => le a v) x else true.
  Definition vx_le (v : T) (x : option T) : bool := if B x then on1 (fun a => le v a) x else false.
  Definition xv_gt (x : option T) (v : T) : bool := if B x then on1 (fun a => gt a v) x else false.
  Definition vx_gt (v : T) (x : option T) : bool := if B x then on1 (fun a => gt v a) x else true.
  Definition xv_ge (x : option T) (v : T) : bool := if B x then on1 (fun a => ge a v) x else false.
  Definition vx_ge (v : T) (x : option T) : bool := if B x then on1 (fun a => ge v a) x else true.
End Cmp.

(** The calls a client program can make; variables are numbered. *)
Inductive op (V : Type) : Type :=
| ONew (x : nat) | ONewVal (x : nat) (v : V) | ONewCopy (x y : nat) | ONewMove (x y : nat) | ODel (x : nat)
| OReset (x : nat) | OCopy (x y : nat) | OMove (x y : nat) | OVal (x : nat) (v : V) (mv : bool) | ORef (x y : nat)
| OConvCopy (x y : nat) | OConvMove (x y : nat) | OEmplace (x : nat) (v : V) | OEmplaceRef (x y : nat)
| OSwap (x y : nat) | OHas (x : nat) | OGet (x : nat) | OSet (x : nat) (v : V) | OValue (x : nat)
| OValueOr (x : nat) (v : V) | OValueOrMove (x : nat) (v : V).
Arguments ONew {V} x. Arguments ONewVal {V} x v. Arguments ONewCopy {V} x y. Arguments ONewMove {V} x y.
Arguments ODel {V} x. Arguments OReset {V} x. Arguments OCopy {V} x y. Arguments OMove {V} x y.
Arguments OVal {V} x v mv. Arguments ORef {V} x y. Arguments OConvCopy {V} x y. Arguments OConvMove {V} x y.
Arguments OEmplace {V} x v. Arguments OEmplaceRef {V} x y. Arguments OSwap {V} x y. Arguments OHas {V} x.
Arguments OGet {V} x. Arguments OSet {V} x v. Arguments OValue {V} x. Arguments OValueOr {V} x v. Arguments OValueOrMove {V} x v.

(* no code counterpart: what a call returns to the client *)
Inductive obs (V : Type) : Type := Nothing | OBool (b : bool) | OVal_ (v : V).
Arguments Nothing {V}. Arguments OBool {V} b. Arguments OVal_ {V} v.

Section Run.
  Context {V : Type}.
  Context (promise : nat -> okind -> bool) (moved torn : V -> V) (thr : nat -> bool) (noexc clang : bool).
  Notation M := (@M V bool).
  (* no code counterpart: a call with its result *)
  Definition none (m : M unit) : M (obs V) := m ;;; ret Nothing.
  (** dispatch of the client's calls *)
  Definition exec (o : op V) : M (obs V) :=
    match o with
    | ONew x => none (ctor_empty (Var x))
    | ONewVal x v => none (ctor_value promise thr (Var x) v)
    | ONewCopy x y => none (ctor_copy promise thr (Var x) (Var y))
    | ONewMove x y => none (ctor_move promise moved thr (Var x) (Var y))
    | ODel x => none (dtor (Var x))
    | OReset x => none (reset (Var x))
    | OCopy x y => none (copy_assign promise torn thr (Var x) (Var y))
    | OMove x y => none (move_assign promise moved torn thr (Var x) (Var y))
    | OVal x v mv => none (assign_value promise moved torn thr (Var x) v mv)
    | ORef x y => none (assign_ref promise moved torn thr (Var x) (Var y))
    | OConvCopy x y => none (conv_copy_assign promise moved torn thr (Var x) (Var y))
    | OConvMove x y => none (conv_move_assign promise moved torn thr (Var x) (Var y))
    | OEmplace x v => none (emplace promise thr (Var x) v)
    | OEmplaceRef x y => none (emplace_ref promise thr (Var x) (Var y))
    | OSwap x y => none (swap promise moved torn thr (Var x) (Var y))
    | OHas x => b <-- has_value (Var x) ;; ret (OBool b)
    | OGet x => deref (Var x) ;;; v <-- read (Var x) 0 ;; ret (OVal_ v)
    | OSet x v => none (deref_assign promise torn thr (Var x) v)
    | OValue x => v <-- value noexc (Var x) ;; ret (OVal_ v)
    | OValueOr x v => v' <-- value_or promise thr (Var x) v ;; ret (OVal_ v')
    | OValueOrMove x v => v' <-- value_or_move promise moved thr clang (Var x) v ;; ret (OVal_ v')
    end.
End Run.
