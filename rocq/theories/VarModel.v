(** Model of nonstd::variant<T0,...,T15> (include/nonstd/variant.hpp 930-1100, 1205-1743,
    1745-1870, 1900-2195, 2229-2343), which include/nanovariant.h exports as nanostl::variant.

    A variant at [l] is type_index ([disc w l]: [Some t], or [None] for -1, valueless) and
    the buffer ([objs w l]); alternative Tt is type number [t] of LifeModel.  The number of
    alternatives is [n] (at most 16; the placeholders detail::Tk that fill up the rest are
    empty classes with noexcept operations and cannot be held).  The alternatives are
    pairwise different types (with equal types the constructors do not compile).
    Simplifications: constructor arguments are values outside the variants; the overload
    for the argument's type is selected by the client ([t]).  std::hash<variant> is left
    out: it calls this->get, which the class does not have. *)
From Coq Require Import List Bool PeanoNat.
From Verif Require Import LifeModel.
Import ListNotations.

Section Variant.
  Context {V : Type}.
  Context (promise : nat -> okind -> bool) (moved torn : V -> V) (thr : nat -> bool).
  (** variant_CONFIG_NO_EXCEPTIONS (line 16 sets it), and the number of alternatives *)
  Context (noexc : bool) (n : nat).
  Notation D := (option nat).
  Notation M := (@M V D).
  Notation make := (@make V D promise thr).
  Notation copy_make := (@copy_make V D promise thr).
  Notation move_make := (@move_make V D promise moved thr).
  Notation copy_asg := (@copy_asg V D promise torn thr).
  Notation move_asg := (@move_asg V D promise moved torn thr).
  Notation assign := (@assign V D promise torn thr).
  Notation swap_objs := (@swap_objs V D promise torn thr).

  (** the conjunctions over all alternatives in the noexcept clauses, for example 1270-1286 *)
  Definition all (k : okind) : bool := forallb (fun t => promise t k) (List.seq 0 n).

  (** switch( index ) { case 0: ... case 15: ... }, as in helper::destroy (955-975) and the
      other helper functions: no default *)
  Definition switch (i : D) (f : nat -> M unit) : M unit :=
    match i with Some t => if Nat.ltb t 16 then f t else ret tt | None => ret tt end.
  (** 955-975, 998-1046, 1049-1098 *)
  Definition h_destroy (i : D) (l : loc) : M unit := switch i (fun t => destroy l t).
  Definition h_move_construct (i : D) (src l : loc) : M unit := switch i (fun t => move_make l t src).
  Definition h_move_assign (i : D) (src l : loc) : M unit := switch i (fun t => move_asg l t src).
  Definition h_copy_construct (i : D) (src l : loc) : M unit := switch i (fun t => copy_make l t src).
  Definition h_copy_assign (i : D) (src l : loc) : M unit := switch i (fun t => copy_asg l t src).

  (** 1411-1414 index() ([None]: variant_npos), 1463-1466 valueless_by_exception() *)
  Definition index (l : loc) : M D := get_disc l.
  Definition valueless (l : loc) : M bool := i <-- index l ;; ret (match i with None => true | Some _ => false end).
  (* no code counterpart: comparison of indices *)
  Definition same (i j : D) : bool :=
    match i, j with Some a, Some b => Nat.eqb a b | None, None => true | _, _ => false end.

  (** 1222 variant() *)
  Definition ctor_default (l : loc) (v : V) : M unit :=
    enter l (Some 0) ;;; on_exn (make l 0 KNew v) (put_disc l None).
  (** 1224-1258 from a value of the alternative [t] *)
  Definition ctor_value (l : loc) (t : nat) (rvalue : bool) (v : V) : M unit :=
    enter l (Some t) ;;; on_exn (make l t (if rvalue then KMove else KCopy) v) (put_disc l None).
  (** 1262-1266 copy constructor, 1270-1290 move constructor *)
  Definition ctor_copy (l src : loc) : M unit :=
    i <-- index src ;; enter l i ;;; on_exn (h_copy_construct i src l) (put_disc l None).
  Definition ctor_move (l src : loc) : M unit :=
    noexcept (all KMove) (i <-- index src ;; enter l i ;;; on_exn (h_move_construct i src l) (put_disc l None)).
  (** 1295-1330 in place, with construct_t/construct_i (979-996) *)
  Definition ctor_in (l : loc) (t : nat) (v : V) : M unit :=
    enter l None ;;; on_exn (make l t KNew v ;;; put_disc l (Some (Some t))) (put_disc l None).
  (** 1335-1341 destructor *)
  Definition dtor (l : loc) : M unit :=
    b <-- valueless l ;; i <-- index l ;; (if negb b then h_destroy i l else ret tt) ;;; put_disc l None.

  (** 1603-1625 copy_assign, 1629-1651 move_assign *)
  Definition copy_assign (l src : loc) : M unit :=
    a <-- valueless l ;; b <-- valueless src ;; i <-- index l ;; j <-- index src ;;
    if a && b then ret tt
    else if negb a && b then h_destroy i l ;;; put_disc l (Some None)
    else if same i j then h_copy_assign j src l ;;; put_disc l (Some j)
    else h_destroy i l ;;; put_disc l (Some None) ;;; h_copy_construct j src l ;;; put_disc l (Some j).
  Definition move_assign_ (l src : loc) : M unit :=
    a <-- valueless l ;; b <-- valueless src ;; i <-- index l ;; j <-- index src ;;
    if a && b then ret tt
    else if negb a && b then h_destroy i l ;;; put_disc l (Some None)
    else if same i j then h_move_assign j src l ;;; put_disc l (Some j)
    else h_destroy i l ;;; put_disc l (Some None) ;;; h_move_construct j src l ;;; put_disc l (Some j).
  (** 1352-1371 operator=( variant && ) *)
  Definition move_assign (l src : loc) : M unit := noexcept (all KMoveAsg) (move_assign_ l src).
  (** 1654-1687 assign_value, called by 1373-1408 *)
  Definition assign_value (l : loc) (t : nat) (rvalue : bool) (v : V) : M unit :=
    i <-- index l ;;
    if same i (Some t) then assign l t (if rvalue then KMoveAsg else KCopyAsg) v
    else h_destroy i l ;;; put_disc l (Some None) ;;; make l t (if rvalue then KMove else KCopy) v ;;; put_disc l (Some (Some t)).
  (** 1422-1458 emplace *)
  Definition emplace (l : loc) (t : nat) (v : V) : M V :=
    i <-- index l ;; h_destroy i l ;;; put_disc l (Some None) ;;; make l t KNew v ;;; put_disc l (Some (Some t)) ;;; read l t.

  (** 1526-1566 get<T>(), get<K>() and the functions get (1755-1838) *)
  Definition get (l : loc) (t : nat) : M V :=
    i <-- index l ;;
    (if same (Some t) i then ret tt else if noexc then bad AssertFail else throw_) ;;; read l t.
  (** 1843-1868 get_if *)
  Definition get_if (l : loc) (t : nat) : M (option V) :=
    i <-- index l ;; if same i (Some t) then v <-- get l t ;; ret (Some v) else ret None.
  (** 1748-1752 holds_alternative *)
  Definition holds (l : loc) (t : nat) : M bool := i <-- index l ;; ret (same i (Some t)).
  (** get<t>( x ) = v through the returned reference *)
  Definition get_set (l : loc) (t : nat) (v : V) : M unit := get l t ;;; assign l t KCopyAsg v.

  (** 1689-1712 swap_value *)
  Definition swap_value (i : D) (l other : loc) : M unit :=
    switch i (fun t => get l t ;;; get other t ;;; swap_objs l other t).
  (** 1470-1515 swap *)
  Definition swap (l other : loc) : M unit :=
    noexcept (all KMove && all KSwap)
     (a <-- valueless l ;; b <-- valueless other ;; i <-- index l ;; j <-- index other ;;
      if a && b then ret tt
      else if same i j then swap_value i l other
      else ctor_move (Tmp 1) l ;;;
           finally (move_assign l other ;;; move_assign other (Tmp 1)) (dtor (Tmp 1))).

  (** * visit *)
  Section Visit.
    Context {R : Type}.
    (* a visitor is called with the alternatives (their number) and values of its arguments *)
    Notation visitor := (list (nat * V) -> M R).
    (** 2094-2131 VisitorApplicator::apply on one variant; default: terminate() *)
    Definition apply1 (v : visitor) (arg : loc) : M R :=
      i <-- index arg ;;
      match i with
      | Some t => if Nat.ltb t 16 then x <-- get arg t ;; v [(t, x)] else (fun _ => Term)
      | None => fun _ => Term
      end.
    (** 2040-2086 VisitorUnwrapper on the variant [r]: called with the values of the
        arguments to its right, applies a TypedVisitorUnwrapper (1946-2035), which puts the
        value of [r] in front *)
    Definition unwrap (v : visitor) (r : loc) : visitor :=
      fun vals => apply1 (fun val1 => v (val1 ++ vals)) r.
    (** the parameters [const V ... args] of 2134, passed by value: copies in the storages
        [Tmp c], [Tmp (c+1)], ... *)
    Fixpoint copies (c : nat) (srcs : list loc) (k : list loc -> M R) : M R :=
      match srcs with
      | [] => k []
      | s :: ss => ctor_copy (Tmp c) s ;;; finally (copies (S c) ss (fun ls => k (Tmp c :: ls))) (dtor (Tmp c))
      end.
    (** 2133-2139 VisitorApplicator::apply on several variants ([m] of them) *)
    Fixpoint apply (m c : nat) (v : visitor) (args : list loc) : M R :=
      match m, args with
      | S _, [a] => apply1 v a
      | S m', a1 :: a2 :: rest => copies c rest (fun rest' => apply m' (c + length rest) (unwrap v a1) (a2 :: rest'))
      | _, _ => bad AssertFail
      end.
    (** 2189-2195 visit *)
    Definition visit (v : visitor) (args : list loc) : M R := apply (length args) 2 v args.
  End Visit.
End Variant.

(** Relational operators 2289-2343 with Comparator (2233-2283), on what the operands hold
    ([None]: valueless), for alternatives with operators [eq t] and [lt t]. *)
Section Cmp.
  Context {V : Type} (eq lt : nat -> V -> V -> bool).
  Notation var := (option (nat * V)).
  (* no code counterpart: index(); get<t>(v) and get<t>(w) compared *)
  Definition idx (x : var) : option nat := option_map fst x.
  Definition cmp2 (f : nat -> V -> V -> bool) (x y : var) : bool :=
    match x, y with Some (t, a), Some (u, b) => if Nat.ltb t 16 then f t a b else false | _, _ => false end.
  (* no code counterpart: < on size_t, where variant_npos is the largest *)
  Definition idx_lt (i j : option nat) : bool :=
    match i, j with Some a, Some b => Nat.ltb a b | Some _, None => true | None, _ => false end.
  Definition is_none (x : var) : bool := match x with None => true | _ => false end.
  Definition v_eq (v w : var) : bool :=
    if negb (same (idx v) (idx w)) then false else if is_none v then true else cmp2 eq v w.
  Definition v_ne (v w : var) : bool := negb (v_eq v w).
  Definition v_lt (v w : var) : bool :=
    if is_none w then false else if is_none v then true
    else if idx_lt (idx v) (idx w) then true else if idx_lt (idx w) (idx v) then false else cmp2 lt v w.
  Definition v_gt (v w : var) : bool := v_lt w v.
  Definition v_le (v w : var) : bool := negb (v_gt v w).
  Definition v_ge (v w : var) : bool := negb (v_lt v w).
End Cmp.

(** The calls a client program can make. *)
Inductive op (V : Type) : Type :=
| ONew (x : nat) (v : V) | ONewVal (x t : nat) (rvalue : bool) (v : V) | ONewIn (x t : nat) (v : V) | ONewCopy (x y : nat) | ONewMove (x y : nat)
| ODel (x : nat) | OCopy (x y : nat) | OMove (x y : nat) | OVal (x t : nat) (rvalue : bool) (v : V) | OEmplace (x t : nat) (v : V)
| OSwap (x y : nat) | OIndex (x : nat) | OValueless (x : nat) | OHolds (x t : nat) | OGet (x t : nat) | OGetIf (x t : nat)
| OSet (x t : nat) (v : V) | OVisit (xs : list nat).
Arguments ONew {V} x v. Arguments ONewVal {V} x t rvalue v. Arguments ONewIn {V} x t v. Arguments ONewCopy {V} x y. Arguments ONewMove {V} x y.
Arguments ODel {V} x. Arguments OCopy {V} x y. Arguments OMove {V} x y. Arguments OVal {V} x t rvalue v. Arguments OEmplace {V} x t v.
Arguments OSwap {V} x y. Arguments OIndex {V} x. Arguments OValueless {V} x. Arguments OHolds {V} x t. Arguments OGet {V} x t. Arguments OGetIf {V} x t.
Arguments OSet {V} x t v. Arguments OVisit {V} xs.

(* no code counterpart: what a call returns to the client *)
Inductive obs (V : Type) : Type :=
| Nothing | OBool (b : bool) | OVal_ (v : V) | OIdx (i : option nat) | OPtr (v : option V) | OArgs (vs : list (nat * V)).
Arguments Nothing {V}. Arguments OBool {V} b. Arguments OVal_ {V} v. Arguments OIdx {V} i. Arguments OPtr {V} v. Arguments OArgs {V} vs.

Section Run.
  Context {V : Type}.
  Context (promise : nat -> okind -> bool) (moved torn : V -> V) (thr : nat -> bool) (noexc : bool) (n : nat).
  Notation M := (@M V (option nat)).
  (* no code counterpart: a call with its result *)
  Definition none (m : M unit) : M (obs V) := m ;;; ret Nothing.
  (** dispatch of the client's calls; the visitor gives back what it was called with *)
  Definition exec (o : op V) : M (obs V) :=
    match o with
    | ONew x v => none (ctor_default promise thr (Var x) v)
    | ONewVal x t r v => none (ctor_value promise thr (Var x) t r v)
    | ONewIn x t v => none (ctor_in promise thr (Var x) t v)
    | ONewCopy x y => none (ctor_copy promise thr (Var x) (Var y))
    | ONewMove x y => none (ctor_move promise moved thr n (Var x) (Var y))
    | ODel x => none (dtor (Var x))
    | OCopy x y => none (copy_assign promise torn thr (Var x) (Var y))
    | OMove x y => none (move_assign promise moved torn thr n (Var x) (Var y))
    | OVal x t r v => none (assign_value promise torn thr (Var x) t r v)
    | OEmplace x t v => v' <-- emplace promise thr (Var x) t v ;; ret (OVal_ v')
    | OSwap x y => none (swap promise moved torn thr noexc n (Var x) (Var y))
    | OIndex x => i <-- index (Var x) ;; ret (OIdx i)
    | OValueless x => b <-- valueless (Var x) ;; ret (OBool b)
    | OHolds x t => b <-- holds (Var x) t ;; ret (OBool b)
    | OGet x t => v <-- get noexc (Var x) t ;; ret (OVal_ v)
    | OGetIf x t => v <-- get_if noexc (Var x) t ;; ret (OPtr v)
    | OSet x t v => none (get_set promise torn thr noexc (Var x) t v)
    | OVisit xs => visit promise thr noexc (fun vals => ret (OArgs vals)) (map Var xs)
    end.
End Run.
