(** Model of the constructors of tuple (include/tao/tuple/tuple.hpp 63-67, 114-199, 230-292, 326-345, 404-511, 532-555), of make_tuple, forward_as_tuple and tie (576-615), and of
    uses-allocator construction (include/nanomemory.h 40-119).

    Types are those of TyModel, arguments are expressions of FwdModel (a type and a value category; no braced lists).  Which class names are tuples and of what ([untup]), which
    types can be initialised from which arguments ([ctor], direct initialisation) and which class has which allocator_type are arbitrary.  An element is described by the
    arguments it is initialised with.  The overloads tuple(const Ts&...) are not considered: they are chosen only where all arguments are const lvalues of the element types (or
    lvalues for elements that are references), and do the same as tuple(Us&&...) there.  Empty elements, which the tuple derives from (230-324), are
    initialised alike.  noexcept and constexpr are not modelled. *)
From Coq Require Import List Bool Arith.
From Verif Require Import TyModel TraitModel FwdModel.
Import ListNotations.

(** no code counterpart: what forward<U>(u) is for a parameter U&& u that was given [e] *)
Definition fwd (e : expr) : expr := match e_cat e with Prvalue => Expr (e_ty e) Xvalue | _ => e end.
(** no code counterpart: the expression declval<const U&>(), and declval<U&&>() *)
Definition cref (U : ty) : expr := match U with TLref u | TRref u => Expr u Lvalue | _ => Expr (const_of U) Lvalue end.
Definition xref (U : ty) : expr := match U with TLref u => Expr u Lvalue | TRref u => Expr u Xvalue | _ => Expr U Xvalue end.
(** no code counterpart: what the elements are initialised with *)
Definition init : Type := list expr.
(** no code counterpart: no constructor (or a deleted one, or several) for these arguments; the chosen constructor does not compile; it does *)
Inductive made := Rejected | HardError | Made (l : list init).
(** no code counterpart: equality of lists of types *)
Fixpoint tys_eqb (xs ys : list ty) : bool := match xs, ys with [], [] => true | x :: xs, y :: ys => ty_eqb x y && tys_eqb xs ys | _, _ => false end.
(** no code counterpart: a fold over two packs *)
Fixpoint all2 {A B} (f : A -> B -> bool) (xs : list A) (ys : list B) : bool := match xs, ys with x :: xs, y :: ys => f x y && all2 f xs ys | _, _ => true end.
(** nanomemory.h:73 the class allocator_arg_t *)
Definition alloc_arg : expr := Expr (TClass nocv 2) Xvalue.

(** no code counterpart: a constructor with one parameter in overload resolution: is it viable, is the parameter a reference to const, an rvalue reference; [rank]: a function that
      is not a template (or less of one) is preferred; what it does *)
Record cand := Cand { c_id : nat; c_ok : bool; c_const : bool; c_rref : bool; c_rank : nat; c_do : made }.
(** no code counterpart: [over.ics.rank] for reference bindings, [over.match.best] *)
Definition better (c d : cand) : bool :=
  if c_rref c && negb (c_rref d) then true else if c_rref d && negb (c_rref c) then false else
  if negb (c_const c) && c_const d then true else if c_const c && negb (c_const d) then false else c_rank c <? c_rank d.
(** no code counterpart: overload resolution *)
Definition resolve (cs : list cand) : made :=
  let v := filter c_ok cs in
  match find (fun c => forallb (fun d => (c_id c =? c_id d) || better c d) v) v with Some c => c_do c | None => Rejected end.

Section Tc.
  Variable ctor : ty -> list expr -> bool.
  Variable untup : nat -> option (list ty).
  Variable allocator_type : ty -> option ty.
  Variable conv : ty -> ty -> bool.
  (** nanotype_traits.h:777-785, 710-713 is_default_constructible *)
  Definition default_constructible (T : ty) : bool := negb (is_reference T) && ctor T [].
  (** no code counterpart: the element types of a tuple *)
  Definition untuple (t : ty) : option (list ty) := match t with TClass _ n => untup n | _ => None end.

  (** tuple.hpp:332-335 tuple_base(Us&&...); 160-166, 260-266 tuple_value(U&&): packs of different lengths do not expand *)
  Definition base (Ts : list ty) (es : list expr) : made :=
    if (length es =? length Ts) && all2 (fun T e => ctor T [fwd e]) Ts es then Made (map (fun e => [fwd e]) es) else HardError.
  (** no code counterpart: a member of type T of a const tuple, of a tuple that is an rvalue, as the defaulted constructors take it *)
  Definition copyable (T : ty) : bool := match T with TRref _ => false | _ => ctor T [cref T] end.
  Definition movable (T : ty) : bool := ctor T [xref T].

  (** tuple.hpp:422-428 tuple(Us&&...) with one argument; 430-431, 194-195, 342-343 the copy and move constructors; 435-441 tuple(const tuple<Us...>&); 443-449 tuple(tuple<Us...>&&) *)
  Definition from_tuple (Ts us : list ty) (e : expr) : made :=
    let t := e_ty e in let c := qc (top t) in let rv := match e_cat e with Lvalue => false | _ => true end in let same := tys_eqb us Ts in
    resolve [
      Cand 0 ((length Ts =? 1) && all2 (fun T e => ctor T [fwd e]) Ts [e]) c rv 2 (base Ts [e]);
      Cand 1 (same && negb (qv (top t))) true false 0 (if forallb copyable Ts then Made (map (fun T => [cref T]) Ts) else Rejected);
      Cand 2 (same && rv && negb c && negb (qv (top t)) && forallb movable Ts) false true 0 (Made (map (fun T => [xref T]) Ts));
      Cand 3 ((length us =? length Ts) && all2 (fun T U => ctor T [cref U]) Ts us && negb (qv (top t))) true false 1 (base Ts [Expr (const_of t) Lvalue]);
      Cand 4 ((length us =? length Ts) && all2 (fun T U => ctor T [xref U]) Ts us && rv && negb c && negb (qv (top t))) false true 1 (base Ts [Expr t Xvalue]) ].
  (** tuple.hpp:408-428, 532-538 tuple(), tuple(Us&&...), tuple<>() *)
  Definition construct (Ts : list ty) (es : list expr) : made :=
    match Ts, es with
    | [], [] => Made []
    | [], [e] => match untuple (e_ty e) with Some [] => if qv (top (e_ty e)) then Rejected else Made [] | _ => Rejected end
    | [], _ => Rejected
    | _, [] => if forallb default_constructible Ts then Made (map (fun _ => []) Ts) else Rejected
    | _, [e] => match untuple (e_ty e) with Some us => from_tuple Ts us e | None => if (length Ts =? 1) && all2 (fun T e => ctor T [fwd e]) Ts [e] then base Ts [e] else Rejected end
    | _, _ => if (length es =? length Ts) && all2 (fun T e => ctor T [fwd e]) Ts es then base Ts es else Rejected
    end.

  (** nanomemory.h:40-71 __has_allocator_type, __uses_allocator, uses_allocator; tuple.hpp:63-67 *)
  Definition uses_allocator (T A : ty) : bool :=
    match T with
    | TClass (Cv false false) n => match untup n with Some _ => true | None => match allocator_type T with Some r => match ptr r with Some _ => conv A r | None => false end | None => false end end
    | _ => match allocator_type T with Some r => match ptr r with Some _ => conv A r | None => false end | None => false end
    end.
  (** nanomemory.h:84-97 __uses_alloc_ctor: which of the three functions *)
  Definition uses_alloc_ctor (T A : ty) (es : list expr) : nat :=
    if uses_allocator T (remove_cv (remove_reference A)) then 2 - (if ctor T (alloc_arg :: xref A :: map fwd es) then 1 else 0) else 0.
  (** nanomemory.h:99-119 __user_alloc_construct_impl with the allocator of type A: None does not compile *)
  Definition alloc_construct (k : nat) (T A : ty) (es : list expr) : option init :=
    let a := cref (remove_cv (remove_reference A)) in
    let i := match k with 0 => map fwd es | 1 => alloc_arg :: a :: map fwd es | _ => map fwd es ++ [a] end in
    if ctor T i then Some i else None.
  (** tuple.hpp:114-118, 168-193, 268-287 tuple_value(uses_alloc_ctor<..>*, const A&, U&&) *)
  Definition alloc_value (T A : ty) (e : expr) : option init :=
    let i := if uses_allocator T A then if ctor T [alloc_arg; xref A; fwd e] then [alloc_arg; cref A; fwd e] else [fwd e; cref A] else [fwd e] in
    if ctor T i then Some i else None.
  (** tuple.hpp:337-340 tuple_base(allocator_arg_t, const A&, Us&&...) *)
  Fixpoint alloc_base (Ts : list ty) (A : ty) (es : list expr) : made :=
    match Ts, es with
    | [], [] => Made []
    | T :: Ts, e :: es => match alloc_value T A e, alloc_base Ts A es with Some i, Made l => Made (i :: l) | _, _ => HardError end
    | _, _ => HardError
    end.
  (** tuple.hpp:451-511, 540-550 the constructors with an allocator; those without are not considered for the same arguments *)
  Definition construct_alloc (Ts : list ty) (A : ty) (es : list expr) : made :=
    match Ts, es with
    | [], [] => Made []
    | [], [e] => match untuple (e_ty e) with Some [] => if qv (top (e_ty e)) then Rejected else Made [] | _ => Rejected end
    | [], _ => Rejected
    | _, [] => if forallb default_constructible Ts then alloc_base Ts A [] else Rejected
    | _, [e] =>
        match untuple (e_ty e) with
        | Some us =>
            let t := e_ty e in let c := qc (top t) in let rv := match e_cat e with Lvalue => false | _ => true end in let same := tys_eqb us Ts in
            resolve [
              Cand 0 ((length Ts =? 1) && all2 (fun T e => ctor T [fwd e]) Ts [e]) c rv 2 (alloc_base Ts A [e]);
              Cand 1 (same && negb (qv (top t))) true false 0 (alloc_base Ts A [Expr (const_of t) Lvalue]);
              Cand 2 (same && rv && negb c && negb (qv (top t))) false true 0 (alloc_base Ts A [Expr t Xvalue]);
              Cand 3 ((length us =? length Ts) && all2 (fun T U => ctor T [cref U]) Ts us && negb (qv (top t))) true false 1 (alloc_base Ts A [Expr (const_of t) Lvalue]);
              Cand 4 ((length us =? length Ts) && all2 (fun T U => ctor T [xref U]) Ts us && rv && negb c && negb (qv (top t))) false true 1 (alloc_base Ts A [Expr t Xvalue]) ]
        | None => if (length Ts =? 1) && all2 (fun T e => ctor T [fwd e]) Ts [e] then alloc_base Ts A [e] else Rejected
        end
    | _, _ => if (length es =? length Ts) && all2 (fun T e => ctor T [fwd e]) Ts es then alloc_base Ts A es else Rejected
    end.

  (** no code counterpart: reference_wrapper<T> is a class; which T *)
  Variable unwrap : nat -> option ty.
  (** tuple.hpp:579-592, 597 make_tuple_return; the element type for an argument *)
  Definition make_type (e : expr) : option ty :=
    Tp <- deduce e ; d <- decay Tp ; Some (match d with TClass (Cv false false) n => match unwrap n with Some t => TLref t | None => d end | _ => d end).
  (** no code counterpart: a pack of types, all of which must exist *)
  Fixpoint types (f : expr -> option ty) (es : list expr) : option (list ty) :=
    match es with [] => Some [] | e :: es => t <- f e ; ts <- types f es ; Some (t :: ts) end.
  (** tuple.hpp:597-601 make_tuple; the tuple is of these types *)
  Definition make_tuple (es : list expr) : option (list ty * made) := Ts <- types make_type es ; Some (Ts, construct Ts (map fwd es)).
  (** tuple.hpp:604-608 forward_as_tuple *)
  Definition forward_as_tuple (es : list expr) : option (list ty * made) := Ts <- types (fun e => Tp <- deduce e ; rref Tp) es ; Some (Ts, construct Ts (map fwd es)).
  (** tuple.hpp:611-615 tie: lvalues only *)
  Definition tie (es : list expr) : option (list ty * made) :=
    Ts <- types (fun e => match e_cat e with Lvalue => lref (e_ty e) | _ => None end) es ; Some (Ts, construct Ts es).
End Tc.
