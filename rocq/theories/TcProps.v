(** C95: what a tuple can be constructed from, and what its elements are then initialised with. *)
From Coq Require Import List Bool Arith.
From Verif Require Import TyModel TraitModel TraitSpec FwdModel FwdProps TcModel TcSpec TcProofs.
Import ListNotations.

(** Arguments that are not a tuple: the tuple is constructed exactly when there is one argument per element and each element can be initialised from its argument, and then it is,
    with the argument's category; and nothing is chosen that does not compile. *)
Theorem C95_values : forall ctor untup Ts es l, Ts <> [] -> es <> [] -> (forall e, es = [e] -> untuple untup (e_ty e) = None) ->
  (construct ctor untup Ts es = Made l <-> each ctor Ts es /\ l = map (fun e => [given e]) es) /\ construct ctor untup Ts es <> HardError.
Proof. exact k_values. Qed.
Print Assumptions C95_values.
(** No arguments: exactly when all elements are objects with a default constructor, which then are value-initialised. *)
Theorem C95_default : forall ctor untup Ts l, construct ctor untup Ts [] = Made l <->
  (forall T, In T Ts -> (forall u, T <> TLref u /\ T <> TRref u) /\ ctor T [] = true) /\ l = map (fun _ => []) Ts.
Proof. exact k_default. Qed.
Print Assumptions C95_default.
(** A tuple of the same type is copied, or moved if it is an rvalue that is not const, element by element, unless the only element can be initialised from the tuple. *)
Theorem C95_copy : forall ctor untup Ts e, Ts <> [] -> untuple untup (e_ty e) = Some Ts -> qv (top (e_ty e)) = false -> (forall T, Ts = [T] -> ctor T [given e] = false) ->
  (is_lvalue e = true \/ qc (top (e_ty e)) = true ->
     (forall l, construct ctor untup Ts [e] = Made l <-> (forall T, In T Ts -> ctor T [const_arg T] = true /\ forall u, T <> TRref u) /\ l = map (fun T => [const_arg T]) Ts) /\
     construct ctor untup Ts [e] <> HardError) /\
  (is_lvalue e = false -> qc (top (e_ty e)) = false -> (forall T, In T Ts -> ctor T [rvalue_arg T] = true) -> construct ctor untup Ts [e] = Made (map (fun T => [rvalue_arg T]) Ts)).
Proof. exact k_copy_spec. Qed.
Print Assumptions C95_copy.
(** A tuple of other types is never taken element by element: with two or more elements it does not compile ... *)
Theorem C95_convert_never : forall ctor untup Ts us e l, 2 <= length Ts -> untuple untup (e_ty e) = Some us -> us <> Ts -> construct ctor untup Ts [e] <> Made l.
Proof. exact k_convert_never. Qed.
Print Assumptions C95_convert_never.
(** ... although the constructor is enabled whenever std::tuple's is. *)
Theorem C95_convert_enabled : forall ctor untup Ts us e, 2 <= length Ts -> untuple untup (e_ty e) = Some us -> us <> Ts -> qv (top (e_ty e)) = false ->
  let cat := if is_lvalue e || qc (top (e_ty e)) then const_arg else rvalue_arg in
  Forall2 (fun T U => ctor T [cat U] = true) Ts us -> construct ctor untup Ts [e] = HardError.
Proof. exact k_convert_enabled. Qed.
Print Assumptions C95_convert_enabled.
(** With one element, it is initialised from the whole tuple. *)
Theorem C95_whole : forall ctor untup T us e, untuple untup (e_ty e) = Some us -> us <> [T] ->
  (ctor T [given e] = true -> construct ctor untup [T] [e] = Made [[given e]]) /\
  (forall l, construct ctor untup [T] [e] = Made l -> exists x, l = [[x]] /\ (x = given e \/ x = Expr (const_of (e_ty e)) Lvalue) /\ ctor T [x] = true).
Proof. exact k_whole. Qed.
Print Assumptions C95_whole.
(** With an allocator: where the values are not a tuple, every element is initialised by the rule; it compiles exactly when every element can be. *)
Theorem C95_alloc_values : forall ctor untup at_ conv Ts A es l, Ts <> [] -> es <> [] -> (forall e, es = [e] -> untuple untup (e_ty e) = None) ->
  (construct_alloc ctor untup at_ conv Ts A es = Made l <-> each ctor Ts es /\ elements (fun T e => element_rule ctor (uses_allocator untup at_ conv T A) T (rvalue_arg A) (const_arg A) [e]) Ts es l).
Proof. exact k_alloc_values. Qed.
Print Assumptions C95_alloc_values.
(** Which element types take the allocator: tuples, and what has an allocator_type that it converts to (unless that is a reference). *)
Theorem C95_uses_allocator : forall untup at_ conv T A, uses_allocator untup at_ conv T A = true <->
  (exists n l, T = TClass nocv n /\ untup n = Some l) \/
  ((forall n l, T = TClass nocv n -> untup n <> Some l) /\ exists r, at_ T = Some r /\ (forall u, r <> TLref u /\ r <> TRref u) /\ qualified_fun r = false /\ conv A r = true).
Proof. exact k_uses_allocator. Qed.
Print Assumptions C95_uses_allocator.
(** With an allocator and no values, or one value (such as a tuple) for two or more elements, nothing compiles. *)
Theorem C95_alloc_never : forall ctor untup at_ conv Ts A l, Ts <> [] ->
  construct_alloc ctor untup at_ conv Ts A [] <> Made l /\
  (forall e, 2 <= length Ts -> construct_alloc ctor untup at_ conv Ts A [e] <> Made l).
Proof. exact k_alloc_never. Qed.
Print Assumptions C95_alloc_never.
(** nanomemory.h's own dispatch (used with __uses_alloc_ctor<T, const A&, Args...>) does what [allocator.uses.construction] says: the tag it picks names a function that does it. *)
Theorem C95_dispatch : forall ctor untup at_ conv T a es i, category_of a = KClass -> qc (top a) = false -> qv (top a) = false ->
  let A := TLref (const_of a) in
  (alloc_construct ctor (uses_alloc_ctor ctor untup at_ conv T A es) T A es = Some i <->
   element_rule ctor (uses_allocator untup at_ conv T a) T (const_arg a) (const_arg a) es i).
Proof. exact k_dispatch. Qed.
Print Assumptions C95_dispatch.
(** make_tuple(es...) has the by-value type of each argument (the reference a reference_wrapper holds for that) and initialises each element from its own argument, copying lvalues and
    moving rvalues - also where the only argument is a tuple. *)
Theorem C95_make_tuple : forall ctor untup unwrap es, acyclic untup -> (forall n t, unwrap n = Some t -> untup n = None) -> (forall e, In e es -> passable (e_ty e)) ->
  exists Ts r, make_tuple ctor untup unwrap es = Some (Ts, r) /\ Forall2 (made_type unwrap) es Ts /\ (each ctor Ts es -> r = Made (map (fun e => [given e]) es)).
Proof. exact k_make_tuple. Qed.
Print Assumptions C95_make_tuple.
(** forward_as_tuple(es...): references to the arguments, rvalue references exactly for rvalues; each bound to its own argument. *)
Theorem C95_forward_as_tuple : forall ctor untup es, acyclic untup -> (forall e, In e es -> passable (e_ty e)) ->
  (forall t, ctor (TLref t) [Expr t Lvalue] = true /\ ctor (TRref t) [Expr t Xvalue] = true) ->
  forward_as_tuple ctor untup es = Some (map (fun e => if is_lvalue e then TLref (e_ty e) else TRref (e_ty e)) es, Made (map (fun e => [given e]) es)).
Proof. exact k_forward_as_tuple. Qed.
Print Assumptions C95_forward_as_tuple.
(** tie(es...): lvalue references, each bound to its own argument; only lvalues are accepted. *)
Theorem C95_tie : forall ctor untup es, acyclic untup -> (forall e, In e es -> passable (e_ty e)) -> (forall t, ctor (TLref t) [Expr t Lvalue] = true) ->
  tie ctor untup es = if forallb is_lvalue es then Some (map (fun e => TLref (e_ty e)) es, Made (map (fun e => [e]) es)) else None.
Proof. exact k_tie. Qed.
Print Assumptions C95_tie.

(** What fails.  A tuple<any>-like element takes a tuple that is a non-const lvalue as its value: the copy holds the tuple, not what it held. *)
Theorem C95_wrap_refuted : exists ctor untup T e, untuple untup (e_ty e) = Some [T] /\ copyable ctor T = true /\ construct ctor untup [T] [e] = Made [[e]] /\ e <> const_arg T.
Proof. exists (fun _ _ => true), (fun n => if n =? 7 then Some [TClass nocv 5] else None), (TClass nocv 5), (Expr (TClass nocv 7) Lvalue). repeat split. discriminate. Qed.
Print Assumptions C95_wrap_refuted.
(** A tuple<long, long> cannot be made from a tuple<int, int>. *)
Theorem C95_convert_refuted : exists ctor untup Ts us e, untuple untup (e_ty e) = Some us /\ Forall2 (fun T U => ctor T [const_arg U] = true /\ ctor T [rvalue_arg U] = true) Ts us /\ construct ctor untup Ts [e] = HardError.
Proof.
  exists (fun T es => match es with [Expr (TArith _ _) _] => true | _ => false end), (fun n => if n =? 7 then Some [TArith nocv Int; TArith nocv Int] else None), [TArith nocv Long; TArith nocv Long],
    [TArith nocv Int; TArith nocv Int], (Expr (TClass nocv 7) Xvalue). repeat split; repeat constructor.
Qed.
Print Assumptions C95_convert_refuted.
(** An element that takes its allocator as an rvalue after allocator_arg, or a const lvalue at the end, is asked with the one and given the other. *)
Theorem C95_alloc_refuted : exists ctor untup at_ conv T A e, untuple untup (e_ty e) = None /\ uses_allocator untup at_ conv T A = true /\ ctor T [given e] = true /\ ctor T [alloc_arg; const_arg A; given e] = false /\
  ctor T [given e; const_arg A] = true /\ construct_alloc ctor untup at_ conv [T] A [e] = HardError.
Proof.
  exists (fun _ es => match es with [_; a; _] => negb (is_lvalue a) | _ => true end), (fun _ => None), (fun _ => Some (TClass nocv 8)), ty_eqb, (TClass nocv 5), (TClass nocv 8), (Expr (TArith nocv Int) Lvalue). repeat split.
Qed.
Print Assumptions C95_alloc_refuted.

(** tuple<int, C> (1, c) with C copyable: from an lvalue and a temporary; make_tuple(x, c, ref); forward_as_tuple(t) with a tuple. *)
Example C95_case :
  let int := TArith nocv Int in let C := TClass nocv 5 in let R := TClass nocv 6 in let Tup := TClass nocv 7 in
  let ctor := fun T es => match es with [e] => ty_eqb T (e_ty e) || match T, e_cat e with TLref t, Lvalue => ty_eqb t (e_ty e) | TRref t, Xvalue => ty_eqb t (e_ty e) | TLref t, Xvalue => ty_eqb (e_ty e) R | _, _ => false end | _ => false end in
  let untup := fun n => if n =? 7 then Some [int; C] else None in
  let unwrap := fun n => if n =? 6 then Some int else None in
  acyclic untup /\
  construct ctor untup [int; C] [Expr int Prvalue; Expr C Lvalue] = Made [[Expr int Xvalue]; [Expr C Lvalue]] /\
  construct ctor untup [int; C] [Expr int Prvalue] = Rejected /\
  construct ctor untup [int; C] [Expr Tup Prvalue] = Made [[Expr int Xvalue]; [Expr C Xvalue]] /\
  make_tuple ctor untup unwrap [Expr int Lvalue; Expr R Prvalue] = Some ([int; TLref int], Made [[Expr int Lvalue]; [Expr R Xvalue]]) /\
  forward_as_tuple ctor untup [Expr Tup Prvalue] = Some ([TRref Tup], Made [[Expr Tup Xvalue]]) /\
  tie ctor untup [Expr int Lvalue; Expr C Lvalue] = Some ([TLref int; TLref C], Made [[Expr int Lvalue]; [Expr C Lvalue]]).
Proof. split; [|repeat split]. intros n T q H. cbn in H. destruct (n =? 7); discriminate. Qed.
