(** Model of forward, move_if_noexcept, __decay_copy (include/nanoutility.h 93-132) and move (nanotype_traits.h 340-346) as functions on
    expressions, and of the traits that ask whether a type can be copied, moved and assigned (nanotype_traits.h 957-1031).

    An expression is its type (not a reference) and its value category.  Whether one type can be initialised from or assigned an
    expression, and whether that can throw, are arbitrary functions ([ctor], [assign], [quiet]). *)
From Coq Require Import List Bool.
From Verif Require Import TyModel TraitModel.
Import ListNotations.

(** no code counterpart: value categories and expressions *)
Inductive vcat := Lvalue | Xvalue | Prvalue.
Record expr := Expr { e_ty : ty; e_cat : vcat }.
(** no code counterpart: a call of a function that returns [t]: a reference makes an lvalue or an xvalue; an rvalue reference to a function
    makes an lvalue *)
Definition call_expr (t : ty) : expr :=
  match t with
  | TLref u => Expr u Lvalue
  | TRref (TFun _ _ _ _ _ as u) => Expr u Lvalue
  | TRref u => Expr u Xvalue
  | u => Expr u Prvalue
  end.
(** no code counterpart: deduction of _Tp from an argument for a parameter _Tp&& *)
Definition deduce (e : expr) : option ty := match e_cat e with Lvalue => lref (e_ty e) | _ => Some (e_ty e) end.
(** no code counterpart: inside the function the name of a parameter of type _Tp&& is an lvalue *)
Definition name_of (Tp : ty) : option expr := r <- rref Tp ; Some (Expr (remove_reference r) Lvalue).

(** nanotype_traits.h:340-346 move(e) *)
Definition move_expr (e : expr) : option expr := Tp <- deduce e ; r <- rref (remove_reference Tp) ; Some (call_expr r).
(** nanoutility.h:111-122 forward<_Tp>(e): the first overload takes lvalues, the second rvalues and rejects an lvalue reference _Tp; the type of e is
    remove_reference<_Tp>::type (a conversion is not considered) *)
Definition forward_expr (Tp : ty) (e : expr) : option expr :=
  if ty_eqb (remove_reference Tp) (e_ty e) then
    match e_cat e with
    | Lvalue => r <- rref Tp ; Some (call_expr r)
    | _ => if is_lvalue_reference Tp then None else r <- rref Tp ; Some (call_expr r)
    end
  else None.
(** no code counterpart: what g gets in  template <class T> void f(T&& x) { g(forward<T>(x)); }  for f(e), and through n such functions *)
Definition pass (e : expr) : option expr := Tp <- deduce e ; x <- name_of Tp ; forward_expr Tp x.
Fixpoint passes (n : nat) (e : expr) : option expr := match n with O => Some e | S n => e' <- pass e ; passes n e' end.

Section Classes.
  (** no code counterpart: can a T be initialised from an expression of type A (a reference type tells the category); can it be assigned; does
      that expression not throw *)
  Variables ctor assign quiet : ty -> ty -> bool.
  (** nanotype_traits.h:965-968 *)
  Definition is_copy_constructible (t : ty) : bool := ctor t (add_lvalue_reference (add_const t)).
  (** nanotype_traits.h:977-980 *)
  Definition is_move_constructible (t : ty) : bool := ctor t (add_rvalue_reference t).
  (** nanotype_traits.h:985-987 *)
  Definition is_copy_assignable (t : ty) : bool := assign (add_lvalue_reference t) (add_lvalue_reference (add_const t)).
  (** nanotype_traits.h:997-999 *)
  Definition is_move_assignable (t : ty) : bool := assign (add_lvalue_reference t) (add_rvalue_reference t).
  (** nanotype_traits.h:866-894 is_nothrow_constructible; references are not considered *)
  Definition is_nothrow_constructible (t a : ty) : bool := ctor t a && quiet t a.
  (** nanotype_traits.h:1004-1006, 1015-1017 *)
  Definition is_nothrow_copy_constructible (t : ty) : bool := is_nothrow_constructible t (add_lvalue_reference (add_const t)).
  Definition is_nothrow_move_constructible (t : ty) : bool := is_nothrow_constructible t (add_rvalue_reference t).
  (** nanoutility.h:93-97 __move_if_noexcept_result_t *)
  Definition move_if_noexcept_result (t : ty) : option ty :=
    conditional (negb (is_nothrow_move_constructible t) && is_copy_constructible t) (lref (const_of t)) (rref t).
  (** nanoutility.h:103-107 move_if_noexcept(e): _Tp& binds an lvalue (or a const rvalue; not considered) *)
  Definition move_if_noexcept_expr (e : expr) : option expr :=
    match e_cat e with
    | Lvalue => _ <- lref (e_ty e) ; r <- move_if_noexcept_result (e_ty e) ; _ <- move_expr e ; Some (call_expr r)
    | _ => None
    end.
End Classes.
(** nanoutility.h:125-132 __decay_copy(e): the type of the new object and the expression it is initialised from *)
Definition decay_copy (e : expr) : option (ty * expr) :=
  Tp <- deduce e ; d <- decay Tp ; x <- name_of Tp ; a <- forward_expr Tp x ; Some (d, a).
