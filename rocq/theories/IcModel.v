(** Model of is_constructible with arguments, is_assignable, is_nothrow_constructible, is_nothrow_assignable (include/nanotype_traits.h 705-713, 757-785, 836-930) and of the traits that ask
    them about copies and moves (965-999).

    Types are those of TyModel, an argument is the type that declval<Arg>() is declared to return.  What the constructors of a class accept ([ctor]), what converts to a type that is
    no class ([conv]), what a reference binds to when it is initialised directly ([bind]) or as a parameter ([pass]), what can be assigned to what and what does not throw is arbitrary.
    [None] is a program that does not compile.  Classes are complete; that two conversions are ambiguous is not considered; where a class has no accessible destructor, whether T(a, b)
    is an expression depends on the version of the language: the model says it is. *)
From Coq Require Import List Bool.
From Verif Require Import TyModel TraitModel.
Import ListNotations.

Section Ic.
  Variable dtor : nat -> bool.
  Variable ctor : nat -> list ty -> bool.
  Variables conv bind pass : ty -> ty -> bool.
  Variable assign : ty -> ty -> bool.
  Variable quiet_init : ty -> list ty -> bool.
  Variables quiet_pass quiet_assign : ty -> ty -> bool.

  (** no code counterpart: the arguments declval<Args>()...; an expression of type void cannot be an argument *)
  Definition argument (A : ty) : option ty := match declval A with Some (TVoid _) | None => None | Some e => Some e end.
  Fixpoint arguments (As : list ty) : option (list ty) := match As with [] => Some [] | A :: As => e <- argument A ; es <- arguments As ; Some (e :: es) end.
  (** no code counterpart: can an object of a type that is no array be initialised from these expressions in parentheses *)
  Definition init_object (T : ty) (es : list ty) : bool :=
    match T with
    | TVoid _ | TLref _ | TRref _ | TFun _ _ _ _ _ | TArr _ _ | TArrU _ => false
    | TClass _ n | TUnion _ n => ctor n es
    | _ => match es with [] => true | [e] => conv T e | _ => false end
    end.
  (** nanotype_traits.h:759-762 is_constructible_imp::test: T(declval<TheArgs>()...) with none or several arguments *)
  Definition test (T : ty) (As : list ty) : bool :=
    match arguments As with Some [] => value_init (fun n => ctor n []) T | Some es => init_object T es | None => false end.
  (** nanotype_traits.h:764-767 is_constructible_imp::test1: ::new T(declval<Arg>()) *)
  Definition test1 (T A : ty) : bool := match argument A with Some e => init_object T [e] | None => false end.
  (** nanotype_traits.h:769-772 is_constructible_imp::ref_test called with declval<Arg>(), which must be an expression of another type than void *)
  Definition ref_test (T A : ty) : option bool := e <- argument A ; Some (pass T e).
  (** nanotype_traits.h:777-785 is_constructible *)
  Definition is_constructible (T : ty) (As : list ty) : option bool :=
    match T, As with
    | TLref _, [A] | TRref _, [A] => ref_test T A
    | _, [A] => Some (is_destructible dtor T && test1 T A)
    | TVoid (Cv false false), [] | TVoid (Cv true false), [] | TVoid (Cv true true), [] | TVoid (Cv false true), [] => Some false
    | _, _ => Some (test T As)
    end.

  (** nanotype_traits.h:836-857 __is_assignable_test, __is_assignable_imp, is_assignable *)
  Definition is_assignable (T A : ty) : bool :=
    if is_void T || is_void A then false else match declval T, declval A with Some x, Some y => assign x y | _, _ => false end.

  (** nanotype_traits.h:868-889 __libcpp_is_nothrow_constructible *)
  Definition nothrow_imp (T : ty) (As : list ty) : option bool :=
    b <- is_constructible T As ;
    if b then if is_reference T then match As with [A] => e <- argument A ; Some (quiet_pass T e) | _ => None end
              else es <- arguments As ; Some (quiet_init T es)
    else Some false.
  (** nanotype_traits.h:891-901 is_nothrow_constructible; 905-907 is_nothrow_default_constructible *)
  Definition is_nothrow_constructible (T : ty) (As : list ty) : option bool := match T, As with TArr u _, [] => nothrow_imp u [] | _, _ => nothrow_imp T As end.
  (** nanotype_traits.h:912-930 is_nothrow_assignable *)
  Definition is_nothrow_assignable (T A : ty) : bool := if is_assignable T A then match declval T, declval A with Some x, Some y => quiet_assign x y | _, _ => false end else false.

  (** nanotype_traits.h:965-968, 977-980 *)
  Definition is_copy_constructible (T : ty) : option bool := is_constructible T [add_lvalue_reference (add_const T)].
  Definition is_move_constructible (T : ty) : option bool := is_constructible T [add_rvalue_reference T].
  (** nanotype_traits.h:985-987, 997-999 *)
  Definition is_copy_assignable (T : ty) : bool := is_assignable (add_lvalue_reference T) (add_lvalue_reference (add_const T)).
  Definition is_move_assignable (T : ty) : bool := is_assignable (add_lvalue_reference T) (add_rvalue_reference T).
End Ic.
