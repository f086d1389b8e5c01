(** Model of the conversions between the unique_ptr types whose deleter is default_delete, and of what their destructors do (include/nanomemory.h 125-136, 141-189, 396-398,
    432-447, 494-500, 521-529, 550, 608-625, 656-674, 740-760, 773).

    unique_ptr<T> is given by the type T; the partial specialisation unique_ptr<E[]> by the array type E[].  Types are those of TyModel, all complete but void.  Which class has
    which accessible and unambiguous base, which class is a base at all, and which destructors are virtual, is arbitrary.  The language decides which pointers convert
    implicitly ([ptr_conv]) and which deletes are defined ([default_delete]); is_convertible is the one of TraitModel. *)
From Coq Require Import List Bool.
From Verif Require Import TyModel TraitModel UcModel.
Import ListNotations.

(** no code counterpart: the same type up to qualifiers at any level *)
Fixpoint similar (u t : ty) : bool := match u, t with TPtr _ u, TPtr _ t => similar u t | _, _ => ty_eqb (remove_cv u) (remove_cv t) end.
(** no code counterpart: how the object was made: [new a] or [new a[n]] *)
Inductive alloc := Single (a : ty) | Array (a : ty).
(** no code counterpart: what a destructor does with it *)
Inductive deletion := NotCompiled | Undefined | Destroyed.

Section Ud.
  (** no code counterpart: [acc a b]: b is an accessible unambiguous base of a; [base a b]: b is a base of a; [vdtor b]: the destructor of b is virtual *)
  Variables (acc base : nat -> nat -> bool) (vdtor : nat -> bool).

  (** no code counterpart: does a pointer to [u] convert implicitly to a pointer to [t]: a qualification conversion (between arrays, of their elements), to a pointer to void,
      or to a pointer to a base *)
  Definition ptr_conv (u t : ty) : bool :=
    match u, t with
    | TArrU f, TArrU e => qualifies true f e
    | TFun _ _ _ _ _, TVoid _ => false
    | _, TVoid q => cv_le (top u) q
    | TClass p a, TClass q b => (Nat.eqb a b || acc a b) && cv_le p q
    | _, _ => qualifies true u t
    end.
  (** no code counterpart: copy-initialisation of a pointer from an expression of another type *)
  Definition copy_init (to from : ty) : bool := match to, from with TPtr _ t, TRref (TPtr _ u) => ptr_conv u t | _, _ => false end.

  (** nanomemory.h:125-136, 398, 610 __pointer, unique_ptr::pointer: default_delete has no member type pointer *)
  Definition pointer (T : ty) : ty := match T with TArrU e => TPtr nocv e | _ => TPtr nocv T end.
  (** nanomemory.h:396, 608 unique_ptr::element_type *)
  Definition element_type (T : ty) : ty := match T with TArrU e => e | _ => T end.
  (** nanomemory.h:149-153, 171-180 default_delete<T>(default_delete<U> const&); _EnableIfConvertible; or the copy constructor *)
  Definition delete_converts (T U : ty) : bool :=
    ty_eqb T U ||
    match T with
    | TArrU e => match U with TArrU u => is_convertible copy_init (TPtr nocv (TArrU u)) (TPtr nocv (TArrU e)) | _ => false end
    | _ => is_convertible copy_init (TPtr nocv U) (TPtr nocv T)
    end.
  (** nanomemory.h:432-436, 656-663 _EnableIfMoveConvertible *)
  Definition move_convertible (T U : ty) : bool :=
    match T with
    | TArrU e => is_array U && ty_eqb (pointer T) (TPtr nocv (element_type T)) && ty_eqb (pointer U) (TPtr nocv (element_type U)) &&
        is_convertible copy_init (TPtr nocv (TArrU (element_type U))) (TPtr nocv (TArrU (element_type T)))
    | _ => is_convertible copy_init (pointer U) (pointer T) && negb (is_array U)
    end.
  (** nanomemory.h:490-500, 515-529, 730-760: is a unique_ptr<T> constructible or assignable from an rvalue unique_ptr<U>: the move of the same type, or the converting one.
      default_delete is assigned through its converting constructor, so _EnableIfDeleterAssignable and _EnableIfDeleterConvertible (438-447, 665-674) agree. *)
  Definition converts (T U : ty) : bool := ty_eqb T U || (move_convertible T U && delete_converts T U).
  (** nanomemory.h:466-467 unique_ptr(pointer); 679-686 with _CheckArrayPointerConversion: is unique_ptr<T> constructible from the result of the new expression *)
  Definition takes (T : ty) (a : alloc) : bool :=
    let u := match a with Single u => u | Array u => u end in
    match T with TArrU e => array_pointer_ok e (TPtr nocv e) (TPtr nocv u) | _ => ptr_conv u T end.
  (** nanomemory.h:143-145, 155-161, 182-189, 550, 773: the destructor calls default_delete<T>::operator() on a pointer that is not null *)
  Definition default_delete (T : ty) (a : alloc) : deletion :=
    match T with
    | TArrU e => if is_void e then NotCompiled else match a with Array u => if similar e u then Destroyed else Undefined | Single _ => Undefined end
    | _ => if is_void T || is_function T then NotCompiled else
        match a with
        | Single u => if similar T u then Destroyed else match T, u with TClass _ b, TClass _ c => if base c b && vdtor b then Destroyed else Undefined | _, _ => Undefined end
        | Array _ => Undefined
        end
    end.
End Ud.
