(** Model of the choice among the constructors of unique_ptr<T, D> and unique_ptr<T[], D> (include/nanomemory.h 192-382, 393-503, 605-717), and of what the chosen one
    makes of the stored deleter.

    A deleter type is any C++ type of TyModel that is not an rvalue reference (nanomemory.h:400-401).  A deleter passed to a constructor is an expression: a type and a
    value category; conversions between different classes are not considered.  Which values a deleter of class type can be made of are arbitrary functions ([dflt], [ctor]);
    references are initialised by the rules of the language ([binds]). *)
From Coq Require Import List Bool.
From Verif Require Import TyModel TraitModel FwdModel.
Import ListNotations.

(** no code counterpart: no qualifier is lost *)
Definition cv_le (p q : cv) : bool := implb (qc p) (qc q) && implb (qv p) (qv q).
(** no code counterpart: can a reference of type [p] bind directly to the expression *)
Definition binds (p : ty) (e : expr) : bool :=
  let fits t := ty_eqb (remove_cv t) (remove_cv (e_ty e)) && cv_le (top (e_ty e)) (top t) in
  match p, e_cat e with
  | TLref t, Lvalue => fits t
  | TLref t, _ => fits t && qc (top t) && negb (qv (top t))
  | TRref t, Lvalue => false
  | TRref t, _ => fits t
  | _, _ => false
  end.

(** nanomemory.h:192-212 __unique_ptr_deleter_sfinae: __lval_ref_type; __good_rval_ref_type or __bad_rval_ref_type *)
Definition lval_ref_type (D : ty) : ty := match D with TLref u => TLref u | _ => TLref (const_of D) end.
Inductive rval_overload := Good (p : ty) | Deleted (p : ty).
Definition rval_ref_type (D : ty) : rval_overload := match D with TLref u => Deleted (TRref u) | _ => Good (TRref D) end.

(** no code counterpart: the arguments; [Null] is nanostl's nullptr, [Ptr] a pointer that the template accepts *)
Inductive parg := Null | Ptr.
Inductive args := NoArgs | One (p : parg) | Two (p : parg) (d : expr).
(** no code counterpart: what the constructor makes of the deleter: a copy of the argument, one moved from it, a reference to it, or default-initialisation *)
Inductive source := Copied | Moved | Bound | DefaultInit.
(** no code counterpart: no constructor (or a deleted one) for these arguments; the chosen constructor does not compile; it does *)
Inductive made := Rejected | HardError | Made (s : source).

Section Uc.
  (** no code counterpart: is_default_constructible<t>, is_constructible<t, a> for types that are not references *)
  Variable dflt : ty -> bool.
  Variable ctor : ty -> ty -> bool.
  (** nanotype_traits.h is_constructible<D, A>: for a reference, whether it binds to declval<A>() *)
  Definition constructible (D A : ty) : bool := match D with TLref _ => binds D (call_expr A) | _ => ctor D A end.
  (** nanotype_traits.h is_default_constructible: never for references *)
  Definition default_constructible (D : ty) : bool := match D with TLref _ => false | _ => dflt D end.
  (** nanomemory.h:424-428, 643-647 _EnableIfDeleterDefaultConstructible *)
  Definition default_enabled (D : ty) : bool := default_constructible D && negb (is_pointer D).
  (** nanomemory.h:226-228, 266-268 __compressed_pair_elem(__default_init_tag) {}: the element has no initialiser *)
  Definition default_init (D : ty) : made := if default_constructible D then Made DefaultInit else HardError.

  (** nanomemory.h:472-491, 679-717: the overloads with a deleter; [deleted_exists]: the deleted overload takes part *)
  Definition with_deleter (deleted_exists : bool) (D : ty) (e : expr) : made :=
    let lval := binds (lval_ref_type D) e && constructible D (lval_ref_type D) in
    let copy := Made (match D with TLref _ => Bound | _ => Copied end) in
    let rval p := binds p e && constructible D p in
    match rval_ref_type D with
    | Good p => if rval p then Made Moved else if lval then copy else Rejected
    | Deleted p => if deleted_exists && rval p then Rejected else if lval then copy else Rejected
    end.
  (** nanomemory.h:448-491 the constructors of unique_ptr<T, D>; nullptr converts to pointer where the parameter is one; unique_ptr(pointer) is not constrained (466-467) *)
  Definition construct (D : ty) (a : args) : made :=
    match a with
    | NoArgs => if default_enabled D then Made DefaultInit else Rejected
    | One Null => if default_enabled D then Made DefaultInit else default_init D
    | One Ptr => default_init D
    | Two _ e => with_deleter true D e
    end.
  (** nanomemory.h:661-717 the constructors of unique_ptr<T[], D>; nullptr_t is not an acceptable _Pp, there is no deleted overload for it *)
  Definition construct_array (D : ty) (a : args) : made :=
    match a with
    | NoArgs | One _ => if default_enabled D then Made DefaultInit else Rejected
    | Two Ptr e => with_deleter true D e
    | Two Null e => with_deleter false D e
    end.
End Uc.

(** no code counterpart: a pointer to [u] becomes a pointer to [t] by a qualification conversion; [outer]: all levels above, but the pointer itself, are const *)
Fixpoint qualifies (outer : bool) (u t : ty) : bool :=
  cv_le (top u) (top t) && (outer || cv_eqb (top u) (top t)) &&
  match u, t with
  | TPtr _ u, TPtr q t => qualifies (outer && qc q) u t
  | _, _ => ty_eqb (remove_cv u) (remove_cv t)
  end.
(** nanomemory.h:614-625 _CheckArrayPointerConversion<from> in unique_ptr<T[], D> whose member type pointer is [pointer]; between arrays of unknown bound there are no other
    conversions than qualification conversions *)
Definition array_pointer_ok (T pointer from : ty) : bool :=
  match from with
  | TPtr (Cv false false) u => ty_eqb from pointer || (ty_eqb pointer (TPtr nocv T) && qualifies true u T)
  | _ => ty_eqb from pointer
  end.
