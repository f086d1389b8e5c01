(** What C95 says, independently of the model's helpers. *)
From Coq Require Import List Bool.
From Verif Require Import TyModel TraitModel TraitSpec FwdModel TcModel.
Import ListNotations.

Definition is_lvalue (e : expr) : bool := match e_cat e with Lvalue => true | _ => false end.
(** What an element gets of an argument passed on by reference; of an element of a const tuple; of an element of a tuple that is moved. *)
Definition given (e : expr) : expr := match e_cat e with Prvalue => Expr (e_ty e) Xvalue | _ => e end.
Definition const_arg (U : ty) : expr := match U with TLref u | TRref u => Expr u Lvalue | _ => Expr (const_of U) Lvalue end.
Definition rvalue_arg (U : ty) : expr := match U with TLref u => Expr u Lvalue | TRref u => Expr u Xvalue | _ => Expr U Xvalue end.
(** The arguments [es] construct elements of types [Ts], one each. *)
Definition each (ctor : ty -> list expr -> bool) (Ts : list ty) (es : list expr) : Prop := Forall2 (fun T e => ctor T [given e] = true) Ts es.
(** The arguments an element of type T gets for the arguments es and an allocator a, as [allocator.uses.construction] says; [asked] is the allocator as the trait asks for it. *)
Definition element_rule (ctor : ty -> list expr -> bool) (uses : bool) (T : ty) (asked a : expr) (es : list expr) (i : init) : Prop :=
  ctor T i = true /\
  match uses with
  | false => i = map given es
  | true => (ctor T (alloc_arg :: asked :: map given es) = true /\ i = alloc_arg :: a :: map given es) \/ (ctor T (alloc_arg :: asked :: map given es) = false /\ i = map given es ++ [a])
  end.
(** One rule for every element. *)
Inductive elements (rule : ty -> expr -> init -> Prop) : list ty -> list expr -> list init -> Prop :=
| E_nil : elements rule [] [] []
| E_cons T e i Ts es l : rule T e i -> elements rule Ts es l -> elements rule (T :: Ts) (e :: es) (i :: l).
(** No tuple has only itself, or a reference to itself, as its element. *)
Definition acyclic (untup : nat -> option (list ty)) : Prop := forall n T q, untup n = Some [T] -> T <> TClass q n /\ T <> TLref (TClass q n) /\ T <> TRref (TClass q n).
(** The type make_tuple gives an element. *)
Definition made_type (unwrap : nat -> option ty) (e : expr) (T : ty) : Prop :=
  exists d, by_value (e_ty e) d /\ ((exists n t, d = TClass nocv n /\ unwrap n = Some t /\ T = TLref t) \/ ((forall n t, d = TClass nocv n -> unwrap n <> Some t) /\ T = d)).
