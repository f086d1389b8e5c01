(** Model of __weak_result_type (include/nanofunctional.h 198-450), the base class of reference_wrapper.

    A class is what name lookup finds in it: its own typedef result_type and its bases unary_function<A, R> and binary_function<A1, A2, R>.  Bases are accessible. *)
From Coq Require Import List Bool Arith.
From Verif Require Import TyModel.
Import ListNotations.

(** nanofunctional.h:198-212 the typedefs argument_type, first_argument_type, second_argument_type, result_type of a class *)
Record typedefs := Typedefs { result : option ty; arg : option ty; arg1 : option ty; arg2 : option ty }.
(** nanofunctional.h:198-203 unary_function; 205-212 binary_function *)
Definition unary (a r : ty) : typedefs := Typedefs (Some r) (Some a) None None.
Definition binary (a b r : ty) : typedefs := Typedefs (Some r) None (Some a) (Some b).

(** nanofunctional.h:301-450 how a partial specialisation is written: _Rp (...), _Rp (&)(...), _Rp ( * )(...), _Rp (_Cp::* )(...) q; the number of parameters, exactly or
    with a pack after them; the base class, where [Unary], [Binary] are over the parameters, [UnaryObj p], [BinaryObj p] have a pointer to p _Cp before them *)
Inductive holder := Fun | Ref | Ptr | Mem (q : cv).
Inductive count := Exactly (n : nat) | AtLeast (n : nat).
Inductive base := OnlyResult | Unary | Binary | UnaryObj (p : cv) | BinaryObj (p : cv).
Record spec := Spec { how : holder; many : count; gives : base }.
Definition c_ := Cv true false.
Definition v_ := Cv false true.
Definition cv_ := Cv true true.
Definition specs : list spec :=
  (** nanofunctional.h:301-317 *)
  [Spec Fun (Exactly 0) OnlyResult; Spec Ref (Exactly 0) OnlyResult; Spec Ptr (Exactly 0) OnlyResult;
  (** nanofunctional.h:321-361 *)
   Spec Fun (Exactly 1) Unary; Spec Ref (Exactly 1) Unary; Spec Ptr (Exactly 1) Unary;
   Spec (Mem nocv) (Exactly 0) (UnaryObj nocv); Spec (Mem c_) (Exactly 0) (UnaryObj c_); Spec (Mem v_) (Exactly 0) (UnaryObj v_); Spec (Mem cv_) (Exactly 0) (UnaryObj cv_);
  (** nanofunctional.h:365-405 *)
   Spec Fun (Exactly 2) Binary; Spec Ptr (Exactly 2) Binary; Spec Ref (Exactly 2) Binary;
   Spec (Mem nocv) (Exactly 1) (BinaryObj nocv); Spec (Mem c_) (Exactly 1) (BinaryObj c_); Spec (Mem v_) (Exactly 1) (BinaryObj v_); Spec (Mem cv_) (Exactly 1) (BinaryObj cv_);
  (** nanofunctional.h:409-450 *)
   Spec Fun (AtLeast 3) OnlyResult; Spec Ref (AtLeast 3) OnlyResult; Spec Ptr (AtLeast 3) OnlyResult;
   Spec (Mem nocv) (AtLeast 2) OnlyResult; Spec (Mem c_) (AtLeast 2) OnlyResult; Spec (Mem v_) (AtLeast 2) OnlyResult; Spec (Mem cv_) (AtLeast 2) OnlyResult].

(** no code counterpart: a type matched against a pattern; deduces _Rp, the parameters and _Cp.  The patterns have neither an ellipsis nor a ref-qualifier, and no
    qualifier on the pointer *)
Definition deduce (h : holder) (t : ty) : option (ty * list ty * nat) :=
  match h, t with
  | Fun, TFun r ps false (Cv false false) NoRef | Ref, TLref (TFun r ps false (Cv false false) NoRef) | Ptr, TPtr (Cv false false) (TFun r ps false (Cv false false) NoRef) => Some (r, ps, 0)
  | Mem q, TMem (Cv false false) c (TFun r ps false p NoRef) => if cv_eqb p q then Some (r, ps, c) else None
  | _, _ => None
  end.
Definition counts (n : count) (ps : list ty) : bool := match n with Exactly n => Nat.eqb (length ps) n | AtLeast n => Nat.leb n (length ps) end.
Definition matches (t : ty) (s : spec) : bool := match deduce (how s) t with Some (_, ps, _) => counts (many s) ps | None => false end.
(** nanofunctional.h:301-450 the members of a specialisation *)
Definition members (s : spec) (t : ty) : typedefs :=
  match deduce (how s) t with
  | None => Typedefs None None None None
  | Some (r, ps, c) =>
      match gives s, ps with
      | OnlyResult, _ => Typedefs (Some r) None None None
      | Unary, a :: _ => unary a r
      | Binary, a :: b :: _ => binary a b r
      | UnaryObj p, _ => unary (TPtr nocv (TClass p c)) r
      | BinaryObj p, a :: _ => binary (TPtr nocv (TClass p c)) a r
      | _, _ => Typedefs None None None None
      end
  end.

(** no code counterpart: a class as the template sees it *)
Record class := Class { own : option ty; unary_bases : list (ty * ty); binary_bases : list (ty * ty * ty) }.
(** no code counterpart: lookup of result_type: the class's own, else that of its only base; with several it is ambiguous *)
Definition lookup_result (c : class) : option ty :=
  match own c, unary_bases c, binary_bases c with
  | Some r, _, _ => Some r
  | None, [(_, r)], [] => Some r
  | None, [], [(_, _, r)] => Some r
  | None, _, _ => None
  end.

Inductive outcome := HardError | Ambiguous | Has (d : typedefs).
Section Wrt.
  (** no code counterpart: the classes and unions of the program; a union has no bases *)
  Variable classes : nat -> class.
  Variable unions : nat -> option ty.
  Definition class_of (t : ty) : class :=
    match t with TClass _ n => classes n | TUnion _ n => Class (unions n) [] [] | _ => Class None [] [] end.
  (** nanofunctional.h:215-224 __has_result_type: is typename _Up::result_type* a type *)
  Definition has_result_type (t : ty) : bool :=
    match lookup_result (class_of t) with Some r => match ptr r with Some _ => true | None => false end | None => false end.
  (** nanofunctional.h:228-240, 256-265 __maybe_derive_from_unary_function; deduction fails if there are several such bases *)
  Definition unary_base (t : ty) : option (ty * ty) := match unary_bases (class_of t) with [b] => Some b | _ => None end.
  (** nanofunctional.h:242-254, 267-276 __maybe_derive_from_binary_function *)
  Definition binary_base (t : ty) : option (ty * ty * ty) := match binary_bases (class_of t) with [b] => Some b | _ => None end.
  (** nanofunctional.h:278-297 __weak_result_type_imp, __weak_result_type for other types; (_Tp* )0 (238, 252) does not compile if there is no such pointer type *)
  Definition primary (t : ty) : outcome :=
    match ptr t with
    | None => HardError
    | Some _ =>
        let r := if has_result_type t then lookup_result (class_of t)
                 else match unary_base t, binary_base t with Some (_, r), None => Some r | None, Some (_, _, r) => Some r | _, _ => None end in
        Has (Typedefs r (option_map fst (unary_base t)) (option_map (fun b => fst (fst b)) (binary_base t)) (option_map (fun b => snd (fst b)) (binary_base t)))
    end.
  (** nanofunctional.h:293-450 the specialisation that matches, if there is one *)
  Definition weak_result_type (t : ty) : outcome :=
    match filter (matches t) specs with [] => primary t | [s] => Has (members s t) | _ => Ambiguous end.
End Wrt.
