(** What the traits are supposed to mean, from the C++ standard, without reference to their implementation. *)
From Coq Require Import ZArith NArith List Bool.
From Verif Require Import TyModel TraitModel.
Import ListNotations.

(** The categories of types; every type has exactly one. *)
Inductive category :=
| KVoid | KIntegral | KFloating | KNullptr | KArray | KPointer | KMemberObject | KMemberFunction | KLvalueRef | KRvalueRef
| KEnum | KUnion | KClass | KFunction.
Definition category_of (t : ty) : category :=
  match t with
  | TVoid _ => KVoid
  | TArith _ (Float | Double | LDouble) => KFloating
  | TArith _ _ => KIntegral
  | TNull _ => KNullptr
  | TEnum _ _ => KEnum
  | TClass _ _ => KClass
  | TUnion _ _ => KUnion
  | TPtr _ _ => KPointer
  | TMem _ _ (TFun _ _ _ _ _) => KMemberFunction
  | TMem _ _ _ => KMemberObject
  | TLref _ => KLvalueRef
  | TRref _ => KRvalueRef
  | TArr _ _ | TArrU _ => KArray
  | TFun _ _ _ _ _ => KFunction
  end.
(** char16_t and char32_t are integral types that the header leaves out *)
Definition left_out (t : ty) : bool := match t with TArith _ (Char16 | Char32) => true | _ => false end.

(** The type of a by-value parameter initialised from an expression of the given type: arrays and functions become
    pointers, references and top-level qualifiers go. *)
Inductive by_value : ty -> ty -> Prop :=
| bv_lref t d : by_value t d -> by_value (TLref t) d
| bv_rref t d : by_value t d -> by_value (TRref t) d
| bv_arr t n : by_value (TArr t n) (TPtr nocv t)
| bv_arru t : by_value (TArrU t) (TPtr nocv t)
| bv_fun r ps e : by_value (TFun r ps e nocv NoRef) (TPtr nocv (TFun r ps e nocv NoRef))
| bv_qfun r ps e q s : (q <> nocv \/ s <> NoRef) -> by_value (TFun r ps e q s) (TFun r ps e q s)
| bv_void q : by_value (TVoid q) (TVoid nocv)
| bv_arith q a : by_value (TArith q a) (TArith nocv a)
| bv_null q : by_value (TNull q) (TNull nocv)
| bv_enum q n : by_value (TEnum q n) (TEnum nocv n)
| bv_class q n : by_value (TClass q n) (TClass nocv n)
| bv_union q n : by_value (TUnion q n) (TUnion nocv n)
| bv_ptr q t : by_value (TPtr q t) (TPtr nocv t)
| bv_mem q c t : by_value (TMem q c t) (TMem nocv c t).

(** A type of values that a function can take: what decay produces. *)
Definition decayed (d : ty) : Prop := by_value d d.

(** The integer types: what the standard requires of an implementation. *)
Definition int_like (a : arith) : bool := match a with Float | Double | LDouble => false | _ => true end.
Definition same_range (p : plat) (s u : arith) : Prop :=
  p_signed p s = true /\ p_signed p u = false /\ p_bits p u = p_bits p s.
Record standard (p : plat) : Prop := {
  st_bool : p_signed p Bool = false;
  st_char : same_range p SChar UChar; st_char_bits : p_bits p Char = p_bits p SChar; st_char8 : (8 <= p_bits p SChar)%Z;
  st_short : same_range p Short UShort; st_char_short : (p_bits p SChar <= p_bits p Short)%Z;
  st_int : same_range p Int UInt; st_int16 : (16 <= p_bits p Int)%Z; st_short_int : (p_bits p Short <= p_bits p Int)%Z;
  st_long : same_range p Long ULong; st_long32 : (32 <= p_bits p Long)%Z; st_int_long : (p_bits p Int <= p_bits p Long)%Z;
  st_llong : same_range p LLong ULLong; st_llong64 : (64 <= p_bits p LLong)%Z;
  st_long_llong : (p_bits p Long <= p_bits p LLong)%Z;
  st_wchar : (1 <= p_bits p WChar <= p_bits p LLong)%Z;
  st_c16 : p_signed p Char16 = false; st_c16_bits : (16 <= p_bits p Char16 <= p_bits p LLong)%Z;
  st_c32 : p_signed p Char32 = false; st_c32_bits : (32 <= p_bits p Char32 <= p_bits p LLong)%Z }.

(** Whether every value of type [a] is a value of type [b]. *)
Definition holds (p : plat) (b a : arith) : bool := Z.leb (lo p b) (lo p a) && Z.leb (hi p a) (hi p b).
(** Integral promotion. *)
Definition promote (p : plat) (a : arith) : arith :=
  match a with
  | Bool | Char | SChar | UChar | Short | UShort => if holds p Int a then Int else UInt
  | WChar | Char16 | Char32 =>
      if holds p Int a then Int else if holds p UInt a then UInt else if holds p Long a then Long
      else if holds p ULong a then ULong else if holds p LLong a then LLong else ULLong
  | _ => a
  end.
(** Rank, and the unsigned type of a rank, for promoted types. *)
Definition rank (a : arith) : nat :=
  match a with Int | UInt => 1 | Long | ULong => 2 | LLong | ULLong => 3 | _ => 0 end.
Definition to_unsigned (a : arith) : arith := match a with Int => UInt | Long => ULong | LLong => ULLong | _ => a end.
(** The usual arithmetic conversions on promoted integer types, then on all. *)
Definition usual_int (p : plat) (a b : arith) : arith :=
  if arith_eqb a b then a
  else if Bool.eqb (p_signed p a) (p_signed p b) then if Nat.leb (rank b) (rank a) then a else b
  else
    let s := if p_signed p a then a else b in
    let u := if p_signed p a then b else a in
    if Nat.leb (rank s) (rank u) then u
    else if holds p s u then s
    else to_unsigned s.
Definition usual (p : plat) (a b : arith) : arith :=
  match a, b with
  | LDouble, _ | _, LDouble => LDouble
  | Double, _ | _, Double => Double
  | Float, _ | _, Float => Float
  | _, _ => usual_int p (promote p a) (promote p b)
  end.
(** The conditional expression on two arithmetic operands: of the same type, an xvalue of that type; else the usual
    arithmetic conversions. *)
Definition arith_cond (p : plat) (cond : ty -> ty -> option ty) : Prop :=
  forall a b, cond (TRref (TArith nocv a)) (TRref (TArith nocv b))
    = Some (if arith_eqb a b then TRref (TArith nocv a) else TArith nocv (usual p a b)).
(** A 64-bit Unix. *)
Definition lp64 : plat :=
  Plat (fun a => match a with Char | SChar | WChar | Short | Int | Long | LLong => true | _ => false end)
       (fun a => match a with Bool | Char | SChar | UChar => 8 | Short | UShort | Char16 => 16
                         | WChar | Char32 | Int | UInt => 32 | _ => 64 end)%Z.

(** Implicit convertibility: a function returning [to] may consist of [return declval<from>();] *)
Definition returns (copy_init : ty -> ty -> bool) (from to : ty) : Prop :=
  (exists p q, from = TVoid p /\ to = TVoid q)
  \/ (match to with TVoid _ | TArr _ _ | TArrU _ | TFun _ _ _ _ _ => False | _ => True end
      /\ exists e, match from with
                   | TVoid _ => None
                   | TLref u => Some (TLref u)
                   | TRref u => Some (TRref u)
                   | TFun r ps el q s => match s with NoRef => if qc q || qv q then None else Some (TRref from) | _ => None end
                   | _ => Some (TRref from)
                   end = Some e /\ copy_init to e = true).

(** Destructibility: references are; objects with an accessible destructor are; arrays as their elements. *)
Fixpoint destructible (dtor : nat -> bool) (t : ty) : bool :=
  match t with
  | TVoid _ | TFun _ _ _ _ _ | TArrU _ => false
  | TClass _ n | TUnion _ n => dtor n
  | TArr u _ => destructible dtor u
  | _ => true
  end.
(** Default constructibility of a type that is destructible. *)
Fixpoint constructible (ctor : nat -> bool) (t : ty) : bool :=
  match t with
  | TVoid _ | TFun _ _ _ _ _ | TArrU _ | TLref _ | TRref _ => false
  | TClass _ n | TUnion _ n => ctor n
  | TArr u _ => constructible ctor u
  | _ => true
  end.
