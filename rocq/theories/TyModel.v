(** The C++ types that the class templates of include/nanotype_traits.h take as arguments, and the rules of the
    language those templates lean on: how a cv-qualifier applies to a type, when a pointer or a reference to a type
    exists, reference collapsing, and when a partial specialisation for [const _Tp] etc. is chosen.

    A type is in normal form: a qualifier written on an array qualifies its elements, one written on a reference or
    on a function type is dropped.  Classes, unions and enumerations are names.  Not represented: noexcept in
    function types, char8_t and extended integer types, linkage. *)
From Coq Require Import NArith List Bool Arith.
Import ListNotations.

(** no code counterpart: the arithmetic types of the language *)
Inductive arith :=
| Bool | Char | SChar | UChar | WChar | Char16 | Char32 | Short | UShort | Int | UInt | Long | ULong | LLong | ULLong
| Float | Double | LDouble.

(** no code counterpart: cv-qualifiers and the ref-qualifier of a function type *)
Record cv := Cv { qc : bool; qv : bool }.
Inductive refq := NoRef | LvalRef | RvalRef.
(** no code counterpart: no qualifier *)
Definition nocv : cv := Cv false false.

(** no code counterpart: the types of the language; [TNull] is the type of the keyword nullptr *)
Inductive ty :=
| TVoid (q : cv)
| TArith (q : cv) (a : arith)
| TNull (q : cv)
| TEnum (q : cv) (name : nat)
| TClass (q : cv) (name : nat)
| TUnion (q : cv) (name : nat)
| TPtr (q : cv) (t : ty)
| TMem (q : cv) (cls : nat) (t : ty)
| TLref (t : ty)
| TRref (t : ty)
| TArr (t : ty) (n : N)
| TArrU (t : ty)
| TFun (r : ty) (ps : list ty) (ell : bool) (q : cv) (rq : refq).

(** include/__nullptr:17-37 the class nanostl::nullptr_t; nanotype_traits.h:395 the struct __two.
    Two distinct class names. *)
Definition nullptr_class : nat := 0.
Definition two_class : nat := 1.

(** no code counterpart: equality of types, decided structurally *)
Definition arith_eqb (a b : arith) : bool :=
  match a, b with
  | Bool, Bool | Char, Char | SChar, SChar | UChar, UChar | WChar, WChar | Char16, Char16 | Char32, Char32
  | Short, Short | UShort, UShort | Int, Int | UInt, UInt | Long, Long | ULong, ULong | LLong, LLong
  | ULLong, ULLong | Float, Float | Double, Double | LDouble, LDouble => true
  | _, _ => false
  end.
Definition cv_eqb (p q : cv) : bool := Bool.eqb (qc p) (qc q) && Bool.eqb (qv p) (qv q).
Definition refq_eqb (p q : refq) : bool :=
  match p, q with NoRef, NoRef | LvalRef, LvalRef | RvalRef, RvalRef => true | _, _ => false end.
Fixpoint ty_eqb (t u : ty) {struct t} : bool :=
  match t, u with
  | TVoid p, TVoid q | TNull p, TNull q => cv_eqb p q
  | TArith p a, TArith q b => cv_eqb p q && arith_eqb a b
  | TEnum p m, TEnum q n | TClass p m, TClass q n | TUnion p m, TUnion q n => cv_eqb p q && Nat.eqb m n
  | TPtr p t, TPtr q u => cv_eqb p q && ty_eqb t u
  | TMem p m t, TMem q n u => cv_eqb p q && Nat.eqb m n && ty_eqb t u
  | TLref t, TLref u | TRref t, TRref u | TArrU t, TArrU u => ty_eqb t u
  | TArr t m, TArr u n => ty_eqb t u && N.eqb m n
  | TFun r ps e q s, TFun r' ps' e' q' s' =>
      ty_eqb r r'
      && (fix eqs (xs ys : list ty) : bool :=
            match xs, ys with
            | [], [] => true
            | x :: xs, y :: ys => ty_eqb x y && eqs xs ys
            | _, _ => false
            end) ps ps'
      && Bool.eqb e e' && cv_eqb q q' && refq_eqb s s'
  | _, _ => false
  end.

(** no code counterpart: the qualifiers of a type seen from the top; those of an array are those of its elements,
    references and functions have none *)
Fixpoint top (t : ty) : cv :=
  match t with
  | TVoid q | TArith q _ | TNull q | TEnum q _ | TClass q _ | TUnion q _ | TPtr q _ | TMem q _ _ => q
  | TArr t _ | TArrU t => top t
  | TLref _ | TRref _ | TFun _ _ _ _ _ => nocv
  end.
(** no code counterpart: the type with other qualifiers in that place *)
Fixpoint requal (f : cv -> cv) (t : ty) : ty :=
  match t with
  | TVoid q => TVoid (f q) | TArith q a => TArith (f q) a | TNull q => TNull (f q) | TEnum q n => TEnum (f q) n
  | TClass q n => TClass (f q) n | TUnion q n => TUnion (f q) n | TPtr q t => TPtr (f q) t
  | TMem q c t => TMem (f q) c t
  | TArr t n => TArr (requal f t) n | TArrU t => TArrU (requal f t)
  | TLref _ | TRref _ | TFun _ _ _ _ _ => t
  end.
(** no code counterpart: the types [const T], [volatile T] *)
Definition const_of (t : ty) : ty := requal (fun q => Cv true (qv q)) t.
Definition volatile_of (t : ty) : ty := requal (fun q => Cv (qc q) true) t.
(** no code counterpart: deduction of _Tp when a type is matched against [const _Tp], [volatile _Tp] *)
Definition match_const (t : ty) : option ty :=
  if qc (top t) then Some (requal (fun q => Cv false (qv q)) t) else None.
Definition match_volatile (t : ty) : option ty :=
  if qv (top t) then Some (requal (fun q => Cv (qc q) false) t) else None.

(** no code counterpart: a function type with a cv- or ref-qualifier *)
Definition qualified_fun (t : ty) : bool :=
  match t with
  | TFun _ _ _ (Cv false false) NoRef => false
  | TFun _ _ _ _ _ => true
  | _ => false
  end.
(** no code counterpart: the types [T&] and [T&&] with reference collapsing; ill-formed for void and for qualified
    function types *)
Definition lref (t : ty) : option ty :=
  match t with
  | TVoid _ => None
  | TLref u | TRref u => Some (TLref u)
  | _ => if qualified_fun t then None else Some (TLref t)
  end.
Definition rref (t : ty) : option ty :=
  match t with
  | TVoid _ => None
  | TLref u => Some (TLref u)
  | TRref u => Some (TRref u)
  | _ => if qualified_fun t then None else Some (TRref t)
  end.
(** no code counterpart: the type [T*] *)
Definition ptr (t : ty) : option ty :=
  match t with
  | TLref _ | TRref _ => None
  | _ => if qualified_fun t then None else Some (TPtr nocv t)
  end.
(** no code counterpart: [int T::*] exists for classes and unions *)
Definition has_members (t : ty) : bool := match t with TClass _ _ | TUnion _ _ => true | _ => false end.

(** no code counterpart: the types that exist *)
Fixpoint wf (t : ty) : Prop :=
  match t with
  | TVoid _ | TArith _ _ | TNull _ | TEnum _ _ | TClass _ _ | TUnion _ _ => True
  | TPtr _ t =>
      match t with TLref _ | TRref _ => False | _ => True end /\ qualified_fun t = false /\ wf t
  | TMem _ _ t => match t with TLref _ | TRref _ | TVoid _ => False | _ => True end /\ wf t
  | TLref t | TRref t =>
      match t with TLref _ | TRref _ | TVoid _ => False | _ => True end /\ qualified_fun t = false /\ wf t
  | TArr t n =>
      match t with TLref _ | TRref _ | TVoid _ | TFun _ _ _ _ _ | TArrU _ => False | _ => True end
      /\ n <> 0%N /\ wf t
  | TArrU t =>
      match t with TLref _ | TRref _ | TVoid _ | TFun _ _ _ _ _ | TArrU _ => False | _ => True end /\ wf t
  | TFun r ps _ _ _ =>
      match r with TArr _ _ | TArrU _ | TFun _ _ _ _ _ => False | _ => True end /\ wf r /\
      (fix all (ps : list ty) : Prop :=
         match ps with
         | [] => True
         | p :: ps => match p with TVoid _ | TArr _ _ | TArrU _ | TFun _ _ _ _ _ => False | _ => True end
                      /\ top p = nocv /\ wf p /\ all ps
         end) ps
  end.
