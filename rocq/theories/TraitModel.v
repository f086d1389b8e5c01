(** Model of include/nanotype_traits.h: each class template is a function on types ([TyModel]), a partial
    specialisation is a case of it, the primary template the default.  [None] is a program that does not compile,
    or, where the header tests for it, a substitution failure.

    Not modelled: traits that only forward to a compiler intrinsic (is_abstract, is_final, is_trivially_...),
    the nothrow traits, is_assignable and __is_swappable (overload resolution on user-defined operators),
    is_abstract_imp (unused). *)
From Coq Require Import ZArith NArith List Bool.
From Verif Require Import TyModel.
Import ListNotations.

(* no code counterpart: sequencing of steps that may not compile *)
Notation "x <- m ; k" := (match m with Some x => k | None => None end) (at level 61, m at next level, right associativity).

(** nanotype_traits.h:54-57 conditional *)
Definition conditional {A} (b : bool) (x y : A) : A := if b then x else y.
(** nanotype_traits.h:91-92 remove_const *)
Definition remove_const (t : ty) : ty := match match_const t with Some u => u | None => t end.
(** nanotype_traits.h:94-95 remove_volatile *)
Definition remove_volatile (t : ty) : ty := match match_volatile t with Some u => u | None => t end.
(** nanotype_traits.h:98-99 remove_cv *)
Definition remove_cv (t : ty) : ty := remove_volatile (remove_const t).
(** nanotype_traits.h:102-103 enable_if *)
Definition enable_if (b : bool) (t : ty) : option ty := if b then Some t else None.
(** nanotype_traits.h:123-124 is_same *)
Definition is_same (t u : ty) : bool := ty_eqb t u.
(** nanotype_traits.h:126-127 is_void *)
Definition is_void (t : ty) : bool := is_same (remove_cv t) (TVoid nocv).
(** nanotype_traits.h:137-142 is_array *)
Definition is_array (t : ty) : bool := match t with TArrU _ => true | TArr _ _ => true | _ => false end.
(** nanotype_traits.h:147-152 remove_extent *)
Definition remove_extent (t : ty) : ty := match t with TArrU u => u | TArr u _ => u | _ => t end.
(** nanocstddef.h:32-56 __libcpp_is_integral *)
Definition libcpp_is_integral (t : ty) : bool :=
  match t with
  | TArith (Cv false false) a =>
      match a with
      | Bool | Char | SChar | UChar | WChar | Short | UShort | Int | UInt | Long | ULong | LLong | ULLong => true
      | _ => false
      end
  | _ => false
  end.
(** nanotype_traits.h:161-162 is_integral *)
Definition is_integral (t : ty) : bool := libcpp_is_integral (remove_cv t).
(** nanotype_traits.h:166-169 __libcpp_is_floating_point *)
Definition libcpp_is_floating_point (t : ty) : bool :=
  match t with
  | TArith (Cv false false) Float | TArith (Cv false false) Double | TArith (Cv false false) LDouble => true
  | _ => false
  end.
(** nanotype_traits.h:171-172 is_floating_point *)
Definition is_floating_point (t : ty) : bool := libcpp_is_floating_point (remove_cv t).
(** nanotype_traits.h:174-176 is_arithmetic *)
Definition is_arithmetic (t : ty) : bool := is_integral t || is_floating_point t.

(* no code counterpart: what the implementation chooses for the integer types, and the range that follows; bool
   holds 0 and 1 *)
Record plat := Plat { p_signed : arith -> bool; p_bits : arith -> Z }.
Definition lo (p : plat) (a : arith) : Z :=
  match a with Bool => 0 | _ => if p_signed p a then - 2 ^ (p_bits p a - 1) else 0 end%Z.
Definition hi (p : plat) (a : arith) : Z :=
  match a with Bool => 1 | _ => if p_signed p a then 2 ^ (p_bits p a - 1) - 1 else 2 ^ p_bits p a - 1 end%Z.
(* no code counterpart: conversion of an int to an integer type: to bool a test against 0, to an unsigned type
   the remainder, to a signed one the value (only used where it fits) *)
Definition of_int (p : plat) (a : arith) (z : Z) : Z :=
  match a with
  | Bool => if Z.eqb z 0 then 0 else 1
  | _ => if p_signed p a then z else z mod 2 ^ p_bits p a
  end%Z.
(* no code counterpart: the arithmetic type under the qualifiers *)
Definition arith_of (t : ty) : option arith := match t with TArith _ a => Some a | _ => None end.
(** nanotype_traits.h:187-191 __libcpp_is_signed_impl *)
Definition libcpp_is_signed_impl (p : plat) (t : ty) : bool :=
  if is_integral t then match arith_of t with Some a => Z.ltb (of_int p a (-1)) (of_int p a 0) | None => false end else true.
(** nanotype_traits.h:193-198 __libcpp_is_signed, is_signed *)
Definition is_signed (p : plat) (t : ty) : bool := if is_arithmetic t then libcpp_is_signed_impl p t else false.
(** nanotype_traits.h:201-205 __libcpp_is_unsigned_impl *)
Definition libcpp_is_unsigned_impl (p : plat) (t : ty) : bool :=
  if is_integral t then match arith_of t with Some a => Z.ltb (of_int p a 0) (of_int p a (-1)) | None => false end else false.
(** nanotype_traits.h:207-212 __libcpp_is_unsigned, is_unsigned *)
Definition is_unsigned (p : plat) (t : ty) : bool := if is_arithmetic t then libcpp_is_unsigned_impl p t else false.

(** nanotype_traits.h:332-334 remove_reference *)
Definition remove_reference (t : ty) : ty := match t with TLref u => u | TRref u => u | _ => t end.
(** nanotype_traits.h:340-346 the type of move(e), for an e of type u: the parameter _Tp&& makes _Tp = u& when e is
    an lvalue and _Tp = u when it is not; the result type is remove_reference<_Tp>::type&& *)
Definition move_type (lvalue : bool) (u : ty) : option ty :=
  Tp <- (if lvalue then lref u else Some u) ; rref (remove_reference Tp).
(** nanotype_traits.h:350-351, 353-354, 356-358 *)
Definition is_lvalue_reference (t : ty) : bool := match t with TLref _ => true | _ => false end.
Definition is_rvalue_reference (t : ty) : bool := match t with TRref _ => true | _ => false end.
Definition is_reference (t : ty) : bool := match t with TLref _ => true | TRref _ => true | _ => false end.
(** nanotype_traits.h:362-365 __uncvref; 367-370 __unconstref *)
Definition uncvref (t : ty) : ty := remove_cv (remove_reference t).
Definition unconstref (t : ty) : ty := remove_const (remove_reference t).
(** nanotype_traits.h:381-382 is_const *)
Definition is_const (t : ty) : bool := match match_const t with Some _ => true | None => false end.
(** nanotype_traits.h:399-406 __is_referenceable: the return type of the chosen overload of __test *)
Definition is_referenceable (t : ty) : bool :=
  let two := TClass nocv two_class in
  negb (is_same (match lref t with Some r => r | None => two end) two).
(** nanotype_traits.h:410-419 __add_pointer_impl, add_pointer *)
Definition add_pointer (t : ty) : option ty :=
  if is_referenceable t || is_same (remove_cv t) (TVoid nocv) then ptr (remove_reference t) else Some t.
(** nanotype_traits.h:428-431 is_function *)
Definition is_function (t : ty) : bool := negb (is_reference t || is_const (const_of t)).
(** nanotype_traits.h:436-454 __decay; the alternatives of conditional are all written out as types, so they must
    all exist *)
Definition decay_imp (u : ty) (referenceable : bool) : option ty :=
  if referenceable then
    p <- ptr (remove_extent u) ;
    f <- add_pointer u ;
    Some (conditional (is_array u) p (conditional (is_function u) f (remove_cv u)))
  else Some (remove_cv u).
(** nanotype_traits.h:457-464 decay *)
Definition decay (t : ty) : option ty := let u := remove_reference t in decay_imp u (is_referenceable u).

(* no code counterpart: a function may return every type but arrays and functions *)
Definition returnable (t : ty) : bool := match t with TArr _ _ | TArrU _ | TFun _ _ _ _ _ => false | _ => true end.
(** nanotype_traits.h:469-475 __declval, declval: the type of the expression declval<_Tp>() as a return type *)
Definition declval (t : ty) : option ty :=
  match rref t with Some r => Some r | None => if returnable t then Some t else None end.

Section Common.
  (** no code counterpart: the type, as decltype gives it, of the conditional expression whose second and third
      operands have the types of declval<..>(); [None] when there is none.  It depends on the conversions of the
      classes involved. *)
  Variable cond : ty -> ty -> option ty.
  (** nanotype_traits.h:487-500 __common_type2_imp *)
  Definition common_type2_imp (t u : ty) : option ty :=
    a <- declval t ; b <- declval u ; c <- cond a b ; decay c.
  (** nanotype_traits.h:545-551 common_type<_Tp, _Up>.  The outer [None] is an endless instantiation or a
      program that does not compile, [Some None] a class without a member type. *)
  Fixpoint common_type2 (fuel : nat) (t u : ty) : option (option ty) :=
    match fuel with
    | O => None
    | S fuel =>
        dt <- decay t ;
        du <- decay u ;
        if conditional (is_same t dt && is_same u du) true false then Some (common_type2_imp t u)
        else common_type2 fuel dt du
    end.
  (** nanotype_traits.h:514-529 __common_type_impl on the list of types *)
  Fixpoint common_type_impl (fuel : nat) (t u : ty) (rest : list ty) : option (option ty) :=
    match rest with
    | [] => common_type2 fuel t u
    | v :: rest =>
        m <- common_type2 fuel t u ;
        match m with None => Some None | Some c => common_type_impl fuel c v rest end
    end.
  (** nanotype_traits.h:533-560 common_type *)
  Definition common_type (fuel : nat) (ts : list ty) : option (option ty) :=
    match ts with
    | [] => Some None
    | [t] => common_type2 fuel t t
    | [t; u] => common_type2 fuel t u
    | t :: u :: rest => common_type_impl fuel t u rest
    end.
End Common.

Section Convertible.
  (** no code counterpart: whether an object or reference of the first type can be copy-initialised from an
      expression whose type (as decltype gives it) is the second *)
  Variable copy_init : ty -> ty -> bool.
  (* no code counterpart: the type a function parameter gets; a parameter of type void cannot be passed *)
  Definition param (t : ty) : option ty :=
    match t with
    | TVoid _ => None
    | TArr u _ | TArrU u => Some (TPtr nocv u)
    | TFun _ _ _ _ _ => ptr t
    | _ => Some t
    end.
  (** nanotype_traits.h:569-577 __test_convert, __is_convertible_test *)
  Definition is_convertible_test (from to : ty) : bool :=
    match declval from, param to with
    | Some e, Some p => match e with TVoid _ => false | _ => copy_init p e end
    | _, _ => false
    end.
  (** nanotype_traits.h:579-585 __is_array_function_or_void *)
  Definition array_function_or_void (t : ty) : nat :=
    match is_array t, is_function t, is_void t with
    | true, false, false => 1
    | false, true, false => 2
    | false, false, true => 3
    | _, _, _ => 0
    end.
  (** nanotype_traits.h:601-630 __nanostl_is_convertible, is_convertible *)
  Definition is_convertible (from to : ty) : bool :=
    match array_function_or_void from, array_function_or_void to with
    | 0, 1 => false | 1, 1 => false | 2, 1 => false | 3, 1 => false
    | 0, 2 => false | 1, 2 => false | 2, 2 => false | 3, 2 => false
    | 0, 3 => false | 1, 3 => false | 2, 3 => false | 3, 3 => true
    | _, _ => is_convertible_test from to
    end.
End Convertible.

(** nanotype_traits.h:634-639 remove_all_extents *)
Fixpoint remove_all_extents (t : ty) : ty :=
  match t with TArrU u => remove_all_extents u | TArr u _ => remove_all_extents u | _ => t end.

Section Lifetime.
  (** no code counterpart: whether a class or union has an accessible destructor, a usable default constructor *)
  Variables dtor ctor : nat -> bool.
  (** nanotype_traits.h:658-669 __is_destructor_wellformed: declval<T&>().~T() exists for scalars (a
      pseudo-destructor call) and for classes with an accessible destructor; T& must exist *)
  Definition is_destructor_wellformed (t : ty) : bool :=
    match lref t with
    | None => false
    | Some r =>
        match r with
        | TLref (TClass _ n) | TLref (TUnion _ n) => dtor n
        | TLref (TArr _ _) | TLref (TArrU _) | TLref (TFun _ _ _ _ _) => false
        | _ => negb (is_reference t)
        end
    end.
  (** nanotype_traits.h:671-702 __destructible_imp, __destructible_false, is_destructible *)
  Definition is_destructible (t : ty) : bool :=
    match t with
    | TArrU _ => false
    | TVoid (Cv false false) => false
    | _ =>
        if is_function t then false
        else if is_reference t then true
        else is_destructor_wellformed (remove_all_extents t)
    end.
  (* no code counterpart: whether the expression T() exists: value-initialisation, for objects that are not arrays, and
     void() *)
  Definition value_init (t : ty) : bool :=
    match t with
    | TLref _ | TRref _ | TArr _ _ | TArrU _ | TFun _ _ _ _ _ => false
    | TClass _ n | TUnion _ n => ctor n
    | _ => true
    end.
  (** nanotype_traits.h:759-762, 777, 782-785 is_constructible with no arguments; 710-713 is_default_constructible *)
  Definition is_default_constructible (t : ty) : bool :=
    match t with
    | TVoid (Cv false false) | TVoid (Cv true false) | TVoid (Cv true true) | TVoid (Cv false true) => false
    | _ => value_init t
    end.
End Lifetime.

(** nanotype_traits.h:795-797 is_union *)
Definition is_union (t : ty) : bool := (fun _ => false) (remove_cv t).
(** nanotype_traits.h:801-808 is_class *)
Definition is_class (t : ty) : bool := has_members t && negb (is_union t).

(* no code counterpart: what matters of a class definition for a class derived from it: final, without data and virtual
   functions, the bytes its data take as a base, its alignment *)
Record layout := Layout { l_final : bool; l_empty : bool; l_size : Z; l_align : Z }.
(* no code counterpart: rounding up to a multiple *)
Definition round_up (n a : Z) : Z := ((n + a - 1) / a * a)%Z.
(** nanotype_traits.h:814-831 __is_empty1, __is_empty2, is_empty: the size of a class with a base and a double; a base
    without data takes no room.  Deriving from a union or a final class does not compile. *)
Definition is_empty (k : nat -> layout) (t : ty) : option bool :=
  if is_class t then
    match t with
    | TClass _ n =>
        if l_final (k n) then None
        else
          let off := round_up (if l_empty (k n) then 0 else l_size (k n))%Z 8 in
          Some (Z.eqb (round_up (off + 8) (Z.max (l_align (k n)) 8)) 8)
    | _ => None
    end
  else Some false.

(** nanotype_traits.h:935-939 add_lvalue_reference; the header writes [_Tp&] only when it exists *)
Definition add_lvalue_reference (t : ty) : ty :=
  if is_referenceable t then match lref t with Some r => r | None => t end else t.
(** nanotype_traits.h:947-951 add_rvalue_reference *)
Definition add_rvalue_reference (t : ty) : ty :=
  if is_referenceable t then match rref t with Some r => r | None => t end else t.
(** nanotype_traits.h:959-961 add_const *)
Definition add_const (t : ty) : ty := const_of t.

(** nanotype_traits.h:1278-1282 __is_nullptr_t *)
Definition is_nullptr_t (t : ty) : bool := match remove_cv t with TClass (Cv false false) n => Nat.eqb n nullptr_class | _ => false end.
(** nanotype_traits.h:1298-1311 __libcpp_is_member_pointer *)
Definition libcpp_is_member (t : ty) : bool := match t with TMem (Cv false false) _ _ => true | _ => false end.
Definition libcpp_is_member_func (t : ty) : bool := match t with TMem (Cv false false) _ u => is_function u | _ => false end.
(** nanotype_traits.h:1313-1314 is_member_function_pointer *)
Definition is_member_function_pointer (t : ty) : bool := libcpp_is_member_func (remove_cv t).
(** nanotype_traits.h:1319-1320 is_member_pointer *)
Definition is_member_pointer (t : ty) : bool := libcpp_is_member (remove_cv t).
(** nanotype_traits.h:1324-1336 is_pointer *)
Definition is_pointer (t : ty) : bool := match remove_cv t with TPtr (Cv false false) _ => true | _ => false end.
(** nanotype_traits.h:1342-1352 is_enum *)
Definition is_enum (t : ty) : bool :=
  negb (is_void t) && negb (is_integral t) && negb (is_floating_point t) && negb (is_array t) && negb (is_pointer t)
  && negb (is_reference t) && negb (is_member_pointer t) && negb (is_union t) && negb (is_class t)
  && negb (is_function t).
(** nanotype_traits.h:1363-1371 is_scalar with its specialisation for nullptr_t *)
Definition is_scalar (t : ty) : bool :=
  match t with
  | TClass (Cv false false) O => true
  | _ => is_arithmetic t || is_member_pointer t || is_pointer t || is_nullptr_t t || false || is_enum t
  end.
(** nanotype_traits.h:1376-1380 is_object *)
Definition is_object (t : ty) : bool := is_scalar t || is_array t || is_union t || is_class t.

(** nanotype_traits.h:1064-1079 the list __all_types, as the alignments of its members *)
Section Storage.
  (* no code counterpart: 2^64, the range of size_t (nanocommon.h:95) *)
  Definition size_mod : Z := (2 ^ 64)%Z.
  (** nanotype_traits.h:1111-1119 __select_align *)
  Definition select_align (len a1 a2 : Z) : Z :=
    let mn := if Z.ltb a2 a1 then a2 else a1 in
    let mx := if Z.ltb a1 a2 then a2 else a1 in
    if Z.ltb len mx then mn else mx.
  (** nanotype_traits.h:1106-1109, 1121-1123 __find_max_align on a list with head [h] *)
  Fixpoint find_max_align (h : Z) (tl : list Z) (len : Z) : Z :=
    match tl with [] => h | h2 :: tl2 => select_align len h (find_max_align h2 tl2 len) end.
  (** nanotype_traits.h:1081-1104 __find_pod: the member of the list with that alignment (as its size), or
      __fallback_overaligned, which needs a power of two and is one aligned unit long *)
  Definition fallback (align : Z) : option Z := if Z.eqb align (2 ^ Z.log2 align) then Some align else None.
  Fixpoint find_pod (h : Z * Z) (tl : list (Z * Z)) (align : Z) : option Z :=
    match tl with
    | [] => if Z.eqb align (fst h) then Some (snd h) else fallback align
    | h2 :: tl2 => if Z.eqb align (fst h) then Some (snd h) else find_pod h2 tl2 align
    end.
  (** nanotype_traits.h:1132, 1147 the length of the array of bytes *)
  Definition bytes (len align : Z) : Z := ((((len + align) mod size_mod - 1) mod size_mod) / align * align mod size_mod)%Z.
  (** nanotype_traits.h:1152-1169 the specialisations: 1, 2, 4, ..., 0x4000 *)
  Definition specialised (align : Z) : bool :=
    existsb (Z.eqb align) [1; 2; 4; 8; 16; 32; 64; 128; 256; 512; 1024; 2048; 4096; 8192; 16384]%Z.
  (** nanotype_traits.h:1125-1134, 1141-1149 aligned_storage<_Len, _Align>::type as its size and alignment; an array of no
      bytes does not compile.  The list pairs the alignment of each member of __all_types with its size. *)
  Definition aligned_storage (h : Z * Z) (tl : list (Z * Z)) (len align : Z) : option (Z * Z) :=
    let n := bytes len align in
    if specialised align then if Z.eqb n 0 then None else Some (round_up n align, align)
    else
      s <- find_pod h tl align ;
      if Z.eqb n 0 then None else Some (round_up (Z.max s n) align, align).
  (** nanotype_traits.h:1125 the default for _Align *)
  Definition default_align (h : Z * Z) (tl : list (Z * Z)) (len : Z) : Z := find_max_align (fst h) (map fst tl) len.
End Storage.
