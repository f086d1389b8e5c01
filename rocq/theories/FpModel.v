(** Model of the bit-level floating-point functions: include/nanomath.h 49-243,
    265-292, 334-348, the unions of include/nanocommon.h 63-110 and the hash
    functors of include/nanofunctional.h 54-177.

    A float or double is given by its bit pattern (an integer).  The bit-fields
    are arithmetic on the pattern (little-endian layout); the comparisons <, >,
    == are those of Flocq's formalisation of IEEE-754. *)
From Coq Require Import ZArith Bool.
From Flocq Require Import IEEE754.Binary IEEE754.Bits.
From Verif Require Import Mem AlgoModel.
Open Scope Z_scope.

(** A binary interchange format: [mw] mantissa bits, [ew] exponent bits. *)
Record fmt := Fmt { mw : Z; ew : Z; mw_pos : 0 < mw; ew_pos : 0 < ew; mw_ew : mw + 1 < 2 ^ (ew - 1) }.
(** float (nanocommon.h:63-78) *)
Definition float32 : fmt := Fmt 23 8 eq_refl eq_refl eq_refl.
(** double (nanocommon.h:80-95) *)
Definition float64 : fmt := Fmt 52 11 eq_refl eq_refl eq_refl.

(** The IEEE-754 datum of a bit pattern. *)
Definition val (f : fmt) (x : Z) : binary_float (mw f + 1) (2 ^ (ew f - 1)) :=
  binary_float_of_bits (mw f) (ew f) (mw_pos f) (ew_pos f) (mw_ew f) x.
(** A pattern of the format's width. *)
Definition pattern (f : fmt) (x : Z) : Prop := 0 <= x < 2 ^ (mw f + ew f + 1).

(** nanocommon.h:63-78 and 80-95 bits.mantissa / bits.exponent / bits.sign. *)
Definition mantissa (f : fmt) (x : Z) : Z := x mod 2 ^ mw f.
(** bits.exponent (nanocommon.h:63-95) *)
Definition exponent (f : fmt) (x : Z) : Z := (x / 2 ^ mw f) mod 2 ^ ew f.
(** bits.sign (nanocommon.h:63-95) *)
Definition signbit (f : fmt) (x : Z) : Z := x / 2 ^ (mw f + ew f).

(** The C++ operators < > == on the type. *)
Definition flt (f : fmt) (x y : Z) : bool :=
  match Bcompare _ _ (val f x) (val f y) with Some Lt => true | _ => false end.
(** operator> *)
Definition fgt (f : fmt) (x y : Z) : bool :=
  match Bcompare _ _ (val f x) (val f y) with Some Gt => true | _ => false end.
(** operator== *)
Definition feq (f : fmt) (x y : Z) : bool :=
  match Bcompare _ _ (val f x) (val f y) with Some Eq => true | _ => false end.
(** unary minus: flips the sign bit *)
Definition fneg (f : fmt) (x : Z) : Z := Z.lxor x (2 ^ (mw f + ew f)).
(** static_cast<T>(0) *)
Definition fzero : Z := 0.

(** nanomath.h:49-69 __is_zero. *)
Definition is_zero_ (f : fmt) (x : Z) : bool := (mantissa f x =? 0) && (exponent f x =? 0).
(** nanomath.h:71-91 __is_subnormal. *)
Definition is_subnormal_ (f : fmt) (x : Z) : bool := negb (mantissa f x =? 0) && (exponent f x =? 0).
(** nanomath.h:137-151 isfinite: exponent != 255 / 2047. *)
Definition isfinite (f : fmt) (x : Z) : bool := negb (exponent f x =? 2 ^ ew f - 1).
(** nanomath.h:153-167 isinf. *)
Definition isinf (f : fmt) (x : Z) : bool := (exponent f x =? 2 ^ ew f - 1) && (mantissa f x =? 0).
(** nanomath.h:169-183 isnan. *)
Definition isnan (f : fmt) (x : Z) : bool := (exponent f x =? 2 ^ ew f - 1) && negb (mantissa f x =? 0).
(** nanomath.h:185-199 isnormal. *)
Definition isnormal (f : fmt) (x : Z) : bool :=
  negb (exponent f x =? 0) && negb (exponent f x =? 2 ^ ew f - 1).

(** nanomath.h:93-103 fabs<T>. *)
Definition fabs (f : fmt) (num : Z) : Z := if flt f num fzero then fneg f num else num.

(** nanomath.h:201-221 fmin<T>. *)
Definition fmin (f : fmt) (x y : Z) : Z :=
  if isnan f x && isnan f y then x
  else if isnan f x then y
  else if isnan f y then x
  else if flt f x y then x else y.

(** nanomath.h:223-243 fmax<T>. *)
Definition fmax (f : fmt) (x y : Z) : Z :=
  if isnan f x && isnan f y then x
  else if isnan f x then y
  else if isnan f y then x
  else if fgt f x y then x else y.

(** nanomath.h:265-268 clamp with nanoalgorithm.h:30-38 min and max. *)
Definition clamp (f : fmt) (a low high : Z) : Z := max_ (fgt f) low (min_ (flt f) high a).

(** nanomath.h:334-348 copysign (float only). *)
Definition copysign (x y : Z) : Z := Z.lor (Z.land y 0x80000000) (Z.land x 0x7fffffff).

(** nanomath.h:270-292 UintToFloat / FloatToUint are the identity on patterns;
    IntToFloat / FloatToInt reinterpret as a signed int. *)
Definition FloatToInt (x : Z) : Z := if x <? 2 ^ 31 then x else x - 2 ^ 32.
(** nanomath.h:270-292 IntToFloat *)
Definition IntToFloat (i : Z) : Z := i mod 2 ^ 32.

(** nanofunctional.h:54-118: static_cast<size_t> of an integer or bool. *)
Definition hash_int (v : Z) : Z := v mod 2 ^ 64.

(** nanofunctional.h:123-153 __scalar_hash: the pattern in the low bytes of a
    zeroed size_t (little-endian). *)
Definition scalar_hash (x : Z) : Z := x.

(** nanofunctional.h:155-177 hash<float>, hash<double>. *)
Definition hash_fp (f : fmt) (x : Z) : Z := if feq f x fzero then 0 else scalar_hash x.

(** nanofunctional.h:179-183 hash<nullptr_t>. *)
Definition hash_null : Z := 662607004.
