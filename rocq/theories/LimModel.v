(** Model of nanostl::numeric_limits (include/nanolimits.h 42-253).  There is no lowest() and no
    specialisation for signed char, long, unsigned long or wider types. *)
From Coq Require Import ZArith Bool.
From Verif Require Import FpModel LitModel.
Open Scope Z_scope.

(** nanolimits.h:44-143: the integer types with a specialisation *)
Inductive ity := TBool | TChar | TUchar | TShort | TUshort | TInt | TUint | TLonglong | TUlonglong.

(** nanolimits.h:44-143 min() of each integer specialisation. *)
Definition imin (t : ity) : Z :=
  match t with
  | TBool => 0 | TChar => -128 | TUchar => 0 | TShort => -32768 | TUshort => 0
  | TInt => -2147483648 | TUint => 0 | TLonglong => -0x7FFFFFFFFFFFFFFF - 1 | TUlonglong => 0
  end.
(** nanolimits.h:44-143 max(). *)
Definition imax (t : ity) : Z :=
  match t with
  | TBool => 1 | TChar => 127 | TUchar => 255 | TShort => 32767 | TUshort => 65535
  | TInt => 2147483647 | TUint => 0xffffffff | TLonglong => 0x7FFFFFFFFFFFFFFF | TUlonglong => 0xFFFFFFFFFFFFFFFF
  end.
(** nanolimits.h:44-143 epsilon(). *)
Definition iepsilon (t : ity) : Z := 0.
(** nanolimits.h:44-143 digits10. *)
Definition idigits10 (t : ity) : Z :=
  match t with
  | TBool => 0 | TChar => 2 | TUchar => 2 | TShort => 4 | TUshort => 4
  | TInt => 9 | TUint => 9 | TLonglong => 18 | TUlonglong => 19
  end.

(** The bit-field unions of nanocommon.h:63-95. *)
Definition pack (f : fmt) (sign expo mant : Z) : Z := sign * 2 ^ (mw f + ew f) + expo * 2 ^ mw f + mant.

(** nanolimits.h:145-196, 198-253: the floating types *)
Inductive fty := TFloat | TDouble.
(** the format of the type (IEEE-754 binary32 / binary64) *)
Definition format (t : fty) : fmt := match t with TFloat => float32 | TDouble => float64 end.

(** nanolimits.h:148, 201-203 min(): 1.17549435E-38f, 2.2250738585072014e-308 *)
Definition fmin_ (t : fty) : Z :=
  match t with TFloat => literal float32 117549435 (-46) | TDouble => literal float64 22250738585072014 (-324) end.
(** nanolimits.h:150-152, 205-207 max(): 3.402823466e+38F, 1.7976931348623157e+308 *)
Definition fmax_ (t : fty) : Z :=
  match t with TFloat => literal float32 3402823466 29 | TDouble => literal float64 17976931348623157 292 end.
(** nanolimits.h:154, 209-211 epsilon(): 1.19209290E-07f, 2.2204460492503131e-016 *)
Definition fepsilon (t : fty) : Z :=
  match t with TFloat => literal float32 119209290 (-15) | TDouble => literal float64 22204460492503131 (-32) end.
(** nanolimits.h:157-164, 214-221 denorm_min() *)
Definition fdenorm_min (t : fty) : Z := pack (format t) 0 0 1.
(** nanolimits.h:167-174, 224-231 infinity() *)
Definition finfinity (t : fty) : Z := match t with TFloat => pack float32 0 255 0 | TDouble => pack float64 0 2047 0 end.
(** nanolimits.h:177-184, 234-241 quiet_NaN() *)
Definition fquiet_NaN (t : fty) : Z :=
  match t with TFloat => pack float32 0 255 (2 ^ 22) | TDouble => pack float64 0 2047 (2 ^ 51) end.
(** nanolimits.h:187-194, 244-251 signaling_NaN() *)
Definition fsignaling_NaN (t : fty) : Z := match t with TFloat => pack float32 0 255 1 | TDouble => pack float64 0 2047 1 end.
(** nanolimits.h:195, 252 digits10 *)
Definition fdigits10 (t : fty) : Z := match t with TFloat => 6 | TDouble => 15 end.
