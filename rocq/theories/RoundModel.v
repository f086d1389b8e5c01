(** Model of ceil, floor and sqrt: include/nanomath.h 93-135 and 294-332.
    Arithmetic is that of Flocq's IEEE-754 formalisation, rounding to nearest
    even, at the precision of the type (no excess precision, no contraction). *)
From Coq Require Import ZArith Bool.
From Flocq Require Import Core IEEE754.Binary IEEE754.Bits.
From Verif Require Import Mem FpModel.
Open Scope Z_scope.

Section R.
Variable f : fmt.
Notation prec := (mw f + 1).
Notation emax := (2 ^ (ew f - 1)).
Notation float := (binary_float prec emax).

Local Instance prec_pos : Prec_gt_0 prec.
Proof. unfold Prec_gt_0. pose proof (mw_pos f). now apply Z.lt_trans with (1 := H), Z.lt_succ_diag_r. Qed.
Local Instance prec_emax : BinarySingleNaN.Prec_lt_emax prec emax := mw_ew f.

(** The NaN an operation on NaNs produces is left open. *)
Variable nan2 : float -> float -> { x : float | is_nan prec emax x = true }.
Variable nan1 : float -> { x : float | is_nan prec emax x = true }.

(** static_cast<T>(0) (nanomath.h:98, 115, 125) *)
Definition fp_zero : float := B754_zero _ _ false.
(** static_cast<T>(int) *)
Definition of_int (i : Z) : float := binary_normalize prec emax _ _ BinarySingleNaN.mode_NE i 0 false.
(** operator- (nanomath.h:110, 129) *)
Definition minus (a b : float) : float := Bminus prec emax _ _ nan2 BinarySingleNaN.mode_NE a b.
(** operator< *)
Definition ltb (a b : float) : bool := match Bcompare _ _ a b with Some Lt => true | _ => false end.
(** operator>= (nanomath.h:125) *)
Definition geb (a b : float) : bool := match Bcompare _ _ a b with Some Gt | Some Eq => true | _ => false end.
(** operator> (nanomath.h:115) *)
Definition gtb (a b : float) : bool := match Bcompare _ _ a b with Some Gt => true | _ => false end.

(** nanolimits.h:154, 209-211 numeric_limits<T>::epsilon(): 1.19209290E-07f is 2^-23,
    2.2204460492503131e-016 is 2^-52. *)
Definition epsilon : float := binary_normalize prec emax _ _ BinarySingleNaN.mode_NE 1 (- mw f) false.

(** int(x): undefined when the truncated value does not fit in an int. *)
Definition to_int (x : float) : Z + unit :=
  if is_finite _ _ x then
    let t := Btrunc _ _ x in
    if (- 2 ^ 31 <=? t) && (t <? 2 ^ 31) then inl t else inr tt
  else inr tt.

(** nanomath.h:93-103 fabs. *)
Definition fabs_ (x : float) : float := if ltb x fp_zero then Bopp _ _ nan1 x else x.

(** int + 1 and int - 1: undefined on overflow. *)
Definition int_arith (i : Z) : Z + unit :=
  if (- 2 ^ 31 <=? i) && (i <? 2 ^ 31) then inl i else inr tt.

(** nanomath.h:107-120 ceil.  [inr tt] is undefined behaviour. *)
Definition ceil (num : float) : float + unit :=
  match to_int num with
  | inr _ => inr tt
  | inl inum =>
      let diff := minus num (of_int inum) in
      if ltb (fabs_ diff) epsilon then inl (of_int inum)
      else if gtb num fp_zero then
        match int_arith (inum + 1) with inl i => inl (of_int i) | inr _ => inr tt end
      else inl (of_int inum)
  end.

(** nanomath.h:123-135 floor. *)
Definition floor (x : float) : float + unit :=
  if geb x fp_zero then
    match to_int x with inl i => inl (of_int i) | inr _ => inr tt end
  else
    match to_int x with
    | inr _ => inr tt
    | inl y =>
        if ltb (fabs_ (minus (of_int y) x)) epsilon then inl (of_int y)
        else match int_arith (y - 1) with inl i => inl (of_int i) | inr _ => inr tt end
    end.
End R.

(** nanomath.h:294-332 sqrt(float), on bit patterns; the int u.i has the pattern
    of the float, and 0x5f3759df - (u.i >> 1) stays within int. *)
Definition sqrt_guess (x : Z) : Z := IntToFloat (0x5f3759df - Z.shiftr (FloatToInt x) 1).
(** float operator* *)
Definition mulf (a b : Z) : Z := bits_of_b32 (b32_mult BinarySingleNaN.mode_NE (b32_of_bits a) (b32_of_bits b)).
(** float operator- *)
Definition subf (a b : Z) : Z := bits_of_b32 (b32_minus BinarySingleNaN.mode_NE (b32_of_bits a) (b32_of_bits b)).
(** 0.5f and 1.5f *)
Definition f_half : Z := 0x3f000000.
Definition f_three_halves : Z := 0x3fc00000.
(** numeric_limits<float>::quiet_NaN (nanolimits.h:177-184): exponent 255, mantissa 1<<22. *)
Definition f_qnan : Z := 0x7fc00000.

(** nanomath.h:294-332 sqrt(float): special cases, guess, one Newton step *)
Definition sqrt (x : Z) : Z :=
  if is_zero_ float32 x then x
  else if x =? 0x3f800000 then 0x3f800000
  else if flt float32 x fzero && isinf float32 x then x
  else if flt float32 x fzero then f_qnan
  else
    let xhalf := mulf f_half x in
    let u := sqrt_guess x in
    mulf (mulf x u) (subf f_three_halves (mulf (mulf xhalf u) u)).
