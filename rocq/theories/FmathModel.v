(** Model of the approximated elementary functions: include/nanomath.h 351-742.

    A float is its bit pattern.  Every operation rounds to nearest even at the
    precision of float (no excess precision, and a*b+c is not contracted into a
    fused multiply-add).  The conversion of a float to int is undefined
    behaviour when the truncated value does not fit.  Which NaN an operation on
    NaNs yields is fixed (Flocq's default), the theorems never look at it. *)
From Coq Require Import ZArith Bool.
From Flocq Require Import Core IEEE754.Binary IEEE754.Bits.
From Verif Require Import Mem AlgoModel FpModel RoundModel LitModel LimModel.
Open Scope Z_scope.

(** ** Operators and literals of the language *)

(** float operator+ *)
Definition addf (a b : Z) : Z := bits_of_b32 (b32_plus BinarySingleNaN.mode_NE (b32_of_bits a) (b32_of_bits b)).
(** float operator/ *)
Definition divf (a b : Z) : Z := bits_of_b32 (b32_div BinarySingleNaN.mode_NE (b32_of_bits a) (b32_of_bits b)).
(** unary minus *)
Definition negf (a : Z) : Z := fneg float32 a.
(** int to float *)
Definition i2f (i : Z) : Z :=
  bits_of_b32 (binary_normalize 24 128 eq_refl eq_refl BinarySingleNaN.mode_NE i 0 false).
(** float to int, truncating *)
Definition f2i (x : Z) : res Z :=
  let v := b32_of_bits x in
  if is_finite _ _ v then
    let t := Btrunc _ _ v in
    if (- 2 ^ 31 <=? t) && (t <? 2 ^ 31) then Ok t else UB BadArith
  else UB BadArith.
(** a float literal m * 10^e with the suffix f *)
Definition lit (m e : Z) : Z := literal float32 m e.
(** a double literal m * 10^e *)
Definition dlit (m e : Z) : Z := literal float64 m e.
(** double to float, for finite doubles (only constants are converted) *)
Definition d2f (x : Z) : Z :=
  match b64_of_bits x with
  | B754_finite _ _ s m e _ =>
      bits_of_b32 (binary_normalize 24 128 eq_refl eq_refl BinarySingleNaN.mode_NE (cond_Zopp s (Zpos m)) e s)
  | _ => 0
  end.
(** double operator/ *)
Definition divd (a b : Z) : Z := bits_of_b64 (b64_div BinarySingleNaN.mode_NE (b64_of_bits a) (b64_of_bits b)).
(** double operator* *)
Definition muld (a b : Z) : Z := bits_of_b64 (b64_mult BinarySingleNaN.mode_NE (b64_of_bits a) (b64_of_bits b)).

(** float literals and int constants converted to float that occur repeatedly *)
Definition f_one : Z := 0x3f800000.
Definition f_two : Z := 0x40000000.
Definition f_four : Z := 0x40800000.
(** numeric_limits<float>::min, max, epsilon, infinity (nanolimits.h:148-174) *)
Definition lim_min : Z := fmin_ TFloat.
Definition lim_max : Z := fmax_ TFloat.
Definition lim_eps : Z := fepsilon TFloat.
Definition lim_inf : Z := finfinity TFloat.

(** ** nanomath.h:392-396 the double constants *)
Definition kM_1_PI : Z := dlit 318309886183790671537767526745028724 (-36).
Definition kM_PI_2 : Z := dlit 157079632679489661923132169163975144 (-35).
Definition kM_PI_4 : Z := dlit 785398163397448309615660845819875721 (-36).
Definition kM_LN2 : Z := dlit 69314718055994530941723212145817656 (-35).
Definition kM_LN10 : Z := dlit 230258509299404568401799145468436421 (-35).

(** nanomath.h:399 madd *)
Definition madd (a b c : Z) : Z := addf (mulf a b) c.

(** nanomath.h:402-405 fast_rint *)
Definition fast_rint (x : Z) : res Z := f2i (addf x (copysign f_half x)).

(** nanomath.h:420-425: the polynomial of fast_exp2 *)
Definition exp2_poly (x : Z) : Z :=
  let r := lit 133336498402 (-14) in
  let r := madd x r (lit 9810352697968 (-15)) in
  let r := madd x r (lit 5551834031939 (-14)) in
  let r := madd x r (lit 2401793301105 (-13)) in
  let r := madd x r (lit 693144857883 (-12)) in
  madd x r f_one.

(** nanomath.h:408-431 fast_exp2.  The addition to the exponent is unsigned, hence modulo 2^32. *)
Definition fast_exp2 (xval : Z) : res Z :=
  let x := clamp float32 xval (negf (lit 126 0)) (lit 126 0) in
  m <- f2i x ;;
  let x := subf x (i2f m) in
  let x := subf f_one (subf f_one x) in
  let r := exp2_poly x in
  Ok ((r + (m mod 2 ^ 32) * 2 ^ 23) mod 2 ^ 32).

(** nanomath.h:440: static_cast<float>(1 / kM_LN2) *)
Definition inv_ln2 : Z := d2f (divd (dlit 1 0) kM_LN2).

(** nanomath.h:436-441 exp(float) *)
Definition exp_ (x : Z) : res Z := fast_exp2 (mulf x inv_ln2).

(** nanomath.h:458-466: the polynomial of fast_log2, before the exponent is added *)
Definition log2_poly (f : Z) : Z :=
  let f2 := mulf f f in
  let f4 := mulf f2 f2 in
  let hi := madd f (negf (lit 931049621349 (-14))) (lit 5206469089414 (-14)) in
  let lo := madd f (lit 47868480909345 (-14)) (negf (lit 72116591947498 (-14))) in
  let hi := madd f hi (negf (lit 13753123777116 (-14))) in
  let hi := madd f hi (lit 24187369696082 (-14)) in
  let hi := madd f hi (negf (lit 34730547155299 (-14))) in
  let lo := madd f lo (lit 1442689881667200 (-15)) in
  addf (mulf f4 hi) (mulf f lo).

(** nanomath.h:443-467 fast_log2 *)
Definition fast_log2 (xval : Z) : Z :=
  let x := clamp float32 xval lim_min lim_max in
  let exponent := x / 2 ^ 23 - 127 in
  let f := subf (Z.lor (Z.land x 0x007FFFFF) 0x3f800000) f_one in
  addf (log2_poly f) (i2f exponent).

(** nanomath.h:469-488 log(float) *)
Definition log_ (x : Z) : Z :=
  if is_zero_ float32 x then negf lim_inf
  else if x =? f_one then 0
  else if flt float32 x fzero then lim_inf
  else mulf (fast_log2 x) (d2f kM_LN2).

(** nanomath.h:490-510 log10(float) *)
Definition log10_ (x : Z) : Z :=
  if is_zero_ float32 x then negf lim_inf
  else if x =? f_one then 0
  else if flt float32 x fzero then lim_inf
  else mulf (fast_log2 x) (d2f (divd kM_LN2 kM_LN10)).

(** nanomath.h:524-541: the sign of x^y for negative x; [None] is the early
    return 0.0f for a non-integer y.  [j << 31] keeps bit 0 of j (defined as such
    since C++20; before that it overflows for j > 1). *)
Definition pow_sign (y : Z) : option Z :=
  let ybits := Z.land (FloatToInt y) 0x7fffffff in
  if 0x4b800000 <=? ybits then Some f_one
  else if 0x3f800000 <=? ybits then
    let k := Z.shiftr ybits 23 - 127 in
    let j := Z.shiftr ybits (23 - k) in
    if Z.shiftl j (23 - k) =? ybits
    then Some (IntToFloat (Z.lor 0x3f800000 (Z.shiftl j 31)))
    else None
  else None.

(** nanomath.h:513-543 pow(float, float) *)
Definition pow_ (x y : Z) : res Z :=
  if flt float32 (fabs float32 y) lim_eps then Ok f_one
  else if flt float32 (fabs float32 x) lim_eps then Ok fzero
  else if feq float32 y f_one then Ok x
  else if feq float32 y f_two then Ok (min_ (flt float32) (mulf x x) lim_max)
  else
    match (if flt float32 x fzero then pow_sign y else Some f_one) with
    | None => Ok fzero
    | Some sign =>
        e <- fast_exp2 (mulf y (fast_log2 (fabs float32 x))) ;;
        Ok (mulf sign e)
    end.

(** The four-part splitting of pi/4 used by sin, cos and tan (nanomath.h:553-556,
    578-581, 606-609), each part negated and multiplied by the int constant 4 or 2. *)
Definition pi_part1 (n : Z) : Z := mulf (negf (lit 78515625 (-8))) n.
Definition pi_part2 (n : Z) : Z := mulf (negf (lit 24187564849853515625 (-23))) n.
Definition pi_part3 (n : Z) : Z := mulf (negf (lit 37747668102383613586 (-27))) n.
Definition pi_part4 (n : Z) : Z := mulf (negf (lit 12816720341285448015 (-31))) n.

(** nanomath.h:552-556, 577-581, 605-609: subtract qf times the parts in turn *)
Definition reduce (n qf x : Z) : Z :=
  let x := madd qf (pi_part1 n) x in
  let x := madd qf (pi_part2 n) x in
  let x := madd qf (pi_part3 n) x in
  madd qf (pi_part4 n) x.

(** nanomath.h:557, 582, 611-613: c - (c - x) *)
Definition crush (c x : Z) : Z := subf c (subf c x).

(** nanomath.h:558-566: the polynomial of sin at the reduced argument *)
Definition sin_poly (odd : bool) (x : Z) : Z :=
  let s := mulf x x in
  let x := if odd then negf x else x in
  let u := lit 26083159809786593541503 (-28) in
  let u := madd u s (negf (lit 1981069071916863322258 (-25))) in
  let u := madd u s (lit 833307858556509017944336 (-26)) in
  let u := madd u s (negf (lit 166666597127914428710938 (-24))) in
  madd s (mulf u x) x.

(** nanomath.h:570, 593: the final range check *)
Definition unit_check (u : Z) : Z := if fgt float32 (fabs float32 u) f_one then fzero else u.

(** nanomath.h:545-572 sin(float).  [(q & 1) != 0] is oddness of q. *)
Definition sin_ (x : Z) : res Z :=
  q <- fast_rint (mulf x (d2f kM_1_PI)) ;;
  let x := reduce f_four (i2f q) x in
  let x := crush (d2f kM_PI_2) x in
  Ok (unit_check (sin_poly (Z.odd q) x)).

(** nanomath.h:583-591: the polynomial of cos *)
Definition cos_poly (x : Z) : Z :=
  let s := mulf x x in
  let u := negf (lit 271811842367242206819355 (-30)) in
  let u := madd u s (lit 247990446951007470488548 (-28)) in
  let u := madd u s (negf (lit 138888787478208541870117 (-26))) in
  let u := madd u s (lit 416666641831398010253906 (-25)) in
  let u := madd u s (negf f_half) in
  madd u s f_one.

(** nanomath.h:574-595 cos(float) *)
Definition cos_ (x : Z) : res Z :=
  q <- fast_rint (mulf x (d2f kM_1_PI)) ;;
  let x := reduce f_four (i2f q) x in
  let x := crush (d2f kM_PI_2) x in
  let u := cos_poly x in
  Ok (unit_check (if Z.odd q then negf u else u)).

(** nanomath.h:614-621: the polynomial of tan *)
Definition tan_poly (x : Z) : Z :=
  let s := mulf x x in
  let u := lit 927245803177356719970703 (-26) in
  let u := madd u s (lit 331984995864331722259521 (-26)) in
  let u := madd u s (lit 242998078465461730957031 (-25)) in
  let u := madd u s (lit 534495301544666290283203 (-25)) in
  let u := madd u s (lit 133383005857467651367188 (-24)) in
  let u := madd u s (lit 333331853151321411132812 (-24)) in
  madd s (mulf u x) x.

(** nanomath.h:600-624 tan(float) *)
Definition tan_ (x : Z) : res Z :=
  q <- fast_rint (mulf x (d2f (muld (dlit 2 0) kM_1_PI))) ;;
  let x := reduce f_two (i2f q) x in
  let x := if Z.odd q then x else crush (d2f kM_PI_4) x in
  let u := tan_poly x in
  Ok (if Z.odd q then divf (negf f_one) u else u).

(** nanomath.h:635-641: the polynomial of sinh *)
Definition sinh_poly (a : Z) : Z :=
  let a2 := mulf a a in
  let r := lit 203945513931 (-15) in
  let r := madd r a2 (lit 832990277558 (-14)) in
  let r := madd r a2 (lit 1666673421859 (-13)) in
  madd (mulf r a) a2 a.

(** nanomath.h:626-644 sinh(float) *)
Definition sinh_ (x : Z) : res Z :=
  let a := fabs float32 x in
  if fgt float32 a f_one then
    e <- exp_ a ;;
    Ok (copysign (subf (mulf f_half e) (divf f_half e)) x)
  else Ok (copysign (sinh_poly (crush f_one a)) x).

(** nanomath.h:646-651 cosh(float) *)
Definition cosh_ (x : Z) : res Z :=
  e <- exp_ (fabs float32 x) ;;
  Ok (addf (mulf f_half e) (divf f_half e)).

(** nanomath.h:653-659 tanh(float) *)
Definition tanh_ (x : Z) : res Z :=
  e <- exp_ (mulf f_two (fabs float32 x)) ;;
  Ok (copysign (subf f_one (divf f_two (addf f_one e))) x).

(** nanomath.h:664-674: the polynomial of erf *)
Definition erf_poly (b : Z) : Z :=
  madd (madd (madd (madd (madd (madd (lit 430638 (-10)) b (lit 2765672 (-10))) b (lit 1520143 (-10))) b
    (lit 92705272 (-10))) b (lit 422820123 (-10))) b (lit 705230784 (-10))) b f_one.

(** nanomath.h:661-680 erf(float) *)
Definition erf_ (x : Z) : Z :=
  let a := fabs float32 x in
  let r := erf_poly (crush f_one a) in
  let s := mulf r r in
  let t := mulf s s in
  let u := mulf t t in
  let v := mulf u u in
  copysign (subf f_one (divf f_one v)) x.

(** nanomath.h:691-692: one Newton step of cbrt *)
Definition cbrt_step (x0 a : Z) : Z :=
  mulf (lit 333333333 (-9)) (addf (mulf f_two a) (divf x0 (mulf a a))).

(** nanomath.h:683-696 cbrt(float).  The int addition cannot overflow:
    |FloatToInt| / 3 <= 715827882 and 0x2a5137a0 = 709965728. *)
Definition cbrt_ (x : Z) : Z :=
  let x0 := fabs float32 x in
  let a := IntToFloat (0x2a5137a0 + Z.quot (FloatToInt x0) 3) in
  let a := cbrt_step x0 a in
  let a := cbrt_step x0 a in
  let a := if flt float32 (fabs float32 x0) lim_eps then fzero else a in
  copysign a x.

(** nanomath.h:698-703 erfc(float) *)
Definition erfc_ (x : Z) : Z := subf f_one (erf_ x).

(** nanomath.h:712-721: the central polynomial of ierf *)
Definition ierf_central (w : Z) : Z :=
  let w := subf w (lit 25 (-1)) in
  let p := lit 281022636 (-16) in
  let p := madd p w (lit 343273939 (-15)) in
  let p := madd p w (negf (lit 35233877 (-13))) in
  let p := madd p w (negf (lit 439150654 (-14))) in
  let p := madd p w (lit 21858087 (-11)) in
  let p := madd p w (negf (lit 125372503 (-11))) in
  let p := madd p w (negf (lit 417768164 (-11))) in
  let p := madd p w (lit 246640727 (-9)) in
  madd p w (lit 150140941 (-8)).

(** nanomath.h:723-732: the tail polynomial of ierf *)
Definition ierf_tail (w : Z) : Z :=
  let w := subf (sqrt w) (lit 3 0) in
  let p := negf (lit 200214257 (-12)) in
  let p := madd p w (lit 100950558 (-12)) in
  let p := madd p w (lit 134934322 (-11)) in
  let p := madd p w (negf (lit 367342844 (-11))) in
  let p := madd p w (lit 573950773 (-11)) in
  let p := madd p w (negf (lit 76224613 (-10))) in
  let p := madd p w (lit 943887047 (-11)) in
  let p := madd p w (lit 100167406 (-8)) in
  madd p w (lit 283297682 (-8)).

(** nanomath.h:705-735 ierf(float) *)
Definition ierf_ (x : Z) : Z :=
  let a := fabs float32 x in
  let a := if fgt float32 a (lit 99999994 (-8)) then lit 99999994 (-8) else a in
  let w := negf (log_ (mulf (subf f_one a) (addf f_one a))) in
  let p := if flt float32 w (lit 5 0) then ierf_central w else ierf_tail w in
  mulf p x.
