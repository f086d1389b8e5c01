(** Model of the decimal parsers of include/__nanostrutil.h (ryu_parse): s2f_n, s2d_n and of stod of
    include/nanostring.h.

    [buffer] is the list of bytes the pointer points at; reading at an index outside it is
    [UB OutOfBounds].  A char is its unsigned value: the code only compares chars with ASCII
    constants, which gives the same result for signed chars.  uint32_t / uint64_t arithmetic is
    followed by [mod 2^W]; a signed int computation that can overflow is checked ([i32]); a shift
    by a count outside the type and a failing assert are [UB BadArith].  s2f_n and s2d_n are the same
    text up to widths and constants except for the multiplication step; the common text is modelled
    once, with the widths as arguments. *)
From Coq Require Import ZArith List Bool.
From Verif Require Import Mem RyuTables RyuModel FpModel LitModel LimModel.
Import ListNotations.
Open Scope Z_scope.

(** __nanostrutil.h:1311-1316 enum RyuStatus *)
Inductive status := SUCCESS | INPUT_TOO_SHORT | INPUT_TOO_LONG | MALFORMED_INPUT.

(** buffer[i] *)
Definition rd (buffer : list Z) (i : Z) : res Z :=
  if 0 <=? i then match nth_error buffer (Z.to_nat i) with Some c => Ok c | None => UB OutOfBounds end
  else UB OutOfBounds.
(** conversion of a value modulo 2^32 to int32_t *)
Definition s32 (x : Z) : Z := (x + 2 ^ 31) mod 2 ^ 32 - 2 ^ 31.
(** an int computation, undefined when it overflows *)
Definition i32 (x : Z) : res Z := chk ((- 2 ^ 31 <=? x) && (x <? 2 ^ 31)) (Ok x).

(** __nanostrutil.h:1323-1337 __myclzi *)
Definition myclzi (x : Z) : Z :=
  if x =? 0 then 32 else
  let n := 32 in
  let y := x / 2 ^ 16 in let '(n, x) := if negb (y =? 0) then (n - 16, y) else (n, x) in
  let y := x / 2 ^ 8 in let '(n, x) := if negb (y =? 0) then (n - 8, y) else (n, x) in
  let y := x / 2 ^ 4 in let '(n, x) := if negb (y =? 0) then (n - 4, y) else (n, x) in
  let y := x / 2 ^ 2 in let '(n, x) := if negb (y =? 0) then (n - 2, y) else (n, x) in
  let y := x / 2 in if negb (y =? 0) then n - 2 else s32 (n - x).
(** __nanostrutil.h:1340-1344 floor_log2(uint32_t) *)
Definition floor_log2_32 (value : Z) : res Z := if value =? 0 then Ok 32 else Ok (u32 (31 - myclzi value)).
(** __nanostrutil.h:1559-1563: while (!(x & (1 << 63))) *)
Fixpoint myclzll_loop (fuel : nat) (x r : Z) : res Z :=
  if negb (Z.land x (2 ^ 63) =? 0) then Ok r
  else match fuel with O => UB NoReturn | S n => myclzll_loop n (u64 (x * 2)) (r + 1) end.
(** __nanostrutil.h:1555-1566 __myclzll *)
Definition myclzll (x : Z) : res Z := if x =? 0 then Ok 64 else myclzll_loop 64 x 0.
(** __nanostrutil.h:1569-1572 floor_log2(uint64_t) *)
Definition floor_log2_64 (value : Z) : res Z := z <- myclzll value ;; Ok (u32 (63 - z)).

(** __nanostrutil.h:1377-1396, 1600-1619: the loop over the mantissa: index, dotIndex, m10, m10digits *)
Fixpoint mant_loop (fuel : nat) (W maxdigits : Z) (buffer : list Z) (len i dotIndex m10 m10digits : Z)
  : res (status + (Z * Z * Z * Z)) :=
  if i <? len then
    match fuel with
    | O => UB NoReturn
    | S n =>
        c <- rd buffer i ;;
        if c =? 46 then
          if negb (dotIndex =? len) then Ok (inl MALFORMED_INPUT)
          else mant_loop n W maxdigits buffer len (i + 1) i m10 m10digits
        else if (c <? 48) || (57 <? c) then Ok (inr (i, dotIndex, m10, m10digits))
        else if maxdigits <=? m10digits then Ok (inl INPUT_TOO_LONG)
        else
          let m10 := (10 * m10 + (c - 48)) mod 2 ^ W in
          mant_loop n W maxdigits buffer len (i + 1) dotIndex m10 (if negb (m10 =? 0) then m10digits + 1 else m10digits)
    end
  else Ok (inr (i, dotIndex, m10, m10digits)).

(** __nanostrutil.h:1404-1417, 1627-1640: the loop over the exponent: index, e10 *)
Fixpoint exp_loop (fuel : nat) (buffer : list Z) (len i e10 e10digits : Z) : res (status + (Z * Z)) :=
  if i <? len then
    match fuel with
    | O => UB NoReturn
    | S n =>
        c <- rd buffer i ;;
        if (c <? 48) || (57 <? c) then Ok (inl MALFORMED_INPUT)
        else if 3 <? e10digits then Ok (inl INPUT_TOO_LONG)
        else
          e10 <- i32 (10 * e10 + (c - 48)) ;;
          exp_loop n buffer len (i + 1) e10 (if negb (e10 =? 0) then e10digits + 1 else e10digits)
    end
  else Ok (inr (i, e10)).

(** what the scan yields *)
Record scanned := Scanned { signedM : bool; m10 : Z; m10digits : Z; e10 : Z }.

(** __nanostrutil.h:1397-1425, 1620-1648: after the mantissa, at index i *)
Definition scan_exp (buffer : list Z) (len i dotIndex : Z) : res (status + Z) :=
  isE <- (if i <? len then c <- rd buffer i ;; Ok ((c =? 101) || (c =? 69)) else Ok false) ;;
  r <- (if isE then
          let eIndex := i in
          let i := i + 1 in
          '(signedE, i) <- (if i <? len then
                              c <- rd buffer i ;;
                              if (c =? 45) || (c =? 43) then Ok (c =? 45, i + 1) else Ok (false, i)
                            else Ok (false, i)) ;;
          x <- exp_loop (Z.to_nat len) buffer len i 0 0 ;;
          match x with inl s => Ok (inl s) | inr (i, e) => Ok (inr (i, e, signedE, eIndex)) end
        else Ok (inr (i, 0, false, len))) ;;
  match r with
  | inl s => Ok (inl s)
  | inr (i, e, signedE, eIndex) =>
      if i <? len then Ok (inl MALFORMED_INPUT)
      else
        let e := if signedE then - e else e in
        d <- (if dotIndex <? eIndex then i32 (eIndex - dotIndex - 1) else Ok 0) ;;
        e <- i32 (e - d) ;; Ok (inr e)
  end.

(** __nanostrutil.h:1360-1425, 1583-1648: the scan *)
Definition scan (W maxdigits : Z) (buffer : list Z) (len : Z) : res (status + scanned) :=
  if len =? 0 then Ok (inl INPUT_TOO_SHORT)
  else
    c <- rd buffer 0 ;;
    let signedM := c =? 45 in
    let i := if signedM then 1 else 0 in
    x <- mant_loop (Z.to_nat len) W maxdigits buffer len i len 0 0 ;;
    match x with
    | inl s => Ok (inl s)
    | inr (i, dotIndex, m, dg) =>
        y <- scan_exp buffer len i dotIndex ;;
        match y with
        | inl s => Ok (inl s)
        | inr e => Ok (inr (Scanned signedM m dg e))
        end
    end.

(** __nanostrutil.h:1504-1548, 1726-1770: from m2 * 2^e2 to the bit pattern.  [W] width of m2,
    [mb] mantissa bits, [eb] exponent bits *)
Definition assemble (W mb eb : Z) (floor_log2 : Z -> res Z) (signedM : bool) (e2 m2 : Z) (trailingZeros : bool) : res Z :=
  let bias := 2 ^ (eb - 1) - 1 in
  l <- floor_log2 m2 ;;
  let ieee_e2 := u32 (Z.max 0 (s32 (e2 + bias + l))) in
  if 2 ^ eb - 2 <? ieee_e2 then
    Ok (Z.lor ((b2z signedM * 2 ^ (eb + mb)) mod 2 ^ W) (((2 ^ eb - 1) * 2 ^ mb) mod 2 ^ W))
  else
    let shift := s32 ((if ieee_e2 =? 0 then 1 else ieee_e2) - e2 - bias - mb) in
    chk (0 <=? shift)
   (chk ((0 <=? shift - 1) && (shift - 1 <? W))
     (let trailingZeros := trailingZeros && (Z.land m2 ((2 ^ (shift - 1) - 1) mod 2 ^ W) =? 0) in
      let lastRemovedBit := Z.land (m2 / 2 ^ (shift - 1)) 1 in
      chk (shift <? W)
       (let roundUp := negb (lastRemovedBit =? 0) && (negb trailingZeros || negb (Z.land (m2 / 2 ^ shift) 1 =? 0)) in
        let ieee_m2 := (m2 / 2 ^ shift + b2z roundUp) mod 2 ^ W in
        chk (ieee_m2 <=? 2 ^ (mb + 1))
         (let ieee_m2 := Z.land ieee_m2 (2 ^ mb - 1) in
          let ieee_e2 := if (ieee_m2 =? 0) && roundUp then u32 (ieee_e2 + 1) else ieee_e2 in
          Ok (Z.lor ((Z.lor ((b2z signedM * 2 ^ eb) mod 2 ^ W) ieee_e2 * 2 ^ mb) mod 2 ^ W) ieee_m2))))).

(** __nanostrutil.h:1456-1498: the multiplication step of s2f_n: e2, m2, trailingZeros *)
Definition s2f_mul (m10 e10 : Z) : res (Z * Z * bool) :=
  if 0 <=? e10 then
    fl <- floor_log2_32 m10 ;; l <- log2pow5 e10 ;; c <- ceil_log2pow5 e10 ;;
    let e2 := s32 (fl + e10 + l - (23 + 1)) in
    let j := e2 - e10 - c + FLOAT_POW5_BITCOUNT in
    chk (0 <=? j)
     (m2 <- mulPow5divPow2 m10 e10 j ;;
      tz <- (if e2 <? e10 then Ok true
             else if e2 - e10 <? 32 then multipleOfPowerOf2_32 m10 (e2 - e10) else Ok false) ;;
      Ok (e2, m2, tz))
  else
    fl <- floor_log2_32 m10 ;; c <- ceil_log2pow5 (- e10) ;;
    let e2 := s32 (fl + e10 - c - (23 + 1)) in
    let j := e2 - e10 + c - 1 + FLOAT_POW5_INV_BITCOUNT in
    m2 <- mulPow5InvDivPow2 m10 (- e10) j ;;
    tz <- (if e2 <? e10 then Ok true
           else if e2 - e10 <? 32 then multipleOfPowerOf2_32 m10 (e2 - e10) else Ok false) ;;
    tz <- (if tz then multipleOfPowerOf5_32 m10 (- e10) else Ok false) ;;
    Ok (e2, m2, tz).

(** __nanostrutil.h:1679-1721: the multiplication step of s2d_n *)
Definition s2d_mul (m10 e10 : Z) : res (Z * Z * bool) :=
  if 0 <=? e10 then
    fl <- floor_log2_64 m10 ;; l <- log2pow5 e10 ;; c <- ceil_log2pow5 e10 ;;
    let e2 := s32 (fl + e10 + l - (52 + 1)) in
    let j := e2 - e10 - c + DOUBLE_POW5_BITCOUNT in
    chk (0 <=? j)
     (chk (e10 <? 326)
       (row <- tab DOUBLE_POW5_SPLIT e10 ;;
        m2 <- mulShift64 m10 row j ;;
        tz <- (if e2 <? e10 then Ok true
               else if e2 - e10 <? 64 then multipleOfPowerOf2 m10 (e2 - e10) else Ok false) ;;
        Ok (e2, m2, tz)))
  else
    fl <- floor_log2_64 m10 ;; c <- ceil_log2pow5 (- e10) ;;
    let e2 := s32 (fl + e10 - c - (52 + 1)) in
    let j := e2 - e10 + c - 1 + DOUBLE_POW5_INV_BITCOUNT in
    chk (- e10 <? 342)
     (row <- tab DOUBLE_POW5_INV_SPLIT (- e10) ;;
      m2 <- mulShift64 m10 row j ;;
      tz <- multipleOfPowerOf5 m10 (- e10) ;;
      Ok (e2, m2, tz)).

(** __nanostrutil.h:1426-1548, 1649-1770: the conversion.  [lo] and [hi] are the two magnitude limits *)
Definition convert (W mb eb lo hi : Z) (floor_log2 : Z -> res Z) (mul : Z -> Z -> res (Z * Z * bool)) (s : scanned) : res Z :=
  let sbit := (b2z (signedM s) * 2 ^ (eb + mb)) mod 2 ^ W in
  if m10 s =? 0 then Ok sbit
  else
    x <- i32 (m10digits s + e10 s) ;;
    if (x <=? lo) || (m10 s =? 0) then Ok sbit
    else if hi <=? x then Ok (Z.lor sbit (((2 ^ eb - 1) * 2 ^ mb) mod 2 ^ W))
    else
      '(e2, m2, tz) <- mul (m10 s) (e10 s) ;;
      assemble W mb eb floor_log2 (signedM s) e2 m2 tz.

(** __nanostrutil.h:1360-1549 s2f_n: the status and, when *result is written, its bit pattern *)
Definition s2f_n (buffer : list Z) (len : Z) : res (status * option Z) :=
  x <- scan 32 9 buffer len ;;
  match x with
  | inl s => Ok (s, None)
  | inr s => b <- convert 32 23 8 (-46) 40 floor_log2_32 s2f_mul s ;; Ok (SUCCESS, Some b)
  end.
(** __nanostrutil.h:1583-1771 s2d_n *)
Definition s2d_n (buffer : list Z) (len : Z) : res (status * option Z) :=
  x <- scan 64 17 buffer len ;;
  match x with
  | inl s => Ok (s, None)
  | inr s => b <- convert 64 52 11 (-324) 310 floor_log2_64 s2d_mul s ;; Ok (SUCCESS, Some b)
  end.

(** the implicit conversion of a double to float (round to nearest even; a NaN stays a NaN, quieted
    with its top payload bits, as IEEE-754 hardware does) *)
Definition double_to_float (x : Z) : Z :=
  let s := signbit float64 x * 2 ^ 31 in
  if isnan float64 x then s + 255 * 2 ^ 23 + Z.lor (2 ^ 22) (mantissa float64 x / 2 ^ 29)
  else if isinf float64 x then s + inf_pattern float32
  else
    let '(m, e) := if exponent float64 x =? 0 then (mantissa float64 x, -1074)
                   else (mantissa float64 x + 2 ^ 52, exponent float64 x - 1075) in
    s + round_ratio float32 (scale_num m (- e)) (scale_den 1 (- e)).

(** nanostring.h:404-417 stod: [str] the characters, followed by the terminator c_str() gives *)
Definition stod (str : list Z) : res Z :=
  '(ret, value) <- s2d_n (str ++ [0]) (s32 (Z.of_nat (length str))) ;;
  match ret, value with
  | SUCCESS, Some v => Ok (double_to_float v)
  | SUCCESS, None => UB Indet
  | _, _ => Ok (double_to_float (fsignaling_NaN TDouble))
  end.
