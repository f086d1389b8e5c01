(** Model of the printing half of Ryu (include/__nanostrutil.h:665-823, 1110-1217, 1253-1305) and of
    to_string(float) / to_string(double) (include/nanostring.h:371-385).

    A float or double argument is its bit pattern.  The caller's char array is a list of cells
    ([IntStrModel.buf]); every store and every table read is range-checked.  memcpy of k bytes is
    k stores in increasing order. *)
From Coq Require Import ZArith List Bool.
From Verif Require Import Mem IntStrModel RyuModel.
Import ListNotations.
Open Scope Z_scope.

(** __nanostrutil.h:664-675 *)
Definition DIGIT_TABLE : list Z :=
  [
   48; 48; 48; 49; 48; 50; 48; 51; 48; 52; 48; 53; 48; 54; 48; 55; 48; 56; 48; 57;
   49; 48; 49; 49; 49; 50; 49; 51; 49; 52; 49; 53; 49; 54; 49; 55; 49; 56; 49; 57;
   50; 48; 50; 49; 50; 50; 50; 51; 50; 52; 50; 53; 50; 54; 50; 55; 50; 56; 50; 57;
   51; 48; 51; 49; 51; 50; 51; 51; 51; 52; 51; 53; 51; 54; 51; 55; 51; 56; 51; 57;
   52; 48; 52; 49; 52; 50; 52; 51; 52; 52; 52; 53; 52; 54; 52; 55; 52; 56; 52; 57;
   53; 48; 53; 49; 53; 50; 53; 51; 53; 52; 53; 53; 53; 54; 53; 55; 53; 56; 53; 57;
   54; 48; 54; 49; 54; 50; 54; 51; 54; 52; 54; 53; 54; 54; 54; 55; 54; 56; 54; 57;
   55; 48; 55; 49; 55; 50; 55; 51; 55; 52; 55; 53; 55; 54; 55; 55; 55; 56; 55; 57;
   56; 48; 56; 49; 56; 50; 56; 51; 56; 52; 56; 53; 56; 54; 56; 55; 56; 56; 56; 57;
   57; 48; 57; 49; 57; 50; 57; 51; 57; 52; 57; 53; 57; 54; 57; 55; 57; 56; 57; 57].
(** DIGIT_TABLE[i], range-checked (__nanostrutil.h:664-675) *)
Definition digit_char (i : Z) : res Z :=
  if (0 <=? i) && (i <? 200) then Ok (nth (Z.to_nat i) DIGIT_TABLE 0) else UB OutOfBounds.

(** memcpy(result + pos, DIGIT_TABLE + i, 2) *)
Definition copy2 (b : buf) (pos i : Z) : res buf :=
  c0 <- digit_char i ;; c1 <- digit_char (i + 1) ;;
  b <- bstore b pos c0 ;; bstore b (pos + 1) c1.
(** memcpy(result + pos, l, strlen l) *)
Fixpoint copy_bytes (b : buf) (pos : Z) (l : list Z) : res buf :=
  match l with [] => Ok b | c :: t => b <- bstore b pos c ;; copy_bytes b (pos + 1) t end.

(** __nanostrutil.h:678-692: the literals are "NaN", "Infinity", "0E0" *)
Definition copy_special_str (b : buf) (sign exponent mantissa : bool) : res (buf * Z) :=
  if mantissa then b <- copy_bytes b 0 [78; 97; 78] ;; Ok (b, 3)
  else
    b <- (if sign then bstore b 0 45 else Ok b) ;;
    if exponent then b <- copy_bytes b (b2z sign) [73; 110; 102; 105; 110; 105; 116; 121] ;; Ok (b, b2z sign + 8)
    else b <- copy_bytes b (b2z sign) [48; 69; 48] ;; Ok (b, b2z sign + 3).

(** __nanostrutil.h:736-748 and 1160-1172: while (output >= 10000) *)
Fixpoint put4_loop (fuel : nat) (b : buf) (index olength output i : Z) : res (buf * Z * Z) :=
  if 10000 <=? output then
    match fuel with
    | O => UB NoReturn
    | S n =>
        let c := output mod 10000 in
        let output := output / 10000 in
        let c0 := c mod 100 * 2 in
        let c1 := c / 100 * 2 in
        b <- copy2 b (index + olength - i - 1) c0 ;;
        b <- copy2 b (index + olength - i - 3) c1 ;;
        put4_loop n b index olength output (i + 4)
    end
  else Ok (b, output, i).

(** __nanostrutil.h:736-770 and 1160-1194: the digits below 2^32 and the decimal point; gives the index after them *)
Definition put_digits (b : buf) (index olength output i : Z) : res (buf * Z) :=
  '(b, output, i) <- put4_loop 8 b index olength output i ;;
  '(b, output, i) <-
    (if 100 <=? output then
       b <- copy2 b (index + olength - i - 1) (output mod 100 * 2) ;; Ok (b, output / 100, i + 2)
     else Ok (b, output, i)) ;;
  b <- (if 10 <=? output then
          let c := output * 2 in
          x <- digit_char (c + 1) ;; b <- bstore b (index + olength - i) x ;;
          y <- digit_char c ;; bstore b index y
        else bstore b index (48 + output)) ;;
  if 1 <? olength then b <- bstore b (index + 1) 46 ;; Ok (b, index + olength + 1)
  else Ok (b, index + 1).

(** __nanostrutil.h:772-778 and 1196-1202: 'E' and the sign of the exponent *)
Definition put_exp_sign (b : buf) (index exp : Z) : res (buf * Z * Z) :=
  b <- bstore b index 69 ;;
  if exp <? 0 then b <- bstore b (index + 1) 45 ;; Ok (b, index + 2, - exp) else Ok (b, index + 1, exp).

(** __nanostrutil.h:780-785 and 1209-1214: at most two exponent digits *)
Definition put_exp2 (b : buf) (index exp : Z) : res (buf * Z) :=
  if 10 <=? exp then b <- copy2 b index (2 * exp) ;; Ok (b, index + 2)
  else b <- bstore b index (48 + exp) ;; Ok (b, index + 1).
(** __nanostrutil.h:1204-1214 *)
Definition put_exp3 (b : buf) (index exp : Z) : res (buf * Z) :=
  if 100 <=? exp then
    b <- copy2 b index (2 * (exp / 10)) ;; b <- bstore b (index + 2) (48 + exp mod 10) ;; Ok (b, index + 3)
  else put_exp2 b index exp.

(** __nanostrutil.h:711-788 to_chars(floating_decimal_32): buffer and length *)
Definition to_chars32 (mantissa exponent : Z) (sign : bool) (b : buf) : res (buf * Z) :=
  b <- (if sign then bstore b 0 45 else Ok b) ;;
  let index := b2z sign in
  olength <- decimalLength9 mantissa ;;
  '(b, index) <- put_digits b index olength mantissa 0 ;;
  '(b, index, exp) <- put_exp_sign b index (exponent + olength - 1) ;;
  put_exp2 b index exp.

(** __nanostrutil.h:1110-1217 to_chars(floating_decimal_64) *)
Definition to_chars64 (mantissa exponent : Z) (sign : bool) (b : buf) : res (buf * Z) :=
  b <- (if sign then bstore b 0 45 else Ok b) ;;
  let index := b2z sign in
  let output := mantissa in
  olength <- decimalLength17 output ;;
  '(b, output, i) <-
    (if negb (output / 2 ^ 32 =? 0) then
       let q := div1e8 output in
       let output2 := rem32 output 100000000 q in
       let c := output2 mod 10000 in
       let output2 := output2 / 10000 in
       let d := output2 mod 10000 in
       b <- copy2 b (index + olength - 0 - 1) (c mod 100 * 2) ;;
       b <- copy2 b (index + olength - 0 - 3) (c / 100 * 2) ;;
       b <- copy2 b (index + olength - 0 - 5) (d mod 100 * 2) ;;
       b <- copy2 b (index + olength - 0 - 7) (d / 100 * 2) ;;
       Ok (b, q, 8)
     else Ok (b, output, 0)) ;;
  '(b, index) <- put_digits b index olength (u32 output) i ;;
  '(b, index, exp) <- put_exp_sign b index (exponent + olength - 1) ;;
  put_exp3 b index exp.

(** __nanostrutil.h:790-815 f2s_buffered_n; [bits] is float_to_bits(f) *)
Definition f2s_buffered_n (bits : Z) (b : buf) : res (buf * Z) :=
  let ieeeSign := negb (Z.land (bits / 2 ^ (23 + 8)) 1 =? 0) in
  let ieeeMantissa := Z.land bits (2 ^ 23 - 1) in
  let ieeeExponent := Z.land (bits / 2 ^ 23) (2 ^ 8 - 1) in
  if (ieeeExponent =? 2 ^ 8 - 1) || ((ieeeExponent =? 0) && (ieeeMantissa =? 0)) then
    copy_special_str b ieeeSign (negb (ieeeExponent =? 0)) (negb (ieeeMantissa =? 0))
  else
    '(m, e) <- f2d ieeeMantissa ieeeExponent ;;
    to_chars32 m e ieeeSign b.
(** __nanostrutil.h:819-824 f2s_buffered *)
Definition f2s_buffered (bits : Z) (b : buf) : res buf :=
  '(b, index) <- f2s_buffered_n bits b ;; bstore b index 0.

(** __nanostrutil.h:1253-1296 d2s_buffered_n *)
Definition d2s_buffered_n (bits : Z) (b : buf) : res (buf * Z) :=
  let ieeeSign := negb (Z.land (bits / 2 ^ (52 + 11)) 1 =? 0) in
  let ieeeMantissa := Z.land bits (2 ^ 52 - 1) in
  let ieeeExponent := u32 (Z.land (bits / 2 ^ 52) (2 ^ 11 - 1)) in
  if (ieeeExponent =? 2 ^ 11 - 1) || ((ieeeExponent =? 0) && (ieeeMantissa =? 0)) then
    copy_special_str b ieeeSign (negb (ieeeExponent =? 0)) (negb (ieeeMantissa =? 0))
  else
    '(m, e) <- d2s_decimal ieeeMantissa ieeeExponent ;;
    to_chars64 m e ieeeSign b.
(** __nanostrutil.h:1300-1305 d2s_buffered *)
Definition d2s_buffered (bits : Z) (b : buf) : res buf :=
  '(b, index) <- d2s_buffered_n bits b ;; bstore b index 0.

(** nanostring.h:371-377 to_string(float): the text the string is constructed from *)
Definition to_string_float (bits : Z) : res (list Z) :=
  b <- f2s_buffered bits (repeat None 16) ;; read_cstr b.
(** nanostring.h:379-385 to_string(double) *)
Definition to_string_double (bits : Z) : res (list Z) :=
  b <- d2s_buffered bits (repeat None 25) ;; read_cstr b.
