(** Model of include/fast_float/simple_decimal_conversion.h ("Simple Decimal Conversion"): the shifts of a decimal
    by powers of two and compute_float<binary>(decimal&).

    The header uses names which no header of the library declares: the struct [decimal], the constants [max_digits]
    and [decimal_point_range], and parse_decimal.  The struct is modelled by the fields the header uses, the two
    constants are parameters, and parse_long_mantissa (353-357), which calls parse_decimal, is left out.

    A digit is a uint8_t; an element of the array digits[max_digits] that was never written is [None] and reading
    it is undefined, as is an index outside the array.  uint32_t indices and uint64_t accumulators wrap, int32_t
    arithmetic that overflows is undefined. *)
From Coq Require Import ZArith List Bool.
From Verif Require Import Mem FfModel SdcTable.
Import ListNotations.
Open Scope Z_scope.

(** simple_decimal_conversion.h: the fields of [decimal] used in 25-30, 113-117, 127-144, 154-192, 202-238, 246-300 *)
Record decimal := Decimal { digits : Z -> option Z; num_digits : Z; point : Z; dnegative : bool; truncated : bool }.

(** simple_decimal_conversion.h:274 *)
Definition max_shift : Z := 60.
(** simple_decimal_conversion.h:275-279, indexed below num_powers = 19 *)
Definition decimal_powers : list Z := [0; 3; 6; 9; 13; 16; 19; 23; 26; 29; 33; 36; 39; 43; 46; 49; 53; 56; 59].
(** simple_decimal_conversion.h:282-283, 302-303: (n < num_powers) ? decimal_powers[n] : max_shift *)
Definition shift_for (n : Z) : Z := if n <? 19 then nth (Z.to_nat n) decimal_powers 0 else max_shift.

(** simple_decimal_conversion.h:45-49, 109-111: the entry of the table for a shift: num_new_digits and the digits pow5[0..n) *)
Definition pow5_entry (shift : Z) : Z * list Z :=
  let x_a := nth (Z.to_nat shift) left_shift_table 0 in
  let x_b := nth (Z.to_nat shift + 1) left_shift_table 0 in
  let pow5_a := Z.land 0x7FF x_a in
  let pow5_b := Z.land 0x7FF x_b in
  (x_a / 2 ^ 11, firstn (Z.to_nat (pow5_b - pow5_a)) (skipn (Z.to_nat pow5_a) powers_of_5)).

Section S.
(** the constants max_digits and decimal_point_range, which no header of the library defines *)
Variables size range : Z.

(** reading and writing h.digits[i] *)
Definition get (h : decimal) (i : Z) : res Z :=
  if (0 <=? i) && (i <? size) then match digits h i with Some x => Ok x | None => UB Indet end else UB OutOfBounds.
(** writing h.digits[i] = x *)
Definition put (h : decimal) (i x : Z) : res decimal :=
  if (0 <=? i) && (i <? size)
  then Ok (Decimal (fun j => if j =? i then Some x else digits h j) (num_digits h) (point h) (dnegative h) (truncated h))
  else UB OutOfBounds.
(** assignments to fields *)
Definition set_num (h : decimal) (n : Z) : decimal := Decimal (digits h) n (point h) (dnegative h) (truncated h).
(** h.decimal_point = p *)
Definition set_point (h : decimal) (p : Z) : decimal := Decimal (digits h) (num_digits h) p (dnegative h) (truncated h).
(** h.truncated = true *)
Definition set_truncated (h : decimal) : decimal := Decimal (digits h) (num_digits h) (point h) (dnegative h) true.

(** simple_decimal_conversion.h:26-28: the loop; it runs at most num_digits times *)
Fixpoint trim_loop (fuel : nat) (h : decimal) : res decimal :=
  match fuel with
  | O => Ok h
  | S fuel' =>
      if 0 <? num_digits h then
        x <- get h (num_digits h - 1) ;;
        if x =? 0 then trim_loop fuel' (set_num h (num_digits h - 1)) else Ok h
      else Ok h
  end.
(** simple_decimal_conversion.h:25-29 trim *)
Definition trim (h : decimal) : res decimal := trim_loop (Z.to_nat (num_digits h)) h.

(** simple_decimal_conversion.h:112-123: the comparison with the digits of 5^shift *)
Fixpoint new_digits_loop (h : decimal) (i num_new_digits : Z) (pow5 : list Z) : res Z :=
  match pow5 with
  | [] => Ok num_new_digits
  | p :: pow5' =>
      if num_digits h <=? i then Ok (u32 (num_new_digits - 1)) else
      x <- get h i ;;
      if x =? p then new_digits_loop h (i + 1) num_new_digits pow5'
      else if x <? p then Ok (u32 (num_new_digits - 1)) else Ok num_new_digits
  end.
(** simple_decimal_conversion.h:33-124 number_of_digits_decimal_left_shift *)
Definition number_of_digits (h : decimal) (shift : Z) : res Z :=
  let (num_new_digits, pow5) := pow5_entry (Z.land shift 63) in new_digits_loop h 0 num_new_digits pow5.

(** simple_decimal_conversion.h:135-137: the integer part *)
Fixpoint integer_part (h : decimal) (fuel : nat) (i n : Z) : res Z :=
  match fuel with
  | O => Ok n
  | S fuel' =>
      x <- (if i <? num_digits h then get h i else Ok 0) ;;
      integer_part h fuel' (i + 1) (u64 (10 * n + x))
  end.
(** simple_decimal_conversion.h:126-150 round *)
Definition round (h : decimal) : res Z :=
  if (num_digits h =? 0) || (point h <? 0) then Ok 0
  else if 18 <? point h then Ok (2 ^ 64 - 1)
  else
    let dp := point h in
    n <- integer_part h (Z.to_nat dp) 0 0 ;;
    round_up <- (if dp <? num_digits h then
                   x <- get h dp ;;
                   if (x =? 5) && (dp + 1 =? num_digits h)
                   then if truncated h then Ok true
                        else if 0 <? dp then y <- get h (dp - 1) ;; Ok (Z.land 1 y =? 1) else Ok false
                   else Ok (5 <=? x)
                 else Ok false) ;;
    Ok (if round_up : bool then u64 (n + 1) else n).

(** simple_decimal_conversion.h:166-170, 178-182: store a digit of the product, or note that it is lost *)
Definition store (h : decimal) (write_index remainder : Z) : res decimal :=
  if write_index <? size then put h write_index (remainder mod 256)
  else if 0 <? remainder then Ok (set_truncated h) else Ok h.
(** simple_decimal_conversion.h:162-174: from the last digit, read_index = fuel - 1, to the first; the carry, the index and h *)
Fixpoint left_read (shift : Z) (fuel : nat) (write_index n : Z) (h : decimal) : res (Z * Z * decimal) :=
  match fuel with
  | O => Ok (write_index, n, h)
  | S read_index =>
      x <- get h (Z.of_nat read_index) ;;
      y <- shl x shift ;;
      let n := u64 (n + y) in
      let quotient := n / 10 in
      h <- store h write_index (n - 10 * quotient) ;;
      left_read shift read_index (u32 (write_index - 1)) quotient h
  end.
(** simple_decimal_conversion.h:175-185: the carry; n < 2^64 has at most 20 digits *)
Fixpoint left_carry (fuel : nat) (write_index n : Z) (h : decimal) : res decimal :=
  if n <=? 0 then Ok h else
  match fuel with
  | O => UB NoReturn
  | S fuel' =>
      let quotient := n / 10 in
      h <- store h write_index (n - 10 * quotient) ;;
      left_carry fuel' (u32 (write_index - 1)) quotient h
  end.
(** simple_decimal_conversion.h:153-192 decimal_left_shift *)
Definition left_shift (h : decimal) (shift : Z) : res decimal :=
  if num_digits h =? 0 then Ok h else
  num_new_digits <- number_of_digits h shift ;;
  '(write_index, n, h1) <- left_read shift (Z.to_nat (num_digits h)) (u32 (num_digits h - 1 + num_new_digits)) 0 h ;;
  h2 <- left_carry 20 write_index n h1 ;;
  let nd := u32 (num_digits h2 + num_new_digits) in
  let h3 := set_num h2 (if size <? nd then size else nd) in
  p <- i32 (point h3 + num_new_digits) ;;
  trim (set_point h3 p).

(** simple_decimal_conversion.h:207-210: append zeros *)
Fixpoint right_zeros (shift : Z) (fuel : nat) (read_index n : Z) : res (Z * Z) :=
  b <- shr n shift ;;
  if b =? 0 then
    match fuel with
    | O => UB NoReturn
    | S fuel' => right_zeros shift fuel' (read_index + 1) (u64 (10 * n))
    end
  else Ok (read_index, n).
(** simple_decimal_conversion.h:201-213: read digits until a digit of the quotient is not zero; None is the return in 205.  n < 2^64: twenty zeros
    at most are appended *)
Fixpoint right_start (shift : Z) (h : decimal) (fuel : nat) (read_index n : Z) : res (option (Z * Z)) :=
  b <- shr n shift ;;
  if b =? 0 then
    if read_index <? num_digits h then
      x <- get h read_index ;;
      match fuel with
      | O => UB NoReturn
      | S fuel' => right_start shift h fuel' (read_index + 1) (u64 (10 * n + x))
      end
    else if n =? 0 then Ok None
    else '(r, n) <- right_zeros shift 20 read_index n ;; Ok (Some (r, n))
  else Ok (Some (read_index, n)).
(** simple_decimal_conversion.h:223-227: the digits of the quotient while there are digits to read *)
Fixpoint right_read (shift mask : Z) (fuel : nat) (read_index write_index n : Z) (h : decimal) : res (Z * Z * decimal) :=
  match fuel with
  | O => Ok (write_index, n, h)
  | S fuel' =>
      new_digit <- shr n shift ;;
      x <- get h read_index ;;
      h <- put h write_index (new_digit mod 256) ;;
      right_read shift mask fuel' (read_index + 1) (write_index + 1) (u64 (10 * Z.land n mask + x)) h
  end.
(** simple_decimal_conversion.h:228-236: the rest of the division; each round removes a factor two of the remainder, so there are
    at most 64 *)
Fixpoint right_rest (shift mask : Z) (fuel : nat) (write_index n : Z) (h : decimal) : res (Z * decimal) :=
  if n <=? 0 then Ok (write_index, h) else
  match fuel with
  | O => UB NoReturn
  | S fuel' =>
      new_digit <- shr n shift ;;
      let new_digit := new_digit mod 256 in
      let n := u64 (10 * Z.land n mask) in
      if write_index <? size
      then h <- put h write_index new_digit ;; right_rest shift mask fuel' (write_index + 1) n h
      else right_rest shift mask fuel' write_index n (if 0 <? new_digit then set_truncated h else h)
  end.
(** simple_decimal_conversion.h:195-239 decimal_right_shift *)
Definition right_shift (h : decimal) (shift : Z) : res decimal :=
  start <- right_start shift h (Z.to_nat (num_digits h)) 0 0 ;;
  match start with
  | None => Ok h
  | Some (read_index, n) =>
      p <- i32 (point h - (read_index - 1)) ;;
      if p <? - range then Ok (Decimal (digits h) 0 0 false false) else
      bit <- shl 1 shift ;;
      let mask := bit - 1 in
      '(write_index, n, h1) <- right_read shift mask (Z.to_nat (num_digits h - read_index)) read_index 0 n (set_point h p) ;;
      '(write_index, h2) <- right_rest shift mask 64 write_index n h1 ;;
      trim (set_num h2 write_index)
  end.

(** simple_decimal_conversion.h:281-292: shift right until the value is below one; None is the return in 289.
    The fuel is more than the number of bits of 10^310. *)
Fixpoint scale_down (fuel : nat) (d : decimal) (exp2 : Z) : res (option (decimal * Z)) :=
  if point d <=? 0 then Ok (Some (d, exp2)) else
  match fuel with
  | O => UB NoReturn
  | S fuel' =>
      let shift := shift_for (point d) in
      d <- right_shift d shift ;;
      if point d <? - range then Ok None else
      e <- i32 (exp2 + shift) ;; scale_down fuel' d e
  end.
(** simple_decimal_conversion.h:294-313: shift left until the value is at least one half; None is the return in 310 *)
Fixpoint scale_up (fuel : nat) (d : decimal) (exp2 : Z) : res (option (decimal * Z)) :=
  if 0 <? point d then Ok (Some (d, exp2)) else
  x <- (if point d =? 0 then get d 0 else Ok 0) ;;
  if (point d =? 0) && (5 <=? x) then Ok (Some (d, exp2)) else
  match fuel with
  | O => UB NoReturn
  | S fuel' =>
      let shift := if point d =? 0 then (if x <? 2 then 2 else 1) else shift_for (- point d) in
      d <- left_shift d shift ;;
      if range <? point d then Ok None else
      e <- i32 (exp2 - shift) ;; scale_up fuel' d e
  end.
(** simple_decimal_conversion.h:317-324: shift subnormal numbers back *)
Fixpoint denormalise (b : bformat) (fuel : nat) (d : decimal) (exp2 : Z) : res (decimal * Z) :=
  if exp2 <? minimum_exponent b + 1 then
    match fuel with
    | O => UB NoReturn
    | S fuel' =>
        let n := minimum_exponent b + 1 - exp2 in
        let n := if max_shift <? n then max_shift else n in
        d <- right_shift d n ;;
        e <- i32 (exp2 + n) ;; denormalise b fuel' d e
    end
  else Ok (d, exp2).
(** the number of rounds of the three loops is bounded by the bits of the exponent range *)
Definition rounds : nat := 2000.

(** simple_decimal_conversion.h:243-351 compute_float *)
Definition sdc_compute (b : bformat) (d : decimal) : res adjusted :=
  let infinity := AM 0 (infinite_power b) in
  if num_digits d =? 0 then Ok (AM 0 0)
  else if point d <? -324 then Ok (AM 0 0)
  else if 310 <=? point d then Ok infinity
  else
    down <- scale_down rounds d 0 ;;
    match down with
    | None => Ok (AM 0 0)
    | Some (d, exp2) =>
        up <- scale_up rounds d exp2 ;;
        match up with
        | None => Ok infinity
        | Some (d, exp2) =>
            '(d, exp2) <- denormalise b rounds d (exp2 - 1) ;;
            if infinite_power b <=? exp2 - minimum_exponent b then Ok infinity else
            let bits := explicit_bits b + 1 in
            d <- left_shift d bits ;;
            mantissa <- round d ;;
            final <- (if 2 ^ bits <=? mantissa
                      then d <- right_shift d 1 ;; m <- round d ;;
                           Ok (if infinite_power b <=? exp2 + 1 - minimum_exponent b then None else Some (m, exp2 + 1))
                      else Ok (Some (mantissa, exp2))) ;;
            match final with
            | None => Ok infinity
            | Some (mantissa, exp2) =>
                let power2 := exp2 - minimum_exponent b in
                let power2 := if mantissa <? 2 ^ explicit_bits b then power2 - 1 else power2 in
                Ok (AM (Z.land mantissa (2 ^ explicit_bits b - 1)) power2)
            end
        end
    end.
End S.
