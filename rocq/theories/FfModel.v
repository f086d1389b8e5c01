(** Model of fast_float as shipped in include/fast_float (float_common.h, ascii_number.h,
    decimal_to_binary.h, bigint.h, digit_comparison.h, parse_number.h): from_chars for double and
    float.

    A char is a byte 0..255.  A pointer into [first, last) is given by the bytes from it up to
    last, so p == last is the empty list, ++p drops a byte, last - p is the length and reading
    through p == last is undefined behaviour; a span is the list of its bytes.  float and double
    are bit patterns.  The preprocessor's choices are the fields of [target].

    Simplifications: int64 counters (digit_count, exponent, exp_number) and size_t counters are
    unbounded integers (they count characters of the text); a [stackvec] is the list of its first
    [length] limbs; asserts that only repeat a checked bound are left out.  parse_number.h assigns
    std::errc values to the nanostl::errc member: only the distinction success/invalid_argument is
    kept. *)
From Coq Require Import ZArith List Bool.
From Flocq Require Import IEEE754.Binary IEEE754.Bits.
From Verif Require Import Mem FpModel LitModel FfTable.
Import ListNotations.
Open Scope Z_scope.
Local Notation len l := (Z.of_nat (length l)).

(** uint64_t and uint32_t conversions *)
Definition u64 (x : Z) : Z := x mod 2 ^ 64.
(** uint32_t conversion *)
Definition u32 (x : Z) : Z := x mod 2 ^ 32.
(** bool to integer *)
Definition b2z (b : bool) : Z := if b then 1 else 0.
(** 64-bit shifts: a count outside 0..63 is undefined *)
Definition shl (x s : Z) : res Z := if (0 <=? s) && (s <? 64) then Ok (u64 (x * 2 ^ s)) else UB BadArith.
(** 64-bit right shift *)
Definition shr (x s : Z) : res Z := if (0 <=? s) && (s <? 64) then Ok (x / 2 ^ s) else UB BadArith.
(** ~x on uint64_t *)
Definition not64 (x : Z) : Z := 2 ^ 64 - 1 - x.
(** the result of an int32_t computation: overflow is undefined *)
Definition i32 (x : Z) : res Z := if (- 2 ^ 31 <=? x) && (x <? 2 ^ 31) then Ok x else UB BadArith.
(** assert / FASTFLOAT_ASSERT: a false condition aborts *)
Definition ff_assert {A} (b : bool) (k : res A) : res A := if b then k else UB NoReturn.

(** float_common.h:10-77 and bigint.h:19-27: endianness, 64- or 32-bit machine, Visual Studio or
    not (which selects the portable leading_zeroes, scalar_add and scalar_mul). *)
Record target := Target { big_endian : bool; is_64bit : bool; visual_studio : bool }.

(** float_common.h:224-375 binary_format<T> *)
Record bformat := BFormat {
  bfmt : fmt;
  explicit_bits : Z; minimum_exponent : Z; infinite_power : Z; sign_index : Z;
  min_exponent_fast_path : Z; max_exponent_fast_path : Z;
  max_exponent_round_to_even : Z; min_exponent_round_to_even : Z;
  largest_power_of_ten : Z; smallest_power_of_ten : Z; max_digits : Z;
  exponent_mask : Z; mantissa_mask : Z; hidden_bit_mask : Z;
  powers_of_ten : list Z;
  (* the language's T * T, T / T and T(uint64_t), rounding to nearest even *)
  t_mul : Z -> Z -> Z; t_div : Z -> Z -> Z; t_of : Z -> Z }.
(** float_common.h:218-220 powers_of_ten_double: literals 1e0 .. 1e22 (patterns) *)
Definition powers_of_ten_double : list Z := map (fun k => literal float64 1 (Z.of_nat k)) (seq 0 23).
(** float_common.h:221-222 powers_of_ten_float: literals 1e0 .. 1e10, double literals converted to float (exact) *)
Definition powers_of_ten_float : list Z := map (fun k => literal float32 1 (Z.of_nat k)) (seq 0 11).
(** float_common.h:245-375, double; FLT_EVAL_METHOD 0 or 1 *)
Definition bdouble : bformat :=
  BFormat float64 52 (-1023) 0x7FF 63 (-22) 22 23 (-4) 308 (-342) 769 0x7FF0000000000000 0x000FFFFFFFFFFFFF 0x0010000000000000 powers_of_ten_double
    (fun x y => bits_of_b64 (b64_mult BinarySingleNaN.mode_NE (b64_of_bits x) (b64_of_bits y)))
    (fun x y => bits_of_b64 (b64_div BinarySingleNaN.mode_NE (b64_of_bits x) (b64_of_bits y)))
    (fun m => literal float64 m 0).
(** float_common.h:248-371, float; FLT_EVAL_METHOD 0 or 1 *)
Definition bfloat : bformat :=
  BFormat float32 23 (-127) 0xFF 31 (-10) 10 10 (-17) 38 (-65) 114 0x7F800000 0x007FFFFF 0x00800000 powers_of_ten_float
    (fun x y => bits_of_b32 (b32_mult BinarySingleNaN.mode_NE (b32_of_bits x) (b32_of_bits y)))
    (fun x y => bits_of_b32 (b32_div BinarySingleNaN.mode_NE (b32_of_bits x) (b32_of_bits y)))
    (fun m => literal float32 m 0).
(** float_common.h:307-312 max_mantissa_fast_path *)
Definition max_mantissa_fast_path (b : bformat) : Z := 2 * 2 ^ explicit_bits b.

(** ** float_common.h *)
(** float_common.h:95-102 fastfloat_strncasecmp; both inputs have [length] bytes *)
Fixpoint running_diff (a b : list Z) : Z :=
  match a, b with x :: a', y :: b' => Z.lor (Z.lxor x y) (running_diff a' b') | _, _ => 0 end.
(** float_common.h:101 *)
Definition strncasecmp (a b : list Z) : bool := (running_diff a b =? 0) || (running_diff a b =? 32).

(** float_common.h:145-150: the portable leading_zeroes, one step *)
Definition clz_step (mask s : Z) (x : Z * Z) : Z * Z :=
  let (input_num, last_bit) := x in
  if Z.land input_num mask =? 0 then x else (input_num / 2 ^ s, Z.lor last_bit s).
(** float_common.h:134-156 leading_zeroes: assert, then the portable cascade or __builtin_clzll *)
Definition leading_zeroes (t : target) (x : Z) : res Z :=
  ff_assert (0 <? x) (Ok (if visual_studio t
    then 63 - snd (clz_step 0x2 1 (clz_step 0xc 2 (clz_step 0xf0 4 (clz_step 0xff00 8 (clz_step 0xffff0000 16 (clz_step 0xffffffff00000000 32 (x, 0)))))))
    else 63 - Z.log2 x)).

(** float_common.h:161-163 emulu *)
Definition emulu (x y : Z) : Z := u64 (x * y).
(** float_common.h:167-177 _umul128 for 32-bit machines; (low, high) *)
Definition umul128 (ab cd : Z) : Z * Z :=
  let ad := emulu (u32 (ab / 2 ^ 32)) (u32 cd) in
  let bd := emulu (u32 ab) (u32 cd) in
  let adbc := u64 (ad + emulu (u32 ab) (u32 (cd / 2 ^ 32))) in
  let adbc_carry := b2z (adbc <? ad) in
  let lo := u64 (bd + u64 (adbc * 2 ^ 32)) in
  (lo, u64 (emulu (u32 (ab / 2 ^ 32)) (u32 (cd / 2 ^ 32)) + adbc / 2 ^ 32 + u64 (adbc_carry * 2 ^ 32) + b2z (lo <? bd))).
(** float_common.h:184-201 full_multiplication; (low, high) *)
Definition full_multiplication (t : target) (a b : Z) : Z * Z :=
  if is_64bit t then (u64 (a * b), a * b / 2 ^ 64) else umul128 a b.

(** float_common.h:203-213 adjusted_mantissa *)
Record adjusted := AM { am_mantissa : Z; am_power2 : Z }.
(** float_common.h:207-209 operator== *)
Definition am_eqb (a b : adjusted) : bool := (am_mantissa a =? am_mantissa b) && (am_power2 a =? am_power2 b).
(** float_common.h:216 invalid_am_bias *)
Definition invalid_am_bias : Z := -0x8000.

(** float_common.h:377-393 to_float: the low 64 or 32 bits of the word *)
Definition to_float (b : bformat) (negative : bool) (am : adjusted) : Z :=
  let word := Z.lor (am_mantissa am) (u64 (am_power2 am * 2 ^ explicit_bits b)) in
  let word := if negative then Z.lor word (2 ^ sign_index b) else word in
  word mod 2 ^ (sign_index b + 1).

(** ** ascii_number.h *)
(** ascii_number.h:15 is_integer *)
Definition is_integer (c : Z) : bool := (48 <=? c) && (c <=? 57).
(** ascii_number.h:17-26 byteswap *)
Definition byteswap (v : Z) : Z :=
  Z.lor (Z.lor (Z.lor (Z.lor (Z.lor (Z.lor (Z.lor
    (Z.land v 0xFF00000000000000 / 2 ^ 56)
    (Z.land v 0x00FF000000000000 / 2 ^ 40))
    (Z.land v 0x0000FF0000000000 / 2 ^ 24))
    (Z.land v 0x000000FF00000000 / 2 ^ 8))
    (u64 (Z.land v 0x00000000FF000000 * 2 ^ 8)))
    (u64 (Z.land v 0x0000000000FF0000 * 2 ^ 24)))
    (u64 (Z.land v 0x000000000000FF00 * 2 ^ 40)))
    (u64 (Z.land v 0x00000000000000FF * 2 ^ 56)).
(** the value of bytes, the first least significant (a little-endian load) *)
Fixpoint le_value (l : list Z) : Z := match l with [] => 0 | c :: r => c + 256 * le_value r end.
(** memcpy of eight bytes into a uint64_t, in the machine's byte order *)
Definition load_u64 (t : target) (l : list Z) : Z :=
  if big_endian t then le_value (rev (firstn 8 l)) else le_value (firstn 8 l).
(** ascii_number.h:28-36 read_u64; the callers check that eight bytes are left *)
Definition read_u64 (t : target) (l : list Z) : Z := if big_endian t then byteswap (load_u64 t l) else load_u64 t l.
(** ascii_number.h:47-55 parse_eight_digits_unrolled *)
Definition parse_eight_digits_unrolled (v : Z) : Z :=
  let mask := 0x000000FF000000FF in
  let mul1 := 0x000F424000000064 in
  let mul2 := 0x0000271000000001 in
  let v := u64 (v - 0x3030303030303030) in
  let v := u64 (u64 (v * 10) + v / 2 ^ 8) in
  let v := u64 (u64 (Z.land v mask * mul1) + u64 (Z.land (v / 2 ^ 16) mask * mul2)) / 2 ^ 32 in
  u32 v.
(** ascii_number.h:62-65 is_made_of_eight_digits_fast *)
Definition is_made_of_eight_digits_fast (v : Z) : bool :=
  Z.land (Z.lor (u64 (v + 0x4646464646464646)) (u64 (v - 0x3030303030303030))) 0x8080808080808080 =? 0.

(** ascii_number.h:109-112 and 129-132: eight digits at a time *)
Fixpoint eight_digits (t : target) (p : list Z) (i : Z) : list Z * Z :=
  match p with
  | _ :: _ :: _ :: _ :: _ :: _ :: _ :: _ :: r =>
      if is_made_of_eight_digits_fast (read_u64 t p)
      then eight_digits t r (u64 (i * 100000000 + parse_eight_digits_unrolled (read_u64 t p)))
      else (p, i)
  | _ => (p, i)
  end.
(** ascii_number.h:113-119 and 133-137: one digit at a time *)
Fixpoint one_digit (p : list Z) (i : Z) : list Z * Z :=
  match p with
  | c :: r => if is_integer c then one_digit r (u64 (10 * i + (c - 48))) else (p, i)
  | [] => (p, i)
  end.
(** ascii_number.h:165-171: the digits of the exponent *)
Fixpoint exp_digits (p : list Z) (exp_number : Z) : list Z * Z :=
  match p with
  | c :: r => if is_integer c then exp_digits r (if exp_number <? 0x10000000 then 10 * exp_number + (c - 48) else exp_number) else (p, exp_number)
  | [] => (p, exp_number)
  end.
(** ascii_number.h:193-196: leading zeros are not counted *)
Fixpoint skip_leading (dot : Z) (start : list Z) (digit_count : Z) : Z :=
  match start with
  | c :: r => if (c =? 48) || (c =? dot) then skip_leading dot r (if c =? 48 then digit_count - 1 else digit_count) else digit_count
  | [] => digit_count
  end.
(** ascii_number.h:206-209 and 215-218: digits until there are nineteen *)
Fixpoint nineteen (p : list Z) (i : Z) : list Z * Z :=
  match p with
  | c :: r => if i <? 1000000000000000000 then nineteen r (u64 (i * 10 + (c - 48))) else (p, i)
  | [] => (p, i)
  end.

(** fast_float.h:7-12 chars_format flags, and parse_options *)
Definition chars_scientific : Z := 1.
(** fast_float.h:9 *)
Definition chars_fixed : Z := 4.
(** fast_float.h:11 *)
Definition chars_general : Z := Z.lor chars_fixed chars_scientific.
(** fast_float.h:20-30 parse_options *)
Record options := Options { format : Z; decimal_point : Z }.
(** fmt & flag *)
Definition has (o : options) (flag : Z) : bool := negb (Z.land (format o) flag =? 0).

(** ascii_number.h:73-83 parsed_number_string; [fraction] is [None] for a null pointer *)
Record parsed := Parsed {
  exponent_ : Z; mantissa_ : Z; lastmatch : list Z; negative : bool; too_many_digits : bool;
  integer : list Z; fraction : option (list Z) }.

(** *p *)
Definition deref (p : list Z) : res Z := match p with c :: _ => Ok c | [] => UB OutOfBounds end.
(** p != pend && pred( *p ) *)
Definition at_ (p : list Z) (pred : Z -> bool) : bool := match p with c :: _ => pred c | [] => false end.
(** the bytes from [p] up to [q], where [q] is a later pointer *)
Definition upto (p q : list Z) : list Z := firstn (length p - length q) p.

(** ascii_number.h:146-178: the exponent part; [None] when the number is rejected, otherwise the
    pointer behind it and exp_number *)
Definition parse_exponent (o : options) (p : list Z) : option (list Z * Z) :=
  if has o chars_scientific && at_ p (fun c => (c =? 101) || (c =? 69)) then
    let location_of_e := p in
    let p := tl p in
    let '(neg_exp, p) := if at_ p (Z.eqb 45) then (true, tl p) else if at_ p (Z.eqb 43) then (false, tl p) else (false, p) in
    if negb (at_ p is_integer) then
      if negb (has o chars_fixed) then None else Some (location_of_e, 0)
    else let '(p, exp_number) := exp_digits p 0 in
      Some (p, if neg_exp then - exp_number else exp_number)
  else if has o chars_scientific && negb (has o chars_fixed) then None else Some (p, 0).

(** ascii_number.h:88-227 parse_number_string; [None] when answer.valid is false *)
Definition parse_number_string (t : target) (p : list Z) (o : options) : res (option parsed) :=
  let dot := decimal_point o in
  c0 <- deref p ;;
  let neg := c0 =? 45 in
  let p := if neg then tl p else p in
  if neg && negb (at_ p (fun c => is_integer c || (c =? dot))) then Ok None
  else
  let start_digits := p in
  let '(p, i) := eight_digits t p 0 in
  let '(p, i) := one_digit p i in
  let end_of_integer_part := p in
  let int := upto start_digits p in
  let digit_count := len int in
  let '(p, i, exponent, frac, digit_count) :=
    if at_ p (Z.eqb dot) then
      let before := tl p in
      let '(p, i) := eight_digits t before i in
      let '(p, i) := one_digit p i in
      let exponent := len p - len before in
      (p, i, exponent, Some (upto before p), digit_count - exponent)
    else (p, i, 0, None, digit_count) in
  if digit_count =? 0 then Ok None
  else match parse_exponent o p with
  | None => Ok None
  | Some (p, exp_number) =>
      let exponent := exponent + exp_number in
      let last := p in
      if (19 <? digit_count) && (19 <? skip_leading dot start_digits digit_count) then
        let '(p, i) := nineteen int 0 in
        if 1000000000000000000 <=? i then
          Ok (Some (Parsed (len p + exp_number) i last neg true int frac))
        else
          let fr := match frac with Some fr => fr | None => [] end in
          let '(p, i) := nineteen fr i in
          Ok (Some (Parsed (len p - len fr + exp_number) i last neg true int frac))
      else Ok (Some (Parsed exponent i last neg false int frac))
  end.

(** ** decimal_to_binary.h *)
(** fast_table.h:36, float_common.h:334-337 powers::smallest_power_of_five *)
Definition smallest_power_of_five : Z := -342.
(** power_of_five_128[i] *)
Definition table (i : Z) : res Z :=
  if i <? 0 then UB OutOfBounds else match nth_error power_of_five_128 (Z.to_nat i) with Some x => Ok x | None => UB OutOfBounds end.
(** decimal_to_binary.h:19-40 compute_product_approximation<bit_precision>; (low, high) *)
Definition compute_product_approximation (t : target) (bit_precision q w : Z) : res (Z * Z) :=
  let index := 2 * (q - smallest_power_of_five) in
  t0 <- table index ;;
  let '(low, high) := full_multiplication t w t0 in
  let precision_mask := if bit_precision <? 64 then (2 ^ 64 - 1) / 2 ^ bit_precision else 2 ^ 64 - 1 in
  if Z.land high precision_mask =? precision_mask then
    t1 <- table (index + 1) ;;
    let '(_, second_high) := full_multiplication t w t1 in
    let low := u64 (low + second_high) in
    Ok (low, if low <? second_high then u64 (high + 1) else high)
  else Ok (low, high).
(** decimal_to_binary.h:58-60 power; >> of a negative int is arithmetic *)
Definition power (q : Z) : res Z := x <- i32 ((152170 + 65536) * q) ;; Ok (x / 2 ^ 16 + 63).
(** decimal_to_binary.h:65-74 compute_error_scaled *)
Definition compute_error_scaled (b : bformat) (q w lz : Z) : res adjusted :=
  let hilz := Z.lxor (w / 2 ^ 63) 1 in
  m <- shl w hilz ;;
  let bias := explicit_bits b - minimum_exponent b in
  pw <- power q ;;
  p2 <- i32 (pw + bias - hilz - lz - 62 + invalid_am_bias) ;;
  Ok (AM m p2).
(** decimal_to_binary.h:78-85 compute_error *)
Definition compute_error (t : target) (b : bformat) (q w : Z) : res adjusted :=
  lz <- leading_zeroes t w ;;
  w <- shl w lz ;;
  '(_, high) <- compute_product_approximation t (explicit_bits b + 3) q w ;;
  compute_error_scaled b q high lz.
(** decimal_to_binary.h:92-190 compute_float *)
Definition compute_float (t : target) (b : bformat) (q w : Z) : res adjusted :=
  if (w =? 0) || (q <? smallest_power_of_ten b) then Ok (AM 0 0)
  else if largest_power_of_ten b <? q then Ok (AM 0 (infinite_power b))
  else
  lz <- leading_zeroes t w ;;
  w <- shl w lz ;;
  '(low, high) <- compute_product_approximation t (explicit_bits b + 3) q w ;;
  if (low =? 0xFFFFFFFFFFFFFFFF) && negb ((-27 <=? q) && (q <=? 55)) then compute_error_scaled b q high lz
  else
  let upperbit := high / 2 ^ 63 in
  let drop := upperbit + 64 - explicit_bits b - 3 in
  mant <- shr high drop ;;
  pw <- power q ;;
  power2 <- i32 (pw + upperbit - lz - minimum_exponent b) ;;
  if power2 <=? 0 then
    if 64 <=? - power2 + 1 then Ok (AM 0 0)
    else
    mant <- shr mant (- power2 + 1) ;;
    let mant := u64 (mant + Z.land mant 1) in
    let mant := mant / 2 in
    Ok (AM mant (if mant <? 2 ^ explicit_bits b then 0 else 1))
  else
  back <- shl mant drop ;;
  let mant := if (low <=? 1) && (min_exponent_round_to_even b <=? q) && (q <=? max_exponent_round_to_even b) && (Z.land mant 3 =? 1) && (back =? high)
    then Z.land mant (not64 1) else mant in
  let mant := u64 (mant + Z.land mant 1) in
  let mant := mant / 2 in
  let '(mant, power2) := if 2 * 2 ^ explicit_bits b <=? mant then (2 ^ explicit_bits b, power2 + 1) else (mant, power2) in
  let mant := Z.land mant (not64 (2 ^ explicit_bits b)) in
  if infinite_power b <=? power2 then Ok (AM 0 (infinite_power b)) else Ok (AM mant power2).

(** ** bigint.h *)
(** bigint.h:19-27 limb_bits *)
Definition limb_bits (t : target) : Z := if is_64bit t then 64 else 32.
(** conversion to limb *)
Definition ulimb (t : target) (x : Z) : Z := x mod 2 ^ limb_bits t.
(** bigint.h:35-36 bigint_limbs = 4000 / limb_bits *)
Definition capacity (t : target) : Z := 4000 / limb_bits t.

(** bigint.h:91-98 try_push; functions on a vector return success and the vector *)
Definition try_push (t : target) (v : list Z) (x : Z) : bool * list Z :=
  if len v <? capacity t then (true, v ++ [x]) else (false, v).
(** bigint.h:106-113 try_extend *)
Definition try_extend (t : target) (v s : list Z) : bool * list Z :=
  if len v + len s <=? capacity t then (true, v ++ s) else (false, v).
(** bigint.h:117-136 try_resize with resize_unchecked *)
Definition try_resize (t : target) (v : list Z) (new_len value : Z) : bool * list Z :=
  if capacity t <? new_len then (false, v)
  else (true, if len v <? new_len then v ++ repeat value (Z.to_nat (new_len - len v)) else firstn (Z.to_nat new_len) v).
(** bigint.h:150-154 normalize, from the most significant limb *)
Fixpoint drop_zeros (r : list Z) : list Z := match r with 0 :: r' => drop_zeros r' | _ => r end.
(** bigint.h:150-154 normalize *)
Definition normalize (v : list Z) : list Z := rev (drop_zeros (rev v)).
(** bigint.h:140-148 nonzero(index): a limb other than the [index] most significant ones is not zero *)
Definition nonzero (v : list Z) (index : nat) : bool := existsb (fun x => negb (x =? 0)) (skipn index (rev v)).
(** bigint.h:66-70 rindex; the caller checks the length *)
Definition rindex (v : list Z) (i : nat) : Z := nth i (rev v) 0.

(** bigint.h:163-186: uint64_hi64 and uint32_hi64; the result and [truncated] *)
Definition hi64_1 (t : target) (r0 : Z) : res (Z * bool) :=
  s <- leading_zeroes t r0 ;; x <- shl r0 s ;; Ok (x, false).
(** bigint.h:170-181 uint64_hi64(r0, r1) *)
Definition hi64_2 (t : target) (r0 r1 : Z) : res (Z * bool) :=
  s <- leading_zeroes t r0 ;;
  if s =? 0 then Ok (r0, negb (r1 =? 0))
  else
    low <- shl r1 s ;; a <- shl r0 s ;; c <- shr r1 (64 - s) ;;
    Ok (Z.lor a c, negb (low =? 0)).
(** bigint.h:188-201 uint32_hi64 with two and three limbs: x0 << 32 | x1 *)
Definition join32 (hi lo : Z) : Z := Z.lor (u64 (hi * 2 ^ 32)) lo.

(** bigint.h:207-223 scalar_add; (sum, overflow).  Visual Studio has no builtin. *)
Definition scalar_add (t : target) (x y : Z) : Z * bool :=
  let z := ulimb t (x + y) in
  (z, if visual_studio t then z <? x else 2 ^ limb_bits t <=? x + y).
(** bigint.h:226-249 scalar_mul; (product, carry).  The variant without __int128 is the Visual Studio one. *)
Definition scalar_mul (t : target) (x y carry : Z) : Z * Z :=
  if is_64bit t && visual_studio t then
    let '(low, high) := full_multiplication t x y in
    let '(low, overflow) := scalar_add t low carry in
    (low, u64 (high + b2z overflow))
  else (ulimb t (x * y + carry), ulimb t ((x * y + carry) / 2 ^ limb_bits t)).

(** bigint.h:258-262: the carry loop of small_add_from on the limbs from [start]; (limbs, carry) *)
Fixpoint add_carry (t : target) (v : list Z) (carry : Z) : list Z * Z :=
  match v with
  | x :: r => if carry =? 0 then (v, 0)
      else let '(z, overflow) := scalar_add t x carry in
           let '(r, carry) := add_carry t r (b2z overflow) in (z :: r, carry)
  | [] => ([], carry)
  end.
(** bigint.h:253-267 small_add_from *)
Definition small_add_from (t : target) (v : list Z) (y : Z) (start : nat) : bool * list Z :=
  let '(r, carry) := add_carry t (skipn start v) y in
  let v := firstn start v ++ r in
  if carry =? 0 then (true, v) else try_push t v carry.
(** bigint.h:270-273 small_add *)
Definition small_add (t : target) (v : list Z) (y : Z) : bool * list Z := small_add_from t v y 0.

(** bigint.h:279-281: the loop of small_mul; (limbs, carry) *)
Fixpoint mul_carry (t : target) (v : list Z) (y carry : Z) : list Z * Z :=
  match v with
  | x :: r => let '(z, carry) := scalar_mul t x y carry in
              let '(r, carry) := mul_carry t r y carry in (z :: r, carry)
  | [] => ([], carry)
  end.
(** bigint.h:276-286 small_mul *)
Definition small_mul (t : target) (v : list Z) (y : Z) : bool * list Z :=
  let '(v, carry) := mul_carry t v y 0 in
  if carry =? 0 then (true, v) else try_push t v carry.

(** bigint.h:299-310: the loop of large_add_from over y; x has at least as many limbs; (limbs, carry) *)
Fixpoint add_limbs (t : target) (x y : list Z) (carry : bool) : list Z * bool :=
  match x, y with
  | xi :: x', yi :: y' =>
      let '(z, c1) := scalar_add t xi yi in
      let '(z, c2) := if carry then scalar_add t z 1 else (z, false) in
      let '(r, carry) := add_limbs t x' y' (c1 || c2) in (z :: r, carry)
  | _, _ => (x, carry)
  end.
(** bigint.h:290-317 large_add_from *)
Definition large_add_from (t : target) (x y : list Z) (start : nat) : bool * list Z :=
  let '(ok, x) := if (len x <? Z.of_nat start) || (len x - Z.of_nat start <? len y)
                  then try_resize t x (len y + Z.of_nat start) 0 else (true, x) in
  if negb ok then (false, x)
  else
    let '(r, carry) := add_limbs t (skipn start x) y false in
    let x := firstn start x ++ r in
    if carry then small_add_from t x 1 (length y + start) else (true, x).

(** bigint.h:335-346: the loop of long_mul over the limbs of y from [index] *)
Fixpoint mul_rows (t : target) (x zs y : list Z) (index : nat) : bool * list Z :=
  match y with
  | yi :: y' =>
      let '(ok, x) :=
        if yi =? 0 then (true, x)
        else
          let '(ok, zi) := try_extend t [] zs in
          if negb ok then (false, x)
          else
            let '(ok, zi) := small_mul t zi yi in
            if negb ok then (false, x) else large_add_from t x zi index in
      if negb ok then (false, x) else mul_rows t x zs y' (S index)
  | [] => (true, x)
  end.
(** bigint.h:326-351 long_mul; z(xs) cannot fail, x already fits *)
Definition long_mul (t : target) (x y : list Z) : bool * list Z :=
  let zs := x in
  let '(ok, x) := match y with
    | [] => (true, x)
    | y0 :: y' => let '(ok, x) := small_mul t x y0 in
                  if negb ok then (false, x) else mul_rows t x zs y' 1
    end in
  if negb ok then (false, x) else (true, normalize x).
(** bigint.h:354-362 large_mul *)
Definition large_mul (t : target) (x y : list Z) : bool * list Z :=
  match y with [y0] => small_mul t x y0 | _ => long_mul t x y end.

(** bigint.h:378-386 bigint(uint64_t) *)
Definition bigint_of (t : target) (value : Z) : list Z :=
  normalize (if is_64bit t then [value] else [u32 value; u32 (value / 2 ^ 32)]).
(** bigint.h:390-414 hi64 *)
Definition hi64 (t : target) (v : list Z) : res (Z * bool) :=
  if is_64bit t then
    match length v with
    | O => Ok (0, false)
    | 1%nat => hi64_1 t (rindex v 0)
    | _ => '(x, tr) <- hi64_2 t (rindex v 0) (rindex v 1) ;; Ok (x, tr || nonzero v 2)
    end
  else
    match length v with
    | O => Ok (0, false)
    | 1%nat => hi64_1 t (rindex v 0)
    | 2%nat => hi64_1 t (join32 (rindex v 0) (rindex v 1))
    | _ => '(x, tr) <- hi64_2 t (rindex v 0) (join32 (rindex v 1) (rindex v 2)) ;; Ok (x, tr || nonzero v 3)
    end.
(** bigint.h:428-436: the loop of compare, from the most significant limb *)
Fixpoint compare_limbs (x y : list Z) : Z :=
  match x, y with
  | xi :: x', yi :: y' => if yi <? xi then 1 else if xi <? yi then -1 else compare_limbs x' y'
  | _, _ => 0
  end.
(** bigint.h:422-439 compare *)
Definition big_compare (x y : list Z) : Z :=
  if (length y <? length x)%nat then 1 else if (length x <? length y)%nat then -1 else compare_limbs (rev x) (rev y).

(** bigint.h:455-459: the loop of shl_bits; (limbs, last limb read) *)
Fixpoint shift_limbs (t : target) (n : Z) (v : list Z) (prev : Z) : list Z * Z :=
  match v with
  | xi :: r => let '(r, last) := shift_limbs t n r xi in
               (Z.lor (ulimb t (xi * 2 ^ n)) (prev / 2 ^ (limb_bits t - n)) :: r, last)
  | [] => ([], prev)
  end.
(** bigint.h:443-466 shl_bits *)
Definition shl_bits (t : target) (v : list Z) (n : Z) : bool * list Z :=
  let '(v, prev) := shift_limbs t n v 0 in
  let carry := prev / 2 ^ (limb_bits t - n) in
  if carry =? 0 then (true, v) else try_push t v carry.
(** bigint.h:469-487 shl_limbs *)
Definition shl_limbs (t : target) (v : list Z) (n : Z) : bool * list Z :=
  if capacity t <? n + len v then (false, v)
  else match v with [] => (true, v) | _ => (true, repeat 0 (Z.to_nat n) ++ v) end.
(** bigint.h:490-500 shl *)
Definition big_shl (t : target) (v : list Z) (n : Z) : bool * list Z :=
  let rem := n mod limb_bits t in
  let div := n / limb_bits t in
  let '(ok, v) := if rem =? 0 then (true, v) else shl_bits t v rem in
  if negb ok then (false, v) else if div =? 0 then (true, v) else shl_limbs t v div.
(** bigint.h:503-515 ctlz *)
Definition ctlz (t : target) (v : list Z) : res Z :=
  match v with
  | [] => Ok 0
  | _ => if is_64bit t then leading_zeroes t (rindex v 0) else leading_zeroes t (u64 (rindex v 0 * 2 ^ 32))
  end.
(** bigint.h:518-521 bit_length *)
Definition bit_length (t : target) (v : list Z) : res Z := lz <- ctlz t v ;; Ok (limb_bits t * len v - lz).

(** bigint.h:540-547 small_power_of_5 *)
Definition small_power_of_5 : list Z :=
  [1; 5; 25; 125; 625; 3125; 15625; 78125; 390625; 1953125; 9765625; 48828125; 244140625; 1220703125;
   6103515625; 30517578125; 152587890625; 762939453125; 3814697265625; 19073486328125; 95367431640625;
   476837158203125; 2384185791015625; 11920928955078125; 59604644775390625; 298023223876953125;
   1490116119384765625; 7450580596923828125].
(** bigint.h:548-556 large_power_of_5 *)
Definition large_power_of_5 (t : target) : list Z :=
  if is_64bit t
  then [1414648277510068013; 9180637584431281687; 4539964771860779200; 10482974169319127550; 198276706040285095]
  else [4279965485; 329373468; 4020270615; 2137533757; 4287402176; 1057042919; 1071430142; 2440757623; 381945767; 46164893].
(** bigint.h:539 large_step *)
Definition large_step : Z := 135.
(** bigint.h:564, 567 small_step *)
Definition small_step (t : target) : Z := if is_64bit t then 27 else 13.
(** bigint.h:565, 568 max_native *)
Definition max_native (t : target) : Z := if is_64bit t then 7450580596923828125 else 1220703125.
(** a loop "while (exp >= step) { TRY(mul); exp -= step; }", at most [fuel] rounds; the vector and what is left of exp *)
Fixpoint mul_steps (mul : list Z -> bool * list Z) (step : Z) (fuel : nat) (v : list Z) (exp : Z) : bool * list Z * Z :=
  match fuel with
  | O => (true, v, exp)
  | S fuel => if exp <? step then (true, v, exp)
      else let '(ok, v) := mul v in if negb ok then (false, v, exp) else mul_steps mul step fuel v (exp - step)
  end.
(** bigint.h:537-579 pow5; exp is a uint32_t *)
Definition big_pow5 (t : target) (v : list Z) (exp : Z) : bool * list Z :=
  let '(ok, v, exp) := mul_steps (fun v => large_mul t v (large_power_of_5 t)) large_step (Z.to_nat exp) v exp in
  if negb ok then (false, v)
  else
    let '(ok, v, exp) := mul_steps (fun v => small_mul t v (max_native t)) (small_step t) (Z.to_nat exp) v exp in
    if negb ok then (false, v)
    else if exp =? 0 then (true, v) else small_mul t v (ulimb t (nth (Z.to_nat exp) small_power_of_5 0)).
(** bigint.h:582-585 pow10 *)
Definition big_pow10 (t : target) (v : list Z) (exp : Z) : bool * list Z :=
  let '(ok, v) := big_pow5 t v exp in if negb ok then (false, v) else big_shl t v exp.

(** ** digit_comparison.h *)
(** digit_comparison.h:29-40: a loop "while (mantissa >= bound) { mantissa /= bound; exponent += n; }"; a
    uint64_t is below bound after 64 rounds *)
Fixpoint sci_loop (bound n : Z) (fuel : nat) (m e : Z) : Z * Z :=
  match fuel with
  | O => (m, e)
  | S fuel => if m <? bound then (m, e) else sci_loop bound n fuel (m / bound) (e + n)
  end.
(** digit_comparison.h:26-42 scientific_exponent *)
Definition scientific_exponent (num : parsed) : res Z :=
  let m := mantissa_ num in
  let e := (exponent_ num + 2 ^ 31) mod 2 ^ 32 - 2 ^ 31 in
  let '(m, e) := sci_loop 10000 4 64 m e in
  let '(m, e) := sci_loop 100 2 64 m e in
  let '(m, e) := sci_loop 10 1 64 m e in
  i32 e.

(** digit_comparison.h:45-68 to_extended *)
Definition to_extended (b : bformat) (bits : Z) : res adjusted :=
  let bias := explicit_bits b - minimum_exponent b in
  if Z.land bits (exponent_mask b) =? 0 then Ok (AM (Z.land bits (mantissa_mask b)) (1 - bias))
  else
    p <- shr (Z.land bits (exponent_mask b)) (explicit_bits b) ;;
    Ok (AM (Z.lor (Z.land bits (mantissa_mask b)) (hidden_bit_mask b)) (p - bias)).
(** digit_comparison.h:73-80 to_extended_halfway *)
Definition to_extended_halfway (b : bformat) (bits : Z) : res adjusted :=
  am <- to_extended b bits ;;
  Ok (AM (u64 (u64 (am_mantissa am * 2) + 1)) (am_power2 am - 1)).

(** digit_comparison.h:83-110 round<T> *)
Definition round_with (b : bformat) (am : adjusted) (cb : adjusted -> Z -> res adjusted) : res adjusted :=
  let mantissa_shift := 64 - explicit_bits b - 1 in
  if mantissa_shift <=? - am_power2 am then
    am <- cb am (Z.min (- am_power2 am + 1) 64) ;;
    Ok (AM (am_mantissa am) (if am_mantissa am <? 2 ^ explicit_bits b then 0 else 1))
  else
    am <- cb am mantissa_shift ;;
    let am := if 2 * 2 ^ explicit_bits b <=? am_mantissa am then AM (2 ^ explicit_bits b) (am_power2 am + 1) else am in
    let am := AM (Z.land (am_mantissa am) (not64 (2 ^ explicit_bits b))) (am_power2 am) in
    Ok (if infinite_power b <=? am_power2 am then AM 0 (infinite_power b) else am).
(** digit_comparison.h:112-141 round_nearest_tie_even; [cb] is_odd is_halfway is_above *)
Definition round_nearest_tie_even (cb : bool -> bool -> bool -> bool) (am : adjusted) (shift : Z) : res adjusted :=
  mask <- (if shift =? 64 then Ok (2 ^ 64 - 1) else x <- shl 1 shift ;; Ok (u64 (x - 1))) ;;
  halfway <- (if shift =? 0 then Ok 0 else shl 1 (shift - 1)) ;;
  let truncated_bits := Z.land (am_mantissa am) mask in
  let is_above := halfway <? truncated_bits in
  let is_halfway := truncated_bits =? halfway in
  m <- (if shift =? 64 then Ok 0 else shr (am_mantissa am) shift) ;;
  p <- i32 (am_power2 am + shift) ;;
  let is_odd := Z.land m 1 =? 1 in
  Ok (AM (u64 (m + b2z (cb is_odd is_halfway is_above))) p).
(** digit_comparison.h:143-150 round_down *)
Definition round_down (am : adjusted) (shift : Z) : res adjusted :=
  m <- (if shift =? 64 then Ok 0 else shr (am_mantissa am) shift) ;;
  p <- i32 (am_power2 am + shift) ;;
  Ok (AM m p).

(** digit_comparison.h:152-167 skip_zeros: eight zeros at a time *)
Fixpoint skip_eight (t : target) (p : list Z) : list Z :=
  match p with
  | _ :: _ :: _ :: _ :: _ :: _ :: _ :: _ :: r => if load_u64 t p =? 0x3030303030303030 then skip_eight t r else p
  | _ => p
  end.
(** digit_comparison.h:161-166: one zero at a time *)
Fixpoint skip_one (p : list Z) : list Z := match p with c :: r => if c =? 48 then skip_one r else p | [] => [] end.
(** digit_comparison.h:152-167 skip_zeros *)
Definition skip_zeros (t : target) (p : list Z) : list Z := skip_one (skip_eight t p).
(** digit_comparison.h:181-186: the rest of is_truncated *)
Fixpoint truncated_one (p : list Z) : bool := match p with c :: r => if negb (c =? 48) then true else truncated_one r | [] => false end.
(** digit_comparison.h:171-188 is_truncated *)
Fixpoint is_truncated (t : target) (p : list Z) : bool :=
  match p with
  | _ :: _ :: _ :: _ :: _ :: _ :: _ :: _ :: r => if negb (load_u64 t p =? 0x3030303030303030) then true else is_truncated t r
  | _ => truncated_one p
  end.

(** digit_comparison.h:16-20 powers_of_ten_uint64 *)
Definition powers_of_ten_uint64 : list Z := map (fun k => 10 ^ Z.of_nat k) (seq 0 20).
(** powers_of_ten_uint64[counter] as a limb *)
Definition limb_ten (t : target) (counter : Z) : res Z :=
  if counter <? 0 then UB OutOfBounds else match nth_error powers_of_ten_uint64 (Z.to_nat counter) with Some x => Ok (ulimb t x) | None => UB OutOfBounds end.
(** digit_comparison.h:210-214 add_native; the results of mul and add are ignored *)
Definition add_native (t : target) (big : list Z) (pow value : Z) : list Z :=
  snd (small_add t (snd (small_mul t big pow)) value).
(** digit_comparison.h:231-235 step *)
Definition digit_step (t : target) : Z := if is_64bit t then 19 else 9.

(** the state of parse_mantissa's inner loops: value, counter, digits *)
Record pm := PM { pm_value : Z; pm_counter : Z; pm_digits : Z }.
(** digit_comparison.h:243-245 and 276-278 with parse_eight_digits 194-200: step - counter and
    max_digits - digits are size_t, and counter <= step, digits <= max_digits *)
Fixpoint pm_eights (t : target) (maxd : Z) (p : list Z) (s : pm) : list Z * pm :=
  match p with
  | _ :: _ :: _ :: _ :: _ :: _ :: _ :: _ :: r =>
      if (8 <=? u64 (digit_step t - pm_counter s)) && (8 <=? u64 (maxd - pm_digits s))
      then pm_eights t maxd r (PM (ulimb t (ulimb t (pm_value s * 100000000) + parse_eight_digits_unrolled (read_u64 t p))) (pm_counter s + 8) (pm_digits s + 8))
      else (p, s)
  | _ => (p, s)
  end.
(** digit_comparison.h:246-248 and 279-281 with parse_one_digit 202-208 *)
Fixpoint pm_ones (t : target) (maxd : Z) (p : list Z) (s : pm) : list Z * pm :=
  match p with
  | c :: r =>
      if (pm_counter s <? digit_step t) && (pm_digits s <? maxd)
      then pm_ones t maxd r (PM (ulimb t (pm_value s * 10 + (c - 48))) (pm_counter s + 1) (pm_digits s + 1))
      else (p, s)
  | [] => (p, s)
  end.
(** digit_comparison.h:242-266 and 275-295: the loop over the integer or the fraction digits.
    [more] is what is_truncated says of the following digits.  Every round takes a character, so
    [fuel] = length suffices.  The result: the big integer, the digit count, and whether
    parse_mantissa returns here. *)
Fixpoint pm_loop (t : target) (maxd : Z) (more : bool) (fuel : nat) (result : list Z) (p : list Z) (digits : Z) : res (list Z * Z * bool) :=
  match fuel, p with
  | _, [] => Ok (result, digits, false)
  | O, _ => UB NoReturn
  | S fuel, _ =>
      let '(p, s) := pm_eights t maxd p (PM 0 0 digits) in
      let '(p, s) := pm_ones t maxd p s in
      pw <- limb_ten t (pm_counter s) ;;
      let result := add_native t result pw (pm_value s) in
      if pm_digits s =? maxd then
        if is_truncated t p || more then Ok (add_native t result 10 1, pm_digits s + 1, true)
        else Ok (result, pm_digits s, true)
      else pm_loop t maxd more fuel result p (pm_digits s)
  end.
(** digit_comparison.h:224-301 parse_mantissa; counter is 0 at the end, so 298-300 do nothing.
    The big integer and the digit count. *)
Definition parse_mantissa (t : target) (num : parsed) (maxd : Z) : res (list Z * Z) :=
  let p := skip_zeros t (integer num) in
  '(result, digits, ret) <- pm_loop t maxd (match fraction num with Some f => is_truncated t f | None => false end) (length p) [] p 0 ;;
  if ret then Ok (result, digits)
  else match fraction num with
  | None => Ok (result, digits)
  | Some f =>
      let p := if digits =? 0 then skip_zeros t f else f in
      '(result, digits, _) <- pm_loop t maxd false (length p) result p digits ;;
      Ok (result, digits)
  end.

(** digit_comparison.h:303-319 positive_digit_comp *)
Definition positive_digit_comp (t : target) (b : bformat) (bigmant : list Z) (exponent : Z) : res adjusted :=
  let '(ok, bigmant) := big_pow10 t bigmant exponent in
  ff_assert ok (
  '(m, truncated) <- hi64 t bigmant ;;
  let bias := explicit_bits b - minimum_exponent b in
  bl <- bit_length t bigmant ;;
  p2 <- i32 (bl - 64 + bias) ;;
  round_with b (AM m p2) (round_nearest_tie_even (fun is_odd is_halfway is_above => is_above || (is_halfway && truncated) || (is_odd && is_halfway)))).

(** digit_comparison.h:326-371 negative_digit_comp *)
Definition negative_digit_comp (t : target) (b : bformat) (bigmant : list Z) (am : adjusted) (real_exp : Z) : res adjusted :=
  am_b <- round_with b am round_down ;;
  let bits := to_float b false am_b in
  theor <- to_extended_halfway b bits ;;
  let theor_digits := bigint_of t (am_mantissa theor) in
  let theor_exp := am_power2 theor in
  let pow2_exp := theor_exp - real_exp in
  let pow5_exp := u32 (- real_exp) in
  let '(ok, theor_digits) := if pow5_exp =? 0 then (true, theor_digits) else big_pow5 t theor_digits pow5_exp in
  ff_assert ok (
  let '(ok, theor_digits, real_digits) :=
    if 0 <? pow2_exp then let '(ok, d) := big_shl t theor_digits (u32 pow2_exp) in (ok, d, bigmant)
    else if pow2_exp <? 0 then let '(ok, d) := big_shl t bigmant (u32 (- pow2_exp)) in (ok, theor_digits, d)
    else (true, theor_digits, bigmant) in
  ff_assert ok (
  let ord := big_compare real_digits theor_digits in
  round_with b am (round_nearest_tie_even (fun is_odd _ _ => if 0 <? ord then true else if ord <? 0 then false else is_odd)))).

(** digit_comparison.h:386-403 digit_comp *)
Definition digit_comp (t : target) (b : bformat) (num : parsed) (am : adjusted) : res adjusted :=
  p2 <- i32 (am_power2 am - invalid_am_bias) ;;
  let am := AM (am_mantissa am) p2 in
  sci_exp <- scientific_exponent num ;;
  '(bigmant, digits) <- parse_mantissa t num (max_digits b) ;;
  exponent <- i32 (sci_exp + 1 - digits) ;;
  if 0 <=? exponent then positive_digit_comp t b bigmant exponent else negative_digit_comp t b bigmant am exponent.

(** ** parse_number.h *)
(** what from_chars returns: the pointer, and the value when ec is errc() ([None]: invalid_argument) *)
Record outcome := Outcome { out_ptr : list Z; out_value : option Z }.
(** std::numeric_limits<T>::infinity() *)
Definition infinity_ (b : bformat) : Z := inf_pattern (bfmt b).
(** std::numeric_limits<T>::quiet_NaN() *)
Definition quiet_nan (b : bformat) : Z := inf_pattern (bfmt b) + 2 ^ (mw (bfmt b) - 1).
(** unary minus on a value *)
Definition neg_if (b : bformat) (n : bool) (x : Z) : Z := if n then fneg (bfmt b) x else x.
(** the characters allowed in nan(...): parse_number.h:43 *)
Definition nan_char (c : Z) : bool :=
  ((97 <=? c) && (c <=? 122)) || ((65 <=? c) && (c <=? 90)) || ((48 <=? c) && (c <=? 57)) || (c =? 95).
(** parse_number.h:38-45: the loop over nan(...); the pointer behind ')' *)
Fixpoint nan_seq (p : list Z) : option (list Z) :=
  match p with
  | [] => None
  | c :: r => if c =? 41 then Some r else if nan_char c then nan_seq r else None
  end.
(** parse_number.h:22-61 parse_infnan *)
Definition parse_infnan (b : bformat) (first : list Z) : res outcome :=
  c0 <- deref first ;;
  let minusSign := c0 =? 45 in
  let p := if minusSign then tl first else first in
  if (3 <=? len p) && strncasecmp (firstn 3 p) [110; 97; 110] then
    let p := skipn 3 p in
    let ptr := if at_ p (Z.eqb 40) then match nan_seq (tl p) with Some r => r | None => p end else p in
    Ok (Outcome ptr (Some (neg_if b minusSign (quiet_nan b))))
  else if (3 <=? len p) && strncasecmp (firstn 3 p) [105; 110; 102] then
    let ptr := if (8 <=? len p) && strncasecmp (firstn 5 (skipn 3 p)) [105; 110; 105; 116; 121] then skipn 8 p else skipn 3 p in
    Ok (Outcome ptr (Some (neg_if b minusSign (infinity_ b))))
  else Ok (Outcome first None).

(** parse_number.h:92-95: the tail of Clinger's fast path; powers_of_ten[k] *)
Definition exact_power_of_ten (b : bformat) (k : Z) : res Z :=
  if k <? 0 then UB OutOfBounds else match nth_error (powers_of_ten b) (Z.to_nat k) with Some x => Ok x | None => UB OutOfBounds end.
(** parse_number.h:92-95 *)
Definition fast_path (b : bformat) (num : parsed) : res Z :=
  let value := t_of b (mantissa_ num) in
  value <- (if exponent_ num <? 0 then x <- exact_power_of_ten b (- exponent_ num) ;; Ok (t_div b value x)
            else x <- exact_power_of_ten b (exponent_ num) ;; Ok (t_mul b value x)) ;;
  Ok (neg_if b (negative num) value).
(** parse_number.h:98-107: the rest of from_chars_advanced, from a parsed number to the value *)
Definition slow_path (t : target) (b : bformat) (num : parsed) : res Z :=
  am <- compute_float t b (exponent_ num) (mantissa_ num) ;;
  am <- (if too_many_digits num && (0 <=? am_power2 am) then
           am2 <- compute_float t b (exponent_ num) (u64 (mantissa_ num + 1)) ;;
           if negb (am_eqb am am2) then compute_error t b (exponent_ num) (mantissa_ num) else Ok am
         else Ok am) ;;
  am <- (if am_power2 am <? 0 then digit_comp t b num am else Ok am) ;;
  Ok (to_float b (negative num) am).
(** parse_number.h:71-109 from_chars_advanced *)
Definition from_chars_advanced (t : target) (b : bformat) (first : list Z) (o : options) : res outcome :=
  match first with
  | [] => Ok (Outcome first None)
  | _ =>
      pns <- parse_number_string t first o ;;
      match pns with
      | None => parse_infnan b first
      | Some num =>
          value <- (if (min_exponent_fast_path b <=? exponent_ num) && (exponent_ num <=? max_exponent_fast_path b)
                       && (mantissa_ num <=? max_mantissa_fast_path b) && negb (too_many_digits num)
                    then fast_path b num else slow_path t b num) ;;
          Ok (Outcome (lastmatch num) (Some value))
      end
  end.
(** parse_number.h:65-69 from_chars; decimal_point is '.' *)
Definition from_chars (t : target) (b : bformat) (first : list Z) (fmt : Z) : res outcome :=
  from_chars_advanced t b first (Options fmt 46).
