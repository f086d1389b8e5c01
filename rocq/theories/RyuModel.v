(** Model of the decimal conversion core of include/__nanostrutil.h (Ryu): the integer
    helpers, f2d (binary32 to shortest decimal) and d2d (binary64 to shortest decimal).

    uint32_t / uint64_t arithmetic is arithmetic on [Z] followed by [u32] / [u64]; int32_t values
    are plain integers (every intermediate is small, which is part of what RyuProofs shows).
    A failing [assert], a shift count outside the width of the type and a loop that does not
    terminate are distinct outcomes ([UB BadArith], [UB NoReturn]); reading outside a table is
    [UB OutOfBounds].  Modelled configuration: no RYU_32_BIT_PLATFORM, no
    HAS_64_BIT_INTRINSICS, no RYU_FLOAT_FULL_TABLE, no RYU_OPTIMIZE_SIZE, no RYU_DEBUG; the
    RYU_32_BIT_PLATFORM variants of the helpers are modelled too (suffix [_32bit]). *)
From Coq Require Import ZArith List Bool.
From Verif Require Import Mem RyuTables.
Import ListNotations.
Open Scope Z_scope.

(** conversion to uint32_t / uint64_t *)
Definition u32 (x : Z) : Z := x mod 2 ^ 32.
(** conversion to uint64_t *)
Definition u64 (x : Z) : Z := x mod 2 ^ 64.
(** assert (b) / side condition of the C++ operator *)
Definition chk {A} (b : bool) (k : res A) : res A := if b then k else UB BadArith.
(** implicit bool -> int *)
Definition b2z (b : bool) : Z := if b then 1 else 0.

(** __nanostrutil.h:57-63, 75-76 and ryu/d2s_full_table.h:21-22 *)
Definition FLOAT_POW5_INV_BITCOUNT : Z := 61.
(** __nanostrutil.h:75-76 *)
Definition FLOAT_POW5_BITCOUNT : Z := 61.
(** ryu/d2s_full_table.h:21 *)
Definition DOUBLE_POW5_INV_BITCOUNT : Z := 125.
(** ryu/d2s_full_table.h:22 *)
Definition DOUBLE_POW5_BITCOUNT : Z := 125.

(** table[i] *)
Definition tab (t : list (Z * Z)) (i : Z) : res (Z * Z) :=
  if 0 <=? i then
    match nth_error t (Z.to_nat i) with Some e => Ok e | None => UB OutOfBounds end
  else UB OutOfBounds.

(** __nanostrutil.h:89-96 *)
Definition log2pow5 (e : Z) : res Z :=
  chk ((0 <=? e) && (e <=? 3528)) (Ok (u32 (e * 1217359) / 2 ^ 19)).
(** __nanostrutil.h:100-107 *)
Definition pow5bits (e : Z) : res Z :=
  chk ((0 <=? e) && (e <=? 3528)) (Ok (u32 (e * 1217359) / 2 ^ 19 + 1)).
(** __nanostrutil.h:111-113 *)
Definition ceil_log2pow5 (e : Z) : res Z := x <- log2pow5 e ;; Ok (x + 1).
(** __nanostrutil.h:117-122 *)
Definition log10Pow2 (e : Z) : res Z :=
  chk ((0 <=? e) && (e <=? 1650)) (Ok (u32 (e * 78913) / 2 ^ 18)).
(** __nanostrutil.h:126-131 *)
Definition log10Pow5 (e : Z) : res Z :=
  chk ((0 <=? e) && (e <=? 2620)) (Ok (u32 (e * 732923) / 2 ^ 20)).

(** __nanostrutil.h:134-147; the loop has no bound in the code (for value = 0 the assert fails) *)
Fixpoint pow5factor_32_loop (fuel : nat) (value count : Z) : res Z :=
  match fuel with
  | O => UB NoReturn
  | S n =>
      chk (negb (value =? 0))
        (if negb (value mod 5 =? 0) then Ok count else pow5factor_32_loop n (value / 5) (count + 1))
  end.
(** __nanostrutil.h:134-147 *)
Definition pow5factor_32 (value : Z) : res Z := pow5factor_32_loop 32 value 0.
(** __nanostrutil.h:151-153 *)
Definition multipleOfPowerOf5_32 (value p : Z) : res bool :=
  x <- pow5factor_32 value ;; Ok (p <=? x).
(** __nanostrutil.h:157-160 *)
Definition multipleOfPowerOf2_32 (value p : Z) : res bool :=
  chk ((0 <=? p) && (p <? 32)) (Ok (Z.land value (2 ^ p - 1) =? 0)).

(** __nanostrutil.h:165-197, branch without RYU_32_BIT_PLATFORM *)
Definition mulShift32 (m factor shift : Z) : res Z :=
  chk ((32 <? shift) && (shift - 32 <? 64))
    (let factorLo := u32 factor in
     let factorHi := u32 (factor / 2 ^ 32) in
     let bits0 := u64 (m * factorLo) in
     let bits1 := u64 (m * factorHi) in
     let sum := u64 (bits0 / 2 ^ 32 + bits1) in
     let shiftedSum := sum / 2 ^ (shift - 32) in
     chk (shiftedSum <=? 4294967295) (Ok (u32 shiftedSum))).
(** __nanostrutil.h:165-191, RYU_32_BIT_PLATFORM branch *)
Definition mulShift32_32bit (m factor shift : Z) : res Z :=
  chk ((32 <? shift) && (shift <? 96))
    (let factorLo := u32 factor in
     let factorHi := u32 (factor / 2 ^ 32) in
     let bits0 := u64 (m * factorLo) in
     let bits1 := u64 (m * factorHi) in
     let bits0Hi := u32 (bits0 / 2 ^ 32) in
     let bits1Lo := u32 (u32 bits1 + bits0Hi) in
     let bits1Hi := u32 (u32 (bits1 / 2 ^ 32) + b2z (bits1Lo <? bits0Hi)) in
     if 64 <=? shift then Ok (u32 (bits1Hi / 2 ^ (shift - 64)))
     else let s := shift - 32 in
          Ok (Z.lor (u32 (bits1Hi * 2 ^ (32 - s))) (bits1Lo / 2 ^ s))).

(** __nanostrutil.h:200-213 (last branch: top half of the double table plus one) *)
Definition mulPow5InvDivPow2 (m q j : Z) : res Z :=
  e <- tab DOUBLE_POW5_INV_SPLIT q ;; mulShift32 m (u64 (snd e + 1)) j.
(** __nanostrutil.h:217-227 (last branch) *)
Definition mulPow5divPow2 (m i j : Z) : res Z :=
  e <- tab DOUBLE_POW5_SPLIT i ;; mulShift32 m (snd e) j.

(** Outcome of step 3 of f2d / d2d: the local variables at that point. *)
Record step3 := Step3 {
  vr : Z; vp : Z; vm : Z; e10 : Z;
  vmZ : bool;      (* vmIsTrailingZeros *)
  vrZ : bool;      (* vrIsTrailingZeros *)
  last0 : Z }.     (* lastRemovedDigit *)

(** __nanostrutil.h:262-291: e2 >= 0 *)
Definition f2d_pos (e2 mv mp mm : Z) (acceptBounds : bool) : res step3 :=
  q <- log10Pow2 e2 ;;
  pb <- pow5bits q ;;
  let k := FLOAT_POW5_INV_BITCOUNT + pb - 1 in
  let i := - e2 + q + k in
  vr <- mulPow5InvDivPow2 mv q i ;;
  vp <- mulPow5InvDivPow2 mp q i ;;
  vm <- mulPow5InvDivPow2 mm q i ;;
  lastRemovedDigit <-
    (if negb (q =? 0) && (u32 (vp - 1) / 10 <=? vm / 10) then
       pb1 <- pow5bits (q - 1) ;;
       let l := FLOAT_POW5_INV_BITCOUNT + pb1 - 1 in
       x <- mulPow5InvDivPow2 mv (q - 1) (- e2 + q - 1 + l) ;; Ok (x mod 10)
     else Ok 0) ;;
  if q <=? 9 then
    if mv mod 5 =? 0 then
      b <- multipleOfPowerOf5_32 mv q ;; Ok (Step3 vr vp vm q false b lastRemovedDigit)
    else if acceptBounds then
      b <- multipleOfPowerOf5_32 mm q ;; Ok (Step3 vr vp vm q b false lastRemovedDigit)
    else
      b <- multipleOfPowerOf5_32 mp q ;;
      Ok (Step3 vr (u32 (vp - b2z b)) vm q false false lastRemovedDigit)
  else Ok (Step3 vr vp vm q false false lastRemovedDigit).

(** __nanostrutil.h:292-326: e2 < 0 *)
Definition f2d_neg (e2 mv mp mm mmShift : Z) (acceptBounds : bool) : res step3 :=
  q <- log10Pow5 (- e2) ;;
  let e10 := q + e2 in
  let i := - e2 - q in
  pb <- pow5bits i ;;
  let k := pb - FLOAT_POW5_BITCOUNT in
  let j := q - k in
  vr <- mulPow5divPow2 mv i j ;;
  vp <- mulPow5divPow2 mp i j ;;
  vm <- mulPow5divPow2 mm i j ;;
  lastRemovedDigit <-
    (if negb (q =? 0) && (u32 (vp - 1) / 10 <=? vm / 10) then
       pb1 <- pow5bits (i + 1) ;;
       let j := q - 1 - (pb1 - FLOAT_POW5_BITCOUNT) in
       x <- mulPow5divPow2 mv (i + 1) j ;; Ok (x mod 10)
     else Ok 0) ;;
  if q <=? 1 then
    if acceptBounds then Ok (Step3 vr vp vm e10 (mmShift =? 1) true lastRemovedDigit)
    else Ok (Step3 vr (u32 (vp - 1)) vm e10 false true lastRemovedDigit)
  else if q <? 31 then
    b <- multipleOfPowerOf2_32 mv (q - 1) ;; Ok (Step3 vr vp vm e10 false b lastRemovedDigit)
  else Ok (Step3 vr vp vm e10 false false lastRemovedDigit).

(** State of the digit-removal loops. *)
Record loopst := Loop {
  lr : Z; lp : Z; lm : Z; lmZ : bool; lrZ : bool; llast : Z; lremoved : Z }.

(** __nanostrutil.h:341-355: while (vp / 10 > vm / 10), general case *)
Fixpoint f2d_loop1 (fuel : nat) (s : loopst) : res loopst :=
  match fuel with
  | O => UB NoReturn
  | S n =>
      if lm s / 10 <? lp s / 10 then
        f2d_loop1 n (Loop (lr s / 10) (lp s / 10) (lm s / 10)
                          (lmZ s && (lm s mod 10 =? 0)) (lrZ s && (llast s =? 0))
                          (lr s mod 10) (lremoved s + 1))
      else Ok s
  end.
(** __nanostrutil.h:360-369: while (vm % 10 == 0) *)
Fixpoint f2d_loop2 (fuel : nat) (s : loopst) : res loopst :=
  match fuel with
  | O => UB NoReturn
  | S n =>
      if lm s mod 10 =? 0 then
        f2d_loop2 n (Loop (lr s / 10) (lp s / 10) (lm s / 10) (lmZ s) (lrZ s && (llast s =? 0))
                          (lr s mod 10) (lremoved s + 1))
      else Ok s
  end.
(** __nanostrutil.h:384-390: the common case, flags not maintained *)
Fixpoint f2d_loop3 (fuel : nat) (s : loopst) : res loopst :=
  match fuel with
  | O => UB NoReturn
  | S n =>
      if lm s / 10 <? lp s / 10 then
        f2d_loop3 n (Loop (lr s / 10) (lp s / 10) (lm s / 10) (lmZ s) (lrZ s)
                          (lr s mod 10) (lremoved s + 1))
      else Ok s
  end.

(** __nanostrutil.h:336-398: step 4, giving (output, removed) *)
Definition f2d_step4 (s : step3) (acceptBounds : bool) : res (Z * Z) :=
  let s0 := Loop (vr s) (vp s) (vm s) (vmZ s) (vrZ s) (last0 s) 0 in
  if vmZ s || vrZ s then
    s1 <- f2d_loop1 64 s0 ;;
    s2 <- (if lmZ s1 then f2d_loop2 64 s1 else Ok s1) ;;
    let last := if lrZ s2 && (llast s2 =? 5) && (lr s2 mod 2 =? 0) then 4 else llast s2 in
    Ok (u32 (lr s2 + b2z ((lr s2 =? lm s2) && (negb acceptBounds || negb (lmZ s2)) || (5 <=? last))),
        lremoved s2)
  else
    s1 <- f2d_loop3 64 s0 ;;
    Ok (u32 (lr s1 + b2z ((lr s1 =? lm s1) || (5 <=? llast s1))), lremoved s1).

(** __nanostrutil.h:231-410: (mantissa, exponent) of the shortest decimal *)
Definition f2d (ieeeMantissa ieeeExponent : Z) : res (Z * Z) :=
  let e2 := if ieeeExponent =? 0 then 1 - 127 - 23 - 2 else ieeeExponent - 127 - 23 - 2 in
  let m2 := if ieeeExponent =? 0 then ieeeMantissa else Z.lor (2 ^ 23) ieeeMantissa in
  let acceptBounds := Z.land m2 1 =? 0 in
  let mv := u32 (4 * m2) in
  let mp := u32 (4 * m2 + 2) in
  let mmShift := b2z (negb (ieeeMantissa =? 0) || (ieeeExponent <=? 1)) in
  let mm := u32 (4 * m2 - 1 - mmShift) in
  s <- (if 0 <=? e2 then f2d_pos e2 mv mp mm acceptBounds
        else f2d_neg e2 mv mp mm mmShift acceptBounds) ;;
  o <- f2d_step4 s acceptBounds ;;
  Ok (fst o, e10 s + snd o).

(** __nanostrutil.h:416-430 *)
Definition decimalLength9 (v : Z) : res Z :=
  chk (v <? 1000000000)
    (Ok (if 100000000 <=? v then 9 else if 10000000 <=? v then 8 else if 1000000 <=? v then 7
         else if 100000 <=? v then 6 else if 10000 <=? v then 5 else if 1000 <=? v then 4
         else if 100 <=? v then 3 else if 10 <=? v then 2 else 1)).
(** __nanostrutil.h:433-456 *)
Definition decimalLength17 (v : Z) : res Z :=
  chk (v <? 100000000000000000)
    (Ok (if 10000000000000000 <=? v then 17 else if 1000000000000000 <=? v then 16
         else if 100000000000000 <=? v then 15 else if 10000000000000 <=? v then 14
         else if 1000000000000 <=? v then 13 else if 100000000000 <=? v then 12
         else if 10000000000 <=? v then 11 else if 1000000000 <=? v then 10
         else if 100000000 <=? v then 9 else if 10000000 <=? v then 8 else if 1000000 <=? v then 7
         else if 100000 <=? v then 6 else if 10000 <=? v then 5 else if 1000 <=? v then 4
         else if 100 <=? v then 3 else if 10 <=? v then 2 else 1)).

(** __nanostrutil.h:487-515: (low, high) halves of the 128-bit product *)
Definition umul128 (a b : Z) : Z * Z :=
  let aLo := u32 a in let aHi := u32 (a / 2 ^ 32) in
  let bLo := u32 b in let bHi := u32 (b / 2 ^ 32) in
  let b00 := u64 (aLo * bLo) in let b01 := u64 (aLo * bHi) in
  let b10 := u64 (aHi * bLo) in let b11 := u64 (aHi * bHi) in
  let b00Lo := u32 b00 in let b00Hi := u32 (b00 / 2 ^ 32) in
  let mid1 := u64 (b10 + b00Hi) in
  let mid1Lo := u32 mid1 in let mid1Hi := u32 (mid1 / 2 ^ 32) in
  let mid2 := u64 (b01 + mid1Lo) in
  let mid2Lo := u32 mid2 in let mid2Hi := u32 (mid2 / 2 ^ 32) in
  let pHi := u64 (b11 + mid1Hi + mid2Hi) in
  let pLo := Z.lor (u64 (mid2Lo * 2 ^ 32)) b00Lo in
  (pLo, pHi).
(** __nanostrutil.h:518-523 *)
Definition shiftright128 (lo hi dist : Z) : res Z :=
  chk ((0 <? dist) && (dist <? 64)) (Ok (Z.lor (u64 (hi * 2 ^ (64 - dist))) (lo / 2 ^ dist))).

(** __nanostrutil.h:531-539 (RYU_32_BIT_PLATFORM) *)
Definition umulh_32bit (a b : Z) : Z := snd (umul128 a b).
(** __nanostrutil.h:556-593 (RYU_32_BIT_PLATFORM) *)
Definition div5_32bit (x : Z) : Z := umulh_32bit x 0xCCCCCCCCCCCCCCCD / 2 ^ 2.
(** __nanostrutil.h:556-593, div10 *)
Definition div10_32bit (x : Z) : Z := umulh_32bit x 0xCCCCCCCCCCCCCCCD / 2 ^ 3.
(** __nanostrutil.h:556-593, div100 *)
Definition div100_32bit (x : Z) : Z := umulh_32bit (x / 2 ^ 2) 0x28F5C28F5C28F5C3 / 2 ^ 2.
(** __nanostrutil.h:556-593, div1e8 *)
Definition div1e8_32bit (x : Z) : Z := umulh_32bit x 0xABCC77118461CEFD / 2 ^ 26.
(** __nanostrutil.h:556-593, div1e9 *)
Definition div1e9_32bit (x : Z) : Z := umulh_32bit (x / 2 ^ 9) 0x44B82FA09B5A53 / 2 ^ 11.
(** __nanostrutil.h:556-593, mod1e9 *)
Definition mod1e9_32bit (x : Z) : Z := u32 (u32 x - u32 (1000000000 * u32 (div1e9_32bit x))).
(** __nanostrutil.h:597-625 *)
Definition div5 (x : Z) : Z := x / 5.
(** __nanostrutil.h:597-625, div10 *)
Definition div10 (x : Z) : Z := x / 10.
(** __nanostrutil.h:597-625, div100 *)
Definition div100 (x : Z) : Z := x / 100.
(** __nanostrutil.h:597-625, div1e8 *)
Definition div1e8 (x : Z) : Z := x / 100000000.
(** __nanostrutil.h:597-625, div1e9 *)
Definition div1e9 (x : Z) : Z := x / 1000000000.
(** __nanostrutil.h:597-625, mod1e9 *)
Definition mod1e9 (x : Z) : Z := u32 (u64 (x - u64 (1000000000 * div1e9 x))).

(** ((uint32_t) x) - n * ((uint32_t) q), the remainder idiom used at
    __nanostrutil.h:635, 939, 1013-1015, 1031, 1037, 1063, 1081, 1143, 1284 *)
Definition rem32 (x n q : Z) : Z := u32 (u32 x - u32 (n * u32 q)).

(** __nanostrutil.h:630-643 *)
Fixpoint pow5Factor_loop (fuel : nat) (value count : Z) : res Z :=
  match fuel with
  | O => UB NoReturn
  | S n =>
      chk (negb (value =? 0))
        (let q := div5 value in
         let r := rem32 value 5 q in
         if negb (r =? 0) then Ok count else pow5Factor_loop n q (count + 1))
  end.
(** __nanostrutil.h:630-643 *)
Definition pow5Factor (value : Z) : res Z := pow5Factor_loop 64 value 0.
(** __nanostrutil.h:647-650 *)
Definition multipleOfPowerOf5 (value p : Z) : res bool := x <- pow5Factor value ;; Ok (p <=? x).
(** __nanostrutil.h:654-659 *)
Definition multipleOfPowerOf2 (value p : Z) : res bool :=
  chk (negb (value =? 0) && (0 <=? p) && (p <? 64)) (Ok (Z.land value (2 ^ p - 1) =? 0)).

(** __nanostrutil.h:836-847 *)
Definition mulShift64 (m : Z) (mul : Z * Z) (j : Z) : res Z :=
  let '(low1, high1) := umul128 m (snd mul) in
  let '(_, high0) := umul128 m (fst mul) in
  let sum := u64 (high0 + low1) in
  let high1 := if sum <? high0 then u64 (high1 + 1) else high1 in
  shiftright128 sum high1 (j - 64).

(** __nanostrutil.h:851-882: (vr, vp, vm) *)
Definition mulShiftAll64 (m : Z) (mul : Z * Z) (j mmShift : Z) : res (Z * Z * Z) :=
  let mul0 := fst mul in let mul1 := snd mul in
  let m := u64 (m * 2) in
  let '(lo, tmp) := umul128 m mul0 in
  let '(lo1, hi) := umul128 m mul1 in
  let mid := u64 (tmp + lo1) in
  let hi := u64 (hi + b2z (mid <? tmp)) in
  let lo2 := u64 (lo + mul0) in
  let mid2 := u64 (mid + mul1 + b2z (lo2 <? lo)) in
  let hi2 := u64 (hi + b2z (mid2 <? mid)) in
  vp <- shiftright128 mid2 hi2 (j - 64 - 1) ;;
  vm <- (if mmShift =? 1 then
           let lo3 := u64 (lo - mul0) in
           let mid3 := u64 (mid - mul1 - b2z (lo <? lo3)) in
           let hi3 := u64 (hi - b2z (mid <? mid3)) in
           shiftright128 mid3 hi3 (j - 64 - 1)
         else
           let lo3 := u64 (lo + lo) in
           let mid3 := u64 (mid + mid + b2z (lo3 <? lo)) in
           let hi3 := u64 (hi + hi + b2z (mid3 <? mid)) in
           let lo4 := u64 (lo3 - mul0) in
           let mid4 := u64 (mid3 - mul1 - b2z (lo3 <? lo4)) in
           let hi4 := u64 (hi3 - b2z (mid3 <? mid4)) in
           shiftright128 mid4 hi4 (j - 64)) ;;
  vr <- shiftright128 mid hi (j - 64 - 1) ;;
  Ok (vr, vp, vm).

(** __nanostrutil.h:917-951: e2 >= 0 *)
Definition d2d_pos (e2 m2 mv mmShift : Z) (acceptBounds : bool) : res step3 :=
  lg <- log10Pow2 e2 ;;
  let q := u32 (lg - b2z (3 <? e2)) in
  pb <- pow5bits q ;;
  let k := DOUBLE_POW5_INV_BITCOUNT + pb - 1 in
  let i := - e2 + q + k in
  row <- tab DOUBLE_POW5_INV_SPLIT q ;;
  v <- mulShiftAll64 m2 row i mmShift ;;
  let '(vr, vp, vm) := v in
  if q <=? 21 then
    let mvMod5 := rem32 mv 5 (div5 mv) in
    if mvMod5 =? 0 then
      b <- multipleOfPowerOf5 mv q ;; Ok (Step3 vr vp vm q false b 0)
    else if acceptBounds then
      b <- multipleOfPowerOf5 (u64 (mv - 1 - mmShift)) q ;; Ok (Step3 vr vp vm q b false 0)
    else
      b <- multipleOfPowerOf5 (u64 (mv + 2)) q ;;
      Ok (Step3 vr (u64 (vp - b2z b)) vm q false false 0)
  else Ok (Step3 vr vp vm q false false 0).

(** __nanostrutil.h:952-991: e2 < 0 *)
Definition d2d_neg (e2 m2 mv mmShift : Z) (acceptBounds : bool) : res step3 :=
  lg <- log10Pow5 (- e2) ;;
  let q := u32 (lg - b2z (1 <? - e2)) in
  let e10 := q + e2 in
  let i := - e2 - q in
  pb <- pow5bits i ;;
  let k := pb - DOUBLE_POW5_BITCOUNT in
  let j := q - k in
  row <- tab DOUBLE_POW5_SPLIT i ;;
  v <- mulShiftAll64 m2 row j mmShift ;;
  let '(vr, vp, vm) := v in
  if q <=? 1 then
    if acceptBounds then Ok (Step3 vr vp vm e10 (mmShift =? 1) true 0)
    else Ok (Step3 vr (u64 (vp - 1)) vm e10 false true 0)
  else if q <? 63 then
    b <- multipleOfPowerOf2 mv q ;; Ok (Step3 vr vp vm e10 false b 0)
  else Ok (Step3 vr vp vm e10 false false 0).

(** __nanostrutil.h:1007-1023: general case, first loop *)
Fixpoint d2d_loop1 (fuel : nat) (s : loopst) : res loopst :=
  match fuel with
  | O => UB NoReturn
  | S n =>
      let vpDiv10 := div10 (lp s) in
      let vmDiv10 := div10 (lm s) in
      if vpDiv10 <=? vmDiv10 then Ok s
      else
        let vmMod10 := rem32 (lm s) 10 vmDiv10 in
        let vrDiv10 := div10 (lr s) in
        let vrMod10 := rem32 (lr s) 10 vrDiv10 in
        d2d_loop1 n (Loop vrDiv10 vpDiv10 vmDiv10
                          (lmZ s && (vmMod10 =? 0)) (lrZ s && (llast s =? 0))
                          (vrMod10 mod 256) (lremoved s + 1))
  end.
(** __nanostrutil.h:1028-1045: general case, second loop *)
Fixpoint d2d_loop2 (fuel : nat) (s : loopst) : res loopst :=
  match fuel with
  | O => UB NoReturn
  | S n =>
      let vmDiv10 := div10 (lm s) in
      let vmMod10 := rem32 (lm s) 10 vmDiv10 in
      if negb (vmMod10 =? 0) then Ok s
      else
        let vpDiv10 := div10 (lp s) in
        let vrDiv10 := div10 (lr s) in
        let vrMod10 := rem32 (lr s) 10 vrDiv10 in
        d2d_loop2 n (Loop vrDiv10 vpDiv10 vmDiv10 (lmZ s) (lrZ s && (llast s =? 0))
                          (vrMod10 mod 256) (lremoved s + 1))
  end.
(** __nanostrutil.h:1074-1087: common case; the state's [lrZ] field holds [roundUp] *)
Fixpoint d2d_loop3 (fuel : nat) (s : loopst) : res loopst :=
  match fuel with
  | O => UB NoReturn
  | S n =>
      let vpDiv10 := div10 (lp s) in
      let vmDiv10 := div10 (lm s) in
      if vpDiv10 <=? vmDiv10 then Ok s
      else
        let vrDiv10 := div10 (lr s) in
        let vrMod10 := rem32 (lr s) 10 vrDiv10 in
        d2d_loop3 n (Loop vrDiv10 vpDiv10 vmDiv10 (lmZ s) (5 <=? vrMod10) (llast s) (lremoved s + 1))
  end.

(** __nanostrutil.h:1000-1094: step 4, giving (output, removed) *)
Definition d2d_step4 (s : step3) (acceptBounds : bool) : res (Z * Z) :=
  if vmZ s || vrZ s then
    s1 <- d2d_loop1 64 (Loop (vr s) (vp s) (vm s) (vmZ s) (vrZ s) 0 0) ;;
    s2 <- (if lmZ s1 then d2d_loop2 64 s1 else Ok s1) ;;
    let last := if lrZ s2 && (llast s2 =? 5) && (lr s2 mod 2 =? 0) then 4 else llast s2 in
    Ok (u64 (lr s2 + b2z ((lr s2 =? lm s2) && (negb acceptBounds || negb (lmZ s2)) || (5 <=? last))),
        lremoved s2)
  else
    let vpDiv100 := div100 (vp s) in
    let vmDiv100 := div100 (vm s) in
    let s0 := if vmDiv100 <? vpDiv100 then
                let vrDiv100 := div100 (vr s) in
                let vrMod100 := rem32 (vr s) 100 vrDiv100 in
                Loop vrDiv100 vpDiv100 vmDiv100 false (50 <=? vrMod100) 0 2
              else Loop (vr s) (vp s) (vm s) false false 0 0 in
    s1 <- d2d_loop3 64 s0 ;;
    Ok (u64 (lr s1 + b2z ((lr s1 =? lm s1) || lrZ s1)), lremoved s1).

(** __nanostrutil.h:886-1107 *)
Definition d2d (ieeeMantissa ieeeExponent : Z) : res (Z * Z) :=
  let e2 := if ieeeExponent =? 0 then 1 - 1023 - 52 - 2 else ieeeExponent - 1023 - 52 - 2 in
  let m2 := if ieeeExponent =? 0 then ieeeMantissa else Z.lor (2 ^ 52) ieeeMantissa in
  let acceptBounds := Z.land m2 1 =? 0 in
  let mv := u64 (4 * m2) in
  let mmShift := b2z (negb (ieeeMantissa =? 0) || (ieeeExponent <=? 1)) in
  s <- (if 0 <=? e2 then d2d_pos e2 m2 mv mmShift acceptBounds
        else d2d_neg e2 m2 mv mmShift acceptBounds) ;;
  o <- d2d_step4 s acceptBounds ;;
  Ok (fst o, e10 s + snd o).

(** __nanostrutil.h:1220-1250: [Some (mantissa, exponent)] when the value is an integer below 2^53 *)
Definition d2d_small_int (ieeeMantissa ieeeExponent : Z) : option (Z * Z) :=
  let m2 := Z.lor (2 ^ 52) ieeeMantissa in
  let e2 := ieeeExponent - 1023 - 52 in
  if 0 <? e2 then None
  else if e2 <? -52 then None
  else
    let mask := 2 ^ (- e2) - 1 in
    let fraction := Z.land m2 mask in
    if negb (fraction =? 0) then None else Some (m2 / 2 ^ (- e2), 0).

(** __nanostrutil.h:1282-1290: trailing zeros into the exponent *)
Fixpoint strip_zeros (fuel : nat) (m e : Z) : res (Z * Z) :=
  match fuel with
  | O => UB NoReturn
  | S n =>
      let q := div10 m in
      let r := rem32 m 10 q in
      if negb (r =? 0) then Ok (m, e) else strip_zeros n q (e + 1)
  end.

(** __nanostrutil.h:1274-1293 *)
Definition d2s_decimal (ieeeMantissa ieeeExponent : Z) : res (Z * Z) :=
  match d2d_small_int ieeeMantissa ieeeExponent with
  | Some (m, e) => strip_zeros 64 m e
  | None => d2d ieeeMantissa ieeeExponent
  end.
