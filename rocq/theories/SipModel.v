(** Model of src/hash.cc: SipHash-2-4. *)
From Coq Require Import ZArith List Bool.
From Verif Require Import Mem.
Import ListNotations.
Open Scope Z_scope.

(** uint64_t arithmetic wraps *)
Definition w64s (z : Z) : Z := z mod 2 ^ 64.

(** hash.cc:27 ROTL. *)
Definition rotl (x b : Z) : Z := Z.lor (w64s (Z.shiftl x b)) (Z.shiftr x (64 - b)).

(** p[i] for a const uint8_t* p pointing [off] bytes into the array [a]. *)
Definition rdb (a : list Z) (off i : Z) : res Z :=
  if (0 <=? off + i) && (off + i <? Z.of_nat (length a))
  then Ok (nth (Z.to_nat (off + i)) a 0) else UB OutOfBounds.

(** hash.cc:39-43 U8TO64_LE(p). *)
Definition u8to64_le (a : list Z) (off : Z) : res Z :=
  b0 <- rdb a off 0 ;; b1 <- rdb a off 1 ;; b2 <- rdb a off 2 ;; b3 <- rdb a off 3 ;;
  b4 <- rdb a off 4 ;; b5 <- rdb a off 5 ;; b6 <- rdb a off 6 ;; b7 <- rdb a off 7 ;;
  Ok (Z.lor (Z.lor (Z.lor (Z.lor (Z.lor (Z.lor (Z.lor b0
        (Z.shiftl b1 8)) (Z.shiftl b2 16)) (Z.shiftl b3 24)) (Z.shiftl b4 32))
        (Z.shiftl b5 40)) (Z.shiftl b6 48)) (Z.shiftl b7 56)).

(** out[i] = v for the output array. *)
Definition wrb (a : list Z) (off i v : Z) : res (list Z) :=
  if (0 <=? off + i) && (off + i <? Z.of_nat (length a))
  then Ok (set_nth a (Z.to_nat (off + i)) (v mod 256)) else UB OutOfBounds.

(** hash.cc:29-33 U32TO8_LE. *)
Definition u32to8_le (a : list Z) (off v : Z) : res (list Z) :=
  a0 <- wrb a off 0 v ;; a1 <- wrb a0 off 1 (Z.shiftr v 8) ;;
  a2 <- wrb a1 off 2 (Z.shiftr v 16) ;; wrb a2 off 3 (Z.shiftr v 24).
(** hash.cc:35-37 U64TO8_LE. *)
Definition u64to8_le (a : list Z) (off v : Z) : res (list Z) :=
  a1 <- u32to8_le a off (v mod 2 ^ 32) ;; u32to8_le a1 (off + 4) (Z.shiftr v 32 mod 2 ^ 32).

(** hash.cc:79-82: the four state words *)
Record st4 := St4 { v0 : Z; v1 : Z; v2 : Z; v3 : Z }.

(** hash.cc:45-61 SIPROUND, statement by statement. *)
Definition sipround (s : st4) : st4 :=
  let '(St4 v0 v1 v2 v3) := s in
  let v0 := w64s (v0 + v1) in
  let v1 := rotl v1 13 in
  let v1 := Z.lxor v1 v0 in
  let v0 := rotl v0 32 in
  let v2 := w64s (v2 + v3) in
  let v3 := rotl v3 16 in
  let v3 := Z.lxor v3 v2 in
  let v0 := w64s (v0 + v3) in
  let v3 := rotl v3 21 in
  let v3 := Z.lxor v3 v0 in
  let v2 := w64s (v2 + v1) in
  let v1 := rotl v1 17 in
  let v1 := Z.lxor v1 v2 in
  let v2 := rotl v2 32 in
  St4 v0 v1 v2 v3.

(** for (i = 0; i < n; ++i) SIPROUND (hash.cc:103-104, 132-133, 143-144, 155-156;
    cROUNDS = 2 and dROUNDS = 4 at lines 19-24). *)
Definition rounds (n : nat) (s : st4) : st4 := Nat.iter n sipround s.

(** v<i> ^= m (hash.cc:90-93, 96, 100, 106, 129, 135, 138, 140, 152). *)
Definition xor0 (m : Z) (s : st4) : st4 := St4 (Z.lxor (v0 s) m) (v1 s) (v2 s) (v3 s).
(** see xor0 *)
Definition xor1 (m : Z) (s : st4) : st4 := St4 (v0 s) (Z.lxor (v1 s) m) (v2 s) (v3 s).
(** see xor0 *)
Definition xor2 (m : Z) (s : st4) : st4 := St4 (v0 s) (v1 s) (Z.lxor (v2 s) m) (v3 s).
(** see xor0 *)
Definition xor3 (m : Z) (s : st4) : st4 := St4 (v0 s) (v1 s) (v2 s) (Z.lxor (v3 s) m).

(** hash.cc:100-106 and 129-135: v3 ^= m; cROUNDS rounds; v0 ^= m. *)
Definition absorb (m : Z) (s : st4) : st4 := xor0 m (rounds 2 (xor3 m s)).

(** hash.cc:79-96: initial constants, key and output length mixed in. *)
Definition sip_init (k0 k1 outlen : Z) : st4 :=
  let s := St4 0x736f6d6570736575 0x646f72616e646f6d 0x6c7967656e657261 0x7465646279746573 in
  let s := xor3 k1 s in
  let s := xor2 k0 s in
  let s := xor1 k1 s in
  let s := xor0 k0 s in
  if outlen =? 16 then xor1 0xee s else s.

(** b = v0 ^ v1 ^ v2 ^ v3 (hash.cc:146, 158). *)
Definition fold4 (s : st4) : Z := Z.lxor (Z.lxor (Z.lxor (v0 s) (v1 s)) (v2 s)) (v3 s).

(** hash.cc:137-144: v2 ^= 0xee or 0xff; dROUNDS rounds. *)
Definition finish (outlen : Z) (s : st4) : st4 :=
  rounds 4 (if outlen =? 16 then xor2 0xee s else xor2 0xff s).
(** hash.cc:152-156: v1 ^= 0xdd; dROUNDS rounds. *)
Definition finish2 (s : st4) : st4 := rounds 4 (xor1 0xdd s).

(** hash.cc:98-107 for (; in != end; in += 8); [fuel] is at least the number of
    blocks plus one (a pointer past the array faults first). *)
Fixpoint block_loop (fuel : nat) (a : list Z) (off end_ : Z) (s : st4) : res (Z * st4) :=
  if off =? end_ then Ok (off, s) else
  match fuel with
  | O => UB OutOfBounds
  | S f => m <- u8to64_le a off ;; block_loop f a (off + 8) end_ (absorb m s)
  end.

(** hash.cc:109-127 switch (left) with fall-through: cases left, left-1, ..., 1. *)
Fixpoint tail_switch (left : nat) (a : list Z) (off b : Z) : res Z :=
  match left with
  | O => Ok b
  | S j => x <- rdb a off (Z.of_nat j) ;;
           tail_switch j a off (Z.lor b (Z.shiftl x (8 * Z.of_nat j)))
  end.

(** hash.cc:75-162 siphash(in, inlen, k, out, outlen); the assert of line 78 is
    modelled as [Throw].  Returns the return value and the output array. *)
Definition siphash (inp : list Z) (inlen : Z) (k out : list Z) (outlen : Z) : res (Z * list Z) :=
  if negb ((outlen =? 8) || (outlen =? 16)) then Throw else
  k0 <- u8to64_le k 0 ;;
  k1 <- u8to64_le k 8 ;;
  '(off, s) <- block_loop (S (length inp)) inp 0 (inlen - inlen mod 8) (sip_init k0 k1 outlen) ;;
  b <- tail_switch (Z.to_nat (Z.land inlen 7)) inp off (w64s (Z.shiftl inlen 56)) ;;
  let s := finish outlen (absorb b s) in
  out <- u64to8_le out 0 (fold4 s) ;;
  if outlen =? 8 then Ok (0, out) else
  out <- u64to8_le out 8 (fold4 (finish2 s)) ;;
  Ok (0, out).
