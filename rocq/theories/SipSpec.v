(** SipHash-2-4 as in the published description (Aumasson, Bernstein 2012) with
    its 128-bit variant, written on 64-bit words and byte lists, independently
    of the code. *)
From Coq Require Import ZArith List.
Import ListNotations.
Open Scope Z_scope.

Definition add64 (a b : Z) : Z := (a + b) mod 2 ^ 64.
Definition rot (x b : Z) : Z := x * 2 ^ b mod 2 ^ 64 + x / 2 ^ (64 - b).
Definition word4 := (Z * Z * Z * Z)%type.

(** Figure 2.1 of the paper: two half-rounds in parallel columns. *)
Definition sip_round (s : word4) : word4 :=
  let '(a, b, c, d) := s in
  let a1 := add64 a b in let c1 := add64 c d in
  let b1 := Z.lxor (rot b 13) a1 in let d1 := Z.lxor (rot d 16) c1 in
  let a2 := rot a1 32 in
  let c2 := add64 c1 b1 in let a3 := add64 a2 d1 in
  let b2 := Z.lxor (rot b1 17) c2 in let d2 := Z.lxor (rot d1 21) a3 in
  let c3 := rot c2 32 in
  (a3, b2, c3, d2).

(** little-endian number of a byte list and back *)
Fixpoint le (l : list Z) : Z := match l with [] => 0 | b :: t => b + 256 * le t end.
Fixpoint to_le (n : nat) (v : Z) : list Z :=
  match n with O => [] | S k => v mod 256 :: to_le k (v / 256) end.

(** Message words: 8-byte little-endian words; the last one holds the remaining
    bytes and, in its top byte, the length modulo 256. *)
Fixpoint words (fuel : nat) (len : Z) (msg : list Z) : list Z :=
  match fuel with
  | O => []
  | S f => if Nat.ltb (length msg) 8
           then [le msg + (len mod 256) * 2 ^ 56]
           else le (firstn 8 msg) :: words f len (skipn 8 msg)
  end.

Definition compress (s : word4) (m : Z) : word4 :=
  let '(a, b, c, d) := s in
  let '(a, b, c, d) := sip_round (sip_round (a, b, c, Z.lxor d m)) in
  (Z.lxor a m, b, c, d).

Definition final_xor (s : word4) : Z :=
  let '(a, b, c, d) := s in Z.lxor (Z.lxor a b) (Z.lxor c d).
Definition four (s : word4) : word4 := sip_round (sip_round (sip_round (sip_round s))).

Definition init (key : list Z) (wide : bool) : word4 :=
  let k0 := le (firstn 8 key) in
  let k1 := le (skipn 8 key) in
  (Z.lxor k0 0x736f6d6570736575,
   Z.lxor (Z.lxor k1 0x646f72616e646f6d) (if wide then 0xee else 0),
   Z.lxor k0 0x6c7967656e657261,
   Z.lxor k1 0x7465646279746573).

Definition absorbed (key msg : list Z) (wide : bool) : word4 :=
  fold_left compress (words (S (length msg)) (Z.of_nat (length msg)) msg) (init key wide).

(** 8-byte digest *)
Definition siphash_2_4 (key msg : list Z) : list Z :=
  let '(a, b, c, d) := absorbed key msg false in
  to_le 8 (final_xor (four (a, b, Z.lxor c 0xff, d))).
(** 16-byte digest *)
Definition siphash_2_4_128 (key msg : list Z) : list Z :=
  let '(a, b, c, d) := absorbed key msg true in
  let s := four (a, b, Z.lxor c 0xee, d) in
  let '(a', b', c', d') := s in
  to_le 8 (final_xor s) ++ to_le 8 (final_xor (four (a', Z.lxor b' 0xdd, c', d'))).

Definition is_bytes (l : list Z) : Prop := Forall (fun b => 0 <= b < 256) l.
