(** Model of the treap priority generator (include/nanomap.h:48-56). *)
From Coq Require Import NArith ZArith.
Open Scope N_scope.

(** priority_type is unsigned int (nanomap.h:48): shifts wrap modulo 2^32. *)
Definition shl32 (y s : N) : N := N.shiftl y s mod 2 ^ 32.

(** nanomap.h:53-55: y ^= y << 13; y ^= y >> 17; y ^= y << 5. *)
Definition xs_step (y : N) : N :=
  let y1 := N.lxor y (shl32 y 13) in
  let y2 := N.lxor y1 (N.shiftr y1 17) in
  N.lxor y2 (shl32 y2 5).

(** nanomap.h:52 static initial state. *)
Definition xs_seed : N := 2463534242.

(** The value returned by the (n+1)-th call of priority_rand() (nanomap.h:51-56). *)
Definition priority_rand (n : nat) : Z :=
  Z.of_N (Nat.iter (S n) xs_step xs_seed).
