(** SipHash (C20).  Model: SipModel.v, published algorithm: SipSpec.v. *)
From Coq Require Import ZArith List Lia.
From Verif Require Import Mem SipModel SipSpec SipProofs.
Import ListNotations.
Open Scope Z_scope.

(** C20, 8-byte output.  The message, key and output arrays have exactly the
    stated lengths (plus [rest] after the output), so the outcome [Ok] says that
    only those bytes are read, and the unchanged [rest] that only 8 are written. *)
Theorem C20_siphash_64 : forall key msg out rest,
  length key = 16%nat -> is_bytes key -> is_bytes msg -> length out = 8%nat ->
  siphash msg (Z.of_nat (length msg)) key (out ++ rest) 8 = Ok (0, siphash_2_4 key msg ++ rest).
Proof.
  intros key msg out rest Lk Bk Bm Lo.
  pose proof (siphash_ok key msg out rest false Lk Bk Bm Lo) as H. rewrite Lo in H. exact H.
Qed.
Print Assumptions C20_siphash_64.

Theorem C20_siphash_128 : forall key msg out rest,
  length key = 16%nat -> is_bytes key -> is_bytes msg -> length out = 16%nat ->
  siphash msg (Z.of_nat (length msg)) key (out ++ rest) 16 = Ok (0, siphash_2_4_128 key msg ++ rest).
Proof.
  intros key msg out rest Lk Bk Bm Lo.
  pose proof (siphash_ok key msg out rest true Lk Bk Bm Lo) as H. rewrite Lo in H. exact H.
Qed.
Print Assumptions C20_siphash_128.

(** The vectors published with the algorithm (key 00..0f, message 00..0e; empty
    message for the 128-bit variant). *)
Definition upto (n : nat) : list Z := map Z.of_nat (seq 0 n).
Example C20_published_vectors :
  siphash_2_4 (upto 16) (upto 15) = [0xe5; 0x45; 0xbe; 0x49; 0x61; 0xca; 0x29; 0xa1] /\
  siphash_2_4 (upto 16) [] = [0x31; 0x0e; 0x0e; 0xdd; 0x47; 0xdb; 0x6f; 0x72] /\
  siphash_2_4_128 (upto 16) [] =
    [0xa3; 0x81; 0x7f; 0x04; 0xba; 0x25; 0xa8; 0xe6; 0x6d; 0xf6; 0x72; 0x14; 0xc7; 0x55; 0x02; 0x93].
Proof. vm_compute. repeat split. Qed.
Example C20_case : siphash (upto 15) 15 (upto 16) (repeat 7 9) 8 =
  Ok (0, [0xe5; 0x45; 0xbe; 0x49; 0x61; 0xca; 0x29; 0xa1; 7]).
Proof. vm_compute. reflexivity. Qed.
