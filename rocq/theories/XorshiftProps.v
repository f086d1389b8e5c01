(** The priority generator of nanostl::map (C37). *)
From Coq Require Import NArith ZArith Lia.
From Verif Require Import XorshiftModel XorshiftProofs.
Open Scope N_scope.

(** One step maps 32-bit states to 32-bit states one-to-one and onto. *)
Theorem C37_step_is_bijection :
  (forall y, y < 2 ^ 32 -> xs_step y < 2 ^ 32) /\
  (forall y y', y < 2 ^ 32 -> y' < 2 ^ 32 -> xs_step y = xs_step y' -> y = y') /\
  (forall y, y < 2 ^ 32 -> exists x, x < 2 ^ 32 /\ xs_step x = y).
Proof. exact (conj xs_step_lt (conj steps_inj_state steps_surj)). Qed.
Print Assumptions C37_step_is_bijection.

(** From every non-zero state the generator first returns to that state after
    exactly 2^32 - 1 steps: all non-zero states form a single cycle. *)
Theorem C37_full_period : forall y n, 0 < y < 2 ^ 32 ->
  (N.iter n xs_step y = y <-> (2 ^ 32 - 1 | n)).
Proof.
  intros y n H. split; [apply (steps_exact y n H)|].
  intros [k ->]. apply (steps_fix_mul period y k). apply steps_period. apply H.
Qed.
Print Assumptions C37_full_period.

(** Zero is never produced, every priority fits 32 bits, and the first 2^32 - 1
    priorities are pairwise different. *)
Theorem C37_priorities_never_degenerate :
  (forall i, (0 < priority_rand i < 2 ^ 32)%Z) /\
  (forall i j, (i < j)%nat -> N.of_nat j < 2 ^ 32 - 1 -> priority_rand i <> priority_rand j).
Proof. exact (conj priority_rand_range priority_rand_distinct). Qed.
Print Assumptions C37_priorities_never_degenerate.

Example C37_case : priority_rand 0 = 723471715%Z /\ priority_rand 1 = 2497366906%Z /\
  xs_step 1 = 270369.
Proof. vm_compute. auto. Qed.
