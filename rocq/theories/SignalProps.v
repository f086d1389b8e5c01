(** Properties of thread_signal_raise and thread_signal_wait: see properties.jsonl, C59. *)
From Coq Require Import ZArith List Bool PeanoNat Lia.
From Verif Require Import SignalModel SignalProofs.
Import ListNotations.

(** Between lock and unlock there is at most one thread. *)
Theorem C59_mutual_exclusion n programs ms :
  let s := run n ms (start programs) in
  forall t u, critical (at_ s t) = true -> critical (at_ s u) = true -> t = u.
Proof. intros s t u T U. destruct (reach_excl n programs ms) as (X & _). apply X in T, U. congruence. Qed.
Print Assumptions C59_mutual_exclusion.

(** The waits that have returned 1 are not more than the raises begun: a raise lets at most
    one wait through. *)
Theorem C59_one_wait_per_raise n programs ms :
  let s := run n ms (start programs) in
  total n (fun t => length (filter (fun r => r) (res s t))) + total n (fun t => length (filter is_raise (prog s t)))
    <= total n (fun t => length (filter is_raise (programs t))).
Proof.
  intros s. destruct (reach_counts n programs ms) as (_ & A & _). fold s in A.
  assert (total n (fun t => length (filter (fun r => r) (res s t))) <= total n (won s)) by (apply total_le; intros; unfold won, wins; lia).
  assert (total n (fun t => length (filter is_raise (prog s t))) <= total n (unset s)) by (apply total_le; intros; unfold unset, raises; lia).
  unfold raises in A. lia.
Qed.
Print Assumptions C59_one_wait_per_raise.

(** A raise is not forgotten: when no call is under way and a raise has been made, the
    signal is still up or a wait has returned 1. *)
Theorem C59_signal_kept n programs ms :
  let s := run n ms (start programs) in
  (forall t, at_ s t = Idle) ->
  total n (fun t => length (filter is_raise (prog s t))) < total n (fun t => length (filter is_raise (programs t))) ->
  value s = true \/ exists t, In true (res s t).
Proof.
  intros s I R. destruct (reach_counts n programs ms) as (_ & A & B). fold s in A, B.
  destruct (value s); [now left|right]. cbn [b2n] in B.
  assert (U : total n (unset s) = total n (fun t => length (filter is_raise (prog s t)))) by (apply total_ext; intros; unfold unset, raises; rewrite I; cbn [raise_ahead]; lia).
  unfold raises in B. assert (W : 1 <= total n (won s)) by (rewrite U in B; specialize (B R); lia).
  destruct (total_pos n _ W) as (t & L & T). exists t. unfold won, wins in T. rewrite I in T. cbn [wait_won] in T.
  destruct (filter (fun b => b) (res s t)) as [|b l] eqn:F; [cbn in T; lia|].
  assert (K : In b (filter (fun b => b) (res s t))) by (rewrite F; now left). apply filter_In in K as [K ->]. exact K.
Qed.
Print Assumptions C59_signal_kept.

(** If no wait times out, no wakeup is lost: when no thread can go on, each has finished or
    sleeps in a wait, and if one sleeps the signal is down.  Hence no deadlock. *)
Theorem C59_no_lost_wakeup n programs ms : (forall t, ~ In (Timeout t) ms) ->
  let s := run n ms (start programs) in
  (forall t u, step n (Go t u) s = None) ->
  (forall t, t < n -> (at_ s t = Idle /\ prog s t = []) \/ asleep (at_ s t) = true)
  /\ ((exists t, asleep (at_ s t) = true) -> value s = false).
Proof.
  intros NT s St. pose proof (stuck n s (reach_excl n programs ms) St) as K. split; [exact K|].
  intros Sl. destruct (value s) eqn:V; [|reflexivity]. destruct (reach_lively n programs ms NT V Sl) as (u & U). fold s in U.
  destruct (Nat.lt_ge_cases u n) as [L|G].
  - destruct (K u L) as [[A _]|A]; destruct (at_ s u); discriminate.
  - destruct (reach_excl n programs ms) as (_ & Y & _). fold s in Y. rewrite (Y u G) in U. discriminate U.
Qed.
Print Assumptions C59_no_lost_wakeup.

(** With time-outs the same holds if only one thread waits, as in the thread queue. *)
Theorem C59_single_waiter n programs ms w : (forall t, t <> w -> Forall (fun c => c = Raise) (programs t)) ->
  let s := run n ms (start programs) in
  (forall t u, step n (Go t u) s = None) ->
  (forall t, t < n -> (at_ s t = Idle /\ prog s t = []) \/ asleep (at_ s t) = true)
  /\ ((exists t, asleep (at_ s t) = true) -> value s = false).
Proof.
  intros O s St. pose proof (stuck n s (reach_excl n programs ms) St) as K. split; [exact K|].
  intros (t & Sl). destruct (value s) eqn:V; [|reflexivity]. destruct (reach_lively1 n w programs ms O) as [N H]. fold s in N, H.
  assert (t = w) as ->. { destruct (Nat.eq_dec t w) as [|D]; [assumption|]. destruct (N t D) as [W _]. destruct (at_ s t); discriminate. }
  destruct (H V Sl) as (u & U).
  destruct (Nat.lt_ge_cases u n) as [L|G].
  - destruct (K u L) as [[A _]|A]; destruct (at_ s u); discriminate.
  - destruct (reach_excl n programs ms) as (_ & Y & _). fold s in Y. rewrite (Y u G) in U. discriminate U.
Qed.
Print Assumptions C59_single_waiter.

(** With several waiters and time-outs a wakeup can be lost: thread 1 waits with a time
    limit, thread 2 without, thread 0 raises; the signal goes to thread 1, whose time runs
    out before it has the mutex; thread 2 sleeps on although the signal is up. *)
Theorem C59_timed_waiters_refuted : exists programs ms,
  let s := run 3 ms (start programs) in
  (forall t u, step 3 (Go t u) s = None) /\ at_ s 2 = WSleep false /\ value s = true /\ res s 1 = [false].
Proof.
  exists (fun t => match t with 0 => [Raise] | 1 => [Wait true] | 2 => [Wait false] | _ => [] end).
  exists ([Go 1 0; Go 1 0; Go 1 0; Go 2 0; Go 2 0; Go 2 0; Go 0 0; Go 0 0; Go 0 0; Go 0 0; Go 0 1; Timeout 1; Go 1 0; Go 1 0]).
  cbv zeta. repeat split. intros [|[|[|t]]] u; vm_compute; reflexivity.
Qed.
Print Assumptions C59_timed_waiters_refuted.

(** The deadline is a proper timespec, [ms] milliseconds after the given time, and nothing
    overflows on the way (int product, 64-bit time). *)
Theorem C59_deadline now_sec usec ms : (0 <= now_sec < 2^62 -> 0 <= usec < 1000000 -> 0 <= ms < 2^31 ->
  let '(sec, nsec) := deadline now_sec usec ms in
  0 <= nsec < 1000000000 /\ 0 <= sec < 2^63 /\ sec * 1000000000 + nsec = now_sec * 1000000000 + usec * 1000 + ms * 1000000
  /\ 0 <= 1000 * 1000 * Z.rem ms 1000 < 2^31)%Z.
Proof.
  intros N U M. unfold deadline. rewrite !Z.quot_div_nonneg, !Z.rem_mod_nonneg by (try rewrite Z.rem_mod_nonneg by lia; try (pose proof (Z.mod_pos_bound ms 1000)); lia).
  pose proof (Z.mod_pos_bound ms 1000 ltac:(lia)). pose proof (Z.div_mod ms 1000 ltac:(lia)).
  set (x := (usec * 1000 + 1000 * 1000 * (ms mod 1000))%Z) in *.
  change (1000 * 1000 * 1000)%Z with 1000000000%Z.
  pose proof (Z.mod_pos_bound x 1000000000 ltac:(lia)). pose proof (Z.div_mod x 1000000000 ltac:(lia)).
  assert (0 <= x / 1000000000)%Z by (apply Z.div_pos; lia). assert (0 <= ms / 1000)%Z by (apply Z.div_pos; lia).
  repeat split; lia.
Qed.
Print Assumptions C59_deadline.

(** Two waiters and two raises, the waiters asleep before either raise: each wait gets one. *)
Example C59_case :
  let programs := fun t => match t with 0 => [Raise; Raise] | 1 => [Wait false] | 2 => [Wait true] | _ => [] end in
  let ms := [Go 1 0; Go 1 0; Go 1 0; Go 2 0; Go 2 0; Go 2 0] ++ repeat (Go 0 2) 5 ++ repeat (Go 2 0) 4 ++ repeat (Go 0 1) 5 ++ repeat (Go 1 0) 4 in
  let s := run 3 ms (start programs) in
  res s 1 = [true] /\ res s 2 = [true] /\ value s = false /\ (forall t, at_ s t = Idle)
  /\ asleep (at_ (run 3 (firstn 8 ms) (start programs)) 1) = true
  /\ (forall t, ~ In (Timeout t) ms) /\ (forall t u, step 3 (Go t u) s = None)
  /\ deadline 5 999999 2001 = (8, 999000)%Z.
Proof.
  cbv zeta. split; [vm_compute; reflexivity|]. split; [vm_compute; reflexivity|]. split; [vm_compute; reflexivity|].
  split; [intros [|[|[|t]]]; vm_compute; reflexivity|]. split; [vm_compute; reflexivity|].
  split; [intros t H; cbn in H; intuition discriminate|]. split; [intros [|[|[|t]]] u; vm_compute; reflexivity|vm_compute; reflexivity].
Qed.
