(** C78-C81: atomic pointers, the timer, thread-local storage, the ends of threads. *)
From Coq Require Import ZArith List Bool Lia.
From Verif Require Import QueueModel OsModel.
Import ListNotations.
Local Open Scope Z_scope.

(** * C78: atomic pointers *)

(** What the documentation (libs_thread.h 367-399) says of each operation: the new value and
    the result. *)
Definition pdoc (o : pop) (v : Z) : Z * Z :=
  match o with
  | PLoad => (v, v)
  | PStore x => (x, 0)
  | PSwap x => (x, v)
  | PCas e d => (if v =? e then d else v, v)
  end.
Definition address (x : Z) : Prop := 0 <= x < 2 ^ 64.
Definition pargs (o : pop) : Prop :=
  match o with PLoad => True | PStore x | PSwap x => address x | PCas e d => address e /\ address d end.
(** A program of the threads in which each operation is one step of the documented kind. *)
Record pspec := PSpec { scell : Z; sprog : nat -> list pop; sresults : nat -> list Z }.
Definition sstep (t : nat) (m : pspec) : pspec :=
  match sprog m t with
  | [] => m
  | o :: os => PSpec (fst (pdoc o (scell m))) (fun u => if Nat.eqb u t then os else sprog m u)
                 (fun u => if Nat.eqb u t then snd (pdoc o (scell m)) :: sresults m t else sresults m u)
  end.
Definition srun (ts : list nat) (m : pspec) : pspec := fold_left (fun m t => sstep t m) ts m.
(** The operations that do what the documentation says. *)
Definition sound (p : platform) (o : pop) : bool :=
  match p, o with Gcc, (PStore _ | PSwap _) => false | _, _ => true end.

Lemma pone p o v : sound p o = true -> address v -> pargs o -> exists f, psteps p o = [f] /\ f v = pdoc o v /\ address (fst (pdoc o v)).
Proof.
  unfold address. intros S A P. destruct p, o; try discriminate S; cbn [psteps pdoc pargs fst] in *; eexists; (split; [reflexivity|]); cbn beta; split; auto;
    unfold address in *; rewrite ?Z.add_0_r, ?Z.mod_small by lia; auto.
  - destruct (Z.eqb_spec v 0); congruence.
  - destruct (v =? e); lia.
  - destruct (v =? e); lia.
Qed.

(** For any number of threads, any programs of them and any schedule: the results and the final
    value are those of the documented operations done one at a time in that order.  (Missing:
    store and swap with the GCC builtins, see the counterexamples.) *)
Theorem C78_atomic_ptr_partial : forall p (programs : nat -> list pop) (v : Z) (ts : list nat),
  address v -> (forall t o, In o (programs t) -> sound p o = true /\ pargs o) ->
  let m := prun p ts (PThreads v (fun _ => []) programs (fun _ => [])) in
  let d := srun ts (PSpec v programs (fun _ => [])) in
  pcell m = scell d /\ address (pcell m) /\ (forall t, presults m t = sresults d t /\ pprog m t = sprog d t /\ prest m t = []).
Proof.
  intros p programs v ts F A m d. subst m d.
  assert (K : forall ts m d, pcell m = scell d -> address (pcell m) -> (forall t, presults m t = sresults d t /\ pprog m t = sprog d t /\ prest m t = []) ->
    (forall t o, In o (sprog d t) -> sound p o = true /\ pargs o) ->
    let m' := prun p ts m in let d' := srun ts d in
    pcell m' = scell d' /\ address (pcell m') /\ (forall t, presults m' t = sresults d' t /\ pprog m' t = sprog d' t /\ prest m' t = [])).
  { clear. induction ts as [|t ts IH]; intros m d C F E A; [now split|]. cbn [prun srun fold_left].
    change (fold_left _ ts (pstep p t m)) with (prun p ts (pstep p t m)). change (fold_left _ ts (sstep t d)) with (srun ts (sstep t d)).
    destruct (E t) as (Et & Ep & Er). unfold pstep, sstep. rewrite Er, Ep. destruct (sprog d t) as [|o os] eqn:P; [now apply IH|].
    destruct (A t o) as [S G]; [rewrite P; now left|]. destruct (pone p o (pcell m) S F G) as (f & -> & Ef & F'). rewrite Ef, C in *. apply IH; cbn [pcell scell presults sresults pprog sprog prest]; auto.
    - intros u. destruct (E u) as (Eu & Eup & Eur). unfold upd. destruct (Nat.eqb u t); [|now split]. now rewrite Et.
    - intros u o' H. destruct (Nat.eqb u t); [|now apply (A u)]. apply (A t). rewrite P. now right. }
  apply K; auto.
Qed.
Print Assumptions C78_atomic_ptr_partial.

(** Threads that each try once to put their own pointer into a variable that is NULL, by
    compare_and_swap: whatever the schedule, the first to run gets NULL back and its pointer
    stays, and all others get that pointer. *)
Theorem C78_one_winner : forall p (own : nat -> Z) (first : nat) (ts : list nat),
  (forall t, address (own t) /\ own t <> 0) ->
  let m := prun p (first :: ts) (PThreads 0 (fun _ => []) (fun t => [PCas 0 (own t)]) (fun _ => [])) in
  pcell m = own first /\ presults m first = [0] /\
  (forall t, t <> first -> presults m t = if existsb (Nat.eqb t) ts then [own first] else []).
Proof.
  intros p own first ts O m. subst m. cbn [prun fold_left pstep prest pprog psteps]. cbn [Z.eqb fst snd pcell presults].
  change (fold_left _ ts ?m) with (prun p ts m).
  assert (K : forall ts m, prest m = upd (fun _ => []) first [] \/ (forall t, prest m t = []) -> pcell m = own first -> presults m first = [0] ->
     pprog m first = [] -> (forall t, t <> first -> (pprog m t = [PCas 0 (own t)] /\ presults m t = []) \/ (pprog m t = [] /\ presults m t = [own first])) ->
     let m' := prun p ts m in
     pcell m' = own first /\ presults m' first = [0] /\
     (forall t, t <> first -> presults m' t = if existsb (Nat.eqb t) ts then [own first] else presults m t)).
  { clear ts. induction ts as [|t ts IH]; intros m R C W Q E; cbv zeta; [now auto|]. cbn [prun fold_left]. change (fold_left _ ts ?m) with (prun p ts m).
    assert (R' : forall t, prest m t = []) by (destruct R as [->|R]; [intros u; unfold upd; now destruct (Nat.eqb u first)|exact R]). clear R.
    unfold pstep at 1. unfold pstep at 1. unfold pstep at 1. rewrite R'. destruct (Nat.eq_dec t first) as [->|N].
    - rewrite Q. destruct (IH m) as (I1 & I2 & I3); auto. split; [exact I1|]. split; [exact I2|]. intros u U. rewrite (I3 u U). cbn [existsb].
      destruct (Nat.eqb_spec u first); [contradiction|]. reflexivity.
    - destruct (E t N) as [[P1 P2]|[P1 P2]].
      + rewrite P1. replace (psteps p (PCas 0 (own t))) with [fun v => (if v =? 0 then own t else v, v)] by now destruct p. cbn [fst snd]. rewrite C.
        destruct (Z.eqb_spec (own first) 0) as [Z|_]; [now destruct (O first)|].
        destruct (IH (PThreads (own first) (upd (prest m) t []) (upd (pprog m) t []) (upd (presults m) t (own first :: presults m t)))) as (I1 & I2 & I3); cbn [pcell prest presults pprog].
        * right. intros u. unfold upd. destruct (Nat.eqb u t); auto.
        * reflexivity.
        * unfold upd. destruct (Nat.eqb_spec first t); [congruence|exact W].
        * unfold upd. destruct (Nat.eqb_spec first t); [congruence|exact Q].
        * intros u U. unfold upd. destruct (Nat.eqb_spec u t) as [->|]; [right; rewrite P2; auto|now apply E].
        * split; [exact I1|]. split; [exact I2|]. intros u U. rewrite (I3 u U). cbn [existsb presults]. unfold upd. rewrite P2.
          destruct (Nat.eqb u t); cbn [orb]; [now destruct (existsb _ ts)|reflexivity].
      + rewrite P1. destruct (IH m) as (I1 & I2 & I3); auto. split; [exact I1|]. split; [exact I2|]. intros u U. rewrite (I3 u U). cbn [existsb].
        destruct (Nat.eqb_spec u t) as [->|]; cbn [orb]; [|reflexivity]. rewrite P2. now destruct (existsb _ ts). }
  destruct p; cbn [fold_left pstep prest pprog psteps pcell presults fst snd Z.eqb];
    (edestruct K as (K1 & K2 & K3);
      [| | | | |split; [exact K1|]; split; [exact K2|]; intros t T; rewrite (K3 t T); cbn [presults]; unfold upd; destruct (Nat.eqb_spec t first); [contradiction|reflexivity]]);
    cbn [pcell prest presults pprog]; unfold upd; rewrite ?Nat.eqb_refl; auto; intros t T; destruct (Nat.eqb_spec t first); try contradiction; auto.
Qed.
Print Assumptions C78_one_winner.

(** With the GCC builtins a pointer stored or swapped in does not stay: whenever no store or
    swap is under way, the variable is NULL, for every program of stores and swaps and every
    schedule, so that the next load gives NULL. *)
Theorem C78_store_refuted :
  (forall (programs : nat -> list pop) (v : Z) (ts : list nat),
     (forall t o, In o (programs t) -> exists x, o = PStore x \/ o = PSwap x) ->
     let m := prun Gcc ts (PThreads v (fun _ => []) programs (fun _ => [])) in
     (forall t, prest m t = []) -> (exists t, presults m t <> []) -> pcell m = 0) /\
  (exists programs ts,
     let m := prun Gcc ts (PThreads 0 (fun _ => []) programs (fun _ => [])) in
     let d := srun [0; 0; 0]%nat (PSpec 0 programs (fun _ => [])) in
     presults m 0%nat = [0; 0; 0] /\ presults m 0%nat <> sresults d 0%nat).
Proof.
  split.
  - intros programs v ts A m. subst m.
    assert (K : forall ts m, (forall t o, In o (pprog m t) -> exists x, o = PStore x \/ o = PSwap x) ->
      (forall t f, In f (prest m t) -> forall y, fst (f y) = 0) ->
      pcell m = 0 \/ (exists t, prest m t <> []) \/ (forall t, presults m t = []) ->
      let m' := prun Gcc ts m in pcell m' = 0 \/ (exists t, prest m' t <> []) \/ (forall t, presults m' t = [])).
    { clear. induction ts as [|t ts IH]; intros m A B J; [exact J|]. cbn [prun fold_left]. change (fold_left _ ts ?m) with (prun Gcc ts m).
      apply IH; unfold pstep.
      - destruct (prest m t); [|exact A]. destruct (pprog m t) as [|o os] eqn:P; [exact A|]. destruct (psteps Gcc o); [exact A|].
        cbn [pprog]. intros u o' H. unfold upd in H. destruct (Nat.eqb u t); [|now apply (A u)]. apply (A t). rewrite P. now right.
      - destruct (prest m t) as [|f fs] eqn:R.
        + destruct (pprog m t) as [|o os] eqn:P; [exact B|]. destruct (A t o) as [x [->| ->]]; [rewrite P; now left| |];
            cbn [psteps prest]; intros u f H; unfold upd in H; (destruct (Nat.eqb u t); [|now apply (B u)]); destruct H as [<-|[]]; reflexivity.
        + cbn [prest]. intros u g H. unfold upd in H. destruct (Nat.eqb u t); [|now apply (B u)]. apply (B t). rewrite R. now right.
      - destruct (prest m t) as [|f fs] eqn:R.
        + destruct (pprog m t) as [|o os] eqn:P; [exact J|]. destruct (A t o) as [x [->| ->]]; [rewrite P; now left| |];
            cbn [psteps prest]; right; left; exists t; unfold upd; rewrite Nat.eqb_refl; discriminate.
        + left. cbn [pcell]. apply (B t). rewrite R. now left. }
    intros R [t T]. destruct (K ts (PThreads v (fun _ => []) programs (fun _ => []))) as [H|[[u U]|H]]; cbn [pprog prest pcell presults]; auto.
    + intros ? ? [].
    + now rewrite R in U.
    + now rewrite H in T.
  - exists (fun t => match t with O => [PStore 4096; PLoad; PSwap 8192] | _ => [] end), [0; 0; 0; 0; 0]%nat. vm_compute. split; [reflexivity|discriminate].
Qed.
Print Assumptions C78_store_refuted.

Example C78_case :
  let m := prun Win [0; 1; 0; 1; 1]%nat (PThreads 0 (fun _ => []) (fun t => match t with O => [PStore 4096; PSwap 8192] | _ => [PCas 4096 16; PCas 8192 32; PLoad] end) (fun _ => [])) in
  presults m 0%nat = [16; 0] /\ presults m 1%nat = [32; 8192; 4096] /\ pcell m = 32.
Proof. vm_compute. auto. Qed.
Example C78_winner_case :
  let m := prun Gcc [2; 0; 2; 1]%nat (PThreads 0 (fun _ => []) (fun t => [PCas 0 (Z.of_nat t + 100)]) (fun _ => [])) in
  pcell m = 102 /\ presults m 2%nat = [0] /\ presults m 0%nat = [102] /\ presults m 1%nat = [102] /\ presults m 7%nat = [].
Proof. vm_compute. auto 6. Qed.

(** * C79: the timer *)

Definition wake_ok (k : wake) : Prop := match k with Full late => 0 <= late | Signal e => 0 <= e end.
Definition is_full (k : wake) : bool := match k with Full _ => true | _ => false end.

Lemma signed_small w x : 0 < w -> 0 <= x < 2 ^ (w - 1) -> signed w x = x.
Proof.
  intros W H. assert (E : 2 ^ w = 2 * 2 ^ (w - 1)) by (rewrite <- Z.pow_succ_r by lia; f_equal; lia).
  unfold signed. rewrite Z.mod_small by lia. destruct (Z.ltb_spec x (2 ^ (w - 1))); lia.
Qed.

Lemma loop_ok ks : forall sec nsec t, 0 <= sec -> 0 <= nsec < 10 ^ 9 -> Forall wake_ok ks ->
  match sleep_loop sec nsec t ks with
  | Returned t' => exists late, t' = t + sec * 10 ^ 9 + nsec + late /\ (late = 0 \/ (0 <= late /\ In (Full late) ks))
  | Sleeping t' => t <= t' <= t + sec * 10 ^ 9 + nsec /\ existsb is_full ks = false
  | Uninit => False
  end.
Proof.
  induction ks as [|k ks IH]; intros sec nsec t S N F; cbn [sleep_loop]; [split; [nia|reflexivity]|].
  inversion F as [|? ? K F']; subst. unfold nanosleep.
  destruct (Z.ltb_spec sec 0); [lia|]. destruct (Z.ltb_spec nsec 0); [lia|]. destruct (Z.leb_spec (10 ^ 9) nsec); [lia|]. cbn [orb].
  destruct k as [late|e]; cbn [wake_ok] in K.
  - exists late. split; [lia|]. right. split; [lia|now left].
  - destruct (Z.ltb_spec e (sec * 10 ^ 9 + nsec)) as [L|L].
    + set (r := sec * 10 ^ 9 + nsec - e). assert (0 <= r) by (subst r; lia).
      assert (D : r = r / 10 ^ 9 * 10 ^ 9 + r mod 10 ^ 9) by (pose proof (Z.div_mod r (10 ^ 9)); lia).
      assert (0 <= r / 10 ^ 9) by (apply Z.div_pos; lia). assert (0 <= r mod 10 ^ 9 < 10 ^ 9) by (apply Z.mod_pos_bound; lia).
      specialize (IH (r / 10 ^ 9) (r mod 10 ^ 9) (t + e) ltac:(lia) ltac:(lia) F').
      assert (R : r + e = sec * 10 ^ 9 + nsec) by (subst r; lia). clearbody r.
      destruct (sleep_loop _ _ _ ks) as [t'|t'|]; [| |exact IH].
      * destruct IH as (late & E & I). exists late. split; [lia|]. destruct I as [I|[I1 I2]]; [now left|right; split; [lia|now right]].
      * destruct IH as [I1 I2]. split; [lia|exact I2].
    + exists 0. split; [lia|now left].
Qed.

(** Where time_t has w bits and the number of seconds fits: whatever signals arrive, every call
    of nanosleep is valid, the wait comes back only when at least the requested time has
    passed, and with no delay but that of the last nanosleep; it does come back once a
    nanosleep is not interrupted. *)
Theorem C79_posix : forall w ns ks, 32 <= w <= 64 -> 0 <= ns < 2 ^ 64 -> ns / 10 ^ 9 < 2 ^ (w - 1) -> Forall wake_ok ks ->
  match timer_posix w ns ks with
  | Returned t => ns <= t /\ (t = ns \/ In (Full (t - ns)) ks)
  | Sleeping t => t <= ns /\ existsb is_full ks = false
  | Uninit => False
  end.
Proof.
  intros w ns ks W N S F. unfold timer_posix. cbv zeta. change 1000000000 with (10 ^ 9).
  assert (D : ns = ns / 10 ^ 9 * 10 ^ 9 + ns mod 10 ^ 9) by (pose proof (Z.div_mod ns (10 ^ 9)); lia).
  assert (0 <= ns / 10 ^ 9) by (apply Z.div_pos; lia). assert (M : 0 <= ns mod 10 ^ 9 < 10 ^ 9) by (apply Z.mod_pos_bound; lia).
  rewrite (signed_small w (ns / 10 ^ 9)) by lia. replace (ns - ns / 10 ^ 9 * 10 ^ 9) with (ns mod 10 ^ 9) by lia.
  assert (P : 2 ^ 31 <= 2 ^ (w - 1)) by (apply Z.pow_le_mono_r; lia).
  rewrite (Z.mod_small (ns mod 10 ^ 9)) by (split; [lia|]; change (2 ^ 64) with 18446744073709551616; lia).
  rewrite (signed_small w (ns mod 10 ^ 9)) by lia.
  pose proof (loop_ok ks (ns / 10 ^ 9) (ns mod 10 ^ 9) 0 ltac:(lia) M F) as L. destruct (sleep_loop _ _ _ _) as [t|t|]; [| |exact L].
  - destruct L as (late & E & [->|[L1 L2]]); [split; [lia|left; lia]|]. split; [lia|]. right. replace (t - ns) with late by lia. exact L2.
  - split; [lia|]. apply L.
Qed.
Print Assumptions C79_posix.

(** The two sizes of time_t: 64 bits serve every argument, 32 bits those below 2^31 seconds. *)
Theorem C79_sizes : forall ns, 0 <= ns < 2 ^ 64 ->
  ns / 10 ^ 9 < 2 ^ 63 /\ (ns < 2 ^ 31 * 10 ^ 9 -> ns / 10 ^ 9 < 2 ^ 31).
Proof. intros ns H. split; [apply Z.div_lt_upper_bound; lia|]. intros L. apply Z.div_lt_upper_bound; lia. Qed.
Print Assumptions C79_sizes.

(** ... from there on, with 32 bits, nanosleep gets a negative number of seconds and the loop
    goes on with an uninitialised struct. *)
Theorem C79_small_time_t_refuted : forall s r late, 2 ^ 31 <= s < 2 ^ 32 -> 0 <= r < 10 ^ 9 ->
  0 <= s * 10 ^ 9 + r < 2 ^ 64 /\ timer_posix 32 (s * 10 ^ 9 + r) [Full late] = Uninit.
Proof.
  intros s r late H R. split; [lia|]. unfold timer_posix. cbv zeta. change 1000000000 with (10 ^ 9).
  replace ((s * 10 ^ 9 + r) / 10 ^ 9) with s by (apply Z.div_unique with r; lia).
  replace (signed 32 s) with (s - 2 ^ 32) by (unfold signed; rewrite Z.mod_small by lia; change (2 ^ (32 - 1)) with (2 ^ 31); destruct (Z.ltb_spec s (2 ^ 31)); lia).
  cbn [sleep_loop]. unfold nanosleep. destruct (Z.ltb_spec (s - 2 ^ 32) 0); [|lia]. reflexivity.
Qed.
Print Assumptions C79_small_time_t_refuted.

(** On Windows the time is cut to a multiple of 100 ns: the wait comes back at most 99 ns
    early ... *)
Theorem C79_windows_partial : forall ns late, 0 <= ns < 2 ^ 64 -> 0 <= late ->
  ns - 99 <= timer_win ns late /\ (late = 0 -> timer_win ns late <= ns) /\ (ns mod 100 = 0 -> timer_win ns late = ns + late).
Proof.
  intros ns late N L. unfold timer_win.
  assert (D : ns = 100 * (ns / 100) + ns mod 100) by (apply Z.div_mod; lia). pose proof (Z.mod_pos_bound ns 100 ltac:(lia)).
  assert (0 <= ns / 100 < 2 ^ 63) by (split; [apply Z.div_pos; lia|apply Z.div_lt_upper_bound; lia]).
  rewrite signed_small by (change (64 - 1) with 63; lia). destruct (Z.ltb_spec (- (ns / 100)) 0); lia.
Qed.
Print Assumptions C79_windows_partial.
(** ... and so does not wait for the requested time. *)
Theorem C79_windows_refuted : exists ns, 0 <= ns < 2 ^ 64 /\ timer_win ns 0 = ns - 99.
Proof. exists 1000000099. vm_compute. repeat split; discriminate. Qed.
Print Assumptions C79_windows_refuted.

Example C79_case : timer_posix 64 2500000000 [Signal 700000001; Signal 1000000000; Full 50] = Returned 2500000050
  /\ timer_posix 32 2500000000 [Signal 700000001; Signal 3] = Sleeping 700000004
  /\ timer_win 2500000050 7 = 2500000007.
Proof. vm_compute. auto. Qed.
