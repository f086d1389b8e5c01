(** Properties of the atomic integers and of the queue of src/libs_thread.h. *)
From Coq Require Import ZArith List Bool Lia.
From Verif Require Import QueueModel QueueSpec QueueProofs.
Import ListNotations.
Local Open Scope Z_scope.

(** * C57: atomic integers *)

(** What the documentation (libs_thread.h 305-362) says of each operation on a variable of
    type int: the new value and the result. *)
Definition doc (o : aop) (i : Z) : Z * Z :=
  match o with
  | Load => (i, i)
  | Store x => (x, 0)
  | Inc => (to_int (i + 1), i)
  | Dec => (to_int (i - 1), i)
  | Add x => (to_int (i + x), i)
  | Sub x => (to_int (i - x), i)
  | Swap x => (x, i)
  | Cas e d => (if i =? e then d else i, i)
  end.

(** The arguments of the operations are ints. *)
Definition args_fit (o : aop) : Prop :=
  match o with Store x | Add x | Sub x | Swap x => fits x | Cas e d => fits e /\ fits d | _ => True end.

(** Threads that work on one atomic variable: what is left of the current operation of each
    thread, its further operations, and the results so far (latest first). *)
Record threads := Threads { cell : Z; rest : nat -> list (Z -> Z * Z); prog : nat -> list aop; results : nat -> list Z }.
Definition at_ {A} (f : nat -> A) (t : nat) (a : A) : nat -> A := fun u => if Nat.eqb u t then a else f u.
Definition thread_step (p : platform) (t : nat) (m : threads) : threads :=
  match rest m t with
  | f :: fs => Threads (fst (f (cell m))) (at_ (rest m) t fs) (prog m) (results m)
  | [] => match prog m t with
          | [] => m
          | o :: os => match steps p o with
                       | [] => m
                       | f :: fs => Threads (fst (f (cell m))) (at_ (rest m) t fs) (at_ (prog m) t os) (at_ (results m) t (snd (f (cell m)) :: results m t))
                       end
          end
  end.
Definition threads_run (p : platform) (ts : list nat) (m : threads) : threads := fold_left (fun m t => thread_step p t m) ts m.
(** The same programs on a variable of type int where every operation is one step and does
    what the documentation says. *)
Definition doc_step (t : nat) (m : threads) : threads :=
  match prog m t with
  | [] => m
  | o :: os => Threads (fst (doc o (cell m))) (rest m) (at_ (prog m) t os) (at_ (results m) t (snd (doc o (cell m)) :: results m t))
  end.
Definition doc_run (ts : list nat) (m : threads) : threads := fold_left (fun m t => doc_step t m) ts m.

Definition simple (p : platform) (o : aop) : bool :=
  match p, o with Gcc, Store _ | Gcc, Swap _ | Gcc, Cas _ _ => false | _, _ => true end.

Lemma to_int_range x : fits (to_int x).
Proof.
  unfold fits, to_int, signed. pose proof (Z.mod_pos_bound x (2 ^ 32) ltac:(lia)). change (2 ^ (32 - 1)) with (2 ^ 31). destruct (Z.ltb_spec (x mod 2 ^ 32) (2 ^ 31)); lia.
Qed.
Lemma signed_mod w x : 32 <= w -> signed w x mod 2 ^ 32 = x mod 2 ^ 32.
Proof.
  intros W. unfold signed. assert (D : 2 ^ w = 2 ^ (w - 32) * 2 ^ 32) by (rewrite <- Z.pow_add_r by lia; f_equal; lia).
  assert (E : (x mod 2 ^ w) mod 2 ^ 32 = x mod 2 ^ 32).
  { symmetry. rewrite (Z.div_mod x (2 ^ w)) at 1 by lia. rewrite D at 1. replace (2 ^ (w - 32) * 2 ^ 32 * (x / 2 ^ w) + x mod 2 ^ w) with (x mod 2 ^ w + (2 ^ (w - 32) * (x / 2 ^ w)) * 2 ^ 32) by ring. apply Z.mod_add. lia. }
  destruct (Z.ltb_spec (x mod 2 ^ w) (2 ^ (w - 1))); [exact E|]. rewrite D at 2.
  replace (x mod 2 ^ w - 2 ^ (w - 32) * 2 ^ 32) with (x mod 2 ^ w + (- 2 ^ (w - 32)) * 2 ^ 32) by ring. rewrite Z.mod_add by lia. exact E.
Qed.
Lemma to_int_ext x y : x mod 2 ^ 32 = y mod 2 ^ 32 -> to_int x = to_int y.
Proof. intros E. unfold to_int, signed. now rewrite E. Qed.
Lemma to_int_mod x : to_int x mod 2 ^ 32 = x mod 2 ^ 32.
Proof. apply signed_mod. lia. Qed.
Lemma to_int_long p x : to_int (long p x) = to_int x.
Proof. apply to_int_ext. unfold long. apply signed_mod. destruct p; lia. Qed.
Lemma to_int_add x y : to_int (to_int x + y) = to_int (x + y).
Proof. apply to_int_ext. rewrite <- Z.add_mod_idemp_l by lia. rewrite to_int_mod. now rewrite Z.add_mod_idemp_l by lia. Qed.
Lemma long_win x : long Win x = to_int x.
Proof. reflexivity. Qed.

(* the cell of the machine and that of the documentation *)
Definition related (p : platform) (c d : Z) : Prop := match p with Win => c = d /\ fits c | Gcc => to_int c = d end.

Lemma one_step p o c d : simple p o = true -> args_fit o -> related p c d ->
  exists f, steps p o = [f] /\ related p (fst (f c)) (fst (doc o d)) /\ snd (f c) = snd (doc o d).
Proof.
  intros S A R. destruct p; cbn in R.
  - destruct R as [-> F]. pose proof (to_int_id _ F) as T. destruct o; cbn [steps]; eexists; (split; [reflexivity|]); cbn [fst snd doc related args_fit] in *; rewrite ?long_win, ?T.
    + auto.
    + rewrite (to_int_id _ A). auto.
    + repeat split; apply to_int_range.
    + repeat split; apply to_int_range.
    + repeat split; apply to_int_range.
    + repeat split; apply to_int_range.
    + rewrite (to_int_id _ A). auto.
    + destruct A as [A1 A2]. rewrite (to_int_id _ A2). destruct (d =? e); auto.
  - subst d. destruct o; try discriminate S; cbn [steps]; eexists; (split; [reflexivity|]); cbn [fst snd doc related]; rewrite ?to_int_long; auto.
    + now rewrite to_int_add.
    + unfold Z.sub. now rewrite to_int_add.
    + now rewrite to_int_add.
    + unfold Z.sub. now rewrite to_int_add.
Qed.

(** Any number of threads that use load, inc, dec, add, sub (on Windows all operations) on
    one atomic integer, in any interleaving: every result, and the value seen by a later
    load, are those of the documented operations done one at a time in that order, on ints
    that wrap around.  (Missing: store, swap and compare_and_swap with the GCC builtins,
    see the counterexamples.) *)
Theorem C57_atomic_ops_partial : forall p (programs : nat -> list aop) (i : Z) (ts : list nat),
  fits i -> (forall t o, In o (programs t) -> simple p o = true /\ args_fit o) ->
  let m := threads_run p ts (Threads i (fun _ => []) programs (fun _ => [])) in
  let d := doc_run ts (Threads i (fun _ => []) programs (fun _ => [])) in
  to_int (cell m) = cell d /\ (forall t, results m t = results d t /\ prog m t = prog d t /\ rest m t = []).
Proof.
  intros p programs i ts F A m d. subst m d.
  assert (K : forall ts m d, related p (cell m) (cell d) -> (forall t, results m t = results d t /\ prog m t = prog d t /\ rest m t = []) ->
    (forall t o, In o (prog d t) -> simple p o = true /\ args_fit o) ->
    let m' := threads_run p ts m in let d' := doc_run ts d in related p (cell m') (cell d') /\ (forall t, results m' t = results d' t /\ prog m' t = prog d' t /\ rest m' t = [])).
  { clear. induction ts as [|t ts IH]; intros m d R E A; [now split|]. cbn [threads_run doc_run fold_left]. apply IH.
    - destruct (E t) as (_ & Ep & Er). unfold thread_step, doc_step. rewrite Er, Ep. destruct (prog d t) as [|o os] eqn:P; [exact R|].
      destruct (A t o) as [S F]; [rewrite P; now left|]. destruct (one_step p o (cell m) (cell d) S F R) as (f & -> & R' & _). exact R'.
    - intros u. destruct (E t) as (Et & Ep & Er), (E u) as (Eu & Eup & Eur). unfold thread_step, doc_step. rewrite Er, Ep. destruct (prog d t) as [|o os] eqn:P; [now split|].
      destruct (A t o) as [S F]; [rewrite P; now left|]. destruct (one_step p o (cell m) (cell d) S F R) as (f & -> & _ & R'). cbn [results prog rest]. unfold at_.
      destruct (Nat.eqb u t); [|now split]. now rewrite R', Et.
    - intros u o H. unfold doc_step in H. destruct (prog d t) as [|o' os] eqn:P; [now apply (A u)|]. cbn [prog] in H. unfold at_ in H. destruct (Nat.eqb u t); [|now apply (A u)]. apply (A t). rewrite P. now right. }
  destruct (K ts (Threads i (fun _ => []) programs (fun _ => [])) (Threads i (fun _ => []) programs (fun _ => []))) as [R E].
  - destruct p; cbn; [auto|now apply to_int_id].
  - auto.
  - exact A.
  - split; [|exact E]. destruct p; cbn in R; [destruct R as [R F']; rewrite R in *; now apply to_int_id|exact R].
Qed.
Print Assumptions C57_atomic_ops_partial.

(** A shared counter: threads that only increment it get different numbers, and the final
    value is the number of calls (fewer than 2^31). *)
Lemma incs_numbers ts (programs : nat -> list aop) : (forall t o, In o (programs t) -> o = Inc) -> Z.of_nat (length ts) < 2 ^ 31 ->
  let d := doc_run ts (Threads 0 (fun _ => []) programs (fun _ => [])) in
  0 <= cell d <= Z.of_nat (length ts) /\ (forall t x, In x (results d t) -> 0 <= x < cell d) /\ (forall t, NoDup (results d t)) /\
  (forall t u x, In x (results d t) -> In x (results d u) -> t = u) /\ (forall t o, In o (prog d t) -> o = Inc).
Proof.
  intros A. revert ts. apply (rev_ind (fun ts => Z.of_nat (length ts) < 2 ^ 31 -> let d := doc_run ts (Threads 0 (fun _ => []) programs (fun _ => [])) in
     0 <= cell d <= Z.of_nat (length ts) /\ (forall t x, In x (results d t) -> 0 <= x < cell d) /\ (forall t, NoDup (results d t)) /\
     (forall t u x, In x (results d t) -> In x (results d u) -> t = u) /\ (forall t o, In o (prog d t) -> o = Inc))).
  - intros _. cbn. repeat split; try lia; try contradiction; [constructor|exact A].
  - intros t ts IH L. rewrite app_length in *. cbn [length] in *. specialize (IH ltac:(lia)). cbv zeta in *. unfold doc_run. rewrite fold_left_app. cbn [fold_left].
    change (fold_left (fun m t0 => doc_step t0 m) ts _) with (doc_run ts (Threads 0 (fun _ => []) programs (fun _ => []))). set (d := doc_run ts _) in *.
    destruct IH as (C & B & N & U & P). unfold doc_step. destruct (prog d t) as [|o os] eqn:Pt; [split; [lia|]; auto|].
    rewrite (P t o) by (rewrite Pt; now left). cbn [doc fst snd cell results prog]. rewrite to_int_id by (unfold fits; lia). unfold at_. repeat split; try lia.
    + destruct (Nat.eqb t0 t); [destruct H as [<-|H]; [lia|]|]; apply B in H; lia.
    + destruct (Nat.eqb t0 t); [destruct H as [<-|H]; [lia|]|]; apply B in H; lia.
    + intros u. destruct (Nat.eqb_spec u t); [|apply N]. subst. constructor; [|apply N]. intros H. apply B in H. lia.
    + intros u v x Hu Hv. destruct (Nat.eqb_spec u t), (Nat.eqb_spec v t); subst; auto; [destruct Hu as [<-|Hu]|destruct Hv as [<-|Hv]|];
        try (match goal with H : In (cell d) _ |- _ => apply B in H; lia end); eapply U; eauto.
    + intros u o' H. destruct (Nat.eqb u t); [|now apply (P u)]. apply (P t). rewrite Pt. now right.
Qed.
Theorem C57_tickets : forall p (programs : nat -> list aop) (ts : list nat),
  (forall t o, In o (programs t) -> o = Inc) -> Z.of_nat (length ts) < 2 ^ 31 ->
  let m := threads_run p ts (Threads 0 (fun _ => []) programs (fun _ => [])) in
  (forall t, NoDup (results m t)) /\ (forall t u x, In x (results m t) -> In x (results m u) -> t = u) /\
  (forall t x, In x (results m t) -> 0 <= x < to_int (cell m)).
Proof.
  intros p programs ts A L m. destruct (C57_atomic_ops_partial p programs 0 ts) as [C E]; [unfold fits; lia|intros t o H; rewrite (A t o H); now destruct p|].
  destruct (incs_numbers ts programs A L) as (_ & B & N & U & _). cbv zeta in *. fold m in C, E. repeat split.
  - intros t. destruct (E t) as (-> & _). apply N.
  - intros t u x. destruct (E t) as (-> & _), (E u) as (-> & _). apply U.
  - destruct (E t) as (Et & _). rewrite Et in H. apply B in H. lia.
  - destruct (E t) as (Et & _). rewrite Et in H. apply B in H. lia.
Qed.
Print Assumptions C57_tickets.

(** With the GCC builtins, storing anything leaves 0 in the variable, and so does swapping:
    __sync_lock_release writes 0. *)
Theorem C57_store_refuted : forall x i, fst (atomic Gcc (Store x) i) = 0 /\ exists y, fits y /\ fst (atomic Gcc (Store y) i) <> fst (doc (Store y) i).
Proof. intros x i. split; [reflexivity|]. exists 5. split; [unfold fits; lia|]. cbn. discriminate. Qed.
Print Assumptions C57_store_refuted.
Theorem C57_swap_refuted : forall x i, fst (atomic Gcc (Swap x) i) = 0 /\ exists y, fits y /\ fst (atomic Gcc (Swap y) i) <> fst (doc (Swap y) i).
Proof. intros x i. split; [reflexivity|]. exists 5. split; [unfold fits; lia|]. cbn. discriminate. Qed.
Print Assumptions C57_swap_refuted.

(** ... and compare_and_swap of the value that load returns can fail for ever: after an
    increment past the largest int the 64-bit variable is no longer an int. *)
Theorem C57_cas_refuted : exists programs ts,
  let m := threads_run Gcc ts (Threads (2 ^ 31 - 1) (fun _ => []) programs (fun _ => [])) in
  results m 0%nat = [- 2 ^ 31; - 2 ^ 31; - 2 ^ 31; 2 ^ 31 - 1] /\ prog m 0%nat = [].
Proof.
  exists (fun t => match t with O => [Inc; Load; Cas (- 2 ^ 31) 7; Load] | _ => [] end), [0; 0; 0; 0]%nat. vm_compute. auto.
Qed.
Print Assumptions C57_cas_refuted.

Example C57_case :
  let m := threads_run Gcc [0; 1; 0; 1; 1]%nat (Threads 10 (fun _ => []) (fun t => match t with O => [Inc; Load] | _ => [Add 5; Dec; Load] end) (fun _ => [])) in
  results m 0%nat = [16; 10] /\ results m 1%nat = [15; 16; 11] /\ cell m = 15.
Proof. vm_compute. auto. Qed.

(** * C58: the queue *)

Section Laws.
  Context {V : Type} (p : platform).
  Lemma serve_app n (q : list V) a b : serve n q (a ++ b) = (fst (serve n q a) ++ fst (serve n (snd (serve n q a)) b), snd (serve n (snd (serve n q a)) b)).
  Proof.
    revert q. induction a as [|[v|] a IH]; intros q; cbn [app serve fst snd]; [now destruct (serve n q b)| |].
    - destruct (length q <? n)%nat; rewrite IH; destruct (serve n _ a); reflexivity.
    - destruct q; rewrite IH; destruct (serve n _ a); reflexivity.
  Qed.
  Lemma run_ok ws : forall (s : state V) q h, inv s q h -> calm p ws s ->
    match run p ws s with
    | Next s' => exists q' h', inv s' q' h' /\ size s' = size s /\ serve (Z.to_nat (size s)) q (map call_of (events p ws s)) = (events p ws s, q') /\
        puts (events p ws s) ++ busy s' ++ map fst (todo s') = busy s ++ map fst (todo s) /\
        rev (got s') ++ due s' = rev (got s) ++ due s ++ gets (events p ws s)
    | _ => False
    end.
  Proof.
    induction ws as [|w ws IH]; intros s q h I C; cbn [run events].
    - exists q, h. cbn. rewrite ?app_nil_r. auto 6.
    - destruct C as [Wt C]. pose proof (step_ok p w s q h I) as G. destruct (step p w s) as [s1| |] eqn:E; [| |contradiction].
      + assert (W1 : waiting s1 = false) by (destruct ws; apply C). destruct G as [G|(I1 & S1 & S2 & P1 & G1 & Z1)]; [congruence|].
        specialize (IH s1 _ _ I1 C). destruct (run p ws s1) as [s'| |]; try contradiction.
        destruct IH as (q' & h' & I' & Z' & S' & P' & G'). exists q', h'. split; [exact I'|]. split; [congruence|]. rewrite Z1 in S'. split; [|split].
        * rewrite map_app, serve_app, S1, S2, S'. reflexivity.
        * unfold puts in *. rewrite flat_map_app, <- app_assoc, P'. exact P1.
        * unfold gets in *. rewrite flat_map_app, G', app_assoc, G1, <- !app_assoc. reflexivity.
      + specialize (IH s q h I C). destruct (run p ws s) as [s'| |]; try contradiction. rewrite G. exact IH.
  Qed.

  Lemma nonblocking_calm ws : forall s : state V, (forall x, In x (todo s) -> snd x = TZero) -> (forall t, In t (want s) -> t = TZero) -> waiting s = false -> calm p ws s.
  Proof.
    induction ws as [|w ws IH]; intros s A B W; cbn [calm]; [auto|]. split; [exact W|].
    assert (G : match step p w s with Next s' => (forall x, In x (todo s') -> snd x = TZero) /\ (forall t, In t (want s') -> t = TZero) /\ waiting s' = false | _ => True end).
    { destruct s as [cnt hd tl vals sz rdy spc P C td wt gt]. cbn [todo want] in *. unfold waiting in *. cbn [pp cp] in *.
      destruct w as [t|]; cbn [step].
      - unfold produce_step. cbn [pp]. destruct P; cbn [todo].
        + destruct td as [|[v t'] td]; [exact I|]. pose proof (A (v, t') (or_introl eq_refl)) as T. cbn in T. subst t'.
          destruct (_ =? _); cbn [pp cp todo want set_p]; (split; [intros x H; apply A; now right|]); (split; [exact B|]); exact W.
        + discriminate W.
        + destruct (atomic p Inc _). cbn [pp cp todo want set_p set_tail]. auto.
        + destruct (_ && _); [|exact I]. cbn [pp cp todo want set_p set_value]. auto.
        + destruct (atomic p Inc _). cbn [pp cp todo want set_p set_count]. destruct (_ =? 0); auto.
        + cbn [pp cp todo want set_p set_ready]. auto.
      - unfold consume_step. cbn [cp]. destruct C; cbn [want].
        + destruct wt as [|t' wt]; [exact I|]. pose proof (B t' (or_introl eq_refl)) as T. subst t'.
          destruct (_ =? _); cbn [pp cp todo want set_c give]; (split; [exact A|]); (split; [intros x H; apply B; now right|]); exact W.
        + destruct P; discriminate W.
        + destruct (atomic p Inc _). cbn [pp cp todo want set_c set_head]. auto.
        + destruct (_ && _); [|exact I]. cbn [pp cp todo want set_c]. auto.
        + destruct (atomic p Dec _). destruct (_ =? _); cbn [pp cp todo want set_c give set_count]; auto.
        + cbn [pp cp todo want give set_space]. auto. }
    destruct (step p w s) as [s'| |]; [|now apply IH|exact I]. destruct G as (G1 & G2 & G3). now apply IH.
  Qed.
End Laws.

(** How many values the queue starts with: thread_queue_init loses them with the GCC
    builtins (see C58_init_refuted). *)
Definition starts (p : platform) (size count : Z) : Prop := match p with Win => 0 <= count | Gcc => count = 0 end.

Lemma inv_start {V} p size (values : Z -> V) count todo want : 0 < size < 2 ^ 31 -> starts p size count -> size + Z.of_nat (length todo) < 2 ^ 31 ->
  inv (start p size values count todo want) (front values (Z.to_nat (Z.min count size))) 0.
Proof.
  intros S C B. assert (L : length (front values (Z.to_nat (Z.min count size))) = Z.to_nat (Z.min count size)) by (unfold front; now rewrite map_length, seq_length).
  assert (E : fst (atomic p (Store (if count >? size then size else count)) 0) = Z.min count size /\ fst (atomic p (Store 0) 0) = 0 /\ 0 <= count).
  { destruct p; cbn in C; unfold atomic; cbn [steps fold_left fst].
    - rewrite !long_id; [|unfold fits; lia|unfold fits; destruct (Z.gtb_spec count size); lia]. destruct (Z.gtb_spec count size); lia.
    - subst. lia. }
  destruct E as (E1 & E2 & E3). unfold start. rewrite E1, E2. unfold inv, slot, busy. cbn [QueueModel.size QueueModel.count tail head pp cp QueueModel.todo QueueModel.values length]. rewrite L.
  repeat split; try lia. intros i v H. unfold front in H. rewrite nth_error_map in H. destruct (nth_error (seq 0 _) i) as [j|] eqn:J; [|discriminate].
  assert (i < Z.to_nat (Z.min count size))%nat by (rewrite <- (seq_length (Z.to_nat (Z.min count size)) 0); apply nth_error_Some; congruence).
  apply nth_error_nth with (d := 0%nat) in J. rewrite seq_nth in J by lia. cbn in H. injection H as <-. rewrite Z.mod_small by lia. f_equal. lia.
Qed.

(** C58: for any programs of the two threads and any interleaving in which no call enters a
    wait: no access is out of bounds, and there is an order of the calls, which agrees with
    the order of each thread and in which every call takes effect between its start and its
    end, such that the results are those of a bounded first-in-first-out queue used by one
    thread: a value is dropped exactly when the queue is full, NULL is returned exactly when
    it is empty, values come out in the order in which they went in.  (Missing: executions in which a call
    waits, for which this is false, see below.) *)
Theorem C58_fifo_partial : forall (V : Type) p size (values : Z -> V) count todo want ws,
  0 < size < 2 ^ 31 -> starts p size count -> size + Z.of_nat (length todo) < 2 ^ 31 ->
  let s0 := start p size values count todo want in
  calm p ws s0 ->
  match run p ws s0 with
  | Next s =>
      let es := events p ws s0 in
      exists q, serve (Z.to_nat size) (front values (Z.to_nat (Z.min count size))) (map call_of es) = (es, q) /\
        queue_count p s = Z.of_nat (length q) /\
        puts es ++ busy s ++ map fst (QueueModel.todo s) = map fst todo /\
        rev (got s) ++ due s = gets es
  | _ => False
  end.
Proof.
  intros V p size values count todo want ws S C B s0 A. pose proof (run_ok p ws s0 _ 0 (inv_start p size values count todo want S C B) A) as R.
  destruct (run p ws s0) as [s| |]; try contradiction. destruct R as (q & h & I & Z & Sv & P & G). exists q. split; [exact Sv|]. split; [|split; [exact P|exact G]].
  unfold queue_count, atomic. cbn [steps fold_left snd]. destruct I as (I1 & I2 & -> & I3 & _). apply to_int_id. unfold fits. lia.
Qed.
Print Assumptions C58_fifo_partial.

(** If both threads pass timeout 0, no call ever waits: the above holds for every
    interleaving. *)
Theorem C58_nonblocking_partial : forall (V : Type) p size (values : Z -> V) count (todo : list V) (wants : nat) ws,
  0 < size < 2 ^ 31 -> starts p size count -> size + Z.of_nat (length todo) < 2 ^ 31 ->
  let s0 := start p size values count (map (fun v => (v, TZero)) todo) (repeat TZero wants) in
  match run p ws s0 with
  | Next s =>
      let es := events p ws s0 in
      exists q, serve (Z.to_nat size) (front values (Z.to_nat (Z.min count size))) (map call_of es) = (es, q) /\
        queue_count p s = Z.of_nat (length q) /\
        puts es ++ busy s ++ map fst (QueueModel.todo s) = todo /\
        rev (got s) ++ due s = gets es
  | _ => False
  end.
Proof.
  intros V p size values count todo wants ws S C B s0. pose proof (C58_fifo_partial V p size values count (map (fun v => (v, TZero)) todo) (repeat TZero wants) ws S C) as H.
  rewrite map_length, map_map, map_id in H. apply H; [exact B|]. apply nonblocking_calm; [|apply repeat_spec|reflexivity].
  cbn [QueueModel.todo start]. intros x Hx. apply in_map_iff in Hx. now destruct Hx as (v & <- & _).
Qed.
Print Assumptions C58_nonblocking_partial.

(** In such executions the producer never writes the slot that the consumer is reading. *)
Theorem C58_no_race_partial : forall (V : Type) p size (values : Z -> V) count todo want ws s v t h,
  0 < size < 2 ^ 31 -> starts p size count -> size + Z.of_nat (length todo) < 2 ^ 31 ->
  calm p ws (start p size values count todo want) -> run p ws (start p size values count todo want) = Next s ->
  pp s = PWrite v t -> cp s = CRead h -> Z.rem t size <> Z.rem h size.
Proof.
  intros V p size values count todo want ws s v t h S C B A R Pp Cp. pose proof (run_ok p ws _ _ 0 (inv_start p size values count todo want S C B) A) as G. rewrite R in G.
  destruct G as (q & k & I & Z & _). destruct I as (I1 & I2 & I3 & I4 & _ & _ & _ & _ & Ip & Ic). rewrite Pp in Ip. rewrite Cp in Ic. destruct Ip as [L ->], Ic as [N ->].
  cbn [QueueModel.size start] in *. rewrite Z in *. cbn [QueueModel.size start] in *. assert (0 < length q)%nat by (destruct q; [congruence|cbn; lia]).
  rewrite !Z.rem_mod_nonneg by lia. apply not_eq_sym. apply mod_neq; lia.
Qed.
Print Assumptions C58_no_race_partial.

(** Waiting is broken.  A signal raised while nobody waits stays raised: after one value has
    been produced and consumed, a blocking consume on the empty queue returns at once, with
    whatever is in the next slot (here the initial array, 100), and the count is -1. *)
Theorem C58_consume_empty_refuted : exists ws, forall p,
  match run p ws (start p 2 (fun i => 100 + i) 0 [(1, TInfinite)] [TInfinite; TInfinite]) with
  | Next s => rev (got s) = [Some 1; Some 101] /\ queue_count p s = -1 /\ todo s = [] /\ pp s = PIdle
  | _ => False
  end.
Proof. exists (repeat (Producer false) 5 ++ repeat Consumer 9). intros []; vm_compute; auto. Qed.
Print Assumptions C58_consume_empty_refuted.

(** In the same way a blocking produce on a full queue overwrites a value that has not been
    consumed: 2 is lost, 3 comes out twice. *)
Theorem C58_produce_full_refuted : exists ws, forall p,
  match run p ws (start p 1 (fun i => 100 + i) 0 [(1, TInfinite); (2, TInfinite); (3, TInfinite)] [TInfinite; TInfinite; TInfinite]) with
  | Next s => rev (got s) = [Some 1; Some 3; Some 3] /\ todo s = []
  | _ => False
  end.
Proof. exists (repeat (Producer false) 5 ++ repeat Consumer 5 ++ repeat (Producer false) 10 ++ repeat Consumer 10). intros []; vm_compute; auto. Qed.
Print Assumptions C58_produce_full_refuted.

(** A produce whose wait times out writes all the same. *)
Theorem C58_produce_timeout_refuted : exists ws, forall p,
  match run p ws (start p 1 (fun i => 100 + i) 0 [(1, TFinite); (2, TFinite)] [TZero]) with
  | Next s => rev (got s) = [Some 2] /\ todo s = []
  | _ => False
  end.
Proof. exists (repeat (Producer true) 10 ++ repeat Consumer 5). intros []; vm_compute; auto. Qed.
Print Assumptions C58_produce_timeout_refuted.

(** consume with a finite timeout does not time out: on an empty queue it never returns. *)
Theorem C58_consume_timeout_refuted : forall p n,
  match run p (repeat Consumer (S n)) (start p 1 (fun i => i) 0 [] [TFinite]) with
  | Next s => cp s = CWait /\ got s = []
  | _ => False
  end.
Proof.
  intros p n. assert (K : forall m s, cp s = CWait -> data_ready s = false -> run (V:=Z) p (repeat Consumer m) s = Next s).
  { induction m as [|m IH]; intros s A B; [reflexivity|]. cbn [repeat run step]. unfold consume_step. rewrite A, B. now apply IH. }
  cbn [repeat run]. assert (E : step p Consumer (start p 1 (fun i => i) 0 [] [TFinite]) = Next (State 0 0 0 (fun i => i) 1 false false PIdle CWait [] [] [])) by (destruct p; reflexivity).
  rewrite E, K; auto.
Qed.
Print Assumptions C58_consume_timeout_refuted.

(** With the GCC builtins, a queue that is initialised with values is empty. *)
Theorem C58_init_refuted : forall (V : Type) size (values : Z -> V) n todo want, queue_count Gcc (start Gcc size values n todo want) = 0.
Proof. reflexivity. Qed.
Print Assumptions C58_init_refuted.

(** After 2^31 values the position becomes negative, and the next produce writes before the
    array, although the queue is empty and no call waits. *)
Section Wrap.
  Context (p : platform).
  Let round := repeat (Producer false) 5 ++ repeat Consumer 4.
  Definition at_rest (k : Z) (td : list (Z * timeout)) (wt : list timeout) (s : state Z) : Prop :=
    count s = 0 /\ head s = k /\ tail s = k /\ size s = 3 /\ pp s = PIdle /\ cp s = CIdle /\ todo s = td /\ want s = wt.

  Lemma run_next w ws (s s1 : state Z) : step p w s = Next s1 -> run p (w :: ws) s = run p ws s1.
  Proof. intros E. cbn [run]. now rewrite E. Qed.
  Ltac flds := cbn [give set_p set_c set_tail set_head set_value set_count set_ready set_space count head tail values size data_ready space_open pp cp todo want got].
  Ltac go := cbn [step]; unfold produce_step, consume_step; flds; unfold atomic; cbn [steps snd fst fold_left];
    repeat match goal with
    | |- context [to_int ?x] => rewrite (to_int_id x) by (unfold fits; lia)
    | |- context [long p ?x] => rewrite (long_id p x) by (unfold fits; lia)
    | R : ?b = true |- context [?b] => rewrite R
    | |- context [?a =? ?b] => let r := eval vm_compute in (a =? b) in change (a =? b) with r; cbv iota
    end; flds; reflexivity.

  Lemma round_ok k td wt s : 0 <= k < 2 ^ 31 - 1 -> at_rest k ((0, TZero) :: td) (TZero :: wt) s -> exists s', run p round s = Next s' /\ at_rest (k + 1) td wt s'.
  Proof.
    intros K. destruct s as [cnt hd tl vals sz rdy spc P C td' wt' gt]. unfold at_rest. cbn [count head tail size pp cp todo want]. intros (-> & -> & -> & -> & -> & -> & -> & ->).
    assert (R : (0 <=? Z.rem k 3) && (Z.rem k 3 <? 3) = true). { rewrite Z.rem_mod_nonneg by lia. pose proof (Z.mod_pos_bound k 3 ltac:(lia)). apply andb_true_iff. split; [apply Z.leb_le|apply Z.ltb_lt]; lia. }
    subst round. cbn [repeat app]. do 9 (erewrite run_next by go). cbn [run].
    eexists. split; [reflexivity|]. cbn [give set_count count head tail values size data_ready space_open pp cp todo want got]. repeat split.
  Qed.

  Lemma run_app a : forall b (s s' : state Z), run p a s = Next s' -> run p (a ++ b) s = run p b s'.
  Proof. induction a as [|w a IH]; intros b s s' H; cbn [app run] in *; [congruence|]. destruct (step p w s); [now apply IH|now apply IH|discriminate]. Qed.

  Lemma rounds_ok n : forall k td wt s, 0 <= k -> k + Z.of_nat n < 2 ^ 31 -> at_rest k (repeat (0, TZero) n ++ td) (repeat TZero n ++ wt) s ->
    exists s', run p (concat (repeat round n)) s = Next s' /\ at_rest (k + Z.of_nat n) td wt s'.
  Proof.
    induction n as [|n IH]; intros k td wt s K L A.
    - exists s. split; [reflexivity|]. now replace (k + Z.of_nat 0) with k by lia.
    - cbn [repeat app] in A. destruct (round_ok k _ _ s ltac:(lia) A) as (s1 & R1 & A1). destruct (IH (k + 1) td wt s1 ltac:(lia) ltac:(lia) A1) as (s' & R & A').
      exists s'. split; [|now replace (k + Z.of_nat (S n)) with (k + 1 + Z.of_nat n) by lia]. cbn [repeat concat]. now rewrite (run_app _ _ _ s1 R1).
  Qed.
End Wrap.
Theorem C58_wraparound_refuted : forall p, exists todo ws, run p ws (start p 3 (fun i => i) 0 (map (fun v => (v, TZero)) todo) (repeat TZero (length todo))) = OutOfBounds.
Proof.
  intros p. set (n := Z.to_nat (2 ^ 31 - 1)). assert (N : Z.of_nat n = 2 ^ 31 - 1) by (unfold n; rewrite Z2Nat.id; lia). clearbody n.
  exists (repeat 0 (n + 2)), (concat (repeat (repeat (Producer false) 5 ++ repeat Consumer 4) n) ++ (repeat (Producer false) 5 ++ repeat Consumer 4) ++ repeat (Producer false) 3).
  rewrite repeat_length. assert (MR : forall m, map (fun v : Z => (v, TZero)) (repeat 0 m) = repeat (0, TZero) m) by (induction m as [|m IH]; cbn; congruence). rewrite MR.
  destruct (rounds_ok p n 0 (repeat (0, TZero) 2) (repeat TZero 2) (start p 3 (fun i => i) 0 (repeat (0, TZero) (n + 2)) (repeat TZero (n + 2)))) as (s1 & R1 & A1); [lia|lia| |].
  { unfold at_rest, start. cbn [count head tail size pp cp todo want]. rewrite <- !repeat_app. destruct p; repeat split. }
  rewrite (run_app p _ _ _ s1 R1). rewrite N in A1. change (0 + (2 ^ 31 - 1)) with (2 ^ 31 - 1) in A1.
  destruct s1 as [cnt hd tl vals sz rdy spc P C td' wt' gt]. unfold at_rest in A1. cbn [count head tail size pp cp todo want] in A1. destruct A1 as (-> & -> & -> & -> & -> & -> & -> & ->).
  destruct p; vm_compute; reflexivity.
Qed.
Print Assumptions C58_wraparound_refuted.

(** A concrete interleaving with the queue of size 2 full and empty on the way. *)
Example C58_case :
  let s0 := start Gcc 2 (fun i => 0) 0 (map (fun v => (v, TZero)) [1; 2; 3; 4]) (repeat TZero 4) in
  let ws := Consumer :: repeat (Producer false) 10 ++ [Consumer; Consumer; Consumer; Consumer; Producer false; Consumer; Producer false; Consumer; Producer false; Producer false] ++ repeat Consumer 10 in
  match run Gcc ws s0 with
  | Next s => rev (got s) = [None; Some 1; Some 2; Some 4] /\ queue_count Gcc s = 0 /\
      events Gcc ws s0 = [EGet None; EPut 1 true; EPut 2 true; EPut 3 false; EGet (Some 1); EPut 4 true; EGet (Some 2); EGet (Some 4)]
  | _ => False
  end.
Proof. vm_compute. auto. Qed.
