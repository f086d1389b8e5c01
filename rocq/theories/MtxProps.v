(** C87, C88: critical sections of one mutex are serial; threads that take mutexes in increasing order neither race nor deadlock. *)
From Coq Require Import List ZArith Arith Bool Lia.
From Verif Require Import MtxModel.
Import ListNotations.

Lemma upd_eq {A} (f : nat -> A) x v : upd f x v x = v.
Proof. unfold upd. now rewrite Nat.eqb_refl. Qed.
Lemma upd_neq {A} (f : nat -> A) x v y : y <> x -> upd f x v y = f y.
Proof. intro H. unfold upd. destruct (Nat.eqb_spec y x); [contradiction|reflexivity]. Qed.
Lemma exec_app s w a b : exec s w (a ++ b) = match exec s w a with Some w' => exec s w' b | None => None end.
Proof. revert w. induction a as [|t a IH]; intro w; [reflexivity|]. cbn [app exec]. destruct (step s w t); auto. Qed.

(** ** C87 *)
(** A critical section: the accesses between lock and unlock.  [sequential] runs whole sections, in the order of the threads given. *)
Definition section := list (nat * (Z -> Z -> Z * Z)).
Definition memory := ((nat -> Z) * (nat -> Z))%type.   (* registers, shared variables *)
Fixpoint run_section (t : nat) (c : section) (r : memory) : memory :=
  match c with
  | [] => r
  | (x, f) :: c => let '(a, v) := f (fst r t) (snd r x) in run_section t c (upd (fst r) t a, upd (snd r) x v)
  end.
Fixpoint sequential (secs : nat -> list section) (order : list nat) (r : memory) : memory :=
  match order with
  | [] => r
  | t :: o => match secs t with c :: cs => sequential (upd secs t cs) o (run_section t c r) | [] => r end
  end.
Definition accesses (c : section) : list instr := map (fun a => Access (fst a) (snd a)) c.
Definition code (m : nat) (cs : list section) : list instr := flat_map (fun c => Lock m :: accesses c ++ [Unlock m]) cs.
Definition start (m : nat) (secs : nat -> list section) (r : memory) : world :=
  World (upd (fun _ => NotInit) m Free) (fun t => code m (secs t)) (fst r) (snd r).
Definition inside (w : world) (t : nat) : Prop := exists x f p, prog w t = Access x f :: p.

(** The state between two steps: the sections finished or entered so far in the order they were entered, and what the owner still has to do. *)
Record Serial (m : nat) (secs : nat -> list section) (r0 : memory) (w : world) (order : list nat) (rest : nat -> list section) : Prop := {
  s_rest : forall order2 r, sequential secs (order ++ order2) r = sequential rest order2 (sequential secs order r);
  s_count : forall t, count_occ Nat.eq_dec order t + length (rest t) = length (secs t);
  s_other : forall k, k <> m -> mtx w k = NotInit;
  s_state : (mtx w m = Free /\ (forall t, prog w t = code m (rest t)) /\ (reg w, var w) = sequential secs order r0) \/
            (exists t c, mtx w m = Held t 1 /\ prog w t = accesses c ++ Unlock m :: code m (rest t) /\ (forall u, u <> t -> prog w u = code m (rest u)) /\
               run_section t c (reg w, var w) = sequential secs order r0) }.

Lemma sequential_ext o : forall s1 s2 r, (forall t, s1 t = s2 t) -> sequential s1 o r = sequential s2 o r.
Proof.
  induction o as [|t o IH]; intros s1 s2 r H; [reflexivity|]. cbn. rewrite H. destruct (s2 t) as [|c cs]; [reflexivity|]. apply IH. intro u. unfold upd. destruct (Nat.eqb u t); auto.
Qed.
Lemma code_cons m c cs : code m (c :: cs) = Lock m :: accesses c ++ Unlock m :: code m cs.
Proof. unfold code. cbn [flat_map app]. now rewrite <- app_assoc. Qed.

Lemma serial_step s m secs r0 w order rest t : Serial m secs r0 w order rest ->
  (step s w t = Blocked /\ (prog w t = [] \/ exists u, u <> t /\ mtx w m = Held u 1)) \/
  exists w' order' rest', step s w t = Next w' /\ Serial m secs r0 w' order' rest'.
Proof.
  intros [HR HC HO HS]. destruct HS as [(M & P & E)|(u & c & M & Pu & P & E)].
  - unfold step. rewrite P. destruct (rest t) as [|c cs] eqn:Rt; [left; cbn; auto|]. right. rewrite code_cons. rewrite M. cbn [mutex_lock].
    exists (World (upd (mtx w) m (Held t 1)) (upd (prog w) t (accesses c ++ Unlock m :: code m cs)) (reg w) (var w)), (order ++ [t]), (upd rest t cs). split; [reflexivity|]. constructor; cbn [mtx prog reg var].
    + intros o2 r. rewrite <- app_assoc, !HR. cbn [app sequential]. rewrite Rt. reflexivity.
    + intro v. specialize (HC v). rewrite count_occ_app. cbn [count_occ]. unfold upd. destruct (Nat.eqb_spec v t) as [->|N].
      * rewrite Rt in HC. cbn [length] in HC. destruct (Nat.eq_dec t t); [lia|contradiction].
      * destruct (Nat.eq_dec t v); [congruence|]. lia.
    + intros k Hk. rewrite upd_neq by exact Hk. now apply HO.
    + right. exists t, c. rewrite !upd_eq. split; [reflexivity|]. split; [reflexivity|]. split.
      * intros v Nv. rewrite !upd_neq by exact Nv. apply P.
      * rewrite E. assert (K := HR [t] r0). cbn [sequential] in K. rewrite Rt in K. symmetry. exact K.
  - destruct (Nat.eq_dec t u) as [->|N].
    + right. unfold step. rewrite Pu. destruct c as [|[x f] c].
      * cbn [accesses map app]. rewrite M. cbn [mutex_unlock]. rewrite Nat.eqb_refl. eexists _, order, rest. split; [reflexivity|]. constructor; cbn [mtx prog reg var]; auto.
        -- intros k Hk. rewrite upd_neq by exact Hk. now apply HO.
        -- left. rewrite upd_eq. split; [reflexivity|]. split; [|exact E]. intro v. destruct (Nat.eq_dec v u) as [->|Nv]; [now rewrite upd_eq|]. rewrite upd_neq by exact Nv. now apply P.
      * cbn [accesses map app fst snd]. fold (accesses c). cbn [run_section fst snd] in E. destruct (f (reg w u) (var w x)) as [a v] eqn:Ef. eexists _, order, rest. split; [reflexivity|]. constructor; cbn [mtx prog reg var]; auto.
        right. exists u, c. rewrite upd_eq. split; [exact M|]. split; [reflexivity|]. split; [|exact E]. intros k Nk. rewrite upd_neq by exact Nk. now apply P.
    + left. unfold step. rewrite P by exact N. destruct (rest t) as [|c' cs]; [cbn; auto|]. rewrite code_cons, M. cbn [mutex_lock]. destruct (Nat.eqb_spec u t); [congruence|]. split; [reflexivity|]. right. exists u. split; [congruence|reflexivity].
Qed.
Lemma serial_start m secs r : Serial m secs r (start m secs r) [] secs.
Proof.
  constructor; cbn [start mtx prog reg var]; auto.
  - intros k Hk. now rewrite upd_neq.
  - left. rewrite upd_eq. destruct r. auto.
Qed.
Lemma serial_exec s m secs r0 sched : forall w order rest w', Serial m secs r0 w order rest -> exec s w sched = Some w' -> exists order' rest', Serial m secs r0 w' order' rest'.
Proof.
  induction sched as [|t ts IH]; intros w order rest w' S E.
  - injection E as <-. eauto.
  - cbn [exec] in E. destruct (serial_step s m secs r0 w order rest t S) as [[H _]|(w1 & o1 & r1 & H & S1)]; rewrite H in E; [discriminate E|]. eapply IH; eassumption.
Qed.

(** Any number of threads, each with any sequence of critical sections of the same mutex, in any interleaving, on both systems: nothing undefined happens;
    no two threads are inside; as long as a thread is not finished some thread can go on; when all are finished the registers and variables are those of
    running whole sections one after the other, each thread's in its order, all of them. *)
Theorem C87_serial : forall s m secs r sched w, exec s (start m secs r) sched = Some w ->
  (forall t, step s w t <> Bad) /\
  (forall t u, inside w t -> inside w u -> t = u) /\
  ((exists t, prog w t <> []) -> exists t w', step s w t = Next w') /\
  ((forall t, prog w t = []) -> exists order, (forall t, count_occ Nat.eq_dec order t = length (secs t)) /\ (reg w, var w) = sequential secs order r).
Proof.
  intros s m secs r sched w E. destruct (serial_exec s m secs r sched _ _ _ w (serial_start m secs r) E) as (order & rest & S). split; [|split; [|split]].
  - intros t H. destruct (serial_step s m secs r w order rest t S) as [[K _]|(w' & _ & _ & K & _)]; rewrite K in H; discriminate H.
  - intros t u (x & f & p & Ht) (y & g & q & Hu). destruct S as [_ _ _ [(_ & P & _)|(v & c & _ & _ & P & _)]].
    + rewrite P in Ht. destruct (rest t); [discriminate Ht|rewrite code_cons in Ht; discriminate Ht].
    + assert (K : forall z x f p, prog w z = Access x f :: p -> z = v).
      { intros z x' f' p' H. destruct (Nat.eq_dec z v) as [|N]; [assumption|]. rewrite (P z N) in H. destruct (rest z); [discriminate H|rewrite code_cons in H; discriminate H]. }
      rewrite (K _ _ _ _ Ht), (K _ _ _ _ Hu). reflexivity.
  - intros (t & Ht). destruct (serial_step s m secs r w order rest t S) as [[K [Q|(u & Nu & M)]]|(w' & _ & _ & K & _)]; [contradiction| |eauto].
    destruct (serial_step s m secs r w order rest u S) as [[K2 [Q|(v & Nv & M2)]]|(w' & _ & _ & K2 & _)]; [|congruence|eauto].
    exfalso. destruct S as [_ _ _ [(M2 & _)|(v & c & M2 & Pv & _)]]; [congruence|]. rewrite M in M2. injection M2 as <-. rewrite Q in Pv. destruct c; discriminate Pv.
  - intro F. exists order. destruct S as [_ HC _ HS]. assert (R : forall t, rest t = [] /\ mtx w m = Free).
    { intro t. destruct HS as [(M & P & _)|(v & c & M & Pv & P & _)].
      - split; [|exact M]. specialize (P t). rewrite F in P. destruct (rest t); [reflexivity|discriminate P].
      - rewrite F in Pv. destruct c; discriminate Pv. }
    split; [intro t; specialize (HC t); destruct (R t) as [Rt _]; rewrite Rt in HC; cbn in HC; lia|]. destruct HS as [(_ & _ & E')|(v & c & M & _)]; [exact E'|]. destruct (R 0) as [_ M2]. congruence.
Qed.
Print Assumptions C87_serial.

(** A counter: load it into the register, store the register plus one.  With the mutex no increment is lost, whatever the interleaving; without it one can be. *)
Definition increment (x : nat) : section := [(x, fun _ v => (v, v)); (x, fun a v => (a, a + 1)%Z)].
Lemma sequential_count x order : forall secs r, (forall t c, In c (secs t) -> c = increment x) -> (forall t, count_occ Nat.eq_dec order t <= length (secs t)) ->
  (snd (sequential secs order r) x = snd r x + Z.of_nat (length order))%Z.
Proof.
  induction order as [|t o IH]; intros secs r H C; [cbn; lia|]. cbn [sequential]. pose proof (C t) as Ct. cbn [count_occ] in Ct. destruct (Nat.eq_dec t t); [|contradiction].
  destruct (secs t) as [|c cs] eqn:E; [cbn in Ct; lia|]. rewrite (H t c) by (rewrite E; now left). rewrite IH.
  - cbn [increment run_section fst snd length]. rewrite !upd_eq. lia.
  - intros u d. unfold upd. destruct (Nat.eqb_spec u t) as [->|N]; [|apply H]. intro I. apply (H t). rewrite E. now right.
  - intro u. specialize (C u). cbn [count_occ] in C. unfold upd. destruct (Nat.eqb_spec u t) as [->|N]; [destruct (Nat.eq_dec t t); [|contradiction]; rewrite E in C; cbn in C; lia|]. destruct (Nat.eq_dec t u); [congruence|lia].
Qed.
Lemma count_occ_total n : forall (l : list nat) k, (forall t, n <= t -> count_occ Nat.eq_dec l t = 0) -> (forall t, count_occ Nat.eq_dec l t = k t) -> length l = list_sum (map k (seq 0 n)).
Proof.
  induction n as [|n IH]; intros l k H K.
  - destruct l as [|a l]; [reflexivity|]. specialize (H a (Nat.le_0_l a)). cbn [count_occ] in H. destruct (Nat.eq_dec a a); [discriminate H|contradiction].
  - set (l' := filter (fun a => negb (Nat.eqb a n)) l).
    assert (L : length l = length l' + count_occ Nat.eq_dec l n).
    { unfold l'. clear. induction l as [|a l IH]; [reflexivity|]. cbn [filter count_occ length]. destruct (Nat.eqb_spec a n) as [E1|N], (Nat.eq_dec a n); cbn [negb length]; try congruence; lia. }
    assert (F : forall t, count_occ Nat.eq_dec l' t = if Nat.eqb t n then 0 else count_occ Nat.eq_dec l t).
    { intro t. unfold l'. clear. induction l as [|a l IH]; [cbn; now destruct (Nat.eqb t n)|]. cbn [filter count_occ]. destruct (Nat.eqb_spec a n), (Nat.eq_dec a t); cbn [negb count_occ]; try (destruct (Nat.eq_dec a t); [|contradiction]); try (destruct (Nat.eq_dec a t); [contradiction|]); rewrite IH; destruct (Nat.eqb_spec t n); congruence. }
    rewrite seq_S, map_app, list_sum_app. cbn [map list_sum plus]. rewrite L, K, (IH l' (fun t => if Nat.eqb t n then 0 else k t)).
    + f_equal; [|cbn; lia]. f_equal. apply map_ext_in. intros a Ha. apply in_seq in Ha. destruct (Nat.eqb_spec a n); [lia|reflexivity].
    + intros t Ht. rewrite F. destruct (Nat.eqb_spec t n) as [|N]; [reflexivity|]. apply H. lia.
    + intro t. rewrite F. destruct (Nat.eqb t n); [reflexivity|apply K].
Qed.
Theorem C87_counter : forall s m x n k r sched w,
  exec s (start m (fun t => if t <? n then repeat (increment x) (k t) else []) r) sched = Some w -> (forall t, prog w t = []) ->
  (var w x = snd r x + Z.of_nat (list_sum (map k (seq 0 n))))%Z.
Proof.
  intros s m x n k r sched w E F. destruct (C87_serial _ _ _ _ _ _ E) as (_ & _ & _ & H). destruct (H F) as (order & C & R).
  assert (V : var w = snd (sequential (fun t => if t <? n then repeat (increment x) (k t) else []) order r)) by (rewrite <- R; reflexivity).
  rewrite V, sequential_count.
  - f_equal. f_equal. rewrite (count_occ_total n order (fun t => if t <? n then k t else 0)).
    + f_equal. apply map_ext_in. intros a Ha. apply in_seq in Ha. destruct (Nat.ltb_spec a n); [reflexivity|lia].
    + intros t Ht. rewrite C. destruct (Nat.ltb_spec t n); [lia|reflexivity].
    + intro t. rewrite C. destruct (t <? n); [apply repeat_length|reflexivity].
  - intros t c. destruct (t <? n); [apply repeat_spec|intros []].
  - intro t. rewrite C. lia.
Qed.
Print Assumptions C87_counter.
Theorem C87_unlocked_refuted : forall s, exists sched w, exec s (World (fun _ => NotInit) (fun t => if t <? 2 then accesses (increment 0) else []) (fun _ => 0%Z) (fun _ => 0%Z)) sched = Some w /\
  (forall t, prog w t = []) /\ var w 0 = 1%Z.
Proof.
  intro s. exists [0; 1; 0; 1]. eexists. split; [reflexivity|]. split; [|reflexivity]. intro t. cbn. unfold upd. destruct t as [|[|t]]; reflexivity.
Qed.
Print Assumptions C87_unlocked_refuted.
(** The life of the mutex: a thread that initialises it makes the state the others start from; initialising it again is undefined; as long as a thread is inside, destroying it
    is undefined; when all are finished any thread may destroy it, it is as before initialisation, the memory is kept, and using
    it further is undefined. *)
Definition calls (w : world) (t : nat) (i : instr) : world := World (mtx w) (upd (prog w) t [i]) (reg w) (var w).
Theorem C87_life : forall s m secs r t sched w, exec s (start m secs r) sched = Some w ->
  (exists p, step s (calls (World (fun _ => NotInit) (prog (start m secs r)) (fst r) (snd r)) t (Init m)) t = Next (World (mtx (start m secs r)) p (fst r) (snd r))) /\
  step s (calls w t (Init m)) t = Bad /\
  ((exists u, inside w u) -> step s (calls w t (Term m)) t = Bad) /\
  ((forall u, prog w u = []) -> exists w', step s (calls w t (Term m)) t = Next w' /\ (forall k, mtx w' k = NotInit) /\ reg w' = reg w /\ var w' = var w /\
     forall u i, In i [Term m; Lock m; Unlock m] -> step s (calls w' u i) u = Bad).
Proof.
  intros s m secs r t sched w E. destruct (serial_exec s m secs r sched _ _ _ w (serial_start m secs r) E) as (order & rest & [_ _ O S]).
  split; [eexists; unfold step, calls; cbn [prog]; rewrite upd_eq; reflexivity|]. split; [|split].
  - unfold step, calls. cbn [prog mtx]. rewrite upd_eq. destruct S as [(M & _)|(v & c & M & _)]; rewrite M; reflexivity.
  - intros (u & x & f & p & H). unfold step, calls. cbn [prog mtx]. rewrite upd_eq. destruct S as [(M & P & _)|(v & c & M & _)]; [|rewrite M; reflexivity].
    rewrite P in H. destruct (rest u); [discriminate H|rewrite code_cons in H; discriminate H].
  - intro F. unfold step, calls. cbn [prog mtx]. rewrite upd_eq. destruct S as [(M & P & _)|(v & c & M & P & _)]; [|rewrite F in P; symmetry in P; apply app_eq_nil in P; destruct P; discriminate].
    rewrite M. eexists. split; [reflexivity|]. cbn [mtx reg var]. split; [|split; [reflexivity|split; [reflexivity|]]].
    + intro k. unfold upd. destruct (Nat.eqb_spec k m); [reflexivity|now apply O].
    + intros u i [<-|[<-|[<-|[]]]]; cbn [prog mtx]; rewrite !upd_eq; reflexivity.
Qed.
Print Assumptions C87_life.
(** What the systems disagree on: a thread that locks twice goes on under Windows and is undefined with pthreads. *)
Theorem C87_relock_refuted : let p := World (upd (fun _ => NotInit) 0 Free) (upd (fun _ => []) 0 [Lock 0; Lock 0; Unlock 0; Unlock 0]) (fun _ => 0%Z) (fun _ => 0%Z) in
  (exists w, exec Windows p [0; 0; 0; 0] = Some w /\ mtx w 0 = Free) /\ exists w, exec Posix p [0] = Some w /\ step Posix w 0 = Bad.
Proof. split; eexists; split; reflexivity. Qed.
Print Assumptions C87_relock_refuted.
Lemma locks_again : forall k w t m p n u, mtx w m = Held t n -> prog w t = repeat (Lock m) k ++ p -> u <> t ->
  exists w', exec Windows w (repeat t k) = Some w' /\ mtx w' m = Held t (k + n) /\ prog w' t = p /\ prog w' u = prog w u.
Proof.
  induction k as [|k IH]; intros w t m p n u M P N; [exists w; auto|]. cbn [repeat exec app] in *. unfold step. rewrite P, M. cbn [mutex_lock]. rewrite Nat.eqb_refl.
  destruct (IH (World (upd (mtx w) m (Held t (S n))) (upd (prog w) t (repeat (Lock m) k ++ p)) (reg w) (var w)) t m p (S n) u) as (w' & E & A & B & C);
    [cbn [mtx]; apply upd_eq|cbn [prog]; apply upd_eq|exact N|]. exists w'. split; [exact E|]. split; [rewrite A; f_equal; lia|]. split; [exact B|]. rewrite C. cbn [prog]. now apply upd_neq.
Qed.
Lemma unlocks : forall j w t m p n u, mtx w m = Held t (j + S n) -> prog w t = repeat (Unlock m) j ++ p -> u <> t ->
  exists w', exec Windows w (repeat t j) = Some w' /\ mtx w' m = Held t (S n) /\ prog w' t = p /\ prog w' u = prog w u.
Proof.
  induction j as [|j IH]; intros w t m p n u M P N; [exists w; auto|]. cbn [repeat exec app] in *. unfold step. rewrite P, M. cbn [mutex_unlock]. rewrite Nat.eqb_refl.
  replace (match S j + S n with S (S k) => Held t (S k) | _ => Free end) with (Held t (j + S n)) by (rewrite !Nat.add_succ_r; reflexivity).
  destruct (IH (World (upd (mtx w) m (Held t (j + S n))) (upd (prog w) t (repeat (Unlock m) j ++ p)) (reg w) (var w)) t m p n u) as (w' & E & A & B & C);
    [cbn [mtx]; apply upd_eq|cbn [prog]; apply upd_eq|exact N|]. exists w'. split; [exact E|]. split; [exact A|]. split; [exact B|]. rewrite C. cbn [prog]. now apply upd_neq.
Qed.
(** On Windows a thread may lock the mutex n times; whatever the number, no other thread gets it until it is unlocked as often, and then it is free. *)
Theorem C87_recursive : forall n j t u m, u <> t -> 0 < n -> j <= n ->
  exists w, exec Windows (World (fun _ => Free) (fun v => if v =? t then repeat (Lock m) n ++ repeat (Unlock m) n else if v =? u then [Lock m] else []) (fun _ => 0%Z) (fun _ => 0%Z)) (repeat t (n + j)) = Some w /\
    (step Windows w u = Blocked <-> j < n) /\ (mtx w m = Free <-> j = n).
Proof.
  intros n j t u m N L J. destruct n as [|n]; [lia|]. clear L. set (w0 := World _ _ _ _).
  assert (P0 : prog w0 t = Lock m :: repeat (Lock m) n ++ repeat (Unlock m) (S n)) by (cbn [prog w0]; rewrite Nat.eqb_refl; reflexivity).
  assert (U0 : prog w0 u = [Lock m]) by (cbn [prog w0]; destruct (Nat.eqb_spec u t); [contradiction|]; rewrite Nat.eqb_refl; reflexivity).
  assert (M0 : mtx w0 m = Free) by reflexivity. clearbody w0.
  set (w1 := World (upd (mtx w0) m (Held t 1)) (upd (prog w0) t (repeat (Lock m) n ++ repeat (Unlock m) (S n))) (reg w0) (var w0)).
  assert (S1 : step Windows w0 t = Next w1) by (unfold step; rewrite P0, M0; reflexivity).
  assert (U1 : prog w1 u = [Lock m]) by (cbn [prog w1]; rewrite upd_neq; assumption).
  destruct (locks_again n w1 t m (repeat (Unlock m) (S n)) 1 u) as (w2 & E2 & M2 & P2 & U2); [apply upd_eq|cbn [prog w1]; apply upd_eq|exact N|].
  assert (E02 : exec Windows w0 (repeat t (S n)) = Some w2) by (cbn [repeat exec]; rewrite S1; exact E2). rewrite repeat_app, exec_app, E02.
  assert (K : forall i, i < S n -> exists w, exec Windows w2 (repeat t i) = Some w /\ mtx w m = Held t (S (n - i)) /\ prog w t = repeat (Unlock m) (S n - i) /\ prog w u = [Lock m]).
  { intros i Hi. destruct (unlocks i w2 t m (repeat (Unlock m) (S n - i)) (n - i) u) as (w & E & A & B & C); [rewrite M2; f_equal; lia| |exact N|].
    - rewrite P2, <- repeat_app. f_equal. lia.
    - exists w. rewrite C, U2. auto. }
  destruct (Nat.eq_dec j (S n)) as [->|D].
  - destruct (K n (Nat.lt_succ_diag_r n)) as (w & E & A & B & C). assert (R : repeat t (S n) = repeat t n ++ [t]) by (rewrite <- repeat_cons; reflexivity). rewrite R, exec_app, E. cbn [exec]. unfold step at 1. rewrite B.
    replace (S n - n) with 1 by lia. cbn [repeat]. rewrite A, Nat.sub_diag. cbn [mutex_unlock]. rewrite Nat.eqb_refl. eexists. split; [reflexivity|]. split.
    + split; [|lia]. unfold step. cbn [prog mtx]. rewrite upd_neq, C by exact N. rewrite upd_eq. discriminate.
    + cbn [mtx]. rewrite upd_eq. tauto.
  - destruct (K j ltac:(lia)) as (w & E & A & B & C). exists w. split; [exact E|]. split.
    + split; [lia|]. intros _. unfold step. rewrite C, A. cbn [mutex_lock]. destruct (Nat.eqb_spec t u); [congruence|reflexivity].
    + rewrite A. split; [discriminate|contradiction].
Qed.
Print Assumptions C87_recursive.
(** two threads with one section each, interleaved as far as the mutex lets them *)
Definition c87_start : world := start 5 (fun t => if t <? 2 then repeat (increment 0) 1 else []) (fun _ => 0%Z, fun _ => 7%Z).
Example C87_case : match exec Posix c87_start [0; 0; 0; 0; 1; 1; 1; 1] with Some w => (prog w 0, prog w 1, var w 0) = ([], [], 9%Z) | None => False end.
Proof. vm_compute. reflexivity. Qed.
Example C87_blocked : match exec Posix c87_start [1; 1] with Some w => step Posix w 0 = Blocked /\ length (prog w 1) = 2 | None => False end.
Proof. vm_compute. split; reflexivity. Qed.

(** ** C88 *)
(** The discipline: variables are accessed while the mutex that guards them is held, mutexes are taken in increasing order and all given back. *)
Fixpoint disciplined (guard : nat -> nat) (held : list nat) (p : list instr) : Prop :=
  match p with
  | [] => held = []
  | Lock m :: p => (forall h, In h held -> h < m) /\ disciplined guard (m :: held) p
  | Unlock m :: p => In m held /\ disciplined guard (remove Nat.eq_dec m held) p
  | Access x f :: p => In (guard x) held /\ disciplined guard held p
  | _ => False
  end.
Record Good (guard : nat -> nat) (w : world) (held : nat -> list nat) (top : nat) : Prop := {
  g_prog : forall t, disciplined guard (held t) (prog w t);
  g_held : forall t m, In m (held t) -> mtx w m = Held t 1;
  g_free : forall m, mtx w m = Free \/ exists t, In m (held t);
  g_top : forall t m, In m (held t) -> m < top }.

Lemma good_step s guard w held top t : Good guard w held top ->
  match step s w t with
  | Next w' => exists held' top', Good guard w' held' top'
  | Bad => False
  | Blocked => prog w t = [] \/ exists m p u, prog w t = Lock m :: p /\ In m (held u) /\ u <> t /\ forall h, In h (held t) -> h < m
  end.
Proof.
  intros [GP GH GF GT]. pose proof (GP t) as P. unfold step. destruct (prog w t) as [|[m|m|m|m|x f] p] eqn:E; cbn [disciplined] in P; try contradiction P.
  - now left.
  - destruct P as [P1 P2]. destruct (GF m) as [Fm|(u & Hu)].
    + rewrite Fm. cbn [mutex_lock]. exists (upd held t (m :: held t)), (S (max top m)). constructor; cbn [mtx prog].
      * intro u. destruct (Nat.eq_dec u t) as [->|N]; [now rewrite !upd_eq|now rewrite !upd_neq].
      * intros u h. destruct (Nat.eq_dec u t) as [->|N].
        -- rewrite upd_eq. intros [<-|I]; [apply upd_eq|]. rewrite upd_neq; [now apply GH|]. specialize (P1 h I). lia.
        -- rewrite (upd_neq held) by exact N. intro I. destruct (Nat.eq_dec h m) as [->|Nh]; [rewrite (GH u m I) in Fm; discriminate Fm|]. rewrite upd_neq by exact Nh. now apply GH.
      * intro h. destruct (Nat.eq_dec h m) as [->|Nh]; [right; exists t; rewrite upd_eq; now left|]. rewrite upd_neq by exact Nh. destruct (GF h) as [|(u & I)]; [now left|]. right. exists u. unfold upd. destruct (Nat.eqb_spec u t) as [->|]; [now right|exact I].
      * intros u h. unfold upd. destruct (Nat.eqb u t); [intros [<-|I]; [lia|specialize (GT _ _ I); lia]|intro I; specialize (GT _ _ I); lia].
    + assert (N : u <> t) by (intros ->; specialize (P1 m Hu); lia). rewrite (GH u m Hu). cbn [mutex_lock]. destruct (Nat.eqb_spec u t); [contradiction|]. right. exists m, p, u. auto.
  - destruct P as [P1 P2]. rewrite (GH t m P1). cbn [mutex_unlock]. rewrite Nat.eqb_refl. exists (upd held t (remove Nat.eq_dec m (held t))), top. constructor; cbn [mtx prog].
    + intro u. destruct (Nat.eq_dec u t) as [->|N]; [now rewrite !upd_eq|now rewrite !upd_neq].
    + intros u h. destruct (Nat.eq_dec u t) as [->|N].
      * rewrite upd_eq. intro I. apply in_remove in I. destruct I as [I Nh]. rewrite upd_neq by exact Nh. now apply GH.
      * rewrite (upd_neq held) by exact N. intro I. rewrite upd_neq; [now apply GH|]. intros ->. pose proof (GH _ _ I) as Q. rewrite (GH t m P1) in Q. congruence.
    + intro h. destruct (Nat.eq_dec h m) as [->|Nh]; [left; apply upd_eq|]. rewrite upd_neq by exact Nh. destruct (GF h) as [|(u & I)]; [now left|]. right. exists u. unfold upd. destruct (Nat.eqb_spec u t) as [->|]; [apply in_in_remove; assumption|exact I].
    + intros u h. unfold upd. destruct (Nat.eqb_spec u t) as [->|]; [intro I; apply in_remove in I; destruct I as [I _]; eauto|eauto].
  - destruct P as [P1 P2]. destruct (f (reg w t) (var w x)) as [a v]. exists held, top. constructor; cbn [mtx prog]; auto.
    intro u. destruct (Nat.eq_dec u t) as [->|N]; [now rewrite upd_eq|now rewrite upd_neq].
Qed.
Lemma good_exec s guard sched : forall w held top w', Good guard w held top -> exec s w sched = Some w' -> exists held' top', Good guard w' held' top'.
Proof.
  induction sched as [|t ts IH]; intros w held top w' G E; [injection E as <-; eauto|]. cbn [exec] in E. pose proof (good_step s guard w held top t G) as K. destruct (step s w t) as [| |w1]; try discriminate E. destruct K as (h1 & t1 & G1). eapply IH; eassumption.
Qed.
(** someone holding a mutex at least [m], or the one it waits for, can go on *)
Lemma good_progress s guard w held top : Good guard w held top -> forall d m t, top - m <= d -> In m (held t) -> exists u w', step s w u = Next w'.
Proof.
  intros G. induction d as [|d IH]; intros m t D I.
  - pose proof (g_top _ _ _ _ G t m I). lia.
  - pose proof (good_step s guard w held top t G) as K. destruct (step s w t) as [| |w1] eqn:E; [|contradiction K|eauto].
    destruct K as [K|(m2 & p & u & _ & Iu & _ & L)].
    + pose proof (g_prog _ _ _ _ G t) as P. rewrite K in P. cbn in P. rewrite P in I. destruct I.
    + specialize (L m I). apply (IH m2 u); [pose proof (g_top _ _ _ _ G u m2 Iu); lia|exact Iu].
Qed.
Lemma step_length s w t w' : step s w t = Next w' -> (forall u, u <> t -> prog w' u = prog w u) /\ length (prog w t) = S (length (prog w' t)).
Proof.
  unfold step. destruct (prog w t) as [|[m|m|m|m|x f] p]; try discriminate.
  1-4: match goal with |- context [match ?o with Blocked => _ | _ => _ end] => destruct o; try discriminate end; intro H; injection H as <-; cbn [prog]; split; [intros u N; now rewrite upd_neq|now rewrite upd_eq].
  destruct (f (reg w t) (var w x)). intro H. injection H as <-. cbn [prog]. split; [intros u N; now rewrite upd_neq|now rewrite upd_eq].
Qed.
Lemma sum_upd (f g : nat -> nat) t n : t < n -> (forall u, u <> t -> f u = g u) -> f t = S (g t) -> list_sum (map f (seq 0 n)) = S (list_sum (map g (seq 0 n))).
Proof.
  intros L E S1. induction n as [|n IH]; [lia|]. rewrite seq_S, !map_app, !list_sum_app. cbn [plus map list_sum]. destruct (Nat.eq_dec t n) as [->|N].
  - rewrite (map_ext_in f g) by (intros a Ha; apply in_seq in Ha; apply E; lia). cbn. lia.
  - rewrite IH by lia. rewrite (E n) by congruence. cbn. lia.
Qed.

(** Any number of mutexes and threads that keep the discipline, every interleaving, both systems: nothing undefined; no data race (two threads whose next step
    accesses the same variable are the same thread); no deadlock; an execution has exactly as many steps as there were instructions to begin with, less those left;
    and when all threads are finished every mutex is free. *)
Theorem C88_ordered : forall s guard w0 n sched w, (forall m, mtx w0 m = Free) -> (forall t, disciplined guard [] (prog w0 t)) -> (forall t, n <= t -> prog w0 t = []) ->
  exec s w0 sched = Some w ->
  (forall t, step s w t <> Bad) /\
  (forall t u x f g p q, prog w t = Access x f :: p -> prog w u = Access x g :: q -> t = u) /\
  ((exists t, prog w t <> []) -> exists t w', step s w t = Next w') /\
  length sched + list_sum (map (fun t => length (prog w t)) (seq 0 n)) = list_sum (map (fun t => length (prog w0 t)) (seq 0 n)) /\
  ((forall t, prog w t = []) -> forall m, mtx w m = Free).
Proof.
  intros s guard w0 n sched w M D N E.
  assert (G0 : Good guard w0 (fun _ => []) 0) by (constructor; [exact D|intros t m []|intro m; left; apply M|intros t m []]).
  destruct (good_exec s guard sched w0 _ _ w G0 E) as (held & top & G). split; [|split; [|split; [|split]]].
  - intros t H. pose proof (good_step s guard w held top t G) as K. rewrite H in K. exact K.
  - intros t u x f g p q Ht Hu. pose proof (g_prog _ _ _ _ G t) as Pt. rewrite Ht in Pt. pose proof (g_prog _ _ _ _ G u) as Pu. rewrite Hu in Pu. destruct Pt as [Pt _], Pu as [Pu _].
    pose proof (g_held _ _ _ _ G _ _ Pt) as A. pose proof (g_held _ _ _ _ G _ _ Pu) as B. congruence.
  - intros (t & Ht). pose proof (good_step s guard w held top t G) as K. destruct (step s w t) as [| |w1] eqn:Es; [|contradiction K|eauto]. destruct K as [K|(m & p & u & _ & Iu & _)]; [contradiction|]. eapply (good_progress s guard w held top G (top - m)); [|exact Iu]. lia.
  - clear - N E. revert w0 N E. induction sched as [|t ts IH]; intros w0 N E; [injection E as <-; reflexivity|]. cbn [exec] in E. destruct (step s w0 t) as [| |w1] eqn:Es; try discriminate E.
    destruct (step_length s w0 t w1 Es) as [L1 L2]. assert (Lt : t < n) by (destruct (Nat.lt_ge_cases t n) as [|H]; [assumption|]; rewrite (N t H) in L2; discriminate L2).
    cbn [length]. specialize (IH w1). rewrite (sum_upd (fun t => length (prog w0 t)) (fun t => length (prog w1 t)) t n Lt); [|intros u Hu; now rewrite L1|exact L2]. cbn [plus]. f_equal. apply IH; [|exact E].
    intros u Hu. rewrite L1 by lia. now apply N.
  - intros F m. destruct (g_free _ _ _ _ G m) as [|(t & I)]; [assumption|]. pose proof (g_prog _ _ _ _ G t) as P. rewrite F in P. cbn in P. rewrite P in I. destruct I.
Qed.
Print Assumptions C88_ordered.
(** In opposite orders two threads can stop for ever. *)
Theorem C88_unordered_refuted : forall s, exists w0 sched w, (forall m, mtx w0 m = Free) /\ exec s w0 sched = Some w /\ prog w 0 <> [] /\ forall t, step s w t = Blocked.
Proof.
  intro s. exists (World (fun _ => Free) (fun t => match t with 0 => [Lock 0; Lock 1; Unlock 1; Unlock 0] | 1 => [Lock 1; Lock 0; Unlock 0; Unlock 1] | _ => [] end) (fun _ => 0%Z) (fun _ => 0%Z)), [0; 1].
  eexists. split; [reflexivity|]. split; [reflexivity|]. split; [discriminate|]. intros [|[|t]]; reflexivity.
Qed.
Print Assumptions C88_unordered_refuted.
Definition c88_prog (t : nat) : list instr :=
  match t with 0 => [Lock 1; Access 4 (fun a v => (v, v)); Lock 3; Access 9 (fun a v => (a, a)); Unlock 1; Unlock 3] | 1 => [Lock 3; Access 9 (fun a v => (v, 0)%Z); Unlock 3] | _ => [] end.
Example C88_case : (forall t, disciplined (fun x => if x =? 9 then 3 else 1) [] (c88_prog t)) /\
  match exec Windows (World (fun _ => Free) c88_prog (fun _ => 0%Z) (fun _ => 8%Z)) [0; 0; 1; 1; 1; 0; 0; 0; 0] with
  | Some w => (prog w 0, prog w 1, var w 9) = ([], [], 8%Z)
  | None => False
  end.
Proof.
  split; [intros [|[|t]]; cbn; repeat split; auto; intros h H; cbn in H; lia|]. vm_compute. reflexivity.
Qed.
