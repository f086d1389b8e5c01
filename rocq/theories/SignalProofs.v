(** Invariants of the executions of SignalModel. *)
From Coq Require Import ZArith List Bool PeanoNat Lia.
From Verif Require Import SignalModel.
Import ListNotations.

(** A thread between lock and unlock. *)
Definition critical (p : pc) : bool := match p with RSet | RUnlock | WCheck _ | WTake | WUnlock _ => true | _ => false end.
(** A thread that will see, or make seen, a raised signal. *)
Definition alert (p : pc) : bool := match p with RUnlock | RSignal | WCheck _ | WWoken _ | WTake => true | _ => false end.
Definition signalling (p : pc) : bool := match p with RUnlock | RSignal => true | _ => false end.
Definition waiting (p : pc) : bool := match p with Idle | RLock | RSet | RUnlock | RSignal => false | _ => true end.

Definition b2n (b : bool) : nat := if b then 1 else 0.
Definition raise_ahead (p : pc) : nat := match p with RLock | RSet => 1 | _ => 0 end.
Definition wait_won (p : pc) : nat := match p with WUnlock true => 1 | _ => 0 end.
Definition is_raise (c : call) : bool := match c with Raise => true | Wait _ => false end.
Definition raises (cs : list call) : nat := length (filter is_raise cs).
Definition wins (rs : list bool) : nat := length (filter (fun b => b) rs).

Lemma put_eq {A} (f : nat -> A) t a : put f t a t = a.
Proof. unfold put. now rewrite Nat.eqb_refl. Qed.
Lemma put_neq {A} (f : nat -> A) t a u : u <> t -> put f t a u = f u.
Proof. intros N. unfold put. now rewrite (proj2 (Nat.eqb_neq u t) N). Qed.

Definition total (n : nat) (f : nat -> nat) : nat := list_sum (map f (seq 0 n)).
Lemma total_S n f : total (S n) f = total n f + f n.
Proof. unfold total. rewrite seq_S, map_app, list_sum_app. cbn. lia. Qed.
Lemma total_ext n f g : (forall t, t < n -> f t = g t) -> total n f = total n g.
Proof. induction n; intros E; [reflexivity|]. rewrite !total_S, IHn, E; auto with arith. Qed.
Lemma total_at n f g t : t < n -> (forall u, u < n -> u <> t -> g u = f u) -> total n g + f t = total n f + g t.
Proof.
  induction n as [|n IH]; intros L E; [lia|]. rewrite !total_S. destruct (Nat.eq_dec t n) as [->|N].
  - rewrite (total_ext n g f) by (intros; apply E; lia). lia.
  - rewrite (E n) by lia. assert (total n g + f t = total n f + g t) by (apply IH; [lia|intros; apply E; lia]). lia.
Qed.
Lemma total_le n f g : (forall t, t < n -> f t <= g t) -> total n f <= total n g.
Proof. induction n; intros E; [cbn; lia|]. rewrite !total_S. pose proof (E n). pose proof (IHn ltac:(intros; apply E; lia)). lia. Qed.
Lemma total_0 n f : (forall t, f t = 0) -> total n f = 0.
Proof. intros E. induction n; [reflexivity|]. now rewrite total_S, IHn, E. Qed.
Lemma total_pos n f : 1 <= total n f -> exists t, t < n /\ 1 <= f t.
Proof.
  induction n as [|n IH]; intros L; [cbn in L; lia|]. rewrite total_S in L. destruct (f n) eqn:F; [|exists n; lia].
  destruct IH as (t & T & H); [lia|]. exists t. lia.
Qed.

Section Laws.
  Context (n : nat).
  Notation step := (step n).
  Notation run := (run n).

  Ltac flat := cbn [value owner at_ prog res goto set_value set_owner] in *.
  Ltac cases0 m s E := unfold SignalModel.step in E; destruct m as [t u|t|t]; destruct (Nat.ltb_spec t n) as [Lt|]; try discriminate E;
    [unfold go, lock in E; destruct (at_ s t) eqn:At; repeat match type of E with
       | context [match ?x with _ => _ end] => destruct x eqn:?; try discriminate E
       end; try discriminate E
    |destruct (at_ s t) eqn:At; try discriminate E
    |destruct (at_ s t) as [| | | | | | |[]|[]| | |] eqn:At; try discriminate E];
    injection E as <-; try (match goal with H : (_ <? n)%nat = true |- _ => apply Nat.ltb_lt in H end).
  Ltac cases m s E := cases0 m s E; flat.
  Ltac puts := repeat match goal with
    | |- context [put ?f ?t ?a ?u] => destruct (Nat.eq_dec u t) as [?|?]; [subst; rewrite (put_eq f)|rewrite (put_neq f t a u) by assumption]
    | H : context [put ?f ?t ?a ?u] |- _ => destruct (Nat.eq_dec u t) as [?|?]; [subst; rewrite (put_eq f) in H|rewrite (put_neq f t a u) in H by assumption]
    end.
  Ltac known := repeat match goal with H : at_ ?s ?t = _, G : _ |- _ => lazymatch G with H => fail | _ => rewrite H in G end end;
    repeat match goal with H : at_ ?s ?t = _ |- _ => rewrite H end.

  (** The owner of the mutex is the thread between lock and unlock. *)
  Definition excl (s : state) : Prop :=
    (forall t, critical (at_ s t) = true <-> owner s = Some t) /\ (forall t, n <= t -> at_ s t = Idle) /\ (forall t, at_ s t = WTake -> value s = true).

  Lemma step_excl m s s' : excl s -> step m s = Some s' -> excl s'.
  Proof.
    intros (X & Y & Z) E.
    cases m s E; (split; [intros w; pose proof (X w); pose proof (X t); try (pose proof (X u))|
      split; [intros w Lw; try pose proof (Y w Lw)|intros w; pose proof (X w); pose proof (X t); pose proof (Z w)]]);
      clear X Y Z; flat; puts; known; cbn [critical] in *; try congruence; try lia; try (intuition congruence).
    all: intros Aw; repeat match goal with H : ?a = ?a <-> _ |- _ => apply proj1 in H; specialize (H eq_refl) end;
      rewrite Aw in *; cbn [critical] in *; intuition congruence.
  Qed.
  Lemma run_inv (I : state -> Prop) ms : forall s, (forall m s s', In m ms -> I s -> step m s = Some s' -> I s') -> I s -> I (run ms s).
  Proof.
    induction ms as [|m ms IH]; intros s P X; [exact X|]. cbn [SignalModel.run]. apply IH; [intros; eapply P; eauto; now right|].
    destruct (step m s) eqn:E; [eapply P; eauto; now left|exact X].
  Qed.
  Lemma start_excl p : excl (start p).
  Proof. unfold excl, start; flat. repeat split; cbn [critical]; congruence. Qed.
  Lemma reach_excl p ms : excl (run ms (start p)).
  Proof. apply run_inv; [intros; eapply step_excl; eauto|apply start_excl]. Qed.

  (** Counting.  [P]: the raises to be made in all. *)
  Definition unset (s : state) (t : nat) : nat := raises (prog s t) + raise_ahead (at_ s t).
  Definition won (s : state) (t : nat) : nat := wins (res s t) + wait_won (at_ s t).
  Definition counts (P : nat) (s : state) : Prop :=
    excl s /\ total n (won s) + b2n (value s) + total n (unset s) <= P
    /\ (total n (unset s) < P -> 1 <= total n (won s) + b2n (value s)).
  Lemma won_goto t s p : t < n -> total n (won (goto t p s)) + wait_won (at_ s t) = total n (won s) + wait_won p.
  Proof.
    intros L. assert (K : total n (won (goto t p s)) + won s t = total n (won s) + won (goto t p s) t).
    { apply total_at; [exact L|]. intros u _ N. unfold won, goto. cbn [at_ res]. now rewrite put_neq. }
    assert (W : won (goto t p s) t = wins (res s t) + wait_won p) by (unfold won, goto; cbn [at_ res]; now rewrite put_eq).
    rewrite W in K. unfold won at 2 in K. lia.
  Qed.
  Lemma unset_goto t s p : t < n -> total n (unset (goto t p s)) + raise_ahead (at_ s t) = total n (unset s) + raise_ahead p.
  Proof.
    intros L. assert (K : total n (unset (goto t p s)) + unset s t = total n (unset s) + unset (goto t p s) t).
    { apply total_at; [exact L|]. intros u _ N. unfold unset, goto. cbn [at_ prog]. now rewrite put_neq. }
    assert (W : unset (goto t p s) t = raises (prog s t) + raise_ahead p) by (unfold unset, goto; cbn [at_ prog]; now rewrite put_eq).
    rewrite W in K. unfold unset at 2 in K. lia.
  Qed.
  Lemma step_counts P m s s' : counts P s -> step m s = Some s' -> counts P s'.
  Proof.
    intros (X & A & B) E. split; [eapply step_excl; eauto|].
    pose proof (proj2 (proj2 X) (match m with Go t _ => t | Spurious t => t | Timeout t => t end)) as XT. clear X.
    cases0 m s E.
    all: try (match goal with |- context [total n (won (goto ?t ?p ?z))] =>
        pose proof (won_goto t z p ltac:(assumption)) as W1; pose proof (unset_goto t z p ltac:(assumption)) as U1;
        change (value (goto t p z)) with (value z) in *;
        match z with
        | goto ?t1 ?p1 ?z1 => pose proof (won_goto t1 z1 p1 ltac:(assumption)) as W2; pose proof (unset_goto t1 z1 p1 ltac:(assumption)) as U2;
            assert (t <> t1) by congruence; cbn [goto at_] in W1, U1; rewrite put_neq in W1, U1 by assumption; known; cbn [wait_won raise_ahead] in *;
            change (value (goto t1 p1 z1)) with (value z1) in *; fold (goto t1 p1 z1) in W1, U1; fold (goto t p (goto t1 p1 z1)) in W1, U1; clear -A B W1 W2 U1 U2; split; lia
        | _ => change (at_ z) with (at_ s) in *; change (total n (won z)) with (total n (won s)) in *; change (total n (unset z)) with (total n (unset s)) in *;
            rewrite At in *; try (rewrite (XT eq_refl) in * ); cbn [wait_won raise_ahead set_value set_owner value b2n] in *; try (match goal with H : value _ = _ |- _ => rewrite H end); clear -A B W1 U1; try destruct (value s); cbn [b2n] in *; split; lia
        end end).
    1, 2: match goal with H : prog _ _ = _ :: ?cs |- context [won ?z] =>
        replace (total n (won z)) with (total n (won s)) by
          (apply total_ext; intros v _; unfold won; cbn [at_ res]; destruct (Nat.eq_dec v t) as [->|]; [rewrite put_eq, At|rewrite put_neq by assumption]; reflexivity);
        replace (total n (unset z)) with (total n (unset s)) by
          (apply total_ext; intros v _; unfold unset; cbn [at_ prog]; destruct (Nat.eq_dec v t) as [->|]; [rewrite !put_eq, At, H; unfold raises; cbn [filter is_raise length raise_ahead]; lia|rewrite !put_neq by assumption; reflexivity]);
        exact (conj A B)
      end.
    match goal with |- context [won ?z] =>
      replace (total n (won z)) with (total n (won s)) by
        (apply total_ext; intros v _; unfold won; cbn [at_ res]; destruct (Nat.eq_dec v t) as [->|]; [rewrite !put_eq, At; destruct ok; unfold wins; cbn [filter length wait_won]; lia|rewrite !put_neq by assumption; reflexivity]);
      replace (total n (unset z)) with (total n (unset s)) by
        (apply total_ext; intros v _; unfold unset; cbn [at_ prog]; destruct (Nat.eq_dec v t) as [->|]; [rewrite !put_eq, At; reflexivity|rewrite !put_neq by assumption; reflexivity]);
      exact (conj A B)
    end.
  Qed.
  Lemma start_counts p : counts (total n (fun t => raises (p t))) (start p).
  Proof.
    split; [apply start_excl|]. change (b2n (value (start p))) with 0.
    assert (total n (won (start p)) = 0) by (apply total_0; reflexivity).
    assert (total n (unset (start p)) = total n (fun t => raises (p t))) by (apply total_ext; intros; unfold unset, start; cbn [prog at_ raise_ahead]; lia). lia.
  Qed.
  Lemma reach_counts p ms : counts (total n (fun t => raises (p t))) (run ms (start p)).
  Proof. apply run_inv; [intros; eapply step_counts; eauto|apply start_counts]. Qed.

  (** A raised signal is never overlooked by all the sleepers, if no wait times out. *)
  Definition lively (s : state) : Prop :=
    value s = true -> (exists w, asleep (at_ s w) = true) -> exists u, alert (at_ s u) = true.
  Ltac witness := match goal with
    | |- exists u, alert (put _ ?t ?p u) = true => exists t; rewrite put_eq; reflexivity
    end.
  Lemma step_lively m s s' : (forall t, m <> Timeout t) -> (forall t, n <= t -> at_ s t = Idle) -> lively s -> step m s = Some s' -> lively s'.
  Proof.
    intros NT Out X E. unfold lively in *. cases m s E; try (exfalso; eapply NT; reflexivity); intros V (w & W); try congruence; try witness.
    all: try (match goal with
      | H : existsb _ _ = false |- _ => exfalso; puts; [discriminate|];
          assert (K : existsb (fun u => asleep (at_ s u)) (seq 0 n) = true); [apply existsb_exists; exists w; split; [apply in_seq|exact W]|congruence];
          destruct (Nat.lt_ge_cases w n) as [?|G]; [lia|]; rewrite (Out w G) in W; discriminate W
      end).
    all: try (assert (K : exists u, alert (at_ s u) = true) by (apply X; [assumption|exists w; puts; [discriminate|assumption]]);
      destruct K as (v & K); exists v; assert (v <> t) by (intros ->; rewrite At in K; discriminate K); now rewrite put_neq by assumption).
  Qed.
  Lemma reach_lively p ms : (forall t, ~ In (Timeout t) ms) -> lively (run ms (start p)).
  Proof.
    intros NT. cut (excl (run ms (start p)) /\ lively (run ms (start p))); [tauto|].
    apply (run_inv (fun s => excl s /\ lively s)).
    - intros m s s' M (A & B) E. split; [eapply step_excl; eauto|]. eapply step_lively; [|apply A|exact B|exact E]. intros t ->. exact (NT t M).
    - split; [apply start_excl|]. intros V. discriminate V.
  Qed.
  (** The same with time-outs, if no thread but [w] waits. *)
  Definition lively1 (w : nat) (s : state) : Prop :=
    (forall t, t <> w -> waiting (at_ s t) = false /\ Forall (fun c => c = Raise) (prog s t))
    /\ (value s = true -> asleep (at_ s w) = true -> exists u, signalling (at_ s u) = true).
  Lemma step_lively1 w m s s' : (forall t, n <= t -> at_ s t = Idle) -> lively1 w s -> step m s = Some s' -> lively1 w s'.
  Proof.
    intros Out [X Y] E. assert (L : asleep (at_ s w) = true -> w < n).
    { intros A. destruct (Nat.lt_ge_cases w n) as [?|G]; [assumption|]. rewrite (Out w G) in A. discriminate A. }
    split.
    - intros v N. specialize (X v N). pose proof X as [Xa Xb]. clear Y Out L. cases m s E; puts; rewrite ?At in *; cbn [waiting] in *; try (split; (reflexivity || assumption)); try discriminate; try tauto.
      all: try (match goal with H : prog _ _ = _, G : Forall _ (prog _ _) |- _ => rewrite H in G; inversion G; subst end); try (split; [reflexivity|assumption]); try discriminate.
      all: match goal with H : at_ _ _ = WSleep _ , G : waiting (at_ _ _) = false |- _ => rewrite H in G; discriminate G end.
    - cases m s E; intros V W; try congruence;
        try (exists t; rewrite put_eq; reflexivity).
      all: try (match goal with H : existsb _ _ = false |- _ => exfalso; puts; [discriminate|];
          assert (K : existsb (fun u => asleep (at_ s u)) (seq 0 n) = true); [apply existsb_exists; exists w; split; [apply in_seq; pose proof (L W); lia|exact W]|congruence] end).
      all: try (assert (K : exists u, signalling (at_ s u) = true) by (apply Y; [first [assumption|reflexivity]|puts; [discriminate|assumption]]);
        destruct K as (v & K); exists v; assert (v <> t) by (intros ->; rewrite At in K; discriminate K); now rewrite put_neq by assumption).
      all: exfalso; match goal with H : at_ _ ?u = WSleep _ |- _ => destruct (Nat.eq_dec u w) as [->|N]; [rewrite put_eq in W; discriminate W|destruct (X u N) as [Xa _]; rewrite H in Xa; discriminate Xa] end.
  Qed.
  Lemma reach_lively1 w p ms : (forall t, t <> w -> Forall (fun c => c = Raise) (p t)) -> lively1 w (run ms (start p)).
  Proof.
    intros O. cut (excl (run ms (start p)) /\ lively1 w (run ms (start p))); [tauto|].
    apply (run_inv (fun s => excl s /\ lively1 w s)).
    - intros m s s' M (A & B) E. split; [eapply step_excl; eauto|]. eapply step_lively1; [apply A|exact B|exact E].
    - split; [apply start_excl|]. split; [intros t T; split; [reflexivity|cbn; auto]|]. intros V. discriminate V.
  Qed.

  (** If no thread can go on, each has finished or sleeps. *)
  Lemma stuck s : excl s -> (forall t u, step (Go t u) s = None) -> forall t, t < n -> (at_ s t = Idle /\ prog s t = []) \/ asleep (at_ s t) = true.
  Proof.
    intros (X & Y & _) H.
    assert (O : owner s = None).
    { destruct (owner s) as [t|] eqn:O; [|reflexivity]. pose proof (proj2 (X t) eq_refl) as C.
      assert (L : t < n) by (destruct (Nat.lt_ge_cases t n) as [?|G]; [assumption|rewrite (Y t G) in C; discriminate C]).
      specialize (H t t). unfold SignalModel.step in H. rewrite (proj2 (Nat.ltb_lt t n) L) in H. unfold go in H.
      destruct (at_ s t); try discriminate C; try discriminate H. destruct (value s); discriminate H. }
    intros t L. pose proof (H t) as Ht. unfold SignalModel.step in Ht. rewrite (proj2 (Nat.ltb_lt t n) L) in Ht. unfold go, lock in Ht. rewrite O in Ht.
    destruct (at_ s t) eqn:At; try (specialize (Ht t); discriminate Ht).
    - left. split; [reflexivity|]. destruct (prog s t); [reflexivity|]. specialize (Ht t); discriminate Ht.
    - exfalso. destruct (existsb _ _) eqn:Ex; [|specialize (Ht t); discriminate Ht].
      apply existsb_exists in Ex as (u & U1 & U2). specialize (Ht u). apply in_seq in U1. rewrite (proj2 (Nat.ltb_lt u n)) in Ht by lia.
      destruct (at_ s u); discriminate U2 || discriminate Ht.
    - specialize (Ht t). destruct (value s); discriminate Ht.
    - right. reflexivity.
  Qed.
End Laws.
