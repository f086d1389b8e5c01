(** C80, C81: thread-local storage, the ends of threads. *)
From Coq Require Import ZArith List Bool Lia.
From Verif Require Import QueueModel OsModel.
Import ListNotations.
Local Open Scope Z_scope.

(** * C80: thread-local storage *)

(** What the documentation (libs_thread.h 425-457) says, in terms of the calls made so far with
    their results (oldest first): the handles in use, latest first, and the value of a thread
    for a handle, which is that of its last set since the handle was created. *)
Definition live1 (hs : list Z) (x : nat * tcall * Z) : list Z :=
  match x with
  | (_, TCreate, r) => if r =? 0 then hs else r :: hs
  | (_, TDestroy h, _) => filter (fun y => negb (y =? h)) hs
  | _ => hs
  end.
Definition live (l : list (nat * tcall * Z)) : list Z := fold_left live1 l [].
Definition last1 (t : nat) (h v : Z) (x : nat * tcall * Z) : Z :=
  match x with
  | (_, TCreate, r) => if r =? h then 0 else v
  | (u, TSet h' y _, _) => if Nat.eqb u t && (h' =? h) then y else v
  | _ => v
  end.
Definition last_set (t : nat) (h : Z) (l : list (nat * tcall * Z)) : Z := fold_left (last1 t h) l 0.
(** The handles of calls are 32-bit numbers, as those that create returns, and no set runs out
    of memory. *)
Definition call_ok (c : tcall) : Prop :=
  match c with TCreate => True | TDestroy h | TGet h => 0 <= h < 2 ^ 32 | TSet h _ room => 0 <= h < 2 ^ 32 /\ room = true end.
(** The handle that a call uses. *)
Definition uses (c : tcall) : option Z :=
  match c with TCreate => None | TDestroy h | TGet h | TSet h _ _ => Some h end.
(** A system that gives out keys that are not in use, but never key 0. *)
Definition gives (pick : list Z -> option Z) : Prop := forall ks k, pick ks = Some k -> 0 < k < 2 ^ 32 /\ ~ In k ks.

Lemma key_id h : 0 <= h < 2 ^ 32 -> key h = h.
Proof. apply Z.mod_small. Qed.
Lemma in_use h ks : existsb (Z.eqb h) ks = true <-> In h ks.
Proof. rewrite existsb_exists. split; [intros (x & I & E); apply Z.eqb_eq in E; now subst|intros I; exists h; now rewrite Z.eqb_refl]. Qed.

Definition agrees (s : tls) (l : list (nat * tcall * Z)) : Prop :=
  keys s = live l /\ (forall h, In h (live l) -> h <> 0) /\ forall t h, In h (live l) -> slot s t h = last_set t h l.
Lemma live_snoc l x : live (l ++ [x]) = live1 (live l) x.
Proof. unfold live. now rewrite fold_left_app. Qed.
Lemma last_snoc t h l x : last_set t h (l ++ [x]) = last1 t h (last_set t h l) x.
Proof. unfold last_set. now rewrite fold_left_app. Qed.

(** one call *)
Lemma call_agrees pick s l t c : gives pick -> agrees s l -> call_ok c ->
  match tls_call pick t c s with
  | Some (r, s') => agrees s' (l ++ [(t, c, r)]) /\ match uses c with Some h => In h (live l) | None => True end /\
      match c with
      | TGet h => r = last_set t h l
      | TCreate => (r = 0 <-> pick (live l) = None) /\ (r <> 0 -> ~ In r (live l) /\ forall u, last_set u r (l ++ [(t, c, r)]) = 0)
      | _ => True
      end
  | None => match uses c with Some h => ~ In h (live l) | None => False end
  end.
Proof.
  intros G (K & NZ & V) C. destruct c as [|h|h v room|h]; cbn [tls_call uses call_ok] in *.
  - unfold tls_create. rewrite K. destruct (pick (live l)) as [k|] eqn:P.
    + destruct (G _ _ P) as [R N]. split; [|split; [exact I|split; [split; [lia|discriminate]|intros _; split; [exact N|]]]].
      * split; [|split]; rewrite live_snoc; cbn [live1 keys slot]; destruct (Z.eqb_spec k 0); [lia|reflexivity|lia| |lia|].
        -- intros h [<-|H]; [lia|now apply NZ].
        -- intros u h H. rewrite last_snoc. cbn [last1]. rewrite (Z.eqb_sym k h). destruct (Z.eqb_spec h k); [reflexivity|]. destruct H; [congruence|now apply V].
      * intros u. rewrite last_snoc. cbn [last1]. now rewrite Z.eqb_refl.
    + split; [|split; [exact I|split; [tauto|congruence]]]. split; [|split]; rewrite live_snoc; cbn [live1 Z.eqb]; auto.
      intros u h H. rewrite last_snoc. cbn [last1]. destruct (Z.eqb_spec 0 h) as [<-|]; [now apply NZ in H|]. now apply V.
  - unfold tls_destroy. rewrite K, (key_id h C). destruct (existsb _ _) eqn:E; cbn [option_map].
    + apply in_use in E. split; [|auto]. split; [|split]; rewrite live_snoc; cbn [live1 keys slot].
      * reflexivity.
      * intros x H. apply filter_In in H. now apply NZ.
      * intros u x H. rewrite last_snoc. cbn [last1]. apply filter_In in H. now apply V.
    + intros H. apply in_use in H. congruence.
  - destruct C as [C ->]. unfold tls_set. rewrite K, (key_id h C). destruct (existsb _ _) eqn:E; cbn [option_map].
    + apply in_use in E. split; [|auto]. split; [|split]; rewrite live_snoc; cbn [live1 keys slot]; auto.
      intros u x H. rewrite last_snoc. cbn [last1]. rewrite (Nat.eqb_sym t u), (Z.eqb_sym h x). destruct (Nat.eqb u t && (x =? h)); [reflexivity|now apply V].
    + intros H. apply in_use in H. congruence.
  - unfold tls_get. rewrite K, (key_id h C). destruct (existsb _ _) eqn:E; cbn [option_map].
    + apply in_use in E. split; [|split; [exact E|now apply V]]. split; [|split]; rewrite live_snoc; cbn [live1]; auto.
      intros u x H. rewrite last_snoc. now apply V.
    + intros H. apply in_use in H. congruence.
Qed.

Lemma run_agrees pick : gives pick -> forall cs s l0, agrees s l0 -> (forall t c, In (t, c) cs -> call_ok c) ->
  match tls_run pick cs s with
  | Some l => map fst l = cs /\
      forall pre t c r post, l = pre ++ (t, c, r) :: post ->
      match c with
      | TGet h => In h (live (l0 ++ pre)) /\ r = last_set t h (l0 ++ pre)
      | TCreate => (r = 0 <-> pick (live (l0 ++ pre)) = None) /\ (r <> 0 -> ~ In r (live (l0 ++ pre)) /\ forall u, last_set u r (l0 ++ pre ++ [(t, c, r)]) = 0)
      | _ => True
      end
  | None => exists pre t c post l, cs = pre ++ (t, c) :: post /\ tls_run pick pre s = Some l /\ match uses c with Some h => ~ In h (live (l0 ++ l)) | None => False end
  end.
Proof.
  intros G. induction cs as [|[t c] cs IH]; intros s l0 A C; cbn [tls_run].
  - split; [reflexivity|]. intros [|] * E; discriminate E.
  - pose proof (call_agrees pick s l0 t c G A (C t c ltac:(now left))) as H. destruct (tls_call pick t c s) as [[r s']|] eqn:S.
    + destruct H as (A' & U & R). specialize (IH s' _ A' ltac:(intros u d I; apply (C u); now right)). destruct (tls_run pick cs s') as [l|] eqn:T; cbn [option_map].
      * destruct IH as [M IH]. split; [cbn; now rewrite M|]. intros [|x pre] t1 c1 r1 post E; cbn [app] in E; injection E; intros.
        -- subst t1 c1 r1 post. rewrite app_nil_r. cbn [app]. destruct c; auto.
        -- subst x. specialize (IH pre t1 c1 r1 post ltac:(auto)). rewrite <- app_assoc in IH. cbn [app] in IH. rewrite <- app_assoc in IH. cbn [app] in *. exact IH.
      * destruct IH as (pre & t1 & c1 & post & l & E & T1 & U1). exists ((t, c) :: pre), t1, c1, post, ((t, c, r) :: l). split; [now rewrite E|]. split.
        -- cbn [tls_run]. now rewrite S, T1.
        -- rewrite <- app_assoc in U1. exact U1.
    + exists [], t, c, cs, []. rewrite app_nil_r. auto.
Qed.

(** For any number of threads and keys, in every sequence of calls that the system can serve
    with keys other than 0: get returns what the same thread last set for that handle, NULL if
    it has not since the handle was created, whatever other threads do and however often a
    handle's number is given out again; create returns NULL exactly when the system has no key
    left, else a handle that is not in use and NULL in every thread; and the sequence is
    undefined only by the use of a handle that is not in use.  (Missing: key 0 and a set that
    runs out of memory, see the counterexamples.) *)
Theorem C80_tls_partial : forall pick cs, gives pick -> (forall t c, In (t, c) cs -> call_ok c) ->
  match tls_run pick cs tls0 with
  | Some l => map fst l = cs /\
      forall pre t c r post, l = pre ++ (t, c, r) :: post ->
      match c with
      | TGet h => In h (live pre) /\ r = last_set t h pre
      | TCreate => (r = 0 <-> pick (live pre) = None) /\ (r <> 0 -> ~ In r (live pre) /\ forall u, last_set u r (pre ++ [(t, c, r)]) = 0)
      | _ => True
      end
  | None => exists pre t c post l, cs = pre ++ (t, c) :: post /\ tls_run pick pre tls0 = Some l /\ match uses c with Some h => ~ In h (live l) | None => False end
  end.
Proof.
  intros pick cs G C. assert (A : agrees tls0 []) by (split; [reflexivity|]; split; [intros ? []|intros ? ? []]).
  pose proof (run_agrees pick G cs tls0 [] A C) as H. cbn [app] in H. exact H.
Qed.
Print Assumptions C80_tls_partial.

(** The system that gives out the least free key below a limit, from a first one. *)
Fixpoint least (n : nat) (k : Z) (ks : list Z) : option Z :=
  match n with O => None | S n => if existsb (Z.eqb k) ks then least n (k + 1) ks else Some k end.
Lemma least_gives n k : 0 < k -> k + Z.of_nat n <= 2 ^ 32 -> gives (least n k).
Proof.
  intros K L ks. revert k K L. induction n as [|n IH]; intros k K L k' E; [discriminate|]. cbn [least] in E. destruct (existsb _ ks) eqn:X.
  - apply (IH (k + 1)); [lia|lia|exact E].
  - injection E as <-. split; [lia|]. intros H. apply in_use in H. congruence.
Qed.

(** The keys of glibc start at 0: then create returns NULL, as if it had failed, although it
    has got a key, which works. *)
Theorem C80_key_zero_refuted : exists pick l, pick [] <> None /\
  tls_run pick [(0, TCreate); (0, TSet 0 7 true); (1, TGet 0); (0, TGet 0)]%nat tls0 = Some l /\ map snd l = [0; 0; 0; 7] /\
  tls_run (fun _ => None) [(0%nat, TCreate)] tls0 = Some (firstn 1 l).
Proof. exists (least 1024 0), [(0%nat, TCreate, 0); (0%nat, TSet 0 7 true, 0); (1%nat, TGet 0, 0); (0%nat, TGet 0, 7)]. repeat split. discriminate. Qed.
Print Assumptions C80_key_zero_refuted.

(** A set that runs out of memory returns as if it had stored the value. *)
Theorem C80_no_memory_refuted : exists pick l, gives pick /\
  tls_run pick [(0, TCreate); (0, TSet 1 7 false); (0, TGet 1)]%nat tls0 = Some l /\ map snd l = [1; 0; 0].
Proof. exists (least 1024 1), [(0%nat, TCreate, 1); (0%nat, TSet 1 7 false, 0); (0%nat, TGet 1, 0)]. split; [now apply least_gives|]. split; reflexivity. Qed.
Print Assumptions C80_no_memory_refuted.

Example C80_case : gives (least 2 1) /\
  option_map (map snd) (tls_run (least 2 1) [(0, TCreate); (1, TCreate); (1, TCreate); (0, TSet 1 7 true); (1, TSet 1 8 true); (1, TSet 2 9 true); (0, TGet 1); (1, TGet 1);
     (0, TGet 2); (0, TDestroy 1); (2, TCreate); (0, TGet 1); (1, TGet 2)]%nat tls0)
  = Some [1; 2; 0; 0; 0; 0; 7; 8; 0; 0; 1; 0; 9].
Proof. split; [now apply least_gives|]. vm_compute. reflexivity. Qed.

(** * C81: the ends of threads *)

(** The code with which a thread ended, an int. *)
Definition code (e : ending) : Z := match e with Return c _ => c | Exit c => c end.
Definition is_int (c : Z) : Prop := - 2 ^ 31 <= c < 2 ^ 31.
Definition ints (cs : list thcall) : Prop := forall t e, In (Finish t e) cs -> is_int (code e).
(** Of a sequence of calls: the number of threads started; the code with which thread t ended
    first, if it has, once n were started before; whether its handle has been given up. *)
Fixpoint started (cs : list thcall) : nat :=
  match cs with [] => O | Create true :: cs => S (started cs) | _ :: cs => started cs end.
Fixpoint end_of (t n : nat) (cs : list thcall) : option Z :=
  match cs with
  | [] => None
  | Create true :: cs => end_of t (S n) cs
  | Finish u e :: cs => if Nat.eqb u t && Nat.ltb t n then Some (code e) else end_of t n cs
  | _ :: cs => end_of t n cs
  end.
Definition gives_up (p : platform) (t : nat) (c : thcall) : bool :=
  match c, p with Join u, Gcc => Nat.eqb u t | Destroy u, _ => Nat.eqb u t | _, _ => false end.
Definition given_up (p : platform) (t : nat) (cs : list thcall) : bool := existsb (gives_up p t) cs.

Lemma exit_word p e : is_int (code e) -> exit_code (word p e) = code e.
Proof.
  intros H. unfold is_int in H.
  assert (K : forall x, x mod 2 ^ 32 = code e mod 2 ^ 32 -> to_int x = code e).
  { intros x E. unfold to_int, signed. rewrite E. clear E. generalize dependent (code e). clear. intros c H. change (2 ^ (32 - 1)) with (2 ^ 31).
    destruct (Z.ltb_spec (c mod 2 ^ 32) (2 ^ 31)) as [L|L]; destruct (Z.leb_spec 0 c).
    - apply Z.mod_small. lia.
    - exfalso. rewrite <- (Z.mod_unique c (2 ^ 32) (-1) (c + 2 ^ 32)) in L by lia. lia.
    - rewrite Z.mod_small in L by lia. lia.
    - rewrite <- (Z.mod_unique c (2 ^ 32) (-1) (c + 2 ^ 32)) by lia. lia. }
  unfold exit_code. apply K. destruct p, e as [c u|c]; cbn [word code].
  - apply Zmod_mod.
  - apply Zmod_mod.
  - rewrite Z.mul_comm, Z_mod_plus_full. apply Zmod_mod.
  - change (2 ^ 64) with (2 ^ 32 * 2 ^ 32). rewrite Z.rem_mul_r by lia. rewrite Z.mul_comm, Z_mod_plus_full. apply Zmod_mod.
Qed.

Lemma put_len t x s : length (put t x s) = length s.
Proof. revert t. induction s; intros [|t]; cbn; auto. Qed.
Lemma put_nth t u x s : nth_error (put t x s) u = if Nat.eqb u t then match nth_error s t with Some _ => Some x | None => None end else nth_error s u.
Proof. revert t u. induction s as [|y s IH]; intros [|t] [|u]; cbn; auto; try (now destruct (Nat.eqb u t)); now rewrite IH. Qed.

(** The system after the calls pre. *)
Definition holds (p : platform) (pre : list thcall) (s : system) : Prop :=
  length s = started pre /\
  forall t x, nth_error s t = Some x -> option_map exit_code (ended x) = end_of t 0 pre /\ kept x = negb (given_up p t pre).

Lemma started_app a b : started (a ++ b) = (started a + started b)%nat.
Proof. induction a as [|[[|]| | |] a IH]; cbn; auto. Qed.
Lemma end_app t a : forall n b, end_of t n (a ++ b) = match end_of t n a with Some c => Some c | None => end_of t (n + started a) b end.
Proof.
  induction a as [|c a IH]; intros n b; cbn [app end_of started]; [now rewrite Nat.add_0_r|].
  destruct c as [[|]|u e|u|u]; rewrite ?IH; auto.
  - now rewrite Nat.add_succ_r.
  - now destruct (_ && _).
Qed.
Lemma given_app p t a b : given_up p t (a ++ b) = given_up p t a || given_up p t b.
Proof. apply existsb_app. Qed.
Lemma end_early t : forall cs n, (n + started cs <= t)%nat -> end_of t n cs = None.
Proof.
  induction cs as [|c cs IH]; intros n L; [reflexivity|]. destruct c as [[|]|u e|u|u]; cbn [end_of started] in *; try (apply IH; lia).
  destruct (Nat.ltb_spec t n); [lia|]. rewrite andb_false_r. apply IH. lia.
Qed.

(** What a call does after calls that have all returned. *)
Definition answer (p : platform) (pre : list thcall) (c : thcall) : tres (option Z) :=
  match c with
  | Create true => Goes (Some (Z.of_nat (started pre)))
  | Create false | Finish _ _ => Goes None
  | Join t | Destroy t =>
      if Nat.ltb t (started pre) && negb (given_up p t pre)
      then match end_of t 0 pre with Some r => Goes (match c with Join _ => Some r | _ => None end) | None => Waits end
      else Undef
  end.
(** The handles of threads that were not started are not used. *)
Definition known (pre : list thcall) (c : thcall) : Prop :=
  match c with Join t | Destroy t => (t < started pre)%nat | _ => True end.
Lemma holds_step p pre s c : holds p pre s -> (forall t e, c = Finish t e -> is_int (code e)) -> (forall t, (started pre <= t)%nat -> given_up p t pre = false) ->
  match thread_call p c s with
  | Goes (r, s') => answer p pre c = Goes r /\ holds p (pre ++ [c]) s' /\ known pre c
  | Waits => answer p pre c = Waits
  | Undef => answer p pre c = Undef
  end.
Proof.
  intros [L H] I F.
  assert (B : forall t, nth_error s t = None <-> (started pre <= t)%nat) by (intros t; rewrite <- L; apply nth_error_None).
  assert (Q : forall t x, nth_error s t = Some x -> (t < started pre)%nat) by (intros t x E; destruct (Nat.le_gt_cases (started pre) t) as [G|G]; [apply B in G; congruence|exact G]).
  assert (U : forall t s', length s' = length s -> (forall u, u <> t -> nth_error s' u = nth_error s u) -> started [c] = O -> (forall u, u <> t -> gives_up p u c = false) ->
     (forall e, c <> Finish t e) -> (forall u e, c = Finish u e -> u = t) ->
     (forall x, nth_error s' t = Some x -> exists y, nth_error s t = Some y /\ ended x = ended y /\ kept x = kept y && negb (gives_up p t c)) -> holds p (pre ++ [c]) s').
  { intros t s' L' N S G NF NF' X. split; [rewrite started_app; lia|]. intros u x E. rewrite end_app, given_app. unfold given_up at 2. cbn [existsb]. rewrite orb_false_r.
    assert (Z : end_of u (0 + started pre) [c] = None).
    { destruct c as [[|]|v e|v|v]; auto. exfalso. apply (NF e). now rewrite (NF' v e eq_refl). }
    rewrite Z. destruct (Nat.eq_dec u t) as [->|NE].
    - destruct (X x E) as (y & Ey & E1 & E2). destruct (H t y Ey) as [H1 H2]. rewrite E1, E2, H1, H2. split; [now destruct (end_of t 0 pre)|now rewrite negb_orb].
    - rewrite (N u NE) in E. destruct (H u x E) as [H1 H2]. rewrite H1, H2, (G u NE), orb_false_r. split; [now destruct (end_of u 0 pre)|reflexivity]. }
  destruct c as [b|t e|t|t]; cbn [thread_call known].
  - unfold thread_create. destruct b; cbn [answer option_map]; (split; [now rewrite ?L|split; [|exact Logic.I]]).
    + split; [rewrite app_length, started_app, L; cbn; lia|]. intros t x E. rewrite end_app, given_app. cbn [end_of given_up existsb gives_up orb]. rewrite orb_false_r.
      destruct (Nat.ltb_spec t (length s)) as [T|T].
      * rewrite nth_error_app1 in E by exact T. destruct (H t x E) as [H1 H2]. split; [now rewrite H1; destruct (end_of t 0 pre)|exact H2].
      * rewrite nth_error_app2 in E by exact T. destruct (t - length s)%nat as [|k] eqn:D; [|now destruct k]. cbn in E. injection E as <-. cbn [ended kept option_map].
        rewrite end_early by lia. split; [reflexivity|]. now rewrite F by lia.
    + split; [rewrite started_app; cbn; lia|]. intros t x E. destruct (H t x E) as [H1 H2]. rewrite end_app, given_app. cbn [end_of given_up existsb gives_up orb]. rewrite orb_false_r.
      split; [now rewrite H1; destruct (end_of t 0 pre)|exact H2].
  - split; [reflexivity|]. split; [|exact Logic.I]. unfold finish. destruct (nth_error s t) as [[w k]|] eqn:E.
    + assert (T := Q t _ E). destruct (H t _ E) as [H1 H2]. cbn [ended kept] in *. destruct w as [w|].
      * split; [rewrite started_app; cbn; lia|]. intros u x X. rewrite end_app, given_app. cbn [given_up existsb gives_up orb]. rewrite orb_false_r. destruct (H u x X) as [G1 G2].
        split; [|exact G2]. rewrite G1. destruct (end_of u 0 pre) eqn:Z; [reflexivity|]. cbn [end_of]. destruct (Nat.eqb_spec t u) as [->|]; [|reflexivity]. rewrite <- H1 in Z. discriminate.
      * split; [rewrite put_len, started_app; cbn; lia|]. intros u x X. rewrite end_app, given_app. cbn [given_up existsb gives_up orb]. rewrite orb_false_r. rewrite put_nth in X.
        cbn [end_of]. rewrite (Nat.eqb_sym t u). destruct (Nat.eqb_spec u t) as [->|].
        -- rewrite E in X. injection X as <-. cbn [ended kept option_map] in *. rewrite <- H1. destruct (Nat.ltb_spec t (0 + started pre)); [|cbn in *; lia]. cbn [andb].
           rewrite exit_word by (now apply (I t)). auto.
        -- destruct (H u x X) as [G1 G2]. rewrite G1. split; [now destruct (end_of u 0 pre)|exact G2].
    + apply B in E. split; [rewrite started_app; cbn; lia|]. intros u x X. assert (T := Q u _ X). destruct (H u x X) as [G1 G2]. rewrite end_app, given_app. cbn [given_up existsb gives_up orb end_of]. rewrite orb_false_r.
      split; [|exact G2]. rewrite G1. destruct (Nat.eqb_spec t u) as [->|]; [lia|]. now destruct (end_of u 0 pre).
  - unfold thread_join. cbn [answer]. destruct (nth_error s t) as [[w k]|] eqn:E.
    + assert (T := Q t _ E). destruct (H t _ E) as [H1 H2]. cbn [ended kept] in *. destruct (Nat.ltb_spec t (started pre)); [|lia]. rewrite <- H2, <- H1. cbn [andb].
      destruct k; [|reflexivity]. destruct w as [w|]; cbn [option_map]; [|reflexivity]. split; [reflexivity|]. split; [|exact T].
      destruct p.
      * apply (U t s); auto; try discriminate. intros x X. exists x. rewrite andb_true_r. auto.
      * apply (U t); try discriminate; auto.
        -- apply put_len.
        -- intros u NE. rewrite put_nth. destruct (Nat.eqb_spec u t); [contradiction|reflexivity].
        -- intros u NE. cbn. destruct (Nat.eqb_spec t u); congruence.
        -- intros x X. rewrite put_nth, Nat.eqb_refl, E in X. injection X as <-. eexists. split; [exact E|]. cbn. now rewrite Nat.eqb_refl.
    + apply B in E. destruct (Nat.ltb_spec t (started pre)); [lia|]. reflexivity.
  - unfold thread_destroy. cbn [answer]. destruct (nth_error s t) as [[w k]|] eqn:E.
    + assert (T := Q t _ E). destruct (H t _ E) as [H1 H2]. cbn [ended kept] in *. destruct (Nat.ltb_spec t (started pre)); [|lia]. rewrite <- H2, <- H1. cbn [andb].
      destruct k; [|reflexivity]. destruct w as [w|]; cbn [option_map]; [|reflexivity]. split; [reflexivity|]. split; [|exact T].
      apply (U t); try discriminate; auto.
      * apply put_len.
      * intros u NE. rewrite put_nth. destruct (Nat.eqb_spec u t); [contradiction|reflexivity].
      * intros u NE. cbn. destruct p; destruct (Nat.eqb_spec t u); congruence.
      * intros x X. rewrite put_nth, Nat.eqb_refl, E in X. injection X as <-. eexists. split; [exact E|]. cbn. destruct p; now rewrite Nat.eqb_refl.
    + apply B in E. destruct (Nat.ltb_spec t (started pre)); [lia|]. reflexivity.
Qed.

Lemma run_holds p : forall cs pre s, holds p pre s -> ints cs -> (forall t, (started pre <= t)%nat -> given_up p t pre = false) ->
  match thread_run p cs s with
  | Goes (l, s') => map fst l = cs /\ holds p (pre ++ cs) s' /\
      forall a c r b, l = a ++ (c, r) :: b -> answer p (pre ++ map fst a) c = Goes r
  | Waits => exists a c b, cs = a ++ c :: b /\ answer p (pre ++ a) c = Waits
  | Undef => exists a c b, cs = a ++ c :: b /\ answer p (pre ++ a) c = Undef
  end.
Proof.
  induction cs as [|c cs IH]; intros pre s H I F; cbn [thread_run].
  - split; [reflexivity|]. rewrite app_nil_r. split; [exact H|]. intros [|] * E; discriminate E.
  - pose proof (holds_step p pre s c H ltac:(intros t e ->; apply (I t e); now left) F) as S. destruct (thread_call p c s) as [[r s1]| |].
    + destruct S as (A & H1 & K). assert (F1 : forall t, (started (pre ++ [c]) <= t)%nat -> given_up p t (pre ++ [c]) = false).
      { intros t T. rewrite started_app in T. rewrite given_app, F by lia. cbn [given_up existsb orb]. rewrite orb_false_r. destruct c as [| |u|u], p; cbn in *; auto; destruct (Nat.eqb_spec u t); auto; lia. }
      specialize (IH (pre ++ [c]) s1 H1 ltac:(intros t e E; apply (I t); now right) F1). destruct (thread_run p cs s1) as [[l s2]| |].
      * destruct IH as (M & H2 & R). split; [cbn; now rewrite M|]. rewrite <- app_assoc in H2. split; [exact H2|].
        intros [|x a] d q b E; cbn [app] in E; injection E; intros; subst; cbn [map fst]; [now rewrite app_nil_r|].
        specialize (R a d q b eq_refl). rewrite <- app_assoc in R. exact R.
      * destruct IH as (a & d & b & E & W). exists (c :: a), d, b. split; [now rewrite E|]. rewrite <- app_assoc in W. exact W.
      * destruct IH as (a & d & b & E & W). exists (c :: a), d, b. split; [now rewrite E|]. rewrite <- app_assoc in W. exact W.
    + exists [], c, cs. rewrite app_nil_r. auto.
    + exists [], c, cs. rewrite app_nil_r. auto.
Qed.

(** For any number of threads that end by returning an int or by thread_exit, and any sequence
    of calls: each call gives its [answer] after the calls before it, so that join gives the
    code with which the thread ended, whatever the rest of the machine word holds, and join and
    destroy wait for that end; a call is undefined exactly when its handle is of no thread
    started or was given up; and the system still keeps just the threads whose handles were not
    given up. *)
Theorem C81_threads : forall p cs, ints cs ->
  match thread_run p cs [] with
  | Goes (l, s) => map fst l = cs /\ (forall a c r b, l = a ++ (c, r) :: b -> answer p (map fst a) c = Goes r) /\
      length s = started cs /\ (forall t x, nth_error s t = Some x -> kept x = negb (given_up p t cs))
  | Waits => exists a c b, cs = a ++ c :: b /\ answer p a c = Waits
  | Undef => exists a c b, cs = a ++ c :: b /\ answer p a c = Undef
  end.
Proof.
  intros p cs I. assert (H : holds p [] []) by (split; [reflexivity|]; intros [|t] x E; discriminate E).
  pose proof (run_holds p cs [] [] H I ltac:(reflexivity)) as R. cbn [app] in R. destruct (thread_run p cs []) as [[l s]| |]; auto.
  destruct R as (M & [L K] & R). split; [exact M|]. split; [exact R|]. split; [exact L|]. intros t x E. apply (K t x E).
Qed.
Print Assumptions C81_threads.

(** The example of the documentation (libs_thread.h 115-138) joins a thread and then destroys
    it: on POSIX that is undefined. *)
Theorem C81_example_refuted : exists c, is_int c /\
  let cs := [Create true; Finish 0 (Return c 0); Join 0; Destroy 0] in
  thread_run Gcc cs [] = Undef /\ exists l s, thread_run Win cs [] = Goes (l, s) /\ map snd l = [Some 0; None; Some c; None].
Proof. exists 5. split; [unfold is_int; lia|]. split; [reflexivity|]. do 2 eexists. split; reflexivity. Qed.
Print Assumptions C81_example_refuted.

(** No sequence of calls with a join serves both systems: if none of its calls is undefined on
    POSIX and Windows is left with no thread, then it joins none. *)
Theorem C81_portable_refuted : forall cs l s l' s', ints cs -> thread_run Gcc cs [] = Goes (l, s) -> thread_run Win cs [] = Goes (l', s') ->
  (forall x, In x s' -> kept x = false) -> forall t, ~ In (Join t) cs.
Proof.
  intros cs l s l' s' I G W K t J.
  pose proof (C81_threads Gcc cs I) as TG. rewrite G in TG. destruct TG as (MG & RG & _). pose proof (C81_threads Win cs I) as TW. rewrite W in TW. destruct TW as (_ & _ & LW & KW).
  assert (A : forall a c b, cs = a ++ c :: b -> exists r, answer Gcc a c = Goes r).
  { intros a c b E. rewrite E in MG. apply map_eq_app in MG as (l1 & l2 & -> & <- & M2). destruct l2 as [|[c2 r2] l2]; [discriminate|]. injection M2 as <- <-.
    exists r2. now apply (RG l1 c2 r2 l2). }
  assert (B : forall u, In (Join u) cs \/ In (Destroy u) cs -> (u < started cs)%nat).
  { intros u [H|H]; apply in_split in H as (a & b & E); destruct (A _ _ _ E) as [r R]; cbn [answer] in R; rewrite E, started_app;
      destruct (Nat.ltb_spec u (started a)); [lia|discriminate R|lia|discriminate R]. }
  assert (T := B t (or_introl J)). rewrite <- LW in T. destruct (nth_error s' t) as [x|] eqn:X; [|apply nth_error_None in X; lia].
  assert (V := KW t x X). rewrite (K x) in V by (eapply nth_error_In; exact X). symmetry in V. apply negb_false_iff in V. unfold given_up in V.
  apply existsb_exists in V as (c & C & V). assert (c = Destroy t) as ->.
  { destruct c as [| |u|u]; cbn in V; try discriminate. apply Nat.eqb_eq in V. now subst. }
  apply in_split in J as (a & b & E). assert (D : In (Destroy t) a \/ In (Destroy t) b).
  { rewrite E in C. apply in_app_or in C as [C|[C|C]]; auto. discriminate C. }
  destruct D as [D|D].
  - destruct (A _ _ _ E) as [r R]. cbn [answer] in R.
    assert (Q : given_up Gcc t a = true) by (unfold given_up; apply existsb_exists; exists (Destroy t); split; [exact D|apply Nat.eqb_refl]).
    rewrite Q, andb_false_r in R. discriminate R.
  - apply in_split in D as (b1 & b2 & ->). destruct (A (a ++ Join t :: b1) (Destroy t) b2) as [r R]; [now rewrite E, <- app_assoc|]. cbn [answer] in R.
    assert (Q : given_up Gcc t (a ++ Join t :: b1) = true) by (unfold given_up; apply existsb_exists; exists (Join t); split; [apply in_or_app; right; now left|apply Nat.eqb_refl]).
    rewrite Q, andb_false_r in R. discriminate R.
Qed.
Print Assumptions C81_portable_refuted.

(** On POSIX the stack size asked for (libs_thread.h 206-209) is ignored. *)
Theorem C81_stack_refuted : (forall n, 0 < n -> stack Win n = Some n) /\ exists n, 0 < n /\ stack Gcc n <> Some n.
Proof. split; [intros n H; cbn; now rewrite (proj2 (Z.ltb_lt 0 n) H)|]. exists 65536. split; [lia|discriminate]. Qed.
Print Assumptions C81_stack_refuted.

Example C81_case : exists l s, thread_run Gcc [Create true; Create false; Create true; Finish 1 (Exit (-7)); Join 1; Finish 0 (Return (-2147483648) 12345); Join 0] [] = Goes (l, s) /\
  map snd l = [Some 0; None; Some 1; None; Some (-7); None; Some (-2147483648)] /\ map kept s = [false; false].
Proof. do 2 eexists. split; [reflexivity|]. vm_compute. auto. Qed.
Example C81_waits_case : thread_run Win [Create true; Join 0; Finish 0 (Exit 3)] [] = Waits /\ thread_run Gcc [Create true; Finish 0 (Exit 3); Destroy 0; Join 0] [] = Undef.
Proof. split; reflexivity. Qed.
