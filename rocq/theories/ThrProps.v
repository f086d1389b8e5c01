(** C36: what nanostl::thread really does. *)
From Coq Require Import List Bool Arith Lia.
From Verif Require Import Mem ThrModel.
Import ListNotations.

Definition idle (w : world) : Prop :=
  (forall x h, objs w x = Some h -> h = None) /\ (forall t, pending (sys w) t = None) /\ ran (sys w) = [].

Lemma upd_cases {A} (f : nat -> A) x v y : upd f x v y = if Nat.eqb y x then v else f y.
Proof. reflexivity. Qed.

Lemma step_idle w o r w' : idle w -> step w o = Ok (r, w') ->
  idle w' /\ (forall x, o = Joinable x -> r = Bool false) /\ (forall x, o = Native x -> r = Handle None).
Proof.
  intros (A & B & C) H. unfold idle.
  destruct o; cbn [step] in H;
    unfold ctor_default, ctor_fn, joinable, join, dtor, native_handle, handle, os_join, os_run in H;
    try (destruct (objs w x) as [h|] eqn:E; cbn [bind] in H; try discriminate; try (rewrite (A _ _ E) in H)).
  all: try rewrite B in H; injection H as <- <-; cbn [objs sys];
    (split; [split; [|split; assumption]|split; intros ? K; try discriminate; try reflexivity]);
    try assumption; intros y k; rewrite ?upd_cases; try (destruct (Nat.eqb y x); try discriminate;
    try (intro K; injection K as <-; reflexivity)); apply A.
Qed.

(** Every history of thread objects and every schedule: no function passed to a thread ever runs,
    joinable() is false at every call and the native handle is always null. *)
Theorem C36_no_thread_ever_runs : forall ops outs w,
  run world0 ops = Ok (outs, w) ->
  ran (sys w) = [] /\
  forall i x, (nth_error ops i = Some (Joinable x) -> nth_error outs i = Some (Bool false)) /\
              (nth_error ops i = Some (Native x) -> nth_error outs i = Some (Handle None)).
Proof.
  assert (H : forall ops w0 outs w, idle w0 -> run w0 ops = Ok (outs, w) ->
    ran (sys w) = [] /\
    forall i x, (nth_error ops i = Some (Joinable x) -> nth_error outs i = Some (Bool false)) /\
                (nth_error ops i = Some (Native x) -> nth_error outs i = Some (Handle None))).
  { induction ops as [|o t IH]; intros w0 outs w I R; cbn [run] in R.
    - injection R as <- <-. split; [apply I|]. intros [|i] x; split; discriminate.
    - destruct (step w0 o) as [[r w1]| |] eqn:E; try discriminate. cbn [bind] in R.
      destruct (run w1 t) as [[rs w2]| |] eqn:E2; try discriminate. cbn [bind] in R. injection R as <- <-.
      destruct (step_idle _ _ _ _ I E) as (I1 & J & N). destruct (IH _ _ _ I1 E2) as (Q & F).
      split; [exact Q|]. intros [|i] x; cbn [nth_error].
      + split; intro K; injection K as ->; f_equal; eauto.
      + apply F. }
  intros ops outs w. apply H. split; [discriminate|]. split; reflexivity.
Qed.
Print Assumptions C36_no_thread_ever_runs.

(** The member functions on a live object, in any world: native_handle() gives the handle and
    joinable() says whether there is one; after join() the object is not joinable, and after
    join() or destruction the function of the thread of that handle has run, every other
    thread is as before, and no other object is touched.  (In the worlds a client can reach the
    handle is null, see C36_no_thread_ever_runs, so nothing runs.) *)
Theorem C36_join_waits_partial : forall w x h, objs w x = Some h ->
  let done := match h with
              | Some t => match pending (sys w) t with Some f => [f] | None => [] end
              | None => []
              end in
  native_handle w x = Ok h /\ joinable w x = Ok (match h with Some _ => true | None => false end) /\
  (exists w', join w x = Ok w' /\ joinable w' x = Ok false /\ (forall y, y <> x -> objs w' y = objs w y) /\
     (forall u, h = Some u -> pending (sys w') u = None) /\ (forall u, h <> Some u -> pending (sys w') u = pending (sys w) u) /\
     ran (sys w') = ran (sys w) ++ done) /\
  (exists w', dtor w x = Ok w' /\ objs w' x = None /\ (forall y, y <> x -> objs w' y = objs w y) /\
     (forall u, h = Some u -> pending (sys w') u = None) /\ (forall u, h <> Some u -> pending (sys w') u = pending (sys w) u) /\
     ran (sys w') = ran (sys w) ++ done).
Proof.
  intros w x h H done. unfold native_handle, join, dtor, joinable, handle. rewrite H. cbn [bind]. subst done.
  split; [reflexivity|]. split; [reflexivity|].
  split; eexists; (split; [reflexivity|]); (destruct h as [t|]; [cbn [objs sys]; unfold os_join, os_run; destruct (pending (sys w) t) as [f|] eqn:E; cbn [pending ran]|]);
    cbn [objs sys]; rewrite ?upd_cases, ?Nat.eqb_refl, ?H; cbn [bind]; repeat split; try reflexivity;
    try (intros y N; rewrite ?upd_cases; destruct (Nat.eqb_spec y x); [contradiction|reflexivity]);
    try (intros u N; injection N as <-; rewrite ?upd_cases, ?Nat.eqb_refl; (reflexivity || exact E));
    try (intros u N; rewrite ?upd_cases; destruct (Nat.eqb_spec u t) as [->|]; [contradiction|reflexivity]);
    try (intros u N; discriminate); rewrite ?app_nil_r; reflexivity.
Qed.
Print Assumptions C36_join_waits_partial.

(** an object whose handle is thread 3, which still has to run function 7 *)
Example C36_join_case : exists w', join (World (upd (fun _ => None) 0 (Some (Some 3))) (Os (upd (fun _ => None) 3 (Some 7)) 4 [])) 0 = Ok w' /\ ran (sys w') = [7].
Proof. eexists. split; reflexivity. Qed.

(** C36 is false: thread t(f); is not joinable and f has not run after join. *)
Theorem C36_thread_refuted : exists ops outs w,
  run world0 ops = Ok (outs, w) /\ In (NewFn 0 7) ops /\ In (Join 0) ops /\
  nth_error ops 1 = Some (Joinable 0) /\ nth_error outs 1 = Some (Bool false) /\ ~ In 7 (ran (sys w)).
Proof.
  exists [NewFn 0 7; Joinable 0; Sched 0; Join 0; Delete 0].
  eexists _, _. split; [reflexivity|]. cbn. repeat split; auto.
Qed.
Print Assumptions C36_thread_refuted.
