(** Properties of nanostl::expected. *)
From Coq Require Import List Bool PeanoNat Lia.
From Verif Require Import LifeModel ExpModel ExpSpec ExpProofs ExpVoidProofs.
Import ListNotations.

Section Laws.
  Context {V : Type}.
  Context (promise : nat -> okind -> bool) (moved torn : V -> V) (thr : nat -> bool) (noexc : bool).
  Notation run := (run promise moved torn thr noexc).
  Notation exec := (exec promise moved torn thr noexc).

  Lemma run_inv os w : promise 0 KMove = true -> promise 1 KMove = true -> inv w ->
    match run os w with
    | Ret _ w' => inv w'
    | Term => exists o, In o os /\ may_terminate promise o = true /\ (exists n, thr n = true) /\ exists k, promise 0 k = false \/ promise 1 k = false
    | _ => False
    end.
  Proof.
    intros P0 P1. revert w. induction os as [|o os IH]; intros w I; [exact I|]. cbn [ExpSpec.run]. destruct (legal noexc o (abs w)) eqn:L.
    - pose proof (exec_good promise moved torn thr noexc o w P0 P1 I L) as G. unfold good in G. destruct (exec o w) as [r w1|[|] w1| |]; try contradiction.
      + destruct G as (I1 & _). specialize (IH _ I1). destruct (run os w1); try contradiction; [exact IH|]. destruct IH as (o' & A & B). exists o'. split; [now right|exact B].
      + destruct G as (I1 & _). specialize (IH _ I1). destruct (run os w1); try contradiction; [exact IH|]. destruct IH as (o' & A & B). exists o'. split; [now right|exact B].
      + destruct G as ((I1 & _) & _). specialize (IH _ I1). destruct (run os w1); try contradiction; [exact IH|]. destruct IH as (o' & A & B). exists o'. split; [now right|exact B].
      + exists o. split; [now left|exact G].
    - specialize (IH _ I). destruct (run os w); try contradiction; [exact IH|]. destruct IH as (o' & A & B). exists o'. split; [now right|exact B].
  Qed.

  Lemma legal_ext o s s' : (forall x, s x = s' x) -> legal noexc o s = legal (V:=V) noexc o s'.
  Proof. intros E. unfold legal, declared, valued, failed. destruct o; rewrite ?E; reflexivity. Qed.
  Lemma answer_ext o s s' : (forall x, s x = s' x) -> answer o s = answer (V:=V) o s'.
  Proof. intros E. unfold answer, valued. destruct o; rewrite ?E; reflexivity. Qed.
  Lemma after_ext o s s' x : (forall x, s x = s' x) -> after moved o s x = after (V:=V) moved o s' x.
  Proof. intros E. unfold after, put, valued. destruct o; rewrite ?E; try reflexivity. match goal with |- context [s' ?n] => destruct (s' n) as [[|]|]; rewrite ?E; reflexivity end. Qed.

  Lemma run_spec os w s : (forall n, thr n = false) -> inv w -> (forall x, abs w x = s x) ->
    exists w', run os w = Ret (fst (spec_run moved noexc os s)) w' /\ inv w' /\ forall x, abs w' x = snd (spec_run moved noexc os s) x.
  Proof.
    intros T. revert w s. induction os as [|o os IH]; intros w s I A; [now exists w|]. cbn [ExpSpec.run spec_run]. rewrite <- (legal_ext o _ _ A), <- (answer_ext o _ _ A).
    destruct (legal noexc o (abs w)) eqn:L; [|now apply IH].
    pose proof (exec_calm promise moved torn thr noexc o w T I L) as G. unfold calm in G. destruct (exec o w) as [r w1|[|] w1| |]; try contradiction.
    - destruct G as (I1 & A1 & ->). destruct (IH w1 (after moved o s) I1) as (w' & R & I' & A').
      { intros x. rewrite A1. now apply after_ext. }
      exists w'. rewrite R. destruct (spec_run moved noexc os _). cbn. auto.
    - destruct G as ((I1 & A1) & ->). destruct (IH w1 s I1) as (w' & R & I' & A'). { intros x. now rewrite A1. }
      exists w'. rewrite R. destruct (spec_run moved noexc os s). cbn. auto.
  Qed.

  Lemma vrun_inv os w : vinv w ->
    match vrun promise moved torn thr noexc (vlegal noexc) os w with Ret _ w' => vinv w' | Term => exists o, In o os /\ vmay_terminate promise o = true /\ exists n, thr n = true | _ => False end.
  Proof.
    revert w. induction os as [|o os IH]; intros w I; [exact I|]. cbn [vrun]. destruct (vlegal noexc o (vabs w)) eqn:L; [|specialize (IH w I); destruct (vrun _ _ _ _ _ _ os w); try tauto; destruct IH as (o' & H1 & H2); exists o'; split; [now right|exact H2]].
    pose proof (vexec_fine promise moved torn thr noexc o w I L) as G. unfold vfine in G. destruct (vexec _ _ _ _ _ o w) as [r w1|[|] w1| |]; try contradiction.
    - destruct G as (I1 & _). specialize (IH _ I1). destruct (vrun _ _ _ _ _ _ os w1); try tauto. destruct IH as (o' & H1 & H2). exists o'. split; [now right|exact H2].
    - destruct G as (I1 & _). specialize (IH _ I1). destruct (vrun _ _ _ _ _ _ os w1); try tauto. destruct IH as (o' & H1 & H2). exists o'. split; [now right|exact H2].
    - destruct G as ((I1 & _) & _). specialize (IH _ I1). destruct (vrun _ _ _ _ _ _ os w1); try tauto. destruct IH as (o' & H1 & H2). exists o'. split; [now right|exact H2].
    - exists o. split; [now left|]. tauto.
  Qed.
End Laws.

(** C54: whatever a client does with expecteds whose value and error types have moves that
    do not throw, and whichever of their other operations throw: the program never
    constructs over a live object, and never destroys, reads or assigns an object that is
    not there or as the wrong alternative; each expected in scope holds exactly one object,
    a T when has_value() is true and an E otherwise; every other object ever constructed
    has been destroyed exactly once.  The program can only be ended by std::terminate, for
    a call listed in [may_terminate]. *)
Theorem C54_lifetimes : forall (V : Type) promise (moved torn : V -> V) thr noexc (os : list (op V)),
  promise 0 KMove = true -> promise 1 KMove = true ->
  match run promise moved torn thr noexc os init with
  | Ret _ w =>
      (forall x, match disc w (Var x) with
                 | Some h => exists v, objs w (Var x) = Some (if h then 0 else 1, v)
                 | None => objs w (Var x) = None end) /\
      (forall l, made w l = gone w l + match l with Var x => match disc w (Var x) with Some _ => 1 | None => 0 end | Tmp _ => 0 end)
  | Term => exists o, In o os /\ may_terminate promise o = true /\ (exists n, thr n = true) /\ exists k, promise 0 k = false \/ promise 1 k = false
  | Exn _ _ | Bad _ => False
  end.
Proof.
  intros V promise moved torn thr noexc os P0 P1. pose proof (run_inv promise moved torn thr noexc os init P0 P1 (inv_init)) as H. destruct (run _ _ _ _ _ os init) as [r w|e w| |u]; [|exact H|exact H|exact H].
  destruct H as (A & B & C). split.
  - exact A.
  - intros l. rewrite C. f_equal. destruct l as [x|k].
    + specialize (A x). destruct (disc w (Var x)) as [[|]|]; [destruct A as (v & ->)|destruct A as (v & ->)|rewrite A]; reflexivity.
    + destruct (B k) as [_ ->]. reflexivity.
Qed.
Print Assumptions C54_lifetimes.

(** With types that never throw (and whatever they promise), every program gives exactly
    the results and the final contents that the specification gives. *)
Theorem C54_refines : forall (V : Type) promise (moved torn : V -> V) noexc (os : list (op V)),
  exists w, run promise moved torn (fun _ => false) noexc os init = Ret (fst (spec_run moved noexc os (fun _ => None))) w /\
    forall x, abs w x = snd (spec_run moved noexc os (fun _ => None)) x.
Proof.
  intros. destruct (run_spec promise moved torn (fun _ => false) noexc os init (fun _ => None)) as (w & R & _ & A); try reflexivity; [apply inv_init|].
  exists w. split; assumption.
Qed.
Print Assumptions C54_refines.

(** Calls in any reachable state, with throwing allowed: a call that returns does what the
    specification says; one that is left by an exception of the element types has had no
    effect, or (only if a swap of two values or of two errors threw) has left the target
    with what that swap left; and only an operation that its type has not promised not to
    throw ends a call so. *)
Theorem C54_each_call : forall (V : Type) promise (moved torn : V -> V) thr noexc (os : list (op V)) rs w o,
  promise 0 KMove = true -> promise 1 KMove = true ->
  run promise moved torn thr noexc os init = Ret rs w -> legal noexc o (abs w) = true ->
  match exec promise moved torn thr noexc o w with
  | Ret r w' => answer o (abs w) = Some r /\ forall x, abs w' x = after moved o (abs w) x
  | Exn User w' => (exists s, In s (after_throw promise moved torn o (abs w)) /\ forall x, abs w' x = s x) /\ exists k, promise 0 k = false \/ promise 1 k = false
  | Exn BadAccess w' => answer o (abs w) = None /\ forall x, abs w' x = abs w x
  | Term => may_terminate promise o = true /\ exists k, promise 0 k = false \/ promise 1 k = false
  | Bad _ => False
  end.
Proof.
  intros V promise moved torn thr noexc os rs w o P0 P1 R L. pose proof (run_inv promise moved torn thr noexc os init P0 P1 inv_init) as H. rewrite R in H.
  pose proof (exec_good promise moved torn thr noexc o w P0 P1 H L) as G. unfold good in G. destruct (exec _ _ _ _ _ o w) as [r w'|[|] w'| |]; try tauto.
  - destruct G as (_ & G & _ & K). apply Exists_exists in G. now split.
  - destruct G as (G & _ & K). now split.
Qed.
Print Assumptions C54_each_call.

(** With types that promise that none of their operations throw, a legal call in any
    reachable state does what the specification says or throws bad_expected_access where
    the specification has no answer. *)
Theorem C54_promised : forall (V : Type) promise (moved torn : V -> V) thr noexc (os : list (op V)) rs w o,
  (forall k, promise 0 k = true /\ promise 1 k = true) ->
  run promise moved torn thr noexc os init = Ret rs w -> legal noexc o (abs w) = true ->
  (exists r w', exec promise moved torn thr noexc o w = Ret r w' /\ answer o (abs w) = Some r /\ forall x, abs w' x = after moved o (abs w) x) \/
  (exists w', exec promise moved torn thr noexc o w = Exn BadAccess w' /\ answer o (abs w) = None /\ forall x, abs w' x = abs w x).
Proof.
  intros V promise moved torn thr noexc os rs w o P R L. pose proof (C54_each_call V promise moved torn thr noexc os rs w o (proj1 (P _)) (proj2 (P _)) R L) as C.
  assert (N : ~ exists k, promise 0 k = false \/ promise 1 k = false) by (intros (k & [H|H]); destruct (P k); congruence).
  destruct (exec _ _ _ _ _ o w) as [r w'|[|] w'| |]; try tauto.
  - left. exists r, w'. tauto.
  - right. exists w'. tauto.
Qed.
Print Assumptions C54_promised.

(** Strong guarantee: if neither moves nor swaps of the types throw, a call of any kind
    other than assigning through a reference ([OSet], [OSetErr]) that is left by an
    exception has had no effect at all. *)
Theorem C54_strong_guarantee : forall (V : Type) promise (moved torn : V -> V) thr noexc (os : list (op V)) rs w o e w',
  promise 0 KMove = true -> promise 1 KMove = true -> promise 0 KSwap = true -> promise 1 KSwap = true ->
  run promise moved torn thr noexc os init = Ret rs w -> legal noexc o (abs w) = true ->
  (forall x v, o <> OSet x v /\ o <> OSetErr x v) ->
  exec promise moved torn thr noexc o w = Exn e w' -> forall x, abs w' x = abs w x.
Proof.
  intros V promise moved torn thr noexc os rs w o e w' P0 P1 S0 S1 R L N E. pose proof (C54_each_call V promise moved torn thr noexc os rs w o P0 P1 R L) as C. rewrite E in C. destruct e.
  - destruct C as ((s & S & A) & _). intros x. rewrite A.
    assert (F : forall q, frail (V:=V) promise q = false) by (intros [[|]|]; cbn; rewrite ?S0, ?S1; reflexivity).
    destruct o; cbn [after_throw] in S; rewrite ?F, ?andb_false_r in S; cbn [In] in S; try tauto; try (destruct S as [<-|[]]; reflexivity).
    + exfalso. eapply (proj1 (N _ _)). reflexivity.
    + exfalso. eapply (proj2 (N _ _)). reflexivity.
  - apply C.
Qed.
Print Assumptions C54_strong_guarantee.

(** If moving a value may throw, swap (and with it every assignment) can leave behind an
    expected that claims to hold an error which has already been destroyed; its destructor
    destroys it again. *)
Theorem C54_throwing_move_refuted : exists (thr : nat -> bool) (os : list (op nat)),
  match run (fun _ _ => false) (fun v => v) (fun v => v) thr false os init with
  | Ret _ w => disc w (Var 1) = Some false /\ objs w (Var 1) = None /\
      match exec (fun _ _ => false) (fun v => v) (fun v => v) thr false (ODel 1) w with Bad NoObj => True | _ => False end
  | _ => False
  end.
Proof. exists (fun n => Nat.eqb n 3), [ONewVal 0 InPlace 1; ONewErr 1 InPlace 2; OSwap 0 1]. vm_compute. repeat split. Qed.
Print Assumptions C54_throwing_move_refuted.

(** Constructing from a non-const variable a type whose copy constructor throws ends the
    program, although the same construction from a const variable lets the exception out:
    the constructor is noexcept whenever E can be moved. *)
Theorem C54_value_ctor_throw_refuted : exists (promise : nat -> okind -> bool) (thr : nat -> bool),
  promise 0 KCopy = false /\
  run promise (fun v : nat => v) (fun v => v) thr false [ONewVal 0 FromLvalue 1] init = Term /\
  exists w, run promise (fun v : nat => v) (fun v => v) thr false [ONewVal 0 FromConst 1] init = Ret [inr User] w.
Proof.
  exists (fun _ k => match k with KMove => true | _ => false end), (fun _ => true). split; [reflexivity|]. split; [reflexivity|]. eexists. reflexivity.
Qed.
Print Assumptions C54_value_ctor_throw_refuted.

(** Equality: of the same kind and equal; comparing with a value or an unexpected is
    comparing with an expected that holds it. *)
Theorem C54_equality : forall (T E : Type) (teq : T -> T -> bool) (eeq : E -> E -> bool) (x y : T + E) (v : T) (u : E),
  let same a b := match a, b with inl p, inl q => teq p q | inr p, inr q => eeq p q | _, _ => false end in
  let tne a b := negb (teq a b) in
  exp_eq teq eeq x y = same x y /\ exp_ne teq eeq x y = negb (same x y) /\
  ev_eq teq x v = same x (inl v) /\ ve_eq teq v x = same (inl v) x /\
  ev_ne tne x v = negb (same x (inl v)) /\ ve_ne tne v x = negb (same (inl v) x) /\
  eu_eq eeq x u = same x (inr u) /\ ue_eq eeq u x = same x (inr u) /\
  eu_ne eeq x u = negb (same x (inr u)) /\ ue_ne eeq u x = negb (same x (inr u)).
Proof. intros T E teq eeq x y v u same tne. subst same tne. destruct x as [p|p], y as [q|q]; cbn; repeat split. Qed.
Print Assumptions C54_equality.

(** A concrete program with throwing copies: the copy assignment that throws changes
    nothing, the swap of a value with an error works, value() on an error throws. *)
Example C54_case :
  let promise := fun (_ : nat) k => match k with KMove | KSwap | KNew => true | _ => false end in
  let os := [ONewVal 0 InPlace 7; ONewErr 1 InPlace 8; OCopy 0 1; OGet 0; OSwap 0 1; OHas 0; OError 0; OGet 1; OValue 0;
             OMove 0 1; OGet 0; OGet 1; OErr 1 InPlace 5; OValueOr 1 6; OEmplace 1 3; ODel 0; ODel 1] in
  match run promise (fun _ => 100) (fun v => v) (fun n => Nat.eqb n 2) false os init with
  | Ret rs w => rs = [inl Nothing; inl Nothing; inr User; inl (OVal_ 7); inl Nothing; inl (OBool false); inl (OVal_ 8); inl (OVal_ 7); inr BadAccess;
                      inl Nothing; inl (OVal_ 7); inl (OVal_ 100); inl Nothing; inl (OVal_ 6); inl (OVal_ 3); inl Nothing; inl Nothing] /\
                made w (Var 1) = gone w (Var 1) /\ made w (Var 1) = 4
  | _ => False
  end.
Proof. vm_compute. auto. Qed.

(** * C55: expected<void,E> *)

(** While assignment and swap are only used between two successes or two errors, the
    lifetimes of errors are right, for any pattern of throwing operations.  (What is missing
    is any assignment or swap between a success and an error: see the counterexamples.) *)
Theorem C55_lifetimes_partial : forall (V : Type) promise (moved torn : V -> V) thr noexc (os : list (vop V)),
  match vrun promise moved torn thr noexc (vlegal noexc) os init with
  | Ret _ w =>
      (forall x, disc w (Var x) = Some false <-> objs w (Var x) <> None) /\
      (forall l, made w l = gone w l + match l with Var x => match disc w (Var x) with Some false => 1 | _ => 0 end | Tmp _ => 0 end)
  | Term => exists o, In o os /\ vmay_terminate promise o = true /\ exists n, thr n = true
  | Exn _ _ | Bad _ => False
  end.
Proof.
  intros. pose proof (vrun_inv promise moved torn thr noexc os init vinv_init) as H. destruct (vrun _ _ _ _ _ _ os init) as [r w|e w| |u]; [|exact H|exact H|exact H].
  destruct H as (A & B & C). split.
  - intros x. specialize (A x). destruct (disc w (Var x)) as [[|]|]; [|destruct A as (v & ->)|]; split; congruence.
  - intros l. rewrite C. f_equal. destruct l as [x|k].
    + specialize (A x). destruct (disc w (Var x)) as [[|]|]; [rewrite A|destruct A as (v & ->)|rewrite A]; reflexivity.
    + destruct (B k) as [_ ->]. reflexivity.
Qed.
Print Assumptions C55_lifetimes_partial.

(** ... and each call gives the right result and contents. *)
Theorem C55_each_call_partial : forall (V : Type) promise (moved torn : V -> V) thr noexc (os : list (vop V)) rs w o,
  vrun promise moved torn thr noexc (vlegal noexc) os init = Ret rs w -> vlegal noexc o (vabs w) = true ->
  match vexec promise moved torn thr noexc o w with
  | Ret r w' => vanswer o (vabs w) = Some r /\ forall x, vabs w' x = vafter moved o (vabs w) x
  | Exn User w' => ((exists n, thr n = true) /\ exists k, promise 1 k = false) /\ (promise 1 KSwap = true -> forall x, vabs w' x = vabs w x)
  | Exn BadAccess w' => vanswer o (vabs w) = None /\ forall x, vabs w' x = vabs w x
  | Term => ((exists n, thr n = true) /\ exists k, promise 1 k = false) /\ vmay_terminate promise o = true
  | Bad _ => False
  end.
Proof.
  intros V promise moved torn thr noexc os rs w o R L. pose proof (vrun_inv promise moved torn thr noexc os init vinv_init) as H. rewrite R in H.
  pose proof (vexec_fine promise moved torn thr noexc o w H L) as G. unfold vfine in G. destruct (vexec _ _ _ _ _ o w) as [r w'|[|] w'| |]; tauto.
Qed.
Print Assumptions C55_each_call_partial.
(** Such a move assignment does end the program when the swap throws. *)
Example C55_terminate_case :
  let promise := fun _ k => match k with KSwap => false | _ => true end in
  vrun promise (fun v => v) (fun v => v) (fun _ => true) false (vlegal false) [VNewErr 0 FromRvalue 5; VNewErr 1 FromRvalue 6; VMove 0 1] init = Term /\ vmay_terminate promise (@VMove nat 0 1) = true.
Proof. vm_compute. auto. Qed.

(** Swapping a success with an error (here the assignment of a success to an error) does
    not destroy the error: it leaks, with types that never throw. *)
Theorem C55_leak_refuted : exists os : list (vop nat),
  match vrun (fun _ _ => true) (fun v => v) (fun v => v) (fun _ => false) false (fun _ _ => true) os init with
  | Ret _ w => (forall x, In x [0; 1] -> disc w (Var x) = None) /\ made w (Var 1) = 1 /\ gone w (Var 1) = 0
  | _ => False
  end.
Proof. exists [VNew 0; VNewErr 1 InPlace 5; VSwap 0 1; VDel 0; VDel 1]. vm_compute. repeat split. intros x [<-|[<-|[]]]; reflexivity. Qed.
Print Assumptions C55_leak_refuted.

(** Swapping back constructs the error over the one that is still alive. *)
Theorem C55_overwrite_refuted : exists os : list (vop nat),
  match vrun (fun _ _ => true) (fun v => v) (fun v => v) (fun _ => false) false (fun _ _ => true) os init with Bad Overwrite => True | _ => False end.
Proof. exists [VNew 0; VNewErr 1 InPlace 5; VSwap 0 1; VSwap 0 1]. vm_compute. exact I. Qed.
Print Assumptions C55_overwrite_refuted.

Example C55_case :
  match vrun (fun _ _ => true) (fun _ => 100) (fun v => v) (fun _ => false) false (vlegal false)
     [VNewErr 0 FromConst 5; VNewErr 1 FromRvalue 6; VSwap 0 1; VError 0; VMove 0 1; VError 1; VValue 0; VNew 2; VValue 2; VDel 0; VDel 1; VDel 2] init with
  | Ret rs w => rs = [inl Nothing; inl Nothing; inl Nothing; inl (OVal_ 6); inl Nothing; inl (OVal_ 100); inr BadAccess; inl Nothing; inl Nothing; inl Nothing; inl Nothing; inl Nothing] /\
                made w (Var 0) = 1 /\ gone w (Var 0) = 1
  | _ => False
  end.
Proof. vm_compute. auto. Qed.
