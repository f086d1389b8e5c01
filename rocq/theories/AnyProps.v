(** Properties of nanostl::any: see properties.jsonl, C60. *)
From Coq Require Import List Bool PeanoNat Lia.
From Verif Require Import LifeModel AnyModel AnySpec AnyProofs.
Import ListNotations.

Section Laws.
  Context {V : Type}.
  Context (promise : nat -> okind -> bool) (torn : V -> V) (thr : nat -> bool) (noexc : bool).
  Notation run := (run promise torn thr noexc).
  Notation exec := (exec promise torn thr noexc).

  Lemma run_inv os w : inv w -> clear w ->
    match run os w with
    | Ret _ w' => inv w' /\ clear w'
    | Term => exists o, In o os /\ may_terminate promise o = true /\ (exists n, thr n = true) /\ exists t k, promise t k = false
    | _ => False
    end.
  Proof.
    revert w. induction os as [|o os IH]; intros w I C; [now split|]. cbn [AnySpec.run].
    assert (G : forall w1, inv w1 -> clear w1 -> match run os w1 with Ret _ w' => inv w' /\ clear w' | Term => exists o', In o' (o :: os) /\ may_terminate promise o' = true /\ (exists n, thr n = true) /\ exists t k, promise t k = false | _ => False end).
    { intros w1 I1 C1. specialize (IH _ I1 C1). destruct (run os w1); try contradiction; [exact IH|]. destruct IH as (o' & A & B). exists o'. split; [now right|exact B]. }
    destruct (legal noexc o (abs w)) eqn:L; [|apply G; assumption].
    pose proof (exec_good promise torn thr noexc o w I C L) as H. unfold good in H. destruct (exec o w) as [r w1|[|] w1| |]; try contradiction.
    - destruct H as (I1 & C1 & _). specialize (G _ I1 C1). now destruct (run os w1).
    - destruct H as (I1 & C1 & _). specialize (G _ I1 C1). now destruct (run os w1).
    - destruct H as (-> & _). specialize (G _ I C). now destruct (run os w).
    - exists o. split; [now left|exact H].
  Qed.

  Lemma legal_ext o s s' : (forall x, s x = s' x) -> legal noexc o s = legal (V:=V) noexc o s'.
  Proof. intros E. unfold legal, declared, holds. destruct o; rewrite ?E; reflexivity. Qed.
  Lemma answer_ext o s s' : (forall x, s x = s' x) -> answer o s = answer (V:=V) o s'.
  Proof. intros E. unfold answer, holds. destruct o; rewrite ?E; reflexivity. Qed.
  Lemma after_ext o s s' x : (forall x, s x = s' x) -> after o s x = after (V:=V) o s' x.
  Proof. intros E. unfold after, holds. destruct o; rewrite ?E; try (destruct (s' _) as [[[]|]|]; try destruct (Nat.eqb _ _)); unfold put; rewrite ?E; reflexivity. Qed.

  Lemma run_spec os w s : (forall n, thr n = false) -> inv w -> clear w -> (forall x, abs w x = s x) ->
    exists w', run os w = Ret (fst (spec_run noexc os s)) w' /\ forall x, abs w' x = snd (spec_run noexc os s) x.
  Proof.
    intros T. revert w s. induction os as [|o os IH]; intros w s I C A; [now exists w|]. cbn [AnySpec.run spec_run]. rewrite <- (legal_ext o _ _ A), <- (answer_ext o _ _ A).
    destruct (legal noexc o (abs w)) eqn:L; [|now apply IH].
    pose proof (exec_good promise torn thr noexc o w I C L) as G. unfold good in G. destruct (exec o w) as [r w1|[|] w1| |]; try contradiction.
    - destruct G as (I1 & C1 & -> & A1). destruct (IH w1 (after o s) I1 C1) as (w' & R & A').
      { intros x. rewrite A1. now apply after_ext. }
      exists w'. rewrite R. destruct (spec_run noexc os _). cbn. auto.
    - destruct G as (_ & _ & _ & (n & N) & _). now rewrite T in N.
    - destruct G as (-> & ->). destruct (IH w s I C A) as (w' & R & A'). exists w'. rewrite R. destruct (spec_run noexc os s). cbn. auto.
    - destruct G as (_ & (n & N) & _). now rewrite T in N.
  Qed.
End Laws.
Lemma clear_init {V} : clear (V:=V) init.
Proof. intros k. reflexivity. Qed.

(** C60: whatever a client does with anys, and whichever operations of the element types
    throw, no pointer is used after its object was deleted, nothing is deleted twice or
    used as another type; every object on the heap belongs to exactly one any in scope, and
    every other object ever made has been destroyed exactly once.  The program can only be
    ended by std::terminate, for a call listed in [may_terminate]. *)
Theorem C60_lifetimes : forall (V : Type) promise (torn : V -> V) thr noexc (os : list (op V)),
  match run promise torn thr noexc os init with
  | Ret _ w =>
      (forall p, objs w (Tmp p) <> None <-> exists x, disc w (Var x) = Some (Some p)) /\
      (forall x y p, disc w (Var x) = Some (Some p) -> disc w (Var y) = Some (Some p) -> x = y) /\
      (forall l, made w l = gone w l + match objs w l with Some _ => 1 | None => 0 end)
  | Term => exists o, In o os /\ may_terminate promise o = true /\ (exists n, thr n = true) /\ exists t k, promise t k = false
  | Exn _ _ | Bad _ => False
  end.
Proof.
  intros. pose proof (run_inv promise torn thr noexc os init inv_init clear_init) as H. destruct (run _ _ _ _ os init) as [r w|e w| |u]; [|exact H|exact H|exact H].
  destruct H as [[A B C D E] Cl]. split; [|split; [|exact E]].
  - intros p. split; [|intros (x & X); eapply A; exact X]. intros P. destruct (C p P) as (_ & [x|k] & X); [now exists x|]. specialize (Cl k). unfold look in Cl. rewrite X in Cl. discriminate.
  - intros x y p X Y. pose proof (B _ _ _ X Y). congruence.
Qed.
Print Assumptions C60_lifetimes.

(** No leak: once every any is out of scope the heap is empty. *)
Theorem C60_no_leak : forall (V : Type) promise (torn : V -> V) thr noexc (os : list (op V)) rs w,
  run promise torn thr noexc os init = Ret rs w -> (forall x, abs w x = None) -> forall l, made w l = gone w l /\ objs w l = None.
Proof.
  intros V promise torn thr noexc os rs w R N l. pose proof (run_inv promise torn thr noexc os init inv_init clear_init) as H. rewrite R in H. destruct H as [[A B C D E] Cl].
  assert (O : objs w l = None).
  { destruct l as [x|p]; [apply D|]. destruct (objs w (Tmp p)) eqn:O; [|reflexivity]. destruct (C p ltac:(congruence)) as (_ & [x|k] & X).
    - specialize (N x). unfold abs, look in N. rewrite X in N. discriminate.
    - specialize (Cl k). unfold look in Cl. rewrite X in Cl. discriminate. }
  split; [|exact O]. rewrite E, O. cbn. lia.
Qed.
Print Assumptions C60_no_leak.

(** With element types that never throw, every program gives exactly the results and the
    final contents that the specification gives: copies are independent, a moved-from any is
    empty, any_cast gives the value exactly when the type is the one stored. *)
Theorem C60_refines : forall (V : Type) promise (torn : V -> V) noexc (os : list (op V)),
  exists w, run promise torn (fun _ => false) noexc os init = Ret (fst (spec_run noexc os (fun _ => None))) w /\
    forall x, abs w x = snd (spec_run noexc os (fun _ => None)) x.
Proof.
  intros. destruct (run_spec promise torn (fun _ => false) noexc os init (fun _ => None)) as (w & R & A); try reflexivity; [apply inv_init|apply clear_init|].
  exists w. split; assumption.
Qed.
Print Assumptions C60_refines.

(** Calls in any reachable state, with throwing allowed: a call that returns does what the
    specification says; one that is left by an exception of an element type has had no
    effect (strong guarantee), but for an assignment through the pointer given by any_cast;
    any_cast throws exactly when the type is not the one stored. *)
Theorem C60_each_call : forall (V : Type) promise (torn : V -> V) thr noexc (os : list (op V)) rs w o,
  run promise torn thr noexc os init = Ret rs w -> legal noexc o (abs w) = true ->
  match exec promise torn thr noexc o w with
  | Ret r w' => answer o (abs w) = Some r /\ forall x, abs w' x = after o (abs w) x
  | Exn User w' => (exists s, after_throw torn o (abs w) = Some s /\ forall x, abs w' x = s x) /\ exists t k, promise t k = false
  | Exn BadAccess w' => answer o (abs w) = None /\ w' = w
  | Term => may_terminate promise o = true /\ exists t k, promise t k = false
  | Bad _ => False
  end.
Proof.
  intros V promise torn thr noexc os rs w o R L. pose proof (run_inv promise torn thr noexc os init inv_init clear_init) as H. rewrite R in H. destruct H as [I C].
  pose proof (exec_good promise torn thr noexc o w I C L) as G. unfold good in G. destruct (exec _ _ _ _ o w) as [r w'|[|] w'| |]; try tauto.
  - destruct G as (_ & _ & G & _ & K). destruct (after_throw torn o (abs w)) as [s|]; [|contradiction]. split; [now exists s|exact K].
  - destruct G as (G & _ & K). now split.
Qed.
Print Assumptions C60_each_call.

(** With element types that promise that none of their operations throw, a legal call in
    any reachable state does what the specification says or throws bad_any_cast where the
    specification has no answer. *)
Theorem C60_promised : forall (V : Type) promise (torn : V -> V) thr noexc (os : list (op V)) rs w o,
  (forall t k, promise t k = true) ->
  run promise torn thr noexc os init = Ret rs w -> legal noexc o (abs w) = true ->
  (exists r w', exec promise torn thr noexc o w = Ret r w' /\ answer o (abs w) = Some r /\ forall x, abs w' x = after o (abs w) x) \/
  (exec promise torn thr noexc o w = Exn BadAccess w /\ answer o (abs w) = None).
Proof.
  intros V promise torn thr noexc os rs w o P R L. pose proof (C60_each_call V promise torn thr noexc os rs w o R L) as C.
  assert (N : ~ exists t k, promise t k = false) by (intros (t & k & H); rewrite P in H; discriminate).
  destruct (exec _ _ _ _ o w) as [r w'|[|] w'| |]; try tauto.
  - left. exists r, w'. tauto.
  - right. destruct C as [A ->]. auto.
Qed.
Print Assumptions C60_promised.

(** The constructor from a value is noexcept although it copies the value: when the copy
    throws, the exception does not reach the caller, it ends the program. *)
Theorem C60_value_throw_refuted : exists (promise : nat -> okind -> bool) (thr : nat -> bool) (o : op nat),
  legal false o (abs init) = true /\ exec promise (fun v => v) thr false o init = Term.
Proof. exists (fun _ _ => false), (fun _ => true), (AValNew 0 0 false 5). split; reflexivity. Qed.
Print Assumptions C60_value_throw_refuted.

(** A concrete program: values of two types, a copy assignment that throws and is caught, a
    self-move, casts to the right and the wrong type, and the destructors. *)
Example C60_case :
  let os := [AValNew 0 7 false 41; ANew 1; ACopy 1 0; APoke 1 7 42; ACast 0 7; ACast 1 7; ACast 1 8; AType 1; AMove 1 1; APeek 1 7; AMove 0 1; AHas 1; AEmplace 1 8 5; ASwap 0 1; APeek 0 8; AInPlace 2 9 1; ACopy 2 0; ACast 2 9; ADel 0; ADel 1; ADel 2] in
  match run (fun _ _ => false) (fun v => v) (fun n => Nat.eqb n 9) false os init with
  | Ret rs w => rs = [inl Nothing; inl Nothing; inl Nothing; inl (OBool true); inl (OVal 41); inl (OVal 42); inr BadAccess; inl (OType (Some 7)); inl Nothing; inl (OPtr (Some 42));
                      inl Nothing; inl (OBool false); inl Nothing; inl Nothing; inl (OPtr (Some 5)); inl Nothing; inr User; inl (OVal 1); inl Nothing; inl Nothing; inl Nothing]
                /\ forall x, abs w x = None
  | _ => False
  end.
Proof. vm_compute. split; [reflexivity|]. intros [|[|[|]]]; reflexivity. Qed.
