(** Properties of nanostl::variant. *)
From Coq Require Import List Bool PeanoNat Lia.
From Verif Require Import LifeModel VarModel VarSpec VarProofs VarVisit.
Import ListNotations.

Section Laws.
  Context {V : Type}.
  Context (promise : nat -> okind -> bool) (moved torn : V -> V) (thr : nat -> bool) (noexc : bool) (n : nat) (n16 : n <= 16).
  Notation W := (world V (option nat)).
  Notation run := (run promise moved torn thr noexc n).
  Notation exec := (exec promise moved torn thr noexc n).

  Lemma equiv_inv (w w' : W) : inv n w -> equiv w w' -> inv n w'.
  Proof.
    intros (A & B & C) (S & L). split; [|split].
    - intros x. destruct (S (Var x)) as [-> ->]. apply A.
    - intros k. destruct (S (Tmp k)) as [-> ->]. apply B.
    - intros l. specialize (L l). specialize (C l). unfold alive in L. rewrite (proj2 (S l)) in *. lia.
  Qed.
  Lemma equiv_abs (w w' : W) x : equiv w w' -> abs w' x = abs w x.
  Proof. intros (S & _). unfold abs. now destruct (S (Var x)) as [-> ->]. Qed.

  Definition fine (o : op V) (w : W) : Prop :=
    match exec o w with
    | Ret r w' => inv n w' /\ (forall x, abs w' x = after moved o (abs w) x) /\ answer o (abs w) = Some r
    | Exn User w' => inv n w' /\ Exists (fun s => forall x, abs w' x = s x) (after_throw torn o (abs w)) /\ threw promise thr n
    | Exn BadAccess w' => w' = w /\ answer o (abs w) = None
    | Term => may_terminate promise n o (abs w) = true /\ (threw promise thr n \/ exists xs, o = OVisit xs)
    | Bad _ => False
    end.

  Lemma exec_fine o w : inv n w -> legal noexc n o (abs w) = true -> fine o w.
  Proof using n16.
    intros I L. assert (D : (exists xs, o = OVisit xs) \/ forall xs, o <> OVisit xs) by (destruct o; eauto; right; discriminate).
    destruct D as [(xs & ->)|N].
    - cbn [legal] in L. apply andb_true_iff in L. destruct L as [L _]. apply andb_true_iff in L. destruct L as [L P]. apply Nat.ltb_lt in P.
      pose proof (visit_ok promise moved torn thr noexc n n16 xs w I L P) as G. unfold fine. unfold tidy in G. destruct (exec (OVisit xs) w) as [r w'|[|] w'| |]; try contradiction.
      + destruct G as (E & A). split; [now apply (equiv_inv w)|]. split; [intros x; now apply equiv_abs|exact A].
      + destruct G as (E & A). split; [now apply (equiv_inv w)|]. split; [|exact A]. constructor. intros x. now apply equiv_abs.
      + cbn [may_terminate]. rewrite G. eauto.
    - pose proof (exec_good promise moved torn thr noexc n n16 o w N I L) as G. unfold good in G. unfold fine. destruct (exec o w) as [r w'|[|] w'| |]; try tauto.
  Qed.

  Lemma run_inv os w : inv n w ->
    match run os w with
    | Ret _ w' => inv n w'
    | Term => exists pre o post w', os = pre ++ o :: post /\ (exists rs, run pre w = Ret rs w') /\ legal noexc n o (abs w') = true /\ may_terminate promise n o (abs w') = true
    | _ => False
    end.
  Proof using n16.
    revert w. induction os as [|o os IH]; intros w I; [exact I|]. cbn [VarSpec.run]. destruct (legal noexc n o (abs w)) eqn:L.
    - pose proof (exec_fine o w I L) as G. unfold fine in G.
      assert (K : forall (f : list (seen V) -> list (seen V)) w1, inv n w1 -> (forall rs w2 pre, run pre w1 = Ret rs w2 -> run (o :: pre) w = Ret (f rs) w2) ->
        match (match run os w1 with Ret rs w'' => Ret (f rs) w'' | Exn e w'' => Exn e w'' | Term => Term | Bad u => Bad u end) with
        | Ret _ w' => inv n w'
        | Term => exists pre o' post w', o :: os = pre ++ o' :: post /\ (exists rs, run pre w = Ret rs w') /\ legal noexc n o' (abs w') = true /\ may_terminate promise n o' (abs w') = true
        | _ => False
        end).
      { intros f w1 I1 S. specialize (IH w1 I1). destruct (run os w1); try contradiction; [exact IH|].
        destruct IH as (pre & o' & post & w' & -> & (rs & R) & B). exists (o :: pre), o', post, w'. split; [reflexivity|]. split; [|exact B]. eexists. apply S. exact R. }
      destruct (exec o w) as [r w1|[|] w1| |] eqn:E; try contradiction.
      + apply (K (cons (inl r))); [apply G|]. intros rs w2 pre R. cbn [VarSpec.run]. now rewrite L, E, R.
      + apply (K (cons (inr User))); [apply G|]. intros rs w2 pre R. cbn [VarSpec.run]. now rewrite L, E, R.
      + apply (K (cons (inr BadAccess))); [now rewrite (proj1 G)|]. intros rs w2 pre R. cbn [VarSpec.run]. now rewrite L, E, R.
      + exists [], o, os, w. split; [reflexivity|]. split; [now exists []|]. split; [exact L|apply G].
    - specialize (IH w I). destruct (run os w); try contradiction; [exact IH|].
      destruct IH as (pre & o' & post & w' & -> & (rs & R) & B). exists (o :: pre), o', post, w'. split; [reflexivity|]. split; [|exact B]. exists rs. cbn [VarSpec.run]. now rewrite L.
  Qed.

  Lemma legal_ext o s s' : (forall x, s x = s' x) -> legal noexc n o s = legal (V:=V) noexc n o s'.
  Proof.
    intros E. assert (F : forall xs, forallb (declared s) xs = forallb (declared s') xs).
    { induction xs as [|x xs IH]; [reflexivity|]. cbn [forallb]. rewrite IH. unfold declared. now rewrite E. }
    unfold legal. destruct o; unfold declared, has in *; rewrite ?E; try reflexivity. now rewrite F.
  Qed.
  Lemma answer_ext o s s' : (forall x, s x = s' x) -> answer o s = answer (V:=V) o s'.
  Proof.
    intros E. unfold answer. destruct o; unfold full, has in *; rewrite ?E; try reflexivity. f_equal. f_equal. apply flat_map_ext. intros x. now rewrite E.
  Qed.
  Lemma after_ext o s s' x : (forall x, s x = s' x) -> after moved o s x = after (V:=V) moved o s' x.
  Proof. intros E. unfold after, put. destruct o; rewrite ?E; reflexivity. Qed.

  (* no variable is valueless *)
  Definition solid (s : st V) : Prop := forall x, s x <> Some None.
  Lemma solid_after o s : solid s -> legal noexc n o s = true -> solid (after moved o s).
  Proof.
    intros S L z.
    assert (O : forall c : cell V, c <> Some None -> on moved c <> Some None) by (intros [[[t v]|]|] H; cbn; congruence).
    destruct o; cbn [after]; unfold put; repeat match goal with |- context [Nat.eqb ?a ?b] => destruct (Nat.eqb a b) end; try apply S; try discriminate; apply O; apply S.
  Qed.

  Lemma run_spec os w s : (forall i, thr i = false) -> inv n w -> (forall x, abs w x = s x) -> solid s ->
    exists w', run os w = Ret (fst (spec_run moved noexc n os s)) w' /\ inv n w' /\ (forall x, abs w' x = snd (spec_run moved noexc n os s) x) /\ solid (abs w').
  Proof using n16.
    intros T. revert w s. induction os as [|o os IH]; intros w s I A S.
    { exists w. split; [reflexivity|]. split; [exact I|]. split; [exact A|]. intros x. rewrite A. apply S. }
    cbn [VarSpec.run spec_run]. rewrite <- (legal_ext o _ _ A), <- (answer_ext o _ _ A).
    destruct (legal noexc n o (abs w)) eqn:L; [|now apply IH].
    pose proof (exec_fine o w I L) as G. unfold fine in G. destruct (exec o w) as [r w1|[|] w1| |] eqn:E; try contradiction.
    - destruct G as (I1 & A1 & ->). destruct (IH w1 (after moved o s) I1) as (w' & R & I' & A' & S').
      { intros x. rewrite A1. now apply after_ext. }
      { apply solid_after; [exact S|]. now rewrite <- (legal_ext o _ _ A). }
      exists w'. rewrite R. destruct (spec_run moved noexc n os _). cbn. auto.
    - exfalso. destruct G as (_ & _ & (i & H) & _). now rewrite T in H.
    - destruct G as (-> & ->). destruct (IH w s I A S) as (w' & R & I' & A' & S').
      exists w'. rewrite R. destruct (spec_run moved noexc n os s). cbn. auto.
    - exfalso. destruct G as (M & [((i & H) & _)|(xs & ->)]); [now rewrite T in H|].
      cbn [may_terminate] in M. apply negb_true_iff in M. assert (F : forallb (full (abs w)) xs = true); [|congruence].
      cbn [legal] in L. apply andb_true_iff in L. destruct L as [L _]. apply andb_true_iff in L. destruct L as [L _]. rewrite forallb_forall in *. intros x H.
      specialize (L x H). specialize (S x). unfold declared, full in *. rewrite A in *. destruct (s x) as [[|]|]; congruence.
  Qed.
End Laws.

(** C56: whatever a client does with variants, and whichever operations of the alternatives
    throw: the program never constructs over a live object, and never destroys, reads or
    assigns an object that is not there or as another type; each variant in scope holds
    exactly one object, of the type index() says, or none when it is valueless; every other
    object ever constructed, in variants or in the copies that visit and swap make, has
    been destroyed exactly once.  The program can only be ended by std::terminate, at a call
    and in a state listed in [may_terminate]. *)
Theorem C56_lifetimes : forall (V : Type) promise (moved torn : V -> V) thr noexc n (os : list (op V)),
  n <= 16 ->
  match run promise moved torn thr noexc n os init with
  | Ret _ w =>
      (forall x, match disc w (Var x) with
                 | Some (Some t) => t < n /\ exists v, objs w (Var x) = Some (t, v)
                 | Some None | None => objs w (Var x) = None end) /\
      (forall l, made w l = gone w l + match l with Var x => match disc w (Var x) with Some (Some _) => 1 | _ => 0 end | Tmp _ => 0 end)
  | Term => exists pre o post w, os = pre ++ o :: post /\ (exists rs, run promise moved torn thr noexc n pre init = Ret rs w) /\
      legal noexc n o (abs w) = true /\ may_terminate promise n o (abs w) = true
  | Exn _ _ | Bad _ => False
  end.
Proof.
  intros V promise moved torn thr noexc n os n16. pose proof (run_inv promise moved torn thr noexc n n16 os init (inv_init n)) as H.
  destruct (run _ _ _ _ _ _ os init) as [r w|e w| |u]; [|exact H|exact H|exact H].
  destruct H as (A & B & C). split.
  - exact A.
  - intros l. rewrite C. f_equal. destruct l as [x|k].
    + specialize (A x). destruct (disc w (Var x)) as [[|]|]; [destruct A as (_ & v & ->)|rewrite A|rewrite A]; reflexivity.
    + destruct (B k) as [_ ->]. reflexivity.
Qed.
Print Assumptions C56_lifetimes.

(** With alternatives that never throw (and whatever they promise), every program gives
    exactly the results and the final contents that the specification gives; no variant
    ever becomes valueless and visit never terminates. *)
Theorem C56_refines : forall (V : Type) promise (moved torn : V -> V) noexc n (os : list (op V)),
  n <= 16 ->
  exists w, run promise moved torn (fun _ => false) noexc n os init = Ret (fst (spec_run moved noexc n os (fun _ => None))) w /\
    (forall x, abs w x = snd (spec_run moved noexc n os (fun _ => None)) x) /\
    (forall x, abs w x <> Some None).
Proof.
  intros V promise moved torn noexc n os n16.
  destruct (run_spec promise moved torn (fun _ => false) noexc n n16 os init (fun _ => None)) as (w & R & _ & A & S); try reflexivity; [apply inv_init|discriminate|].
  exists w. auto.
Qed.
Print Assumptions C56_refines.

(** Calls in any reachable state, with throwing allowed: a call that returns does what the
    specification says; one that is left by an exception of the alternatives leaves one of
    the states in [after_throw]; and (but for visit of a valueless variant) only an operation
    that its type has not promised not to throw ends a call so. *)
Theorem C56_each_call : forall (V : Type) promise (moved torn : V -> V) thr noexc n (os : list (op V)) rs w o,
  n <= 16 ->
  run promise moved torn thr noexc n os init = Ret rs w -> legal noexc n o (abs w) = true ->
  match exec promise moved torn thr noexc n o w with
  | Ret r w' => answer o (abs w) = Some r /\ forall x, abs w' x = after moved o (abs w) x
  | Exn User w' => (exists s, In s (after_throw torn o (abs w)) /\ forall x, abs w' x = s x) /\ exists t k, t < n /\ promise t k = false
  | Exn BadAccess w' => answer o (abs w) = None /\ forall x, abs w' x = abs w x
  | Term => may_terminate promise n o (abs w) = true /\ ((exists t k, t < n /\ promise t k = false) \/ exists xs, o = OVisit xs)
  | Bad _ => False
  end.
Proof.
  intros V promise moved torn thr noexc n os rs w o n16 R L. pose proof (run_inv promise moved torn thr noexc n n16 os init (inv_init n)) as H. rewrite R in H.
  pose proof (exec_fine promise moved torn thr noexc n n16 o w H L) as G. unfold fine in G. destruct (exec _ _ _ _ _ _ o w) as [r w'|[|] w'| |]; try tauto.
  - destruct G as (_ & G & _ & K). apply Exists_exists in G. now split.
  - destruct G as (-> & G). auto.
  - destruct G as (G & [[_ K]|K]); auto.
Qed.
Print Assumptions C56_each_call.

(** With alternatives that promise that none of their operations throw, a legal call other
    than visit in any reachable state does what the specification says or throws
    bad_variant_access where the specification has no answer. *)
Theorem C56_promised : forall (V : Type) promise (moved torn : V -> V) thr noexc n (os : list (op V)) rs w o,
  n <= 16 -> (forall t k, t < n -> promise t k = true) ->
  run promise moved torn thr noexc n os init = Ret rs w -> legal noexc n o (abs w) = true -> (forall xs, o <> OVisit xs) ->
  (exists r w', exec promise moved torn thr noexc n o w = Ret r w' /\ answer o (abs w) = Some r /\ forall x, abs w' x = after moved o (abs w) x) \/
  (exists w', exec promise moved torn thr noexc n o w = Exn BadAccess w' /\ answer o (abs w) = None /\ forall x, abs w' x = abs w x).
Proof.
  intros V promise moved torn thr noexc n os rs w o n16 P R L NV. pose proof (C56_each_call V promise moved torn thr noexc n os rs w o n16 R L) as C.
  assert (N : ~ exists t k, t < n /\ promise t k = false) by (intros (t & k & H & H'); rewrite P in H' by exact H; discriminate).
  destruct (exec _ _ _ _ _ _ o w) as [r w'|[|] w'| |]; try tauto.
  - left. exists r, w'. tauto.
  - right. exists w'. tauto.
  - exfalso. destruct C as (_ & [C|(xs & C)]); [tauto|exact (NV xs C)].
Qed.
Print Assumptions C56_promised.

(** visit of any number of variants that hold values, in any reachable state: unless a copy
    throws, the visitor is called with the values of all of them, in order, and every
    variant is as before. *)
Theorem C56_visit : forall (V : Type) promise (moved torn : V -> V) thr noexc n (os : list (op V)) rs w xs vals,
  n <= 16 ->
  run promise moved torn thr noexc n os init = Ret rs w -> 0 < length xs ->
  map (abs w) xs = map (fun c => Some (Some c)) vals ->
  match exec promise moved torn thr noexc n (OVisit xs) w with
  | Ret r w' => r = OArgs vals /\ forall x, abs w' x = abs w x
  | Exn e w' => e = User /\ ((exists i, thr i = true) /\ exists t k, t < n /\ promise t k = false) /\ forall x, abs w' x = abs w x
  | Term | Bad _ => False
  end.
Proof.
  intros V promise moved torn thr noexc n os rs w xs vals n16 R P E. pose proof (run_inv promise moved torn thr noexc n n16 os init (inv_init n)) as H. rewrite R in H.
  assert (F : forallb (full (abs w)) xs = true /\ forallb (declared (abs w)) xs = true /\ flat_map (fun x => match abs w x with Some (Some c) => [c] | _ => [] end) xs = vals).
  { clear -E. revert vals E. induction xs as [|x xs IH]; intros [|v vals] E; try discriminate; [easy|]. cbn [map] in E. injection E as E1 E2. destruct (IH vals E2) as (A & B & C).
    cbn [forallb flat_map]. unfold full at 1, declared at 1. rewrite E1, A, B, C. easy. }
  destruct F as (F & D & <-).
  pose proof (visit_ok promise moved torn thr noexc n n16 xs w H D P) as G. unfold tidy in G. destruct (exec _ _ _ _ _ _ (OVisit xs) w) as [r w'|[|] w'| |]; try contradiction.
  - destruct G as (Q & A). cbn [answer] in A. injection A as <-. split; [reflexivity|]. intros x. now apply equiv_abs.
  - destruct G as (Q & A). split; [reflexivity|]. split; [exact A|]. intros x. now apply equiv_abs.
  - congruence.
Qed.
Print Assumptions C56_visit.

(** The copies are real: visiting three variants can throw although the visitor does not
    and takes its arguments by reference; visiting two cannot. *)
Theorem C56_visit_copies_refuted : exists (thr : nat -> bool) (os : list (op nat)),
  match run (fun _ _ => false) (fun v => v) (fun v => v) thr false 2 (os ++ [OVisit [0; 1]; OVisit [0; 1; 2]]) init with
  | Ret rs _ => rs = [inl Nothing; inl Nothing; inl Nothing; inl (OArgs [(0, 5); (1, 6)]); inr User]
  | _ => False
  end.
Proof. exists (fun i => Nat.eqb i 3), [ONewVal 0 0 true 5; ONewVal 1 1 true 6; ONewVal 2 0 true 7]. vm_compute. reflexivity. Qed.
Print Assumptions C56_visit_copies_refuted.

(** Copy assignment of another alternative whose copy constructor throws destroys the old
    value and leaves the target valueless, although the alternatives can be moved without
    throwing (std::variant copies first and keeps the old value). *)
Theorem C56_copy_assign_loses_value_refuted : exists (promise : nat -> okind -> bool) (thr : nat -> bool) (os : list (op nat)),
  (forall t, promise t KMove = true /\ promise t KMoveAsg = true) /\
  match run promise (fun v => v) (fun v => v) thr false 2 os init with
  | Ret _ w => abs w 0 = Some (Some (0, 5)) /\ legal false 2 (OCopy 0 1) (abs w) = true /\
      match exec promise (fun v => v) (fun v => v) thr false 2 (OCopy 0 1) w with Exn User w' => abs w' 0 = Some None | _ => False end
  | _ => False
  end.
Proof.
  exists (fun _ k => match k with KMove | KMoveAsg => true | _ => false end), (fun i => Nat.eqb i 2), [ONewVal 0 0 true 5; ONewVal 1 1 true 6].
  split; [easy|]. vm_compute. repeat split.
Qed.
Print Assumptions C56_copy_assign_loses_value_refuted.

(** Move assignment of another alternative whose move constructor throws ends the program
    when the move assignments are noexcept, although nothing promises that the constructor
    does not throw. *)
Theorem C56_move_assign_terminates_refuted : exists (promise : nat -> okind -> bool) (thr : nat -> bool) (os : list (op nat)),
  (forall t, promise t KMove = false) /\ run promise (fun v => v) (fun v => v) thr false 2 os init = Term.
Proof.
  exists (fun _ k => match k with KMoveAsg => true | _ => false end), (fun i => Nat.eqb i 2), [ONewVal 0 0 false 5; ONewVal 1 1 false 6; OMove 0 1].
  split; [easy|]. vm_compute. reflexivity.
Qed.
Print Assumptions C56_move_assign_terminates_refuted.

(** The order of variants: valueless first, then by index, then by value; the six operators
    follow from it.  The comparison used is that of the alternative held. *)
Theorem C56_comparisons : forall (V : Type) (eq lt : nat -> V -> V -> bool) (x y : option (nat * V)),
  (forall t v, x = Some (t, v) \/ y = Some (t, v) -> t < 16) ->
  let same := match x, y with None, None => True | Some (t, a), Some (u, b) => t = u /\ eq t a b = true | _, _ => False end in
  let less := match x, y with None, Some _ => True | Some (t, a), Some (u, b) => t < u \/ (t = u /\ lt t a b = true) | _, None => False end in
  (v_eq eq x y = true <-> same) /\ (v_ne eq x y = true <-> ~ same) /\ (v_lt lt x y = true <-> less) /\
  (v_gt lt y x = true <-> less) /\ (v_ge lt x y = true <-> ~ less) /\ (v_le lt y x = true <-> ~ less).
Proof.
  intros V eq lt x y B same less.
  assert (E : v_eq eq x y = true <-> same).
  { subst same less. unfold v_eq. destruct x as [[t a]|], y as [[u b]|]; cbn [is_none idx option_map fst same negb cmp2]; try (split; [discriminate|tauto]); try tauto.
    destruct (Nat.eqb_spec t u); cbn [negb]; [subst u; rewrite (proj2 (Nat.ltb_lt t 16)) by (eapply B; eauto); tauto|]. split; [discriminate|tauto]. }
  assert (L : v_lt lt x y = true <-> less).
  { subst same less. unfold v_lt. destruct x as [[t a]|], y as [[u b]|]; cbn [is_none idx option_map fst idx_lt cmp2]; try (split; [discriminate|tauto]); try tauto.
    destruct (Nat.ltb_spec t u); [tauto|]. destruct (Nat.ltb_spec u t); [split; [discriminate|lia]|]. assert (t = u) by lia. subst u.
    rewrite (proj2 (Nat.ltb_lt t 16)) by (eapply B; eauto). intuition lia. }
  unfold v_ne, v_ge, v_le, v_gt. rewrite !negb_true_iff, <- E, <- L, !not_true_iff_false. tauto.
Qed.
Print Assumptions C56_comparisons.

(** A concrete program with a throwing copy: the assignment leaves variant 0 valueless, it
    can be used again, visit sees the values, swap exchanges the alternatives. *)
Example C56_case :
  let promise := fun (_ : nat) k => match k with KMove | KSwap | KMoveAsg => true | _ => false end in
  let os := [ONewVal 0 0 true 5; ONewVal 1 1 true 6; OCopy 0 1; OValueless 0; OIndex 0; OGetIf 1 0; OEmplace 0 2 9; OSwap 0 1; OHolds 0 1; OGet 0 1; OGet 1 0;
             OVisit [0; 1]; OMove 0 1; OVisit [1; 0; 1]; ODel 0; ODel 1] in
  match run promise (fun _ => 100) (fun v => v) (fun i => Nat.eqb i 2) false 3 os init with
  | Ret rs w => rs = [inl Nothing; inl Nothing; inr User; inl (OBool true); inl (OIdx None); inl (OPtr None); inl (OVal_ 9); inl Nothing; inl (OBool true); inl (OVal_ 6); inr BadAccess;
                      inl (OArgs [(1, 6); (2, 9)]); inl Nothing; inl (OArgs [(2, 100); (2, 9); (2, 100)]); inl Nothing; inl Nothing] /\
                made w (Var 0) = gone w (Var 0) /\ made w (Var 0) = 4 /\ made w (Tmp 2) = 1 /\ gone w (Tmp 2) = 1
  | _ => False
  end.
Proof. vm_compute. repeat split. Qed.
