(** Properties of nanostl::optional. *)
From Coq Require Import List Bool PeanoNat Lia.
From Verif Require Import LifeModel OptModel OptSpec OptProofs.
Import ListNotations.

Section Laws.
  Context {V : Type}.
  Context (promise : nat -> okind -> bool) (moved torn : V -> V) (thr : nat -> bool) (noexc clang : bool).
  Notation run := (run promise moved torn thr noexc clang).
  Notation exec := (exec promise moved torn thr noexc clang).

  Lemma run_inv os w : inv w ->
    match run os w with
    | Ret _ w' => inv w'
    | Term => exists o, In o os /\ may_terminate promise o = true /\ (exists n, thr n = true) /\ exists k, promise 0 k = false
    | _ => False
    end.
  Proof.
    revert w. induction os as [|o os IH]; intros w I; [exact I|]. cbn [OptSpec.run]. destruct (legal noexc o (abs w)) eqn:L.
    - pose proof (exec_good promise moved torn thr noexc clang o w I L) as G. unfold good in G. destruct (exec o w) as [r w1|[|] w1| |]; try contradiction.
      + destruct G as (I1 & _). specialize (IH _ I1). destruct (run os w1); try contradiction; [exact IH|]. destruct IH as (o' & A & B). exists o'. split; [now right|exact B].
      + destruct G as (I1 & _). specialize (IH _ I1). destruct (run os w1); try contradiction; [exact IH|]. destruct IH as (o' & A & B). exists o'. split; [now right|exact B].
      + destruct G as (-> & _). specialize (IH _ I). destruct (run os w); try contradiction; [exact IH|]. destruct IH as (o' & A & B). exists o'. split; [now right|exact B].
      + exists o. split; [now left|exact G].
    - specialize (IH _ I). destruct (run os w); try contradiction; [exact IH|]. destruct IH as (o' & A & B). exists o'. split; [now right|exact B].
  Qed.

  Lemma legal_ext o s s' : (forall x, s x = s' x) -> legal noexc o s = legal (V:=V) noexc o s'.
  Proof. intros E. unfold legal, declared, engaged. destruct o; rewrite ?E; reflexivity. Qed.
  Lemma answer_ext o s s' : (forall x, s x = s' x) -> answer o s = answer (V:=V) o s'.
  Proof. intros E. unfold answer, engaged. destruct o; rewrite ?E; reflexivity. Qed.
  Lemma after_ext o s s' x : (forall x, s x = s' x) -> after moved clang o s x = after (V:=V) moved clang o s' x.
  Proof. intros E. unfold after, put. destruct o; try destruct clang; rewrite ?E; reflexivity. Qed.

  Lemma run_spec os w s : (forall n, thr n = false) -> inv w -> (forall x, abs w x = s x) ->
    exists w', run os w = Ret (fst (spec_run moved noexc clang os s)) w' /\ inv w' /\ forall x, abs w' x = snd (spec_run moved noexc clang os s) x.
  Proof.
    intros T. revert w s. induction os as [|o os IH]; intros w s I A; [now exists w|]. cbn [OptSpec.run spec_run]. rewrite <- (legal_ext o _ _ A), <- (answer_ext o _ _ A).
    destruct (legal noexc o (abs w)) eqn:L; [|now apply IH].
    pose proof (exec_good promise moved torn thr noexc clang o w I L) as G. unfold good in G. destruct (exec o w) as [r w1|[|] w1| |]; try contradiction.
    - destruct G as (I1 & A1 & ->). destruct (IH w1 (after moved clang o s) I1) as (w' & R & I' & A').
      { intros x. rewrite A1. now apply after_ext. }
      exists w'. rewrite R. destruct (spec_run moved noexc clang os _). cbn. auto.
    - destruct G as (_ & _ & (n & N) & _). now rewrite T in N.
    - destruct G as (-> & ->). destruct (IH w s I A) as (w' & R & I' & A'). exists w'. rewrite R. destruct (spec_run moved noexc clang os s). cbn. auto.
    - destruct G as (_ & (n & N) & _). now rewrite T in N.
  Qed.
End Laws.

(** C53: whatever a client does with optionals, and whichever operations of the element
    type throw, the program never constructs over a live value, and never destroys, reads
    or assigns a value that is not there; at any point every value ever constructed in an
    optional (or in one of the library's temporaries) has been destroyed exactly once,
    except for the one value held by each optional whose has_value() is true.  The program
    can only be ended by std::terminate, for a call listed in [may_terminate]. *)
Theorem C53_lifetimes : forall (V : Type) promise (moved torn : V -> V) thr noexc clang (os : list (op V)),
  match run promise moved torn thr noexc clang os init with
  | Ret _ w =>
      (forall x, disc w (Var x) = Some true <-> objs w (Var x) <> None) /\
      (forall l, made w l = gone w l + match l with Var x => if match abs w x with Some (Some _) => true | _ => false end then 1 else 0 | Tmp _ => 0 end)
  | Term => exists o, In o os /\ may_terminate promise o = true /\ (exists n, thr n = true) /\ exists k, promise 0 k = false
  | Exn _ _ | Bad _ => False
  end.
Proof.
  intros. pose proof (run_inv promise moved torn thr noexc clang os init inv_init) as H. destruct (run _ _ _ _ _ _ os init) as [r w|e w| |u]; [|exact H|exact H|exact H].
  destruct H as (A & B & C). split.
  - intros x. specialize (A x). destruct (disc w (Var x)) as [[|]|]; [destruct A as (v & ->)| |]; split; congruence.
  - intros l. rewrite C. f_equal. destruct l as [x|k].
    + unfold abs. specialize (A x). destruct (disc w (Var x)) as [[|]|]; [destruct A as (v & ->)|rewrite A|rewrite A]; reflexivity.
    + destruct (B k) as [_ ->]. reflexivity.
Qed.
Print Assumptions C53_lifetimes.

(** No leak: once every optional is out of scope, everything constructed is destroyed. *)
Theorem C53_no_leak : forall (V : Type) promise (moved torn : V -> V) thr noexc clang (os : list (op V)) rs w,
  run promise moved torn thr noexc clang os init = Ret rs w -> (forall x, disc w (Var x) = None) -> forall l, made w l = gone w l /\ objs w l = None.
Proof.
  intros V promise moved torn thr noexc clang os rs w R N l. pose proof (run_inv promise moved torn thr noexc clang os init inv_init) as H. rewrite R in H.
  destruct H as (A & B & C). assert (O : objs w l = None) by (destruct l as [x|k]; [specialize (A x); now rewrite N in A|apply B]).
  split; [|exact O]. rewrite C, O. lia.
Qed.
Print Assumptions C53_no_leak.

(** With an element type that never throws, every program gives exactly the results and
    the final contents that the specification gives. *)
Theorem C53_refines : forall (V : Type) promise (moved torn : V -> V) noexc clang (os : list (op V)),
  exists w, run promise moved torn (fun _ => false) noexc clang os init = Ret (fst (spec_run moved noexc clang os (fun _ => None))) w /\
    forall x, abs w x = snd (spec_run moved noexc clang os (fun _ => None)) x.
Proof.
  intros. destruct (run_spec promise moved torn (fun _ => false) noexc clang os init (fun _ => None)) as (w & R & _ & A); try reflexivity; [apply inv_init|].
  exists w. split; assumption.
Qed.
Print Assumptions C53_refines.

(** Calls in any reachable state, with throwing allowed: a call that returns does what the
    specification says; one that is left by an exception of the element type leaves the
    state that [after_throw] says (in particular: constructors and an assignment to an
    empty optional have no effect, emplace leaves the optional empty, and in all cases only
    the optionals named in the call change); and only an operation that the element type
    has not promised not to throw ends a call so. *)
Theorem C53_each_call : forall (V : Type) promise (moved torn : V -> V) thr noexc clang (os : list (op V)) rs w o,
  run promise moved torn thr noexc clang os init = Ret rs w -> legal noexc o (abs w) = true ->
  match exec promise moved torn thr noexc clang o w with
  | Ret r w' => answer o (abs w) = Some r /\ forall x, abs w' x = after moved clang o (abs w) x
  | Exn User w' => (exists s, after_throw torn o (abs w) = Some s /\ forall x, abs w' x = s x) /\ exists k, promise 0 k = false
  | Exn BadAccess w' => answer o (abs w) = None /\ w' = w
  | Term => may_terminate promise o = true /\ exists k, promise 0 k = false
  | Bad _ => False
  end.
Proof.
  intros V promise moved torn thr noexc clang os rs w o R L. pose proof (run_inv promise moved torn thr noexc clang os init inv_init) as H. rewrite R in H.
  pose proof (exec_good promise moved torn thr noexc clang o w H L) as G. unfold good in G. destruct (exec _ _ _ _ _ _ o w) as [r w'|[|] w'| |]; try tauto.
  - destruct G as (_ & G & _ & K). destruct (after_throw torn o (abs w)) as [s|]; [|contradiction]. split; [now exists s|exact K].
  - destruct G as (G & _ & K). now split.
Qed.
Print Assumptions C53_each_call.

(** With an element type that promises that none of its operations throw, a legal call in
    any reachable state does what the specification says or throws bad_optional_access
    where the specification has no answer. *)
Theorem C53_promised : forall (V : Type) promise (moved torn : V -> V) thr noexc clang (os : list (op V)) rs w o,
  (forall k, promise 0 k = true) ->
  run promise moved torn thr noexc clang os init = Ret rs w -> legal noexc o (abs w) = true ->
  (exists r w', exec promise moved torn thr noexc clang o w = Ret r w' /\ answer o (abs w) = Some r /\ forall x, abs w' x = after moved clang o (abs w) x) \/
  (exec promise moved torn thr noexc clang o w = Exn BadAccess w /\ answer o (abs w) = None).
Proof.
  intros V promise moved torn thr noexc clang os rs w o P R L. pose proof (C53_each_call V promise moved torn thr noexc clang os rs w o R L) as C.
  assert (N : ~ exists k, promise 0 k = false) by (intros (k & H); rewrite P in H; discriminate).
  destruct (exec _ _ _ _ _ _ o w) as [r w'|[|] w'| |]; try tauto.
  - left. exists r, w'. tauto.
  - right. destruct C as [A ->]. auto.
Qed.
Print Assumptions C53_promised.

(** Copy assignment declares noexcept by the element type's moves, not its copies: with an
    element type whose moves never throw and whose copy constructor throws, the exception
    does not reach the caller, it ends the program. *)
Theorem C53_copy_assign_throw_refuted : exists (promise : nat -> okind -> bool) (thr : nat -> bool) (os : list (op nat)),
  run promise (fun v => v) (fun v => v) thr true false os init = Term /\
  run (fun _ _ => false) (fun v => v) (fun v => v) thr true false os init <> Term.
Proof.
  exists (fun _ k => match k with KMove | KMoveAsg => true | _ => false end), (fun n => Nat.eqb n 1), [ONew 0; ONewVal 1 5; OCopy 0 1].
  split; [reflexivity|discriminate].
Qed.
Print Assumptions C53_copy_assign_throw_refuted.

(** emplace with a reference to the optional's own value reads a destroyed object. *)
Theorem C53_emplace_own_value_refuted : exists (w : world nat bool),
  run (fun _ _ => true) (fun v => v) (fun v => v) (fun _ => false) true false [ONewVal 0 5] init = Ret [inl Nothing] w /\
  exec (fun _ _ => true) (fun v => v) (fun v => v) (fun _ => false) true false (OEmplaceRef 0 0) w = Bad NoObj.
Proof. eexists. split; [reflexivity|]. reflexivity. Qed.
Print Assumptions C53_emplace_own_value_refuted.

(** The operators agree with the order on optionals where no value comes first, for an
    element type whose own operators agree with a comparison function; comparing with
    nullopt or with a value is comparing with an optional that is empty or holds it. *)
Definition cmp_of {T} (c : T -> T -> comparison) (x y : option T) : comparison :=
  match x, y with None, None => Eq | None, Some _ => Lt | Some _, None => Gt | Some a, Some b => c a b end.
Definition is_eq c := match c with Eq => true | _ => false end.
Definition is_lt c := match c with Lt => true | _ => false end.
Definition is_gt c := match c with Gt => true | _ => false end.

Theorem C53_comparisons : forall (T : Type) (c : T -> T -> comparison) (x y : option T) (v : T),
  (forall a b, c b a = CompOpp (c a b)) ->
  let eq a b := is_eq (c a b) in let ne a b := negb (is_eq (c a b)) in let lt a b := is_lt (c a b) in
  let le a b := negb (is_gt (c a b)) in let gt a b := is_gt (c a b) in let ge a b := negb (is_lt (c a b)) in
  let C := cmp_of c in
  (opt_eq eq x y = is_eq (C x y) /\ opt_ne eq x y = negb (is_eq (C x y)) /\ opt_lt lt x y = is_lt (C x y) /\
   opt_le lt x y = negb (is_gt (C x y)) /\ opt_gt lt x y = is_gt (C x y) /\ opt_ge lt x y = negb (is_lt (C x y))) /\
  (xn_eq x = is_eq (C x None) /\ xn_ne x = negb (is_eq (C x None)) /\ xn_lt x = is_lt (C x None) /\
   xn_le x = negb (is_gt (C x None)) /\ xn_gt x = is_gt (C x None) /\ xn_ge x = negb (is_lt (C x None))) /\
  (nx_eq x = is_eq (C None x) /\ nx_ne x = negb (is_eq (C None x)) /\ nx_lt x = is_lt (C None x) /\
   nx_le x = negb (is_gt (C None x)) /\ nx_gt x = is_gt (C None x) /\ nx_ge x = negb (is_lt (C None x))) /\
  (xv_eq eq x v = is_eq (C x (Some v)) /\ xv_ne ne x v = negb (is_eq (C x (Some v))) /\ xv_lt lt x v = is_lt (C x (Some v)) /\
   xv_le le x v = negb (is_gt (C x (Some v))) /\ xv_gt gt x v = is_gt (C x (Some v)) /\ xv_ge ge x v = negb (is_lt (C x (Some v)))) /\
  (vx_eq eq v x = is_eq (C (Some v) x) /\ vx_ne ne v x = negb (is_eq (C (Some v) x)) /\ vx_lt lt v x = is_lt (C (Some v) x) /\
   vx_le le v x = negb (is_gt (C (Some v) x)) /\ vx_gt gt v x = is_gt (C (Some v) x) /\ vx_ge ge v x = negb (is_lt (C (Some v) x))).
Proof.
  intros T c x y v A eq ne lt le gt ge C.
  destruct x as [a|], y as [b|]; subst eq ne lt le gt ge C; unfold opt_ne, opt_gt, opt_le, opt_ge; cbn; rewrite ?(A a b); repeat split; try (destruct (c a b); reflexivity).
Qed.
Print Assumptions C53_comparisons.

(** A concrete program: two optionals, a swap, a move, an emplace that throws and is
    caught, value() on an empty optional, and the destructors.  Three values are constructed
    for variable 0 and three destroyed. *)
Example C53_case :
  let os := [ONewVal 0 7; ONew 1; OSwap 0 1; OHas 0; OGet 1; OMove 0 1; OGet 1; OEmplace 0 9; OHas 0; OValue 0; OVal 0 3 true; OGet 0; ODel 0; ODel 1] in
  match run (fun _ _ => false) (fun _ => 100) (fun v => v) (fun n => Nat.eqb n 3) false false os init with
  | Ret rs w => rs = [inl Nothing; inl Nothing; inl Nothing; inl (OBool false); inl (OVal_ 7); inl Nothing; inl (OVal_ 100); inr User; inl (OBool false);
                      inr BadAccess; inl Nothing; inl (OVal_ 3); inl Nothing; inl Nothing] /\
                made w (Var 0) = 3 /\ gone w (Var 0) = 3
  | _ => False
  end.
Proof. vm_compute. auto. Qed.
