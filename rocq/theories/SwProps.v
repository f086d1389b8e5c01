(** C98: __is_swappable and __is_nothrow_swappable against the expression swap(x, y). *)
From Coq Require Import List Bool Arith NArith.
From Verif Require Import TyModel TraitModel TraitSpec TraitProofs FwdModel FwdProps IcModel IcProps SwModel.
Import ListNotations.

Section Spec.
  Variable dtor : nat -> bool.
  Variable ctor : nat -> list ty -> bool.
  Variables conv assign : ty -> ty -> bool.
  Variable quiet_init : ty -> list ty -> bool.
  Variable quiet_assign : ty -> ty -> bool.
  Variable own : ty -> option bool.
  (** U t(declval<U>()); is well-formed *)
  Definition movable (U : ty) : Prop :=
    match U with
    | TVoid _ | TFun _ _ _ _ _ | TArr _ _ | TArrU _ | TLref _ | TRref _ => False
    | TClass _ n | TUnion _ n => dtor n = true /\ ctor n [TRref U] = true
    | _ => conv U (TRref U) = true
    end.
  (** swap(x, y) is well-formed for lvalues x and y of type U: by the type's own swap, by moving, or element by element *)
  Inductive swappable : ty -> Prop :=
  | sw_own U q : own U = Some q -> swappable U
  | sw_move U : movable U -> assign (TLref U) (TRref U) = true -> swappable U
  | sw_each U n : swappable U -> swappable (TArr U n).
  (** ... and cannot throw *)
  Inductive quiet : ty -> Prop :=
  | quiet_own U : own U = Some true -> quiet U
  | quiet_move U : own U = None -> movable U -> quiet_init U [TRref U] = true -> assign (TLref U) (TRref U) = true -> quiet_assign (TLref U) (TRref U) = true -> quiet U
  | quiet_each U n : own (TArr U n) = None -> quiet U -> quiet (TArr U n).
End Spec.

(** The type of an lvalue that a T& refers to. *)
Definition target (T : ty) : ty := match T with TLref U | TRref U => U | _ => T end.
(** Types of lvalues. *)
Definition lval (U : ty) : Prop := wf U /\ match U with TVoid _ | TLref _ | TRref _ => False | _ => True end /\ qualified_fun U = false.

Lemma lval_refs U : lval U -> add_lvalue_reference U = TLref U /\ add_rvalue_reference U = TRref U.
Proof.
  intros (_ & N & Q). unfold add_lvalue_reference, add_rvalue_reference, is_referenceable, lref, rref.
  destruct U; try contradiction; cbn [qualified_fun] in Q; cbn [qualified_fun]; try rewrite Q; split; reflexivity.
Qed.
Lemma arg_l U : lval U -> argument (TLref U) = Some (TLref U).
Proof. intros _. reflexivity. Qed.
Lemma arg_r U : lval U -> argument (TRref U) = Some (TRref U).
Proof. intros _. reflexivity. Qed.

Lemma move_ctor dtor ctor conv pass U : lval U ->
  exists b, is_move_constructible dtor ctor conv pass U = Some b /\ (b = true <-> movable dtor ctor conv U).
Proof.
  intros L. unfold is_move_constructible. rewrite (proj2 (lval_refs U L)).
  assert (C : is_constructible dtor ctor conv pass U [TRref U] = Some (is_destructible dtor U && test1 ctor conv U (TRref U))) by (destruct L as (_ & N & _); destruct U as [[[] []]| | | | | | | | | | | |]; try contradiction; reflexivity).
  rewrite C. eexists. split; [reflexivity|]. unfold test1. rewrite (arg_r U L), (destr dtor U (proj1 L)), andb_true_iff. destruct L as (_ & N & _).
  destruct U as [| | | | | | | | | | | |]; try contradiction; cbn; intuition discriminate.
Qed.
Lemma move_asg assign U : lval U -> is_move_assignable assign U = assign (TLref U) (TRref U).
Proof. intros L. unfold is_move_assignable, is_assignable. rewrite (proj1 (lval_refs U L)), (proj2 (lval_refs U L)). reflexivity. Qed.

Lemma lval_elem U n : lval (TArr U n) -> lval U.
Proof.
  intros ((W1 & _ & W3) & _). split; [exact W3|]. destruct U; try contradiction; split; auto.
Qed.

Lemma swap_lvalues_spec dtor ctor conv pass assign own : forall U, lval U ->
  exists b, swap_lvalues dtor ctor conv pass assign own U = Some b /\ (b = true <-> swappable dtor ctor conv assign own U).
Proof.
  assert (G : forall U, lval U -> exists b, generic dtor ctor conv pass assign U = Some b /\ (b = true <-> movable dtor ctor conv U /\ assign (TLref U) (TRref U) = true)).
  { intros U L. unfold generic. destruct (move_ctor dtor ctor conv pass U L) as (b & -> & B). rewrite (move_asg assign U L). eexists. split; [reflexivity|]. now rewrite andb_true_iff, B. }
  assert (K : forall U, lval U -> (forall E n, U <> TArr E n) -> exists b, swap_lvalues dtor ctor conv pass assign own U = Some b /\ (b = true <-> swappable dtor ctor conv assign own U)).
  { intros U L N. destruct (G U L) as (g & Eg & Hg).
    assert (E : swap_lvalues dtor ctor conv pass assign own U = Some (match own U with Some _ => true | None => g || false end)) by (destruct U; try (cbn [swap_lvalues]; now rewrite Eg); exfalso; eapply N; reflexivity).
    rewrite E. eexists. split; [reflexivity|]. destruct (own U) as [q|] eqn:O.
    - split; [intros _; now apply (sw_own _ _ _ _ _ U q)|reflexivity].
    - rewrite orb_false_r, Hg. split; [intros [A B]; now apply sw_move|]. intros S. inversion S; subst; [congruence|auto|exfalso; eapply N; reflexivity]. }
  induction U as [| | | | | | | | | |E IH n| |] using ty_ind; intros L; try (apply K; [exact L|discriminate]).
  destruct (G _ L) as (g & Eg & Hg). destruct (IH (lval_elem _ _ L)) as (a & Ea & Ha). cbn [swap_lvalues]. rewrite Eg, Ea. cbn.
  eexists. split; [reflexivity|]. destruct (own (TArr E n)) as [q|] eqn:O.
  - split; [intros _; now apply (sw_own _ _ _ _ _ _ q)|reflexivity].
  - rewrite orb_true_iff, Hg, Ha. split; [intros [[A B]|A]; [now apply sw_move|now apply sw_each]|]. intros S. inversion S; subst; [congruence|auto|auto].
Qed.

Lemma nothrow_lvalues_spec dtor ctor conv pass assign qi qp qa own : forall U, lval U ->
  exists b, nothrow_lvalues dtor ctor conv pass assign qi qp qa own U = Some b /\ (b = true <-> quiet dtor ctor conv assign qi qa own U).
Proof.
  assert (QS : forall U, quiet dtor ctor conv assign qi qa own U -> swappable dtor ctor conv assign own U).
  { intros U Q. induction Q; [eapply sw_own; eassumption|now apply sw_move|now apply sw_each]. }
  assert (G : forall U, lval U -> own U = None -> swappable dtor ctor conv assign own U -> (forall E n, U <> TArr E n) ->
    exists b, (c <- is_nothrow_move_constructible dtor ctor conv pass qi qp U ; Some (c && is_nothrow_move_assignable assign qa U)) = Some b /\ (b = true <-> quiet dtor ctor conv assign qi qa own U)).
  { intros U L O S N. assert (M : movable dtor ctor conv U /\ assign (TLref U) (TRref U) = true) by (inversion S; subst; [congruence|auto|exfalso; eapply N; reflexivity]).
    destruct M as [M A]. destruct (move_ctor dtor ctor conv pass U L) as (b & Eb & Hb). apply Hb in M as M'. subst b. unfold is_move_constructible in Eb.
    unfold is_nothrow_move_constructible, is_nothrow_move_assignable. rewrite (proj1 (lval_refs U L)), (proj2 (lval_refs U L)) in *.
    assert (E : is_nothrow_constructible dtor ctor conv pass qi qp U [TRref U] = Some (qi U [TRref U])).
    { assert (X : is_nothrow_constructible dtor ctor conv pass qi qp U [TRref U] = nothrow_imp dtor ctor conv pass qi qp U [TRref U]) by (destruct U; reflexivity).
      rewrite X. unfold nothrow_imp. rewrite Eb. destruct L as (_ & NR & _). destruct U; try contradiction; reflexivity. }
    rewrite E. assert (F : is_nothrow_assignable assign qa (TLref U) (TRref U) = qa (TLref U) (TRref U)).
    { unfold is_nothrow_assignable, is_assignable. change (is_void (TLref U) || is_void (TRref U)) with false. change (declval (TLref U)) with (Some (TLref U)). change (declval (TRref U)) with (Some (TRref U)). cbn. now rewrite A. }
    rewrite F. eexists. split; [reflexivity|]. rewrite andb_true_iff. split; [intros [H1 H2]; now apply quiet_move|]. intros Q. inversion Q; subst; [congruence|auto|exfalso; eapply N; reflexivity]. }
  assert (K : forall U, lval U -> (forall E n, U <> TArr E n) -> exists b, nothrow_lvalues dtor ctor conv pass assign qi qp qa own U = Some b /\ (b = true <-> quiet dtor ctor conv assign qi qa own U)).
  { intros U L N. destruct (swap_lvalues_spec dtor ctor conv pass assign own U L) as (s & Es & Hs).
    assert (E : nothrow_lvalues dtor ctor conv pass assign qi qp qa own U = if s then match own U with Some q => Some q | None => c <- is_nothrow_move_constructible dtor ctor conv pass qi qp U ; Some (c && is_nothrow_move_assignable assign qa U) end else Some false)
      by (destruct U; try (cbn [nothrow_lvalues]; now rewrite Es); exfalso; eapply N; reflexivity).
    rewrite E. destruct s; [|exists false; split; [reflexivity|]; split; [discriminate|]; intros Q; apply Hs; now apply QS].
    destruct (own U) as [q|] eqn:O; [|apply G; auto; now apply Hs].
    exists q. split; [reflexivity|]. split; [intros ->; now apply quiet_own|]. intros Q. inversion Q; subst; congruence. }
  induction U as [| | | | | | | | | |E IH n| |] using ty_ind; intros L; try (apply K; [exact L|discriminate]).
  destruct (IH (lval_elem _ _ L)) as (a & Ea & Ha). destruct (swap_lvalues_spec dtor ctor conv pass assign own _ L) as (s & Es & Hs).
  change (nothrow_lvalues dtor ctor conv pass assign qi qp qa own (TArr E n)) with
    (b <- swap_lvalues dtor ctor conv pass assign own (TArr E n) ; if b : bool then match own (TArr E n) with Some q => Some q | None => nothrow_lvalues dtor ctor conv pass assign qi qp qa own E end else Some false).
  rewrite Es. cbn. destruct s; [|exists false; split; [reflexivity|]; split; [discriminate|]; intros Q; apply Hs; now apply QS].
  destruct (own (TArr E n)) as [q|] eqn:O.
  - exists q. split; [reflexivity|]. split; [intros ->; now apply quiet_own|]. intros Q. inversion Q; subst; congruence.
  - rewrite Ea. exists a. split; [reflexivity|]. rewrite Ha. split; [intros Q; now apply quiet_each|]. intros Q. inversion Q; subst; [congruence| |assumption]. contradiction.
Qed.

Lemma target_lval T : wf T -> category_of T <> KVoid -> qualified_fun T = false -> lval (target T) /\ lref T = Some (TLref (target T)).
Proof.
  intros W V Q. unfold lval, lref, target. destruct T; cbn in *; try tauto; try (now destruct W as (W1 & W2 & W3); destruct T; tauto).
  rewrite Q. tauto.
Qed.

(** __is_swappable<T> is true exactly when swap(x, y) is well-formed for two lvalues of type T (or of the type it refers to); it fails to compile exactly for void and function types with
    qualifiers.  The same for __is_nothrow_swappable and a swap that cannot throw; and two unique_ptrs can be swapped by swap(x, y) exactly when their deleters can. *)
Theorem C98_swappable : forall dtor ctor conv pass assign qi qp qa own T, wf T ->
  if match category_of T with KVoid => true | _ => qualified_fun T end
  then is_swappable dtor ctor conv pass assign own T = None /\ is_nothrow_swappable dtor ctor conv pass assign qi qp qa own T = None
  else exists b c,
    is_swappable dtor ctor conv pass assign own T = Some b /\ (b = true <-> swappable dtor ctor conv assign own (target T)) /\
    is_nothrow_swappable dtor ctor conv pass assign qi qp qa own T = Some c /\ (c = true <-> quiet dtor ctor conv assign qi qa own (target T)) /\
    unique_ptr_swap dtor ctor conv pass assign own T = Some b.
Proof.
  intros dtor ctor conv pass assign qi qp qa own T W.
  destruct (match category_of T with KVoid => true | _ => qualified_fun T end) eqn:X.
  - assert (N : lref T = None) by (unfold lref; destruct T as [| q0 [] | | | | | | q0 n0 [] | | | | |]; cbn [category_of qualified_fun] in X |- *; try discriminate X; rewrite ?X; reflexivity).
    unfold is_swappable, is_nothrow_swappable. now rewrite N.
  - assert (V : category_of T <> KVoid) by (intro V; rewrite V in X; discriminate). assert (Q : qualified_fun T = false) by (destruct (category_of T); congruence).
    destruct (target_lval T W V Q) as (L & R). unfold unique_ptr_swap, is_swappable, is_nothrow_swappable. rewrite R.
    destruct (swap_lvalues_spec dtor ctor conv pass assign own _ L) as (b & -> & B). destruct (nothrow_lvalues_spec dtor ctor conv pass assign qi qp qa own _ L) as (c & -> & C).
    exists b, c. auto.
Qed.
Print Assumptions C98_swappable.

(** Arrays of any depth are swappable exactly when their elements are, unless they have a swap of their own; references to a type as the type itself. *)
Theorem C98_arrays : forall dtor ctor conv pass assign own T n, wf (TArr T n) -> own (TArr T n) = None ->
  is_swappable dtor ctor conv pass assign own (TArr T n) = is_swappable dtor ctor conv pass assign own T /\
  is_swappable dtor ctor conv pass assign own (TLref (TArr T n)) = is_swappable dtor ctor conv pass assign own T.
Proof.
  intros dtor ctor conv pass assign own T n W O. assert (L : lval (TArr T n)) by (split; [exact W|split; [exact I|reflexivity]]). pose proof (lval_elem T n L) as LE.
  assert (R : lref T = Some (TLref T)) by (destruct LE as (_ & N & Q); unfold lref; destruct T; try contradiction; rewrite ?Q; reflexivity).
  unfold is_swappable. rewrite R. cbn [lref qualified_fun].
  destruct (swap_lvalues_spec dtor ctor conv pass assign own _ L) as (b & -> & B). destruct (swap_lvalues_spec dtor ctor conv pass assign own _ LE) as (c & -> & C).
  assert (E : swappable dtor ctor conv assign own (TArr T n) <-> swappable dtor ctor conv assign own T).
  { split; [|apply sw_each]. intros S. inversion S; subst; [congruence|contradiction|assumption]. }
  assert (b = c) by (destruct b, c; intuition). subst c. auto.
Qed.
Print Assumptions C98_arrays.

(** int and int[3][2] swap without throwing, const int does not swap; class 5 cannot be moved but has its own swap, which may throw; class 6 can be moved; function types and void. *)
Example C98_case :
  let int := TArith nocv Int in
  let dtor := fun _ => true in let ctor := fun n (_ : list ty) => Nat.eqb n 6 in let conv := fun _ _ : ty => true in
  let assign := fun x _ : ty => match x with TLref (TArith (Cv c _) _) => negb c | TLref (TClass _ n) => Nat.eqb n 6 | _ => false end in
  let qi := fun (_ : ty) (_ : list ty) => true in let qa := fun x _ : ty => match x with TLref (TArith _ _) => true | _ => false end in
  let own := fun U => match U with TClass _ 5 => Some false | _ => None end in
  let sw := is_swappable dtor ctor conv conv assign own in let nt := is_nothrow_swappable dtor ctor conv conv assign qi conv qa own in
  sw int = Some true /\ nt int = Some true /\ sw (TArr (TArr int 2) 3) = Some true /\ nt (TArr (TArr int 2) 3) = Some true /\ sw (TLref int) = Some true /\
  sw (TArith (Cv true false) Int) = Some false /\ sw (TClass nocv 5) = Some true /\ nt (TArr (TClass nocv 5) 4) = Some false /\ sw (TClass nocv 6) = Some true /\ nt (TClass nocv 6) = Some false /\
  sw (TClass nocv 7) = Some false /\ sw (TFun int [] false nocv NoRef) = Some false /\ sw (TFun int [] false (Cv true false) NoRef) = None /\ sw (TVoid nocv) = None /\
  swappable dtor ctor conv assign own (TArr (TArr int 2) 3).
Proof. repeat split. apply sw_each, sw_each, sw_move; reflexivity. Qed.
