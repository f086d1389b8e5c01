(** C96: is_constructible, is_assignable and their nothrow forms against the expressions they stand for. *)
From Coq Require Import List Bool Arith NArith Lia.
From Verif Require Import TyModel TraitModel TraitSpec TraitProofs TraitCommon TraitMore TraitProps FwdModel FwdProps IcModel.
Import ListNotations.

Section Spec.
  Variable dtor : nat -> bool.
  Variable ctor : nat -> list ty -> bool.
  Variables conv bind : ty -> ty -> bool.
  (** The type of the argument declval<A>(): a reference; there is none of type void, nor a reference to a function with qualifiers. *)
  Definition argument_of (A e : ty) : Prop :=
    category_of A <> KVoid /\ qualified_fun A = false /\ e = match A with TLref _ | TRref _ => A | _ => TRref A end.
  (** [T t(declval<As>()...);] (or [T t;] for no arguments) is well-formed: [meta.unary.prop]. *)
  Fixpoint std_constructible (T : ty) (As : list ty) : Prop :=
    match T with
    | TVoid _ | TFun _ _ _ _ _ | TArrU _ => False
    | TLref _ | TRref _ => exists A e, As = [A] /\ argument_of A e /\ bind T e = true
    | TArr u _ => As = [] /\ std_constructible u []
    | TClass _ n | TUnion _ n => dtor n = true /\ exists es, Forall2 argument_of As es /\ ctor n es = true
    | _ => As = [] \/ exists A e, As = [A] /\ argument_of A e /\ conv T e = true
    end.
End Spec.

Lemma argument_spec A e : argument A = Some e <-> argument_of A e.
Proof.
  unfold argument, argument_of, declval. destruct (category_of A) eqn:C.
  all: destruct A as [| q [] | | | | | | q c [] | | | | |]; try discriminate C; unfold rref.
  all: try (cbn [returnable qualified_fun]; split; [discriminate|intros (H & _); exfalso; now apply H]).
  all: try (cbn [returnable qualified_fun]; split; [intro H; injection H as <-; repeat split; discriminate|intros (_ & _ & ->); reflexivity]).
  all: cbn [returnable]; destruct (qualified_fun _) eqn:E; (split; [try discriminate; intro H; injection H as <-; repeat split; discriminate|intros (_ & H & ->); try discriminate H; reflexivity]).
Qed.
Lemma arguments_spec : forall As es, arguments As = Some es <-> Forall2 argument_of As es.
Proof.
  induction As as [|A As IH]; intro es; cbn [arguments].
  - split; [intro H; injection H as <-; constructor|inversion 1; reflexivity].
  - destruct (argument A) as [e|] eqn:E; cbn.
    + apply argument_spec in E. destruct (arguments As) as [es'|]; cbn.
      * split; [intro H; injection H as <-; constructor; [exact E|now apply IH]|]. inversion 1 as [|? e2 ? es2 H1 H2]; subst. apply IH in H2. injection H2 as <-. apply argument_spec in E, H1. congruence.
      * split; [discriminate|]. inversion 1 as [|? e2 ? es2 H1 H2]; subst. apply IH in H2. discriminate.
    + split; [discriminate|]. inversion 1 as [|? e2 ? es2 H1 H2]; subst. apply argument_spec in H1. congruence.
Qed.
Lemma nothing_of : forall As, (exists es, Forall2 argument_of As es) \/ arguments As = None.
Proof. intro As. destruct (arguments As) as [es|] eqn:E; [left; exists es; now apply arguments_spec|now right]. Qed.

Lemma destr dtor T : wf T -> is_destructible dtor T = destructible dtor T.
Proof. apply destructible_spec. Qed.

(** Objects that are not arrays: the right answer, for any number of arguments (where there is not exactly one, for classes with an accessible destructor). *)
Theorem C96_object : forall dtor ctor conv bind pass T As, wf T -> category_of T <> KLvalueRef -> category_of T <> KRvalueRef -> (is_array T = false \/ length As = 1) ->
  (length As <> 1 -> forall q n, T = TClass q n \/ T = TUnion q n -> dtor n = true) ->
  exists b, is_constructible dtor ctor conv pass T As = Some b /\ (b = true <-> std_constructible dtor ctor conv bind T As).
Proof.
  intros dtor ctor conv bind pass T As W NL NR NA ND.
  assert (K1 : forall A, As = [A] -> is_constructible dtor ctor conv pass T As = Some (is_destructible dtor T && test1 ctor conv T A)).
  { intros A ->. destruct T as [[[] []]| | | | | | | | | | | |]; try reflexivity; cbn in NL, NR; congruence. }
  destruct As as [|A [|A2 As]].
  - clear K1. destruct NA as [NA|]; [|discriminate]. specialize (ND ltac:(discriminate)).
    destruct T as [q| | | |q n|q n| | | | | | |]; cbn in NA, NL, NR; try discriminate NA; try congruence.
    all: try (exists true; split; [reflexivity|cbn; intuition]; fail).
    + exists false. split; [destruct q as [[] []]; reflexivity|]. cbn. intuition.
    + exists (ctor n []). split; [reflexivity|]. specialize (ND q n (or_introl eq_refl)). cbn. split; [intro H; split; [exact ND|exists []; split; [constructor|exact H]]|]. intros (_ & es & F & H). inversion F; subst. exact H.
    + exists (ctor n []). split; [reflexivity|]. specialize (ND q n (or_intror eq_refl)). cbn. split; [intro H; split; [exact ND|exists []; split; [constructor|exact H]]|]. intros (_ & es & F & H). inversion F; subst. exact H.
    + exists false. split; [reflexivity|]. cbn. intuition.
  - rewrite (K1 A eq_refl). eexists. split; [reflexivity|]. rewrite (destr dtor T W), andb_true_iff. unfold test1.
    assert (S : forall f : ty -> bool, match argument A with Some e => f e | None => false end = true <-> exists e, argument_of A e /\ f e = true).
    { intro f. destruct (argument A) as [e|] eqn:E.
      - apply argument_spec in E. split; [eauto|]. intros (e' & H1 & H2). apply argument_spec in E, H1. congruence.
      - split; [discriminate|]. intros (e & H & _). apply argument_spec in H. congruence. }
    rewrite S. clear - NL NR. destruct T as [q| | | |q n|q n| | | | | | |]; cbn in NL, NR; try congruence; cbn [destructible std_constructible init_object].
    all: try (split; [intros (_ & e & H1 & H2); right; exists A, e; auto|intros [H|(A' & e & H & H1 & H2)]; [discriminate H|injection H as <-; split; [reflexivity|exists e; auto]]]; fail).
    all: try (split; [intros (H & _); discriminate H|contradiction]; fail).
    all: try (split; [intros (H & e & H1 & H2); split; [exact H|exists [e]; split; [constructor; [exact H1|constructor]|exact H2]]|];
      intros (H & es & F & H2); split; [exact H|]; inversion F as [|? e ? es2 F1 F2]; subst; inversion F2; subst; exists e; auto; fail).
    split; [intros (_ & e & _ & H); discriminate H|intros (H & _); discriminate H].
  - clear K1. destruct NA as [NA|]; [|discriminate]. specialize (ND ltac:(discriminate)).
    assert (E : is_constructible dtor ctor conv pass T (A :: A2 :: As) = Some (test ctor conv T (A :: A2 :: As))) by (destruct T as [[[] []]| | | | | | | | | | | |]; reflexivity).
    rewrite E. eexists. split; [reflexivity|]. unfold test. destruct (nothing_of (A :: A2 :: As)) as [(es & F)|N].
    + rewrite (proj2 (arguments_spec _ _) F). assert (L : exists e e2 es', es = e :: e2 :: es') by (inversion F as [|? e ? es1 F1 F2]; subst; inversion F2; subst; eauto).
      destruct L as (e & e2 & es' & ->).
      destruct T as [q| | | |q n|q n| | | | | | |]; cbn in NA, NL, NR; try discriminate NA; try congruence; cbn [init_object std_constructible].
      all: try (split; [discriminate|intros [H|(A' & e' & H & _)]; discriminate H]; fail).
      all: try (split; [discriminate|contradiction]; fail).
      * specialize (ND q n (or_introl eq_refl)). split; [intro H; split; [exact ND|eauto]|]. intros (_ & es2 & F2 & H). apply arguments_spec in F, F2. congruence.
      * specialize (ND q n (or_intror eq_refl)). split; [intro H; split; [exact ND|eauto]|]. intros (_ & es2 & F2 & H). apply arguments_spec in F, F2. congruence.
    + rewrite N. split; [discriminate|]. intro H. exfalso.
      destruct T as [q| | | |q n|q n| | | | | | |]; cbn in NA, NL, NR; try discriminate NA; try congruence; cbn [std_constructible] in H; try contradiction.
      all: try (destruct H as [H|(A' & e' & H & _)]; discriminate H).
      all: destruct H as (_ & es2 & F2 & _); apply arguments_spec in F2; congruence.
Qed.
Print Assumptions C96_object.
(** References: right if a parameter of that type can be given whatever can initialise the reference directly; an argument of type void (or one that is none) does not compile. *)
Theorem C96_reference : forall dtor ctor conv bind pass T As, category_of T = KLvalueRef \/ category_of T = KRvalueRef -> (forall A e, As = [A] -> argument_of A e -> pass T e = bind T e) ->
  (is_constructible dtor ctor conv pass T As = Some true <-> std_constructible dtor ctor conv bind T As) /\
  (is_constructible dtor ctor conv pass T As = None <-> exists A, As = [A] /\ (category_of A = KVoid \/ qualified_fun A = true)).
Proof.
  intros dtor ctor conv bind pass T As R P.
  assert (S : std_constructible dtor ctor conv bind T As <-> exists A e, As = [A] /\ argument_of A e /\ bind T e = true).
  { destruct T as [| q0 [] | | | | | | q0 n0 [] | | | | |]; cbn in R; try (destruct R; discriminate); reflexivity. }
  rewrite S.
  assert (N : forall A, argument A = None <-> category_of A = KVoid \/ qualified_fun A = true).
  { intro A. destruct (argument A) as [e|] eqn:E.
    - apply argument_spec in E. destruct E as (E1 & E2 & _). split; [discriminate|]. intros [H|H]; congruence.
    - split; [intros _|reflexivity]. destruct (qualified_fun A) eqn:Q; [now right|]. destruct (category_of A) eqn:C; [left; reflexivity|exfalso..];
        (assert (X : argument A = Some (match A with TLref _ | TRref _ => A | _ => TRref A end)) by (apply argument_spec; repeat split; congruence)); congruence. }
  destruct As as [|A [|A2 As]].
  - assert (E : is_constructible dtor ctor conv pass T [] = Some false) by (destruct T as [| q0 [] | | | | | | q0 n0 [] | | | | |]; cbn in R; try (destruct R; discriminate); reflexivity).
    rewrite E. split; (split; [discriminate|]); [intros (A & e & H & _)|intros (A & H & _)]; discriminate H.
  - assert (E : is_constructible dtor ctor conv pass T [A] = ref_test pass T A) by (destruct T as [| q0 [] | | | | | | q0 n0 [] | | | | |]; cbn in R; try (destruct R; discriminate); reflexivity).
    rewrite E. unfold ref_test. destruct (argument A) as [e|] eqn:Ea; cbn.
    + pose proof (proj1 (argument_spec A e) Ea) as Ha. rewrite (P A e eq_refl Ha). split.
      * split; [intro H; injection H as H; exists A, e; auto|]. intros (A' & e' & H & H1 & H2). injection H as <-. apply argument_spec in H1. congruence.
      * split; [discriminate|]. intros (A' & H & H1). injection H as <-. apply N in H1. congruence.
    + split.
      * split; [discriminate|]. intros (A' & e' & H & H1 & _). injection H as <-. apply argument_spec in H1. congruence.
      * split; [intros _; exists A; split; [reflexivity|now apply N]|reflexivity].
  - assert (E : is_constructible dtor ctor conv pass T (A :: A2 :: As) = Some false).
    { assert (X : is_constructible dtor ctor conv pass T (A :: A2 :: As) = Some (test ctor conv T (A :: A2 :: As))) by (destruct T as [[[] []]| | | | | | | | | | | |]; reflexivity).
      rewrite X. unfold test. destruct (arguments (A :: A2 :: As)) as [[|]|]; destruct T as [| q0 [] | | | | | | q0 n0 [] | | | | |]; cbn in R; try (destruct R; discriminate); reflexivity. }
    rewrite E. split; (split; [discriminate|]); [intros (A' & e & H & _)|intros (A' & H & _)]; discriminate H.
Qed.
Print Assumptions C96_reference.
(** Copies and moves of objects (arrays too: never): asked for a const lvalue, an rvalue. *)
Theorem C96_copy_move : forall dtor ctor conv bind pass T, wf T -> object T ->
  (exists b, is_copy_constructible dtor ctor conv pass T = Some b /\ (b = true <-> std_constructible dtor ctor conv bind T [TLref (const_of T)])) /\
  (exists b, is_move_constructible dtor ctor conv pass T = Some b /\ (b = true <-> std_constructible dtor ctor conv bind T [TRref T])).
Proof.
  intros dtor ctor conv bind pass T W O. destruct (object_args T O) as (A1 & A2 & A3). unfold is_copy_constructible, is_move_constructible. rewrite ?A1, ?A2, ?A3.
  assert (N : category_of T <> KLvalueRef /\ category_of T <> KRvalueRef) by (destruct O as ((_ & _ & N1 & N2 & _) & _); auto). destruct N.
  split; apply C96_object; auto; intros H; exfalso; now apply H.
Qed.
Print Assumptions C96_copy_move.

Lemma not_void T : is_void T = false -> argument T = declval T.
Proof.
  intro H. unfold argument. destruct (declval T) as [d|] eqn:D; [|reflexivity]. destruct d; try reflexivity. exfalso.
  destruct T as [[[] []]| | | | | | | | | | | |]; cbn in H; try discriminate H; unfold declval, rref in D; cbn [qualified_fun] in D; try discriminate D.
  destruct q0 as [[] []], rq; cbn in D; discriminate D.
Qed.
Lemma void_no T : is_void T = true -> argument T = None.
Proof. unfold is_void. rewrite remove_cv_requal. intro H. destruct T; cbn in H; try discriminate H; reflexivity. Qed.
(** is_assignable, is_nothrow_assignable: exactly the expression declval<T>() = declval<A>(). *)
Theorem C96_assignable : forall assign quiet T A,
  (is_assignable assign T A = true <-> exists x y, argument_of T x /\ argument_of A y /\ assign x y = true) /\
  (is_nothrow_assignable assign quiet T A = true <-> exists x y, argument_of T x /\ argument_of A y /\ assign x y = true /\ quiet x y = true).
Proof.
  intros assign quiet T A. unfold is_nothrow_assignable, is_assignable.
  assert (E : forall f : ty -> ty -> bool, (if is_void T || is_void A then false else match declval T, declval A with Some x, Some y => f x y | _, _ => false end) =
    match argument T, argument A with Some x, Some y => f x y | _, _ => false end).
  { intro f. destruct (is_void T) eqn:VT; [now rewrite (void_no T VT)|]. destruct (is_void A) eqn:VA; [rewrite (void_no A VA); now destruct (argument T)|]. now rewrite (not_void T VT), (not_void A VA). }
  assert (S : forall f : ty -> ty -> bool, match argument T, argument A with Some x, Some y => f x y | _, _ => false end = true <-> exists x y, argument_of T x /\ argument_of A y /\ f x y = true).
  { intro f. destruct (argument T) as [x|] eqn:E1; [destruct (argument A) as [y|] eqn:E2|].
    - split; [intro H; exists x, y; rewrite <- !argument_spec; auto|]. intros (x' & y' & H1 & H2 & H). apply argument_spec in H1, H2. congruence.
    - split; [discriminate|]. intros (x' & y' & _ & H & _). apply argument_spec in H. congruence.
    - split; [discriminate|]. intros (x' & y' & H & _). apply argument_spec in H. congruence. }
  split; [rewrite E; apply S|].
  assert (Q : (if (if is_void T || is_void A then false else match declval T, declval A with Some x, Some y => assign x y | _, _ => false end)
               then match declval T, declval A with Some x, Some y => quiet x y | _, _ => false end else false) =
              (if is_void T || is_void A then false else match declval T, declval A with Some x, Some y => assign x y && quiet x y | _, _ => false end)).
  { destruct (is_void T || is_void A); [reflexivity|]. destruct (declval T), (declval A); try reflexivity. }
  rewrite Q, E, (S (fun x y => assign x y && quiet x y)). split; intros (x & y & H1 & H2 & H3); exists x, y; [apply andb_prop in H3; tauto|]. rewrite andb_true_iff. tauto.
Qed.
Print Assumptions C96_assignable.
(** is_nothrow_constructible: what is_constructible accepts, if the initialisation does not throw - except that of an array without arguments it asks its elements. *)
Theorem C96_nothrow : forall dtor ctor conv pass quiet qpass T As, (forall u n, T = TArr u n -> As <> []) ->
  (is_nothrow_constructible dtor ctor conv pass quiet qpass T As = Some true <->
   is_constructible dtor ctor conv pass T As = Some true /\ exists es, Forall2 argument_of As es /\ (if is_reference T then exists e, es = [e] /\ qpass T e = true else quiet T es = true)).
Proof.
  intros dtor ctor conv pass quiet qpass T As NA.
  assert (E : is_nothrow_constructible dtor ctor conv pass quiet qpass T As = nothrow_imp dtor ctor conv pass quiet qpass T As).
  { destruct T; try reflexivity. destruct As; [exfalso; eapply NA; reflexivity|reflexivity]. }
  rewrite E. unfold nothrow_imp. destruct (is_constructible dtor ctor conv pass T As) as [[|]|]; cbn [negb]; try (split; [discriminate|intros (H & _); discriminate H]).
  destruct (is_reference T).
  - destruct As as [|A [|A2 As]].
    + split; [discriminate|]. intros (_ & es & F & e & -> & _). inversion F.
    + destruct (argument A) as [e|] eqn:Ea; cbn.
      * split; [intro H; injection H as H; split; [reflexivity|]; exists [e]; split; [constructor; [now apply argument_spec|constructor]|exists e; auto]|].
        intros (_ & es & F & e' & -> & H). inversion F as [|? ? ? ? F1 F2]; subst. apply argument_spec in F1. congruence.
      * split; [discriminate|]. intros (_ & es & F & e' & -> & H). inversion F as [|? ? ? ? F1 F2]; subst. apply argument_spec in F1. congruence.
    + split; [discriminate|]. intros (_ & es & F & e & -> & _). inversion F as [|? ? ? ? F1 F2]; subst. inversion F2.
  - destruct (arguments As) as [es|] eqn:Ea; cbn.
    + split; [intro H; injection H as H; split; [reflexivity|]; exists es; split; [now apply arguments_spec|exact H]|]. intros (_ & es' & F & H). apply arguments_spec in F. congruence.
    + split; [discriminate|]. intros (_ & es' & F & _). apply arguments_spec in F. congruence.
Qed.
Print Assumptions C96_nothrow.

(** What fails: arrays without arguments, which are constructible without throwing but not constructible; references that only a direct initialisation can bind. *)
Theorem C96_array_refuted : forall dtor ctor conv bind pass qpass, exists T, std_constructible dtor ctor conv bind T [] /\ is_constructible dtor ctor conv pass T [] = Some false /\
  is_nothrow_constructible dtor ctor conv pass (fun _ _ => true) qpass T [] = Some true.
Proof. intros. exists (TArr (TArith nocv Int) 3%N). cbn. auto. Qed.
Print Assumptions C96_array_refuted.
Theorem C96_reference_refuted : exists dtor ctor conv bind pass T A, std_constructible dtor ctor conv bind T [A] /\ is_constructible dtor ctor conv pass T [A] = Some false.
Proof.
  exists (fun _ => true), (fun _ _ => false), (fun _ _ => false), (fun _ _ => true), (fun _ _ => false), (TLref (TArith nocv Int)), (TClass nocv 5). split; [|reflexivity].
  exists (TClass nocv 5), (TRref (TClass nocv 5)). repeat split; discriminate.
Qed.
Print Assumptions C96_reference_refuted.
(** A class with constructors C(int&&, char&) and the copy constructor; int from long; int& from int, void. *)
Example C96_case :
  let int := TArith nocv Int in let chr := TArith nocv Char in let C := TClass nocv 5 in
  let dtor := fun _ => true in let ctor := fun (_ : nat) es => match es with [TRref (TArith _ Int); TLref (TArith _ Char)] => true | [TLref (TClass (Cv true false) 5)] | [TRref (TClass (Cv false false) 5)] => true | _ => false end in
  let conv := fun T e => match e with TRref (TArith _ _) | TLref (TArith _ _) => true | _ => false end in
  let pass := fun T e => ty_eqb T e in
  is_constructible dtor ctor conv pass C [int; TLref chr] = Some true /\ is_constructible dtor ctor conv pass C [TLref int; chr] = Some false /\ is_constructible dtor ctor conv pass C [] = Some false /\
  is_copy_constructible dtor ctor conv pass C = Some true /\ is_constructible dtor ctor conv pass int [TArith nocv Long] = Some true /\ is_constructible dtor ctor conv pass int [TVoid nocv] = Some false /\
  is_constructible dtor ctor conv pass (TLref int) [TLref int] = Some true /\ is_constructible dtor ctor conv pass (TLref int) [TVoid nocv] = None /\
  std_constructible dtor ctor conv pass C [int; TLref chr].
Proof. repeat split. exists [TRref (TArith nocv Int); TLref (TArith nocv Char)]. split; [|reflexivity]. repeat constructor; discriminate. Qed.
