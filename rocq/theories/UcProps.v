(** C90: which unique_ptr can be constructed from what, and what its deleter is then. *)
From Coq Require Import List Bool.
From Verif Require Import TyModel TraitModel TraitSpec TraitProofs TraitCommon TraitMore TraitProps FwdModel FwdProps UcModel.
Import ListNotations.

(** What can serve as a deleter by value: a class or a pointer to a function, unqualified. *)
Definition callable (u : ty) : Prop := match u with TClass (Cv false false) _ => True | TPtr (Cv false false) (TFun _ _ _ _ _) => True | _ => False end.
(** The deleter types: a callable, or an lvalue reference to one that may be const. *)
Definition deleter (D : ty) : Prop := callable D \/ exists u, callable u /\ (D = TLref u \/ D = TLref (const_of u)).
(** The stored deleter can be called: it was made by a constructor or refers to an object that outlives the expression. *)
Definition usable (D : ty) (a : args) (s : source) : Prop :=
  match s with
  | Copied | Moved => True
  | DefaultInit => category_of D = KClass
  | Bound => exists p e, a = Two p e /\ e_cat e = Lvalue
  end.

Lemma callable_const u : callable u -> const_of u <> u /\ remove_cv (const_of u) = u /\ remove_cv u = u /\ top u = nocv /\ top (const_of u) = Cv true false /\ (forall v, u <> TLref v) /\ ty_eqb u u = true /\
  call_expr (TLref (const_of u)) = Expr (const_of u) Lvalue /\ call_expr (TRref u) = Expr u Xvalue /\ call_expr (TRref (const_of u)) = Expr (const_of u) Xvalue.
Proof.
  intro C. assert (E : ty_eqb u u = true) by apply same_refl. destruct u as [| q a | | | [[] []] n | | [[] []] t | | | | | |]; cbn in C; try contradiction; [|destruct t; try contradiction]; repeat split; try discriminate; assumption.
Qed.

(** A deleter stored by value.  Without arguments it must be default constructible and not a pointer; given as an lvalue or a const rvalue it is copied, given as a non-const
    rvalue it is moved, or copied when it cannot be moved. *)
Theorem C90_by_value : forall dflt ctor D, callable D ->
  (construct dflt ctor D NoArgs = Made DefaultInit <-> dflt D = true /\ category_of D = KClass) /\
  (forall a, a = NoArgs \/ a = One Null \/ a = One Ptr -> construct_array dflt ctor D a = if dflt D && negb (is_pointer D) then Made DefaultInit else Rejected) /\
  (forall p t c, t = D \/ t = const_of D ->
     let r := if ctor D (TLref (const_of D)) then Made Copied else Rejected in
     let want := match c with Lvalue => r | _ => if ty_eqb t D && ctor D (TRref D) then Made Moved else r end in
     construct dflt ctor D (Two p (Expr t c)) = want /\ construct_array dflt ctor D (Two p (Expr t c)) = want).
Proof.
  intros dflt ctor D C. destruct (callable_const D C) as (N & R1 & R2 & T1 & T2 & L & E & _).
  assert (DC : default_constructible dflt D = dflt D) by (destruct D; try reflexivity; now destruct (L D)).
  assert (P : category_of D = KClass <-> is_pointer D = false).
  { destruct D as [| q a | | | [[] []] n | | [[] []] t | | | | | |]; cbn in C; try contradiction; cbn; split; congruence. }
  split; [|split].
  - cbn [construct]. unfold default_enabled. rewrite DC. destruct (dflt D), (is_pointer D); cbn; split; intros H; try discriminate; try (destruct H as (H1 & H2); try discriminate; apply P in H2; discriminate); auto. split; [reflexivity|]. now apply P.
  - intros a [->|[->| ->]]; cbn [construct_array]; unfold default_enabled; rewrite DC; reflexivity.
  - intros p t c Ht.
    assert (K : forall b, with_deleter ctor b D (Expr t c) = match c with Lvalue => if ctor D (TLref (const_of D)) then Made Copied else Rejected | _ => if ty_eqb t D && ctor D (TRref D) then Made Moved else if ctor D (TLref (const_of D)) then Made Copied else Rejected end).
    { intro b. unfold with_deleter. assert (rval_ref_type D = Good (TRref D)) as -> by (destruct D; try reflexivity; now destruct (L D)). assert (lval_ref_type D = TLref (const_of D)) as -> by (destruct D; try reflexivity; now destruct (L D)).
      assert (X : forall A, constructible ctor D A = ctor D A) by (intro A; destruct D; try reflexivity; now destruct (L D)). rewrite !X.
      assert (Cp : match D with TLref _ => Bound | _ => Copied end = Copied) by (destruct D; try reflexivity; now destruct (L D)). rewrite Cp.
      assert (E2 : ty_eqb (const_of D) D = false). { destruct (ty_eqb (const_of D) D) eqn:F; [|reflexivity]. apply C73_same in F. contradiction. }
      unfold binds. cbn [e_ty e_cat]. destruct Ht as [->| ->]; rewrite ?R1, ?R2, ?T1, ?T2, ?E, ?E2; destruct c; cbn; destruct (ctor D (TRref D)), (ctor D (TLref (const_of D))); reflexivity. }
    cbn [construct construct_array]. destruct p; rewrite !K; auto.
Qed.
Print Assumptions C90_by_value.

(** A deleter that is a reference is bound to the lvalue it is given and to nothing else: no default, no rvalue, no const lvalue for a non-const reference. *)
Theorem C90_reference : forall dflt ctor u t c p, callable u -> t = u \/ t = const_of u ->
  construct dflt ctor (TLref u) NoArgs = Rejected /\ construct_array dflt ctor (TLref u) NoArgs = Rejected /\ construct dflt ctor (TLref u) (One Ptr) = HardError /\
  construct dflt ctor (TLref u) (Two p (Expr t c)) = (match c with Lvalue => if ty_eqb t u then Made Bound else Rejected | _ => Rejected end) /\
  construct dflt ctor (TLref (const_of u)) (Two p (Expr t c)) = (match c with Lvalue => Made Bound | _ => Rejected end) /\
  construct_array dflt ctor (TLref u) (Two p (Expr t c)) = (match c with Lvalue => if ty_eqb t u then Made Bound else Rejected | _ => Rejected end) /\
  construct_array dflt ctor (TLref (const_of u)) (Two Ptr (Expr t c)) = (match c with Lvalue => Made Bound | _ => Rejected end).
Proof.
  intros dflt ctor u t c p C Ht. destruct (callable_const u C) as (N & R1 & R2 & T1 & T2 & L & E & C1 & C2 & C3). repeat (split; [reflexivity|]).
  assert (E2 : ty_eqb (const_of u) u = false). { destruct (ty_eqb (const_of u) u) eqn:F; [|reflexivity]. apply C73_same in F. contradiction. }
  assert (K : forall b, with_deleter ctor b (TLref u) (Expr t c) = (match c with Lvalue => if ty_eqb t u then Made Bound else Rejected | _ => Rejected end)).
  { intro b. unfold with_deleter. cbn [rval_ref_type lval_ref_type constructible]. rewrite C2. assert (call_expr (TLref u) = Expr u Lvalue) as -> by reflexivity. unfold binds. cbn [e_ty e_cat].
    destruct Ht as [->| ->]; rewrite ?R1, ?R2, ?T1, ?T2, ?E, ?E2; destruct c; cbn; rewrite ?andb_false_r; cbn; try reflexivity; destruct b; reflexivity. }
  assert (K2 : with_deleter ctor true (TLref (const_of u)) (Expr t c) = (match c with Lvalue => Made Bound | _ => Rejected end)).
  { unfold with_deleter. cbn [rval_ref_type lval_ref_type constructible]. rewrite C1, C3. unfold binds. cbn [e_ty e_cat].
    destruct Ht as [->| ->]; rewrite ?R1, ?R2, ?T1, ?T2, ?E; destruct c; cbn; reflexivity. }
  cbn [construct construct_array]. destruct p; auto.
Qed.
Print Assumptions C90_reference.

(** Whatever constructor is chosen leaves a deleter that can be called, except unique_ptr<T, D>(p) with a pointer as deleter and unique_ptr<T[], const D&>(nullptr, rvalue). *)
Theorem C90_usable_partial : forall dflt ctor D a s, deleter D -> (forall p t c, a = Two p (Expr t c) -> t = match D with TLref u => remove_cv u | u => u end \/ t = const_of (match D with TLref u => u | u => u end)) ->
  (construct dflt ctor D a = Made s -> (forall p, a = One p -> is_pointer D = false) -> usable D a s) /\
  (construct_array dflt ctor D a = Made s -> (forall t, a = Two Null t -> e_cat t <> Lvalue -> forall u, D <> TLref (const_of u)) -> usable D a s).
Proof.
  intros dflt ctor D a s HD Ha. destruct HD as [C|(u & C & HD)].
  - destruct (callable_const D C) as (N & R1 & R2 & T1 & T2 & L & E & _). destruct (C90_by_value dflt ctor D C) as (A1 & A2 & A3).
    assert (DC : default_constructible dflt D = dflt D) by (destruct D; try reflexivity; now destruct (L D)).
    assert (P : is_pointer D = false -> category_of D = KClass) by (destruct D as [| q x | | | [[] []] n | | [[] []] t | | | | | |]; cbn in C; try contradiction; cbn; congruence).
    assert (X : match D with TLref v => remove_cv v | v => v end = D /\ match D with TLref v => v | v => v end = D) by (destruct D; auto; now destruct (L D)). destruct X as [X1 X2]. rewrite X1, X2 in Ha.
    destruct a as [|p|p [t c]].
    + split; intros H _; [|rewrite (A2 NoArgs) in H by auto; destruct (dflt D), (is_pointer D) eqn:I; cbn in H; try discriminate H; injection H as <-; now apply P].
      cbn in H. unfold default_enabled in H. rewrite DC in H. destruct (dflt D), (is_pointer D) eqn:I; cbn in H; try discriminate H; injection H as <-; now apply P.
    + split; intros H Hp.
      * specialize (P (Hp p eq_refl)). destruct p; cbn in H; unfold default_enabled, default_init in H; rewrite DC, ?(Hp _ eq_refl) in H; destruct (dflt D); cbn in H; try discriminate H; injection H as <-; exact P.
      * rewrite (A2 (One p)) in H by (destruct p; auto). destruct (dflt D), (is_pointer D) eqn:I; cbn in H; try discriminate H; injection H as <-; now apply P.
    + destruct (A3 p t c) as [B1 B2]. { destruct (Ha p t c eq_refl); auto. }
      rewrite B1, B2. split; intros H _; destruct c; destruct (ctor D (TLref (const_of D))), (ty_eqb t D), (ctor D (TRref D)); cbn in H; try discriminate H; injection H as <-; exact I.
  - destruct (callable_const u C) as (N & R1 & R2 & T1 & T2 & L & E & _).
    assert (Cc : const_of (const_of u) = const_of u) by (unfold const_of; rewrite requal_comp; reflexivity).
    assert (At : forall p t c, a = Two p (Expr t c) -> t = u \/ t = const_of u).
    { intros p t c Ea. specialize (Ha p t c Ea). destruct HD as [-> | ->]; cbn in Ha; rewrite ?R1, ?R2, ?Cc in Ha; exact Ha. }
    clear Ha. destruct a as [|p|p [t c]].
    + destruct HD as [-> | ->]; split; intros H; discriminate H.
    + destruct HD as [-> | ->]; split; intros H; destruct p; discriminate H.
    + specialize (At p t c eq_refl). assert (F : forall b, b = match c with Lvalue => true | _ => false end -> Made s = (if b then Made Bound else Rejected) -> usable D (Two p (Expr t c)) s).
      { intros b -> Eb. destruct c; try discriminate Eb. injection Eb as ->. exists p, (Expr t Lvalue). auto. }
      destruct HD as [-> | ->].
      * destruct (C90_reference dflt ctor u t c p C At) as (_ & _ & _ & B1 & _ & B2 & _). rewrite B1, B2.
        split; intros H _; destruct c; try discriminate H; destruct (ty_eqb t u); try discriminate H; now apply (F true).
      * destruct (C90_reference dflt ctor u t c p C At) as (_ & _ & _ & _ & B1 & _ & B2). rewrite B1.
        split; intros H Hn; [destruct c; try discriminate H; now apply (F true)|]. destruct c.
        -- eapply (F true); [reflexivity|]. destruct p; [|rewrite <- B2; symmetry; exact H].
           cbn [construct_array] in H. unfold with_deleter in H. cbn [andb] in H. cbn [rval_ref_type lval_ref_type] in H. destruct (binds (TLref (const_of u)) (Expr t Lvalue) && constructible ctor (TLref (const_of u)) (TLref (const_of u))); congruence.
        -- destruct p; [exfalso; now apply (Hn _ eq_refl ltac:(discriminate) u)|]. rewrite B2 in H. discriminate H.
        -- destruct p; [exfalso; now apply (Hn _ eq_refl ltac:(discriminate) u)|]. rewrite B2 in H. discriminate H.
Qed.
Print Assumptions C90_usable_partial.
(** unique_ptr<int, void ( * )(int* )>(p) compiles; its deleter is an indeterminate pointer, called when p is destroyed. *)
Theorem C90_usable_refuted : exists D, deleter D /\ (forall ctor, construct (fun _ => true) ctor D (One Ptr) = Made DefaultInit) /\ (forall ctor, construct_array (fun _ => true) ctor D (One Ptr) = Rejected) /\ ~ usable D (One Ptr) DefaultInit.
Proof.
  exists (TPtr nocv (TFun (TVoid nocv) [TPtr nocv (TArith nocv Int)] false nocv NoRef)). split; [left; exact I|]. repeat split. discriminate.
Qed.
Print Assumptions C90_usable_refuted.
(** unique_ptr<int[], const D&>(nullptr, D()) compiles and refers to the destroyed D(); unique_ptr<int[], const D&>(p, D()) does not compile. *)
Theorem C90_dangling_refuted : exists D e, deleter D /\ e_cat e = Prvalue /\ forall dflt ctor,
  construct_array dflt ctor D (Two Null e) = Made Bound /\ construct_array dflt ctor D (Two Ptr e) = Rejected /\ construct dflt ctor D (Two Null e) = Rejected /\ ~ usable D (Two Null e) Bound.
Proof.
  exists (TLref (TClass (Cv true false) 7)), (Expr (TClass nocv 7) Prvalue). split; [right; exists (TClass nocv 7); split; [exact I|right; reflexivity]|]. repeat split.
  intros (p & e & E & H). injection E as <- <-. discriminate H.
Qed.
Print Assumptions C90_dangling_refuted.

(** The qualifiers of a pointer's target, level by level, and what is left at the end of the chain of pointers. *)
Fixpoint levels (t : ty) : list cv := match t with TPtr q u => q :: levels u | _ => [top t] end.
Fixpoint target (t : ty) : ty := match t with TPtr _ u => target u | _ => remove_cv t end.
(** A pointer to [u] becomes a pointer to [t] by a qualification conversion ([conv.qual]): the same chain of pointers, no qualifier is lost, and where one is added all
    levels of [t] above are const. *)
Definition qualification (u t : ty) : Prop :=
  length (levels u) = length (levels t) /\ target u = target t /\
  forall k p q, nth_error (levels u) k = Some p -> nth_error (levels t) k = Some q ->
    (qc p = true -> qc q = true) /\ (qv p = true -> qv q = true) /\ (p <> q -> forall j r, j < k -> nth_error (levels t) j = Some r -> qc r = true).

Lemma cv_le_sub p q : cv_le p q = true <-> (qc p = true -> qc q = true) /\ (qv p = true -> qv q = true).
Proof.
  unfold cv_le. destruct (qc p), (qc q), (qv p), (qv q); cbn; split; intros H; try discriminate; auto; try (destruct H as [A B]; try discriminate (A eq_refl); try discriminate (B eq_refl)); auto.
Qed.
Lemma level_top t : exists l, levels t = top t :: l.
Proof. destruct t; eexists; reflexivity. Qed.
Lemma qualifies_gen : forall u t outer, qualifies outer u t = true <->
  length (levels u) = length (levels t) /\ target u = target t /\
  forall k p q, nth_error (levels u) k = Some p -> nth_error (levels t) k = Some q ->
    (qc p = true -> qc q = true) /\ (qv p = true -> qv q = true) /\ (p <> q -> outer = true /\ forall j r, j < k -> nth_error (levels t) j = Some r -> qc r = true).
Proof.
  assert (Base : forall u t outer, levels u = [top u] -> levels t = [top t] -> target u = remove_cv u -> target t = remove_cv t ->
    (cv_le (top u) (top t) && (outer || cv_eqb (top u) (top t)) && ty_eqb (remove_cv u) (remove_cv t) = true <->
     length (levels u) = length (levels t) /\ target u = target t /\
     forall k p q, nth_error (levels u) k = Some p -> nth_error (levels t) k = Some q ->
       (qc p = true -> qc q = true) /\ (qv p = true -> qv q = true) /\ (p <> q -> outer = true /\ forall j r, j < k -> nth_error (levels t) j = Some r -> qc r = true))).
  { intros u t outer -> -> -> ->. rewrite !andb_true_iff, orb_true_iff, ty_eqb_eq, cv_eqb_eq, cv_le_sub. split.
    - intros (((A & B) & C) & D). split; [reflexivity|]. split; [exact D|]. intros [|[|k]] p q Hp Hq; try discriminate Hp. injection Hp as <-. injection Hq as <-.
      split; [exact A|]. split; [exact B|]. intro N. destruct C as [C|C]; [|contradiction]. split; [exact C|]. intros j r L. inversion L.
    - intros (_ & D & H). destruct (H 0 _ _ eq_refl eq_refl) as (A & B & C). split; [|exact D]. split; [auto|]. destruct (cv_eqb (top u) (top t)) eqn:Q; [right; now apply cv_eqb_eq|].
      left. apply C. intro K. apply cv_eqb_eq in K. congruence. }
  assert (Mixed : forall u t, (forall q w, t <> TPtr q w) -> (exists q w, u = TPtr q w) -> (ty_eqb (remove_cv u) (remove_cv t) = false) /\ (ty_eqb (remove_cv t) (remove_cv u) = false)).
  { intros u t N (q & w & ->). split; apply not_true_iff_false; intro K; apply ty_eqb_eq in K; rewrite !remove_cv_requal in K; destruct t; cbn in K; try discriminate K; eapply N; reflexivity. }
  assert (Long : forall t, (forall q w, t <> TPtr q w) -> levels t = [top t] /\ target t = remove_cv t) by (intros t N; destruct t; try (split; reflexivity); exfalso; eapply N; reflexivity).
  induction u; intros t outer;
    try (destruct (match t with TPtr _ _ => true | _ => false end) eqn:Z;
      [ destruct t as [| | | | | |q0 t0| | | | | |]; try discriminate Z; cbn [qualifies]; split;
        [ intro H; apply andb_prop in H; destruct H as [_ H]; apply ty_eqb_eq in H; rewrite !remove_cv_requal in H; cbn in H; discriminate H
        | intros (L & _); exfalso; cbn in L; destruct (level_top t0) as [l E]; rewrite E in L; discriminate L ]
      | assert (N : forall q w, t <> TPtr q w) by (intros q0 w ->; discriminate Z); destruct (Long t N); cbn [qualifies]; apply Base; try reflexivity; assumption ]).
  destruct (match t with TPtr _ _ => true | _ => false end) eqn:Z.
  2: { assert (N : forall q w, t <> TPtr q w) by (intros q0 w ->; discriminate Z). destruct (Long t N) as [Lt _].
    destruct (Mixed (TPtr q u) t N (ex_intro _ q (ex_intro _ u eq_refl))) as [F _]. split.
    - intro H. destruct t; try discriminate Z; cbn [qualifies] in H; rewrite F, andb_false_r in H; discriminate H.
    - intros (L & _). rewrite Lt in L. cbn in L. destruct (level_top u) as [l E]. rewrite E in L. discriminate L. }
  destruct t as [| | | | | |q' t| | | | | |]; try discriminate Z. clear Z. cbn [qualifies top levels target length]. rewrite !andb_true_iff, orb_true_iff, cv_eqb_eq, cv_le_sub, IHu. split.
  - intros (((A & B) & C) & L & T & H). split; [f_equal; exact L|]. split; [exact T|]. intros [|k] p q0 Hp Hq; cbn in Hp, Hq.
    + injection Hp as <-. injection Hq as <-. split; [exact A|]. split; [exact B|]. intro N. destruct C as [C|C]; [|contradiction]. split; [exact C|]. intros j r K. inversion K.
    + destruct (H k p q0 Hp Hq) as (H1 & H2 & H3). split; [exact H1|]. split; [exact H2|]. intro N. destruct (H3 N) as [O R]. apply andb_prop in O. destruct O as [O Q]. split; [exact O|].
      intros [|j] r K Hr; cbn in Hr; [injection Hr as <-; exact Q|]. apply (R j r); [now apply PeanoNat.Nat.succ_lt_mono|exact Hr].
  - intros (L & T & H). injection L as L. split; [|split; [exact L|split; [exact T|]]].
    + destruct (H 0 _ _ eq_refl eq_refl) as (A & B & C). split; [auto|]. destruct (cv_eqb q q') eqn:Q; [right; now apply cv_eqb_eq|]. left. apply C. intro K. apply cv_eqb_eq in K. congruence.
    + intros k p q0 Hp Hq. destruct (H (S k) p q0 Hp Hq) as (H1 & H2 & H3). split; [exact H1|]. split; [exact H2|]. intro N. destruct (H3 N) as [O R]. split.
      * apply andb_true_intro. split; [exact O|]. apply (R 0 q'); [apply PeanoNat.Nat.lt_0_succ|reflexivity].
      * intros j r K Hr. apply (R (S j) r); [now apply -> PeanoNat.Nat.succ_lt_mono|exact Hr].
Qed.
Lemma qualifies_spec : forall u t, qualifies true u t = true <-> qualification u t.
Proof.
  intros u t. rewrite qualifies_gen. unfold qualification. split; intros (L & T & H); (split; [exact L|split; [exact T|]]); intros k p q Hp Hq; destruct (H k p q Hp Hq) as (A & B & C);
    (split; [exact A|split; [exact B|]]); intro N; [apply (C N)|split; [reflexivity|exact (C N)]].
Qed.
Lemma qualification_refl u : qualification u u.
Proof.
  split; [reflexivity|]. split; [reflexivity|]. intros k p q Hp Hq. rewrite Hp in Hq. injection Hq as <-. split; [auto|]. split; [auto|]. intro N. now destruct N.
Qed.

(** unique_ptr<T[]> takes over the pointers that become pointers to T by adding qualifiers and no others: no pointer to a derived class, no other arithmetic type. *)
Theorem C90_array_pointer : forall T u, array_pointer_ok T (TPtr nocv T) (TPtr nocv u) = true <-> qualification u T.
Proof.
  intros T u. unfold array_pointer_ok. cbn [nocv]. fold nocv. rewrite same_refl, orb_true_iff, andb_true_iff, qualifies_spec. split.
  - intros [H|(_ & H)]; [|exact H]. apply C73_same in H. injection H as ->. apply qualification_refl.
  - intro H. right. split; [reflexivity|exact H].
Qed.
Print Assumptions C90_array_pointer.

Example C90_case : let c := TClass nocv 7 in
  callable c /\ construct (fun _ => true) (fun _ _ => true) c (Two Ptr (Expr c Prvalue)) = Made Moved /\ construct (fun _ => true) (fun _ _ => true) c (Two Ptr (Expr c Lvalue)) = Made Copied /\
  construct (fun _ => false) (fun _ _ => true) (TLref c) (Two Ptr (Expr c Lvalue)) = Made Bound /\ construct (fun _ => false) (fun _ _ => true) c (One Ptr) = HardError /\
  array_pointer_ok (TArith (Cv true false) Int) (TPtr nocv (TArith (Cv true false) Int)) (TPtr nocv (TArith nocv Int)) = true /\
  array_pointer_ok (TClass nocv 8) (TPtr nocv (TClass nocv 8)) (TPtr nocv (TClass nocv 9)) = false /\
  (let pc q := TPtr q (TArith (Cv true false) Char) in let p := TPtr nocv (TArith nocv Char) in
   array_pointer_ok (pc nocv) (TPtr nocv (pc nocv)) (TPtr nocv p) = false /\ array_pointer_ok (pc (Cv true false)) (TPtr nocv (pc (Cv true false))) (TPtr nocv p) = true).
Proof. repeat split. Qed.
