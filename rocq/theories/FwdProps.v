(** C89: value categories through forward, move and move_if_noexcept; what the copy and move traits ask. *)
From Coq Require Import List Bool.
From Verif Require Import TyModel TraitModel TraitSpec TraitProofs TraitCommon TraitMore TraitProps FwdModel.
Import ListNotations.

(** The type of an expression that can be passed by reference. *)
Definition passable (u : ty) : Prop := wf u /\ category_of u <> KVoid /\ category_of u <> KLvalueRef /\ category_of u <> KRvalueRef /\ qualified_fun u = false.
(** What is left of a value category when the expression is passed on by reference: a temporary becomes an xvalue; functions are always lvalues. *)
Definition passed (e : expr) : expr :=
  Expr (e_ty e) (match category_of (e_ty e), e_cat e with KFunction, _ => Lvalue | _, Lvalue => Lvalue | _, _ => Xvalue end).

Lemma passable_refs u : passable u -> lref u = Some (TLref u) /\ rref u = Some (TRref u) /\ remove_reference u = u.
Proof.
  intros (W & V & L & R & Q). unfold lref, rref. rewrite Q. destruct u; cbn in *; try (destruct a); repeat split; congruence.
Qed.
Lemma call_rref u : passable u -> call_expr (TRref u) = passed (Expr u Prvalue).
Proof. intros (W & V & L & R & Q). unfold passed. destruct u as [| q [] | | | | | | q c [] | | | | |]; cbn in *; congruence. Qed.
Lemma same_refl t : ty_eqb t t = true.
Proof. apply C73_same. reflexivity. Qed.
Lemma pass_ok e : passable (e_ty e) -> pass e = Some (passed e).
Proof.
  intro P. destruct e as [u c]. cbn [e_ty] in *. destruct (passable_refs u P) as (E1 & E2 & E3). pose proof (call_rref u P) as C. unfold pass, deduce, name_of. cbn [e_cat e_ty].
  assert (L : c = Lvalue -> (match lref u with Some Tp => x <- (r <- rref Tp ; Some (Expr (remove_reference r) Lvalue)) ; forward_expr Tp x | None => None end) = Some (passed (Expr u Lvalue))).
  { intros _. rewrite E1. cbn [rref]. unfold forward_expr. cbn [remove_reference e_ty e_cat]. rewrite same_refl. unfold passed. cbn [e_ty e_cat call_expr]. now destruct (category_of u). }
  assert (R : (x <- (r <- rref u ; Some (Expr (remove_reference r) Lvalue)) ; forward_expr u x) = Some (call_expr (TRref u))).
  { rewrite E2. unfold forward_expr. cbn [remove_reference e_ty e_cat]. rewrite E3, same_refl, E2. reflexivity. }
  destruct c; [now apply L|rewrite R, C; reflexivity|rewrite R, C; reflexivity].
Qed.
Lemma passed_idem e : passed (passed e) = passed e.
Proof. destruct e as [u c]. unfold passed. cbn [e_ty e_cat]. destruct (category_of u), c; reflexivity. Qed.

(** Perfect forwarding: through any number of functions that take T&& and pass on forward<T>(x), an lvalue stays an lvalue and an rvalue an rvalue, of the same
    type with the same qualifiers. *)
Theorem C89_forward : forall n e, passable (e_ty e) -> passes (S n) e = Some (passed e).
Proof.
  intro n. induction n as [|n IH]; intros e P; cbn [passes]; rewrite (pass_ok e P); [reflexivity|]. specialize (IH (passed e)). cbn [passes] in IH. rewrite IH by exact P. f_equal. apply passed_idem.
Qed.
Print Assumptions C89_forward.

(** forward with an explicit argument: forward<U> makes an rvalue of either, forward<U&> keeps an lvalue and does not compile for an rvalue; move makes an rvalue. *)
Theorem C89_explicit : forall u c, passable u ->
  forward_expr u (Expr u c) = Some (passed (Expr u Xvalue)) /\ forward_expr (TLref u) (Expr u Lvalue) = Some (Expr u Lvalue) /\
  (c <> Lvalue -> forward_expr (TLref u) (Expr u c) = None) /\ move_expr (Expr u c) = Some (passed (Expr u Xvalue)).
Proof.
  intros u c P. destruct (passable_refs u P) as (E1 & E2 & E3). pose proof (call_rref u P) as C. assert (Cx : call_expr (TRref u) = passed (Expr u Xvalue)) by (rewrite C; reflexivity).
  assert (Nl : is_lvalue_reference u = false) by (destruct P as (_ & _ & L & _); destruct u; try reflexivity; cbn in L; congruence).
  split; [|split; [|split]].
  - unfold forward_expr. cbn [e_ty e_cat]. rewrite E3, same_refl, E2, Nl, <- Cx. now destruct c.
  - unfold forward_expr. cbn [remove_reference e_ty e_cat rref call_expr]. now rewrite same_refl.
  - intro N. unfold forward_expr. cbn [remove_reference e_ty e_cat is_lvalue_reference]. rewrite same_refl. destruct c; [contradiction|reflexivity|reflexivity].
  - unfold move_expr, deduce. cbn [e_ty e_cat]. rewrite E1. destruct c; cbn [remove_reference]; rewrite ?E3, E2, Cx; reflexivity.
Qed.
Print Assumptions C89_explicit.

(** An object type, possibly const. *)
Definition object (u : ty) : Prop := passable u /\ category_of u <> KFunction.
Lemma const_cat t : category_of (const_of t) = category_of t.
Proof. destruct t as [| q [] | | | | | | q c [] | | | | |]; reflexivity. Qed.

Lemma const_passable_refs u : object u -> lref (const_of u) = Some (TLref (const_of u)).
Proof.
  intros ((W & V & L & R & Q) & F). unfold lref. rewrite <- const_cat in V, L, R, F. destruct (const_of u); cbn in *; congruence.
Qed.
Lemma object_args u : object u ->
  add_lvalue_reference u = TLref u /\ add_rvalue_reference u = TRref u /\ add_lvalue_reference (add_const u) = TLref (const_of u).
Proof.
  intros O. pose proof (const_passable_refs u O) as E3. destruct O as (P & F). destruct (passable_refs u P) as (E1 & E2 & _).
  unfold add_lvalue_reference, add_rvalue_reference, is_referenceable, add_const. rewrite E1, E2, E3. unfold is_same. cbn. auto.
Qed.

(** move_if_noexcept gives up moving, and offers the object as a const lvalue to be copied, exactly when moving may throw and copying is possible. *)
Theorem C89_move_if_noexcept : forall ctor quiet u, object u ->
  move_if_noexcept_expr ctor quiet (Expr u Lvalue) =
    Some (if ctor u (TLref (const_of u)) && negb (ctor u (TRref u) && quiet u (TRref u)) then Expr (const_of u) Lvalue else Expr u Xvalue).
Proof.
  intros ctor quiet u O. pose proof (const_passable_refs u O) as E3. destruct (object_args u O) as (A1 & A2 & A3). destruct O as (P & F). destruct (passable_refs u P) as (E1 & E2 & Er).
  assert (M : move_expr (Expr u Lvalue) = Some (passed (Expr u Xvalue))) by now apply C89_explicit.
  assert (C : call_expr (TRref u) = Expr u Xvalue).
  { rewrite call_rref by exact P. unfold passed. cbn [e_ty e_cat]. destruct (category_of u); congruence. }
  unfold move_if_noexcept_expr. cbn [e_cat e_ty]. rewrite E1, M. unfold move_if_noexcept_result, is_nothrow_move_constructible, is_nothrow_constructible, is_copy_constructible, conditional.
  rewrite A2, A3, E2, E3. destruct (ctor u (TRref u)), (quiet u (TRref u)), (ctor u (TLref (const_of u))); cbn [negb andb]; rewrite ?C; reflexivity.
Qed.
Print Assumptions C89_move_if_noexcept.

(** The traits ask for initialisation and assignment of the object itself from a const lvalue and from an rvalue of its type; void is asked about as void. *)
Theorem C89_asked : forall (ctor assign quiet : ty -> ty -> bool) u, object u ->
  is_copy_constructible ctor u = ctor u (TLref (const_of u)) /\ is_move_constructible ctor u = ctor u (TRref u) /\
  is_copy_assignable assign u = assign (TLref u) (TLref (const_of u)) /\ is_move_assignable assign u = assign (TLref u) (TRref u) /\
  (is_nothrow_copy_constructible ctor quiet u = true -> is_copy_constructible ctor u = true /\ quiet u (TLref (const_of u)) = true) /\
  (is_nothrow_move_constructible ctor quiet u = true <-> ctor u (TRref u) = true /\ quiet u (TRref u) = true) /\
  (forall q, is_copy_constructible ctor (TVoid q) = ctor (TVoid q) (TVoid (Cv true (qv q))) /\ is_move_constructible ctor (TVoid q) = ctor (TVoid q) (TVoid q)) /\
  (forall t, is_copy_constructible ctor (TLref t) = ctor (TLref t) (TLref t) /\ is_move_constructible ctor (TRref t) = ctor (TRref t) (TRref t)).
Proof.
  intros ctor assign quiet u O. destruct (object_args u O) as (A1 & A2 & A3).
  unfold is_copy_constructible, is_move_constructible, is_copy_assignable, is_move_assignable, is_nothrow_copy_constructible, is_nothrow_move_constructible, is_nothrow_constructible.
  rewrite A1, A2, A3. repeat split; try (now apply andb_true_iff); try (intros H; now apply andb_true_iff in H); try (now apply andb_true_iff in H).
Qed.
Print Assumptions C89_asked.

(** __decay_copy initialises an object of the by-value type from its argument, a copy for an lvalue and a move for an rvalue. *)
Theorem C89_decay_copy : forall e, passable (e_ty e) -> exists d, decay_copy e = Some (d, passed e) /\ by_value (e_ty e) d.
Proof.
  intros e P. destruct (decay_by_value (e_ty e) (proj1 P)) as (d & E & B & _). exists d. split; [|exact B].
  pose proof (pass_ok e P) as Q. unfold pass in Q. unfold decay_copy. destruct (deduce e) as [Tp|] eqn:D; [|discriminate].
  assert (decay Tp = Some d) as ->.
  { destruct (passable_refs _ P) as (E1 & _ & Er). unfold deduce in D. destruct (e_cat e); [rewrite E1 in D; injection D as <-; unfold decay in *; cbn [remove_reference]; rewrite Er in E; exact E| |]; injection D as <-; exact E. }
  destruct (name_of Tp) as [x|]; [|discriminate]. rewrite Q. reflexivity.
Qed.
Print Assumptions C89_decay_copy.

Lemma not_qualifiable t : wf t -> qualifiable t = false -> category_of t = KLvalueRef \/ category_of t = KRvalueRef \/ category_of t = KFunction.
Proof.
  intros W Q. destruct t; cbn in Q; try discriminate; auto; exfalso; [assert (X := elem_wf (TArr t n) I W)|assert (X := elem_wf (TArrU t) I W)]; unfold qualifiable in *; cbn in *; congruence.
Qed.
Lemma qualifiable_cat t : qualifiable t = true -> category_of t <> KLvalueRef /\ category_of t <> KRvalueRef /\ category_of t <> KFunction.
Proof. intro Q. destruct t as [| q [] | | | | | | q c [] | | | | |]; cbn in *; try discriminate Q; repeat split; discriminate. Qed.
Lemma remove_const_requal t : remove_const t = requal (fun q => Cv false (qv q)) t.
Proof.
  unfold remove_const, match_const. destruct (qc (top t)) eqn:E; [reflexivity|]. symmetry. apply requal_id. destruct (top t) as [c v]. cbn in *. congruence.
Qed.
Lemma plain_ref t : category_of t <> KLvalueRef -> category_of t <> KRvalueRef -> forall f, remove_reference (requal f t) = requal f t.
Proof. intros A B f. destruct t; cbn in *; congruence. Qed.

(** __uncvref and __unconstref look through a reference and drop the qualifiers below it; add_const makes const what can be const and keeps all else; enable_if has
    a type exactly when its condition holds. *)
Theorem C89_plain : forall t, wf t ->
  (category_of t <> KLvalueRef -> category_of t <> KRvalueRef ->
     uncvref (TLref t) = uncvref t /\ uncvref (TRref t) = uncvref t /\ uncvref (const_of t) = uncvref t /\ uncvref (volatile_of t) = uncvref t /\ uncvref (TLref (const_of t)) = uncvref t /\
     (top t = nocv -> uncvref t = t /\ unconstref (TLref (const_of t)) = t /\ unconstref (TRref t) = t) /\
     top (uncvref t) = nocv /\ unconstref (TLref (volatile_of t)) = unconstref (volatile_of t) /\ qv (top (unconstref (TLref t))) = qv (top t)) /\
  (category_of t <> KLvalueRef -> category_of t <> KRvalueRef -> category_of t <> KFunction -> is_const (add_const t) = true) /\
  (category_of t = KLvalueRef \/ category_of t = KRvalueRef \/ category_of t = KFunction -> add_const t = t) /\
  remove_const (add_const t) = remove_const t /\ qv (top (add_const t)) = qv (top t) /\ add_const (add_const t) = add_const t /\
  (forall b u, enable_if b t = Some u <-> b = true /\ u = t).
Proof.
  intros t W. split; [|split; [|split; [|split; [|split; [|split]]]]].
  - intros A B. pose proof (plain_ref t A B) as P. unfold uncvref, unconstref, const_of, volatile_of. cbn [remove_reference]. rewrite !P, !remove_cv_requal, !remove_const_requal.
    assert (Rt : remove_reference t = t) by (destruct t; cbn in *; congruence). rewrite Rt.
    split; [reflexivity|]. split; [reflexivity|]. rewrite !requal_comp. split; [reflexivity|]. split; [reflexivity|]. split; [reflexivity|]. split; [|split; [|split]].
    + intro T. repeat split; apply requal_id; now rewrite T.
    + destruct (qualifiable t) eqn:Q; [now rewrite (top_requal_q _ _ Q)|exact (proj1 (top_requal_n _ t Q))].
    + reflexivity.
    + destruct (qualifiable t) eqn:Q; [now rewrite (top_requal_q _ _ Q)|destruct (top_requal_n (fun q => Cv false (qv q)) t Q) as (X & Y & _); now rewrite X, Y].
  - intros A B C. rewrite is_const_top. unfold add_const, const_of. destruct (qualifiable t) eqn:Q; [now rewrite (top_requal_q _ _ Q)|]. destruct (not_qualifiable t W Q) as [X|[X|X]]; contradiction.
  - intros H. unfold add_const, const_of. destruct (qualifiable t) eqn:Q; [|now apply top_requal_n]. destruct (qualifiable_cat t Q) as (A & B & C). destruct H as [X|[X|X]]; contradiction.
  - rewrite !remove_const_requal. unfold add_const, const_of. rewrite requal_comp. reflexivity.
  - unfold add_const, const_of. destruct (qualifiable t) eqn:Q; [now rewrite (top_requal_q _ _ Q)|destruct (top_requal_n (fun q => Cv true (qv q)) t Q) as (X & Y & _); now rewrite X, Y].
  - unfold add_const, const_of. rewrite requal_comp. reflexivity.
  - intros b u. unfold enable_if. destruct b; split; [intros H; injection H as <-; auto|intros (_ & ->); reflexivity|discriminate|intros (H & _); discriminate].
Qed.
Print Assumptions C89_plain.

(** A const class object through three levels, a temporary, and a class whose move may throw. *)
Example C89_case :
  let c := TClass nocv 7 in let cc := TClass (Cv true false) 7 in
  passable cc /\ object c /\ passes 3 (Expr cc Lvalue) = Some (Expr cc Lvalue) /\ passes 3 (Expr c Prvalue) = Some (Expr c Xvalue) /\
  move_if_noexcept_expr (fun _ _ => true) (fun _ _ => false) (Expr c Lvalue) = Some (Expr cc Lvalue) /\
  move_if_noexcept_expr (fun _ _ => true) (fun _ _ => true) (Expr c Lvalue) = Some (Expr c Xvalue) /\
  move_if_noexcept_expr (fun _ a => is_rvalue_reference a) (fun _ _ => false) (Expr c Lvalue) = Some (Expr c Xvalue) /\
  decay_copy (Expr (TArr (TArith (Cv true false) Int) (BinNums.Npos (BinNums.xI BinNums.xH))) Lvalue) = Some (TPtr nocv (TArith (Cv true false) Int), Expr (TArr (TArith (Cv true false) Int) (BinNums.Npos (BinNums.xI BinNums.xH))) Lvalue).
Proof. repeat split; try discriminate. Qed.
