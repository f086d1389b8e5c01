(** Lemmas on types and type traits. *)
From Coq Require Import ZArith NArith List Bool Lia.
From Verif Require Import TyModel TraitModel TraitSpec.
Import ListNotations.

Lemma arith_eqb_eq : forall a b, arith_eqb a b = true <-> a = b.
Proof. intros [] []; cbn; split; congruence. Qed.
Lemma cv_eqb_eq : forall p q, cv_eqb p q = true <-> p = q.
Proof. intros [[] []] [[] []]; cbn; split; congruence. Qed.
Lemma refq_eqb_eq : forall p q, refq_eqb p q = true <-> p = q.
Proof. intros [] []; cbn; split; congruence. Qed.

(* a tactic for the boolean equalities below *)
Local Ltac eqs :=
  repeat rewrite andb_true_iff in *;
  repeat rewrite cv_eqb_eq in *; repeat rewrite arith_eqb_eq in *; repeat rewrite refq_eqb_eq in *;
  repeat rewrite Nat.eqb_eq in *; repeat rewrite N.eqb_eq in *; repeat rewrite eqb_true_iff in *.

Fixpoint ty_eqb_eq (t : ty) : forall u, ty_eqb t u = true <-> t = u.
Proof.
  destruct t as [q|q a|q|q n|q n|q n|q t|q c t|t|t|t n|t|r ps e q s]; intros u.
  13: {
    destruct u; cbn; try (split; congruence).
    set (eqs := (fix eqs (xs ys : list ty) : bool :=
            match xs, ys with
            | [], [] => true
            | x :: xs, y :: ys => ty_eqb x y && eqs xs ys
            | _, _ => false
            end)).
    assert (H : forall ys, eqs ps ys = true <-> ps = ys).
    { induction ps as [|x ps IH]; intros [|y ys]; cbn; try (split; congruence).
      rewrite andb_true_iff, IH, (ty_eqb_eq x y). split; [intros [-> ->]; reflexivity|intros H; injection H; auto]. }
    eqs. rewrite (ty_eqb_eq r u), H.
    split; [intros [[[[-> ->] ->] ->] ->]; reflexivity|intros X; injection X; intros; subst; auto]. }
  all: destruct u; cbn; try (split; congruence); eqs; try rewrite (ty_eqb_eq t);
    split; [intros X; repeat (match goal with H : _ /\ _ |- _ => destruct H end); subst; reflexivity
           |intros X; injection X; intros; subst; auto].
Qed.
Lemma ty_eqb_refl : forall t, ty_eqb t t = true.
Proof. intros t. apply ty_eqb_eq. reflexivity. Qed.
Lemma is_same_eq : forall t u, is_same t u = true <-> t = u.
Proof. exact ty_eqb_eq. Qed.

(** qualifiers *)
Lemma top_requal : forall f t, top (requal f t) = match t with
  | TLref _ | TRref _ | TFun _ _ _ _ _ => nocv | _ => top (requal f t) end.
Proof. intros f []; reflexivity. Qed.
Lemma requal_comp : forall f g t, requal f (requal g t) = requal (fun q => f (g q)) t.
Proof. intros f g t; induction t; cbn; congruence. Qed.
Lemma requal_ext : forall f g t, (f (top t) = g (top t)) -> requal f t = requal g t.
Proof. intros f g t; induction t; cbn; intros H; try rewrite H; auto; rewrite IHt; auto. Qed.
Lemma requal_id : forall f t, f (top t) = top t -> requal f t = t.
Proof. intros f t; induction t; cbn; intros H; try rewrite H; auto; rewrite IHt; auto. Qed.
Lemma remove_cv_requal : forall t, remove_cv t = requal (fun _ => nocv) t.
Proof.
  intros t. unfold remove_cv, remove_volatile, remove_const, match_volatile, match_const.
  induction t as [q|q a|q|q n|q n|q n|q t IH|q c t IH|t IH|t IH|t IH n|t IH|r ps e q s]; cbn;
    try (destruct q as [[] []]; reflexivity); try reflexivity.
  - cbn in IH. destruct (qc (top t)) eqn:E; cbn; rewrite <- IH.
    + destruct (qv (top (requal _ t))) eqn:E2; cbn; reflexivity.
    + destruct (qv (top t)) eqn:E2; reflexivity.
  - cbn in IH. destruct (qc (top t)) eqn:E; cbn; rewrite <- IH.
    + destruct (qv (top (requal _ t))) eqn:E2; cbn; reflexivity.
    + destruct (qv (top t)) eqn:E2; reflexivity.
Qed.
(* whether qualifiers mean something for a type *)
Definition qualifiable (t : ty) : bool :=
  match remove_all_extents t with TLref _ | TRref _ | TFun _ _ _ _ _ => false | _ => true end.
Lemma top_requal_q : forall f t, qualifiable t = true -> top (requal f t) = f (top t).
Proof. intros f t; unfold qualifiable; induction t; cbn; intros H; try discriminate; auto. Qed.
Lemma top_requal_n : forall f t, qualifiable t = false -> top (requal f t) = nocv /\ top t = nocv /\ requal f t = t.
Proof.
  intros f t; unfold qualifiable; induction t; cbn; intros H; try discriminate; auto;
    destruct (IHt H) as (A & B & C); rewrite C; auto.
Qed.
Lemma requal_cases : forall t, requal (fun _ => nocv) t = t \/ qualifiable t = true.
Proof. intros t. destruct (qualifiable t) eqn:E; auto. left. apply top_requal_n. auto. Qed.

Lemma is_const_top : forall t, is_const t = qc (top t).
Proof. intros t. unfold is_const, match_const. destruct (qc (top t)); reflexivity. Qed.

Lemma elem_wf : forall t, match t with TArr _ _ | TArrU _ => True | _ => False end -> wf t ->
  qualifiable t = true.
Proof.
  intros t A W. unfold qualifiable.
  assert (G : forall u, match u with TLref _ | TRref _ | TVoid _ | TFun _ _ _ _ _ | TArrU _ => False | _ => True end -> wf u ->
       match remove_all_extents u with TLref _ | TRref _ | TFun _ _ _ _ _ => false | _ => true end = true).
  { induction u; cbn; intros C B; try contradiction; try reflexivity. apply IHu; tauto. }
  destruct t; try contradiction; cbn in *; apply G; tauto.
Qed.

(** constness of a function type: it has none *)
Lemma is_function_iff : forall t, wf t -> (is_function t = true <-> exists r ps e q s, t = TFun r ps e q s).
Proof.
  intros t W. unfold is_function. rewrite is_const_top.
  destruct t as [q|q a|q|q n|q n|q n|q t|q c t|t|t|t n|t|r ps e q s];
    try (cbn; split; [discriminate|intros (?&?&?&?&?&X); discriminate X]).
  1, 2: unfold const_of; rewrite top_requal_q by (apply elem_wf; [exact I|exact W]); cbn;
    split; [discriminate|intros (?&?&?&?&?&X); discriminate X].
  split; [intros _|reflexivity]. do 5 eexists. reflexivity.
Qed.
Lemma is_referenceable_iff : forall t, is_referenceable t = match lref t with Some _ => true | None => false end.
Proof.
  intros t. unfold is_referenceable. destruct (lref t) as [r|] eqn:E.
  - destruct r; try reflexivity. exfalso. destruct t; cbn in E; try discriminate E.
    destruct q0 as [[] []], rq; cbn in E; discriminate E.
  - unfold is_same. rewrite ty_eqb_refl. reflexivity.
Qed.

Lemma is_array_not_fun : forall t, wf t -> is_array t = true -> is_function t = false.
Proof.
  intros t W A. destruct (is_function t) eqn:E; [|reflexivity].
  apply is_function_iff in E; [|exact W]. destruct E as (?&?&?&?&?&->). discriminate A.
Qed.
Lemma not_fun : forall t, wf t -> match t with TFun _ _ _ _ _ => False | _ => True end -> is_function t = false.
Proof.
  intros t W A. destruct (is_function t) eqn:E; [|reflexivity].
  apply is_function_iff in E; [|exact W]. destruct E as (?&?&?&?&?&->). contradiction.
Qed.
Lemma remove_reference_wf : forall t, wf t -> wf (remove_reference t).
Proof. intros [] W; cbn in *; tauto. Qed.

(** decay *)
Lemma by_value_fun : forall t d d', by_value t d -> by_value t d' -> d = d'.
Proof.
  intros t d d' H. revert d'. induction H; intros d' H'; inversion H'; subst; auto;
    try (destruct H; congruence); try match goal with H : _ \/ _ |- _ => destruct H; congruence end.
Qed.
Lemma decay_by_value : forall t, wf t -> exists d, decay t = Some d /\ by_value t d /\ wf d.
Proof.
  assert (F : forall r ps e q s, qualified_fun (TFun r ps e q s) = true -> q <> nocv \/ s <> NoRef).
  { intros r ps e [[] []] [] H; cbn in H; try discriminate H; try (left; discriminate); right; discriminate. }
  assert (G : forall t, match t with TLref _ | TRref _ => False | _ => True end -> wf t ->
    exists d, decay_imp t (is_referenceable t) = Some d /\ by_value t d /\ wf d).
  { intros t NR W. rewrite is_referenceable_iff. unfold decay_imp, add_pointer.
    rewrite is_referenceable_iff, remove_cv_requal.
    destruct t as [q|q a|q|q n|q n|q n|q t|q c t|t|t|t n|t|r ps e q s]; try contradiction.
    - cbn. eexists. split; [reflexivity|]. split; [constructor|exact I].
    - rewrite not_fun; [|exact W|exact I]. cbn. eexists. split; [reflexivity|]. split; [constructor|exact I].
    - rewrite not_fun; [|exact W|exact I]. cbn. eexists. split; [reflexivity|]. split; [constructor|exact I].
    - rewrite not_fun; [|exact W|exact I]. cbn. eexists. split; [reflexivity|]. split; [constructor|exact I].
    - rewrite not_fun; [|exact W|exact I]. cbn. eexists. split; [reflexivity|]. split; [constructor|exact I].
    - rewrite not_fun; [|exact W|exact I]. cbn. eexists. split; [reflexivity|]. split; [constructor|exact I].
    - rewrite not_fun; [|exact W|exact I]. cbn. eexists. split; [reflexivity|]. split; [constructor|exact W].
    - rewrite not_fun; [|exact W|exact I]. cbn. eexists. split; [reflexivity|]. split; [constructor|exact W].
    - cbn in W. destruct W as (A & N0 & W).
      assert (Q : qualified_fun t = false) by (destruct t; try reflexivity; contradiction).
      assert (E : ptr t = Some (TPtr nocv t)) by (unfold ptr; rewrite Q; destruct t; try reflexivity; contradiction).
      unfold remove_extent. rewrite E. cbn. eexists. split; [reflexivity|]. split; [constructor|].
      cbn. split; [destruct t; tauto|]. split; [exact Q|exact W].
    - cbn in W. destruct W as (A & W).
      assert (Q : qualified_fun t = false) by (destruct t; try reflexivity; contradiction).
      assert (E : ptr t = Some (TPtr nocv t)) by (unfold ptr; rewrite Q; destruct t; try reflexivity; contradiction).
      unfold remove_extent. rewrite E. cbn. eexists. split; [reflexivity|]. split; [constructor|].
      cbn. split; [destruct t; tauto|]. split; [exact Q|exact W].
    - assert (FF : is_function (TFun r ps e q s) = true) by (apply is_function_iff; [exact W|do 5 eexists; reflexivity]).
      rewrite FF. destruct (qualified_fun (TFun r ps e q s)) eqn:Q.
      + unfold lref. rewrite Q. cbn. eexists. split; [reflexivity|]. split; [|exact W].
        constructor. eapply F. exact Q.
      + assert (q = nocv /\ s = NoRef) as [-> ->]
          by (destruct q as [[] []], s; cbn in Q; try discriminate Q; split; reflexivity).
        cbn. eexists. split; [reflexivity|]. split; [constructor|]. cbn in *. tauto. }
  intros t W. unfold decay.
  destruct t as [q|q a|q|q n|q n|q n|q t|q c t|t|t|t n|t|r ps e q s];
    try (apply G; [exact I|exact W]).
  - cbn in W. destruct W as (A & Q & W). destruct (G t) as (d & D1 & D2 & D3); [destruct t; tauto|exact W|].
    exists d. split; [exact D1|]. split; [constructor; exact D2|exact D3].
  - cbn in W. destruct W as (A & Q & W). destruct (G t) as (d & D1 & D2 & D3); [destruct t; tauto|exact W|].
    exists d. split; [exact D1|]. split; [constructor; exact D2|exact D3].
Qed.
Lemma by_value_decayed : forall t d, wf t -> by_value t d -> decayed d.
Proof. intros t d W H. unfold decayed. induction H; try (constructor; fail); try (constructor; assumption); apply IHby_value; cbn in W; tauto. Qed.
Lemma decay_idem : forall t d, wf t -> decay t = Some d -> decay d = Some d /\ wf d /\ decayed d.
Proof.
  intros t d W H. destruct (decay_by_value t W) as (d' & E & B & W'). assert (d' = d) by congruence. subst d'.
  destruct (decay_by_value d W') as (d2 & E2 & B2 & _).
  pose proof (by_value_decayed t d W B) as D. rewrite E2, (by_value_fun _ _ _ B2 D). auto.
Qed.

(** categories *)
Lemma category_exact : forall t, wf t ->
  (is_void t = true <-> category_of t = KVoid) /\
  (is_integral t = true <-> category_of t = KIntegral /\ left_out t = false) /\
  (is_floating_point t = true <-> category_of t = KFloating) /\
  (is_array t = true <-> category_of t = KArray) /\
  (is_pointer t = true <-> category_of t = KPointer) /\
  (is_member_pointer t = true <-> category_of t = KMemberObject \/ category_of t = KMemberFunction) /\
  (is_member_function_pointer t = true <-> category_of t = KMemberFunction) /\
  (is_lvalue_reference t = true <-> category_of t = KLvalueRef) /\
  (is_rvalue_reference t = true <-> category_of t = KRvalueRef) /\
  (is_class t = true <-> category_of t = KClass \/ category_of t = KUnion) /\
  is_union t = false /\
  (is_function t = true <-> category_of t = KFunction) /\
  (is_enum t = true <-> category_of t = KEnum \/ category_of t = KNullptr \/ left_out t = true).
Proof.
  intros t W.
  assert (FN : is_function t = match t with TFun _ _ _ _ _ => true | _ => false end).
  { destruct t; try (apply not_fun; [exact W|exact I]). apply is_function_iff; [exact W|]. do 5 eexists. reflexivity. }
  assert (FM : forall q c u, t = TMem q c u -> is_function u = match u with TFun _ _ _ _ _ => true | _ => false end).
  { intros q c u ->. cbn in W. destruct W as [_ W].
    destruct u; try (apply not_fun; [exact W|exact I]). apply is_function_iff; [exact W|]. do 5 eexists. reflexivity. }
  unfold is_enum. rewrite FN.
  unfold is_void, is_integral, is_floating_point, is_pointer, is_member_pointer, is_member_function_pointer, is_class,
    is_union. rewrite remove_cv_requal.
  destruct t as [q|q a|q|q n|q n|q n|q t|q c t|t|t|t n|t|r ps e q s].
  2: destruct a.
  25: { cbn. rewrite (FM q c t eq_refl).
        destruct t; cbn; repeat split; intros; try discriminate; intuition congruence. }
  all: cbn; repeat split; intros; try discriminate; intuition congruence.
Qed.

Lemma scalar_object : forall t, wf t ->
  (is_scalar t = true <->
     category_of t = KIntegral \/ category_of t = KFloating \/ category_of t = KNullptr \/ category_of t = KEnum \/
     category_of t = KPointer \/ category_of t = KMemberObject \/ category_of t = KMemberFunction \/
     exists q, t = TClass q nullptr_class) /\
  (is_object t = true <->
     category_of t <> KVoid /\ category_of t <> KLvalueRef /\ category_of t <> KRvalueRef /\ category_of t <> KFunction).
Proof.
  intros t W. pose proof (category_exact t W) as C.
  unfold is_object.
  assert (S : is_scalar t = is_arithmetic t || is_member_pointer t || is_pointer t || is_nullptr_t t || is_enum t).
  { unfold is_scalar. rewrite orb_false_r.
    destruct t as [q|q a|q|q n|q n|q n|q t|q c t|t|t|t n|t|r ps e q s]; try reflexivity.
    destruct q as [[] []], n; try reflexivity. }
  rewrite S. unfold is_arithmetic, is_nullptr_t. rewrite remove_cv_requal.
  repeat rewrite orb_true_iff.
  destruct C as (C1 & C2 & C3 & C4 & C5 & C6 & C7 & C8 & C9 & C10 & C11 & C12 & C13).
  rewrite C2, C3, C4, C5, C6, C10, C11, C13. clear.
  destruct t as [q|q a|q|q n|q n|q n|q t|q c t|t|t|t n|t|r ps e q s].
  all: try (cbn; split; split; intros; intuition (try discriminate; try (firstorder congruence)); fail).
  - destruct a; cbn; split; split; intros; intuition (try discriminate; try congruence).
  - assert (E : (exists q0, TClass q n = TClass q0 nullptr_class) <-> Nat.eqb n nullptr_class = true).
    { rewrite Nat.eqb_eq. split; [intros [q0 X]; injection X; auto|intros ->; exists q; reflexivity]. }
    rewrite E. cbn. split; split; intros; intuition (try discriminate; try congruence).
  - assert (E : (exists q0, TMem q c t = TClass q0 nullptr_class) <-> False).
    { split; [intros [q0 X]; discriminate X|contradiction]. }
    rewrite E. destruct t; cbn; split; split; intros; intuition (try discriminate; try congruence).
Qed.

(** references and pointers *)
Lemma nonref_lref : forall t r, lref t = Some r -> r = TLref (remove_reference t).
Proof.
  intros t r H. destruct t as [q|q a|q|q n|q n|q n|q t|q c t|t|t|t n|t|rt ps e q s]; cbn in *; try congruence.
  destruct q as [[] []], s; cbn in H; try discriminate H; injection H as <-; reflexivity.
Qed.
