(** C72-C76: type traits. *)
From Coq Require Import ZArith NArith List Bool Lia Permutation.
From Verif Require Import TyModel TraitModel TraitSpec TraitProofs TraitCommon TraitMore.
Import ListNotations.
Open Scope Z_scope.

(** ** C72: transformations *)

(** remove_cv takes off the top-level qualifiers and nothing else: putting back those that were there gives the type, the
    result has none, and qualifying a type first changes nothing. *)
Theorem C72_remove_cv : forall t,
  (exists c v : bool, t = (if c then const_of else fun x => x) ((if v then volatile_of else fun x => x) (remove_cv t))) /\
  is_const (remove_cv t) = false /\ remove_volatile (remove_cv t) = remove_cv t /\
  remove_cv (const_of t) = remove_cv t /\ remove_cv (volatile_of t) = remove_cv t /\
  (is_const (const_of t) = true -> remove_const (const_of t) = remove_const t).
Proof.
  intros t. rewrite is_const_top, !remove_cv_requal. unfold const_of, volatile_of.
  split; [|split; [|split; [|split; [|split]]]].
  - exists (qc (top t)), (qv (top t)). destruct (qualifiable t) eqn:Q.
    + symmetry.
      destruct (qc (top t)) eqn:C, (qv (top t)) eqn:V; rewrite ?requal_comp; cbn;
        apply requal_id; destruct (top t) as [c v]; cbn in *; subst; reflexivity.
    + destruct (top_requal_n (fun q => q) t Q) as (_ & T & _). rewrite T. cbn.
      symmetry. apply top_requal_n. exact Q.
  - destruct (qualifiable t) eqn:Q; [rewrite top_requal_q by exact Q; reflexivity|].
    destruct (top_requal_n (fun _ => nocv) t Q) as (T & _). rewrite T. reflexivity.
  - unfold remove_volatile, match_volatile.
    assert (top (requal (fun _ => nocv) t) = nocv) as ->.
    { destruct (qualifiable t) eqn:Q; [rewrite top_requal_q by exact Q; reflexivity|].
      exact (proj1 (top_requal_n (fun _ => nocv) t Q)). }
    reflexivity.
  - rewrite requal_comp. reflexivity.
  - rewrite requal_comp. reflexivity.
  - intros _. unfold remove_const, match_const. destruct (qualifiable t) eqn:Q.
    + rewrite top_requal_q by exact Q. cbn. rewrite requal_comp. cbn.
      destruct (qc (top t)) eqn:C; [reflexivity|]. apply requal_id. destruct (top t); cbn in *; subst; reflexivity.
    + destruct (top_requal_n (fun q => Cv true (qv q)) t Q) as (_ & _ & E). rewrite E. reflexivity.
Qed.
Print Assumptions C72_remove_cv.

(** add_lvalue_reference, add_rvalue_reference and add_pointer build the reference or pointer to the type with its
    reference removed where that exists (collapsing T&& of an lvalue reference to the lvalue reference), and leave
    the type alone where it does not; remove_reference undoes them. *)
Theorem C72_add : forall t, wf t ->
  let u := remove_reference t in
  (category_of u <> KLvalueRef /\ category_of u <> KRvalueRef) /\
  add_lvalue_reference t = (if qualified_fun t then t else match t with TVoid _ => t | _ => TLref u end) /\
  add_rvalue_reference t = (if qualified_fun t then t
                            else match t with TVoid _ => t | TLref _ => t | _ => TRref u end) /\
  add_pointer t = Some (if qualified_fun t then t else TPtr nocv u) /\
  (category_of t <> KLvalueRef -> category_of t <> KRvalueRef ->
   remove_reference (TLref t) = t /\ remove_reference (TRref t) = t).
Proof.
  intros t W. unfold add_lvalue_reference, add_rvalue_reference, add_pointer. rewrite is_referenceable_iff, remove_cv_requal.
  destruct t as [q|q a|q|q n|q n|q n|q t|q c t|t|t|t n|t|r ps e q s].
  13: destruct q as [[] []], s; cbn; repeat split; intros; congruence.
  2: destruct a; cbn; repeat split; intros; congruence.
  all: try (cbn; repeat split; intros; congruence).
  - destruct t; cbn; repeat split; intros; congruence.
  - cbn in W. destruct W as (A & Q & W). cbn. unfold ptr. rewrite Q.
    destruct t; try contradiction; cbn; repeat split; try (destruct a); try (destruct t); try congruence; discriminate.
  - cbn in W. destruct W as (A & Q & W). cbn. unfold ptr. rewrite Q.
    destruct t; try contradiction; cbn; repeat split; try (destruct a); try (destruct t); try congruence; discriminate.
Qed.
Print Assumptions C72_add.
Example C72_add_case :
  add_rvalue_reference (TLref (TArith nocv Int)) = TLref (TArith nocv Int) /\
  add_rvalue_reference (TArith nocv Int) = TRref (TArith nocv Int) /\
  add_lvalue_reference (TRref (TArith nocv Int)) = TLref (TArith nocv Int) /\
  add_pointer (TRref (TArith nocv Int)) = Some (TPtr nocv (TArith nocv Int)) /\
  add_pointer (TFun (TVoid nocv) [] false (Cv true false) NoRef) = Some (TFun (TVoid nocv) [] false (Cv true false) NoRef).
Proof. repeat split. Qed.

(** move gives an rvalue reference to the referred type, whatever the value category of its argument. *)
Theorem C72_move : forall u lvalue, wf u -> category_of u <> KVoid -> qualified_fun u = false ->
  (match u with TLref _ | TRref _ => False | _ => True end) ->
  move_type lvalue u = Some (TRref u).
Proof.
  intros u lvalue W V Q N. unfold move_type. destruct lvalue.
  - assert (lref u = Some (TLref u)) as -> by (unfold lref; rewrite Q; destruct u; try contradiction; try reflexivity; cbn in V; congruence).
    cbn. unfold rref. rewrite Q. destruct u; try contradiction; try reflexivity; cbn in V; congruence.
  - assert (remove_reference u = u) as -> by (destruct u; try contradiction; reflexivity).
    unfold rref. rewrite Q. destruct u; try contradiction; try reflexivity; cbn in V; congruence.
Qed.
Print Assumptions C72_move.

(** decay is defined for every type, gives the type of a by-value parameter, and does nothing the second time. *)
Theorem C72_decay : forall t, wf t -> exists d,
  decay t = Some d /\ by_value t d /\ (forall d', by_value t d' -> d' = d) /\ wf d /\ decay d = Some d.
Proof.
  intros t W. destruct (decay_by_value t W) as (d & E & B & Wd). exists d.
  split; [exact E|]. split; [exact B|]. split; [intros d' B'; exact (by_value_fun _ _ _ B' B)|].
  split; [exact Wd|]. exact (proj1 (decay_idem t d W E)).
Qed.
Print Assumptions C72_decay.
Example C72_decay_case :
  let ci := TArith (Cv true false) Int in
  wf (TLref (TArr ci 3)) /\ decay (TLref (TArr ci 3)) = Some (TPtr nocv ci) /\
  decay (TRref (TPtr (Cv true true) ci)) = Some (TPtr nocv ci) /\
  decay (TFun (TVoid nocv) [TArith nocv Int] false nocv NoRef)
    = Some (TPtr nocv (TFun (TVoid nocv) [TArith nocv Int] false nocv NoRef)).
Proof. cbn. repeat split; discriminate. Qed.

(** remove_extent drops one dimension and remove_all_extents all of them. *)
Theorem C72_extents : forall t,
  (forall n, remove_extent (TArr t n) = t) /\ remove_extent (TArrU t) = t /\
  (is_array t = false -> remove_extent t = t) /\
  is_array (remove_all_extents t) = false /\
  exists k, remove_all_extents t = Nat.iter k remove_extent t.
Proof.
  intros t. repeat split; try (destruct t; cbn; intros; congruence).
  - induction t; cbn; try reflexivity; assumption.
  - assert (S : forall k x, Nat.iter (S k) remove_extent x = Nat.iter k remove_extent (remove_extent x)).
    { intros k x. induction k; cbn; [reflexivity|]. f_equal. exact IHk. }
    induction t; try (exists O; reflexivity);
      destruct IHt as [k E]; exists (Datatypes.S k); rewrite S; cbn [remove_extent remove_all_extents]; exact E.
Qed.
Print Assumptions C72_extents.
Example C72_extents_case :
  let i := TArith nocv Int in
  remove_all_extents (TArrU (TArr (TArr i 2) 3)) = i /\ remove_extent (TArrU (TArr i 3)) = TArr i 3.
Proof. split; reflexivity. Qed.

(** ** C73: categories *)

(** is_same decides identity of types. *)
Theorem C73_same : forall t u, is_same t u = true <-> t = u.
Proof. exact is_same_eq. Qed.
Print Assumptions C73_same.

(** Each trait answers by category, except that a union counts as a class, is_union never holds, char16_t and char32_t
    are not integral, and they and the type of nullptr count as enumerations. *)
Theorem C73_categories_partial : forall t, wf t ->
  (is_void t = true <-> category_of t = KVoid) /\
  (is_integral t = true <-> category_of t = KIntegral /\ left_out t = false) /\
  (is_floating_point t = true <-> category_of t = KFloating) /\
  (is_array t = true <-> category_of t = KArray) /\
  (is_pointer t = true <-> category_of t = KPointer) /\
  (is_member_pointer t = true <-> category_of t = KMemberObject \/ category_of t = KMemberFunction) /\
  (is_member_function_pointer t = true <-> category_of t = KMemberFunction) /\
  (is_lvalue_reference t = true <-> category_of t = KLvalueRef) /\
  (is_rvalue_reference t = true <-> category_of t = KRvalueRef) /\
  (is_class t = true <-> category_of t = KClass \/ category_of t = KUnion) /\
  is_union t = false /\
  (is_function t = true <-> category_of t = KFunction) /\
  (is_enum t = true <-> category_of t = KEnum \/ category_of t = KNullptr \/ left_out t = true).
Proof. exact category_exact. Qed.
Print Assumptions C73_categories_partial.

Definition primary : list (ty -> bool) :=
  [is_void; is_integral; is_floating_point; is_array; is_pointer;
   (fun t => is_member_pointer t && negb (is_member_function_pointer t)); is_member_function_pointer;
   is_lvalue_reference; is_rvalue_reference; is_enum; is_union; is_class; is_function].
(** Every type satisfies exactly one of the primary traits. *)
Theorem C73_exactly_one : forall t, wf t -> exists f, In f primary /\ f t = true /\
  forall i j fi fj, nth_error primary i = Some fi -> nth_error primary j = Some fj -> fi t = true -> fj t = true -> i = j.
Proof.
  intros t W.
  assert (K : length (filter (fun f => f t) primary) = 1%nat).
  { assert (FN : is_function t = match t with TFun _ _ _ _ _ => true | _ => false end).
    { destruct t; try (apply not_fun; [exact W|exact I]). apply is_function_iff; [exact W|]. do 5 eexists. reflexivity. }
    assert (FM : is_member_pointer t = match t with TMem _ _ _ => true | _ => false end).
    { unfold is_member_pointer. rewrite remove_cv_requal. destruct t; reflexivity. }
    assert (LS : forall l : list (ty -> bool), length (filter (fun f => f t) l) = list_sum (map (fun f => Nat.b2n (f t)) l)).
    { induction l as [|g l IH]; [reflexivity|]. cbn. destruct (g t); cbn; rewrite IH; reflexivity. }
    rewrite LS. unfold primary, is_enum. cbn [map]. rewrite FN, FM.
    unfold is_void, is_integral, is_floating_point, is_pointer, is_class, is_union. rewrite remove_cv_requal.
    destruct t as [q|q a|q|q n|q n|q n|q t|q c t|t|t|t n|t|r ps e q s].
    2: destruct a.
    25: destruct (is_member_function_pointer _); reflexivity.
    all: unfold is_member_function_pointer; rewrite remove_cv_requal; reflexivity. }
  destruct (filter (fun f => f t) primary) as [|f [|]] eqn:E; try discriminate K.
  assert (I : In f (filter (fun f => f t) primary)) by (rewrite E; left; reflexivity).
  apply filter_In in I. exists f. split; [tauto|]. split; [tauto|].
  intros i j fi fj Hi Hj Ti Tj.
  assert (G : forall l i j fi fj, nth_error l i = Some fi -> nth_error l j = Some fj -> fi t = true -> fj t = true ->
     (length (filter (fun f : ty -> bool => f t) l) <= 1)%nat -> i = j).
  { clear. induction l as [|g l IH]; intros i j fi fj Hi Hj Ti Tj L; [destruct i; discriminate|].
    assert (P : forall k fk, nth_error l k = Some fk -> fk t = true -> (1 <= length (filter (fun f : ty -> bool => f t) l))%nat).
    { intros k fk Hk Tk. destruct (filter (fun f : ty -> bool => f t) l) eqn:F; [|cbn; lia].
      assert (X : In fk (filter (fun f : ty -> bool => f t) l)) by (apply filter_In; split; [exact (nth_error_In _ _ Hk)|exact Tk]).
      rewrite F in X. contradiction. }
    destruct i, j; [reflexivity| | |]; cbn in *.
    - injection Hi as ->. rewrite Ti in L. cbn in L. specialize (P _ _ Hj Tj). lia.
    - injection Hj as ->. rewrite Tj in L. cbn in L. specialize (P _ _ Hi Ti). lia.
    - f_equal. apply (IH i j fi fj Hi Hj Ti Tj). destruct (g t); cbn in L; lia. }
  eapply (G primary); eauto. rewrite E. cbn. lia.
Qed.
Print Assumptions C73_exactly_one.

(** The exceptions are wrong answers: a union is not a class and is a union; the type of nullptr and char16_t are
    not enumerations. *)
Theorem C73_categories_refuted :
  (exists t, wf t /\ category_of t = KUnion /\ is_union t = false /\ is_class t = true) /\
  (exists t, wf t /\ category_of t = KNullptr /\ is_enum t = true) /\
  (exists t, wf t /\ category_of t = KIntegral /\ is_enum t = true /\ is_integral t = false).
Proof.
  split; [exists (TUnion nocv 5)|split; [exists (TNull nocv)|exists (TArith nocv Char16)]]; repeat split.
Qed.
Print Assumptions C73_categories_refuted.

(** is_scalar and is_object are right for every type nonetheless; the library's own class nullptr_t is a scalar too. *)
Theorem C73_scalar_object : forall t, wf t ->
  (is_scalar t = true <->
     category_of t = KIntegral \/ category_of t = KFloating \/ category_of t = KNullptr \/ category_of t = KEnum \/
     category_of t = KPointer \/ category_of t = KMemberObject \/ category_of t = KMemberFunction \/
     exists q, t = TClass q nullptr_class) /\
  (is_object t = true <->
     category_of t <> KVoid /\ category_of t <> KLvalueRef /\ category_of t <> KRvalueRef /\ category_of t <> KFunction).
Proof. exact scalar_object. Qed.
Print Assumptions C73_scalar_object.

(** is_signed holds of the arithmetic types that have negative values and is_unsigned of those integer types that have
    none, whatever the implementation chooses for char and wchar_t; both are false of every other type. *)
Theorem C73_signed : forall p t, standard p -> left_out t = false ->
  (is_signed p t = true <-> exists q a, t = TArith q a /\ (int_like a = true -> lo p a < 0)) /\
  (is_unsigned p t = true <-> exists q a, t = TArith q a /\ int_like a = true /\ lo p a = 0).
Proof.
  intros p t ST L.
  assert (G : forall q a, int_like a = true -> left_out (TArith q a) = false ->
    (is_signed p (TArith q a) = true <-> lo p a < 0) /\ (is_unsigned p (TArith q a) = true <-> lo p a = 0)).
  { intros q a A La.
    assert (I : is_integral (TArith q a) = true).
    { unfold is_integral. rewrite remove_cv_requal. destruct a; try discriminate A; try discriminate La; reflexivity. }
    unfold is_signed, is_unsigned, is_arithmetic, libcpp_is_signed_impl, libcpp_is_unsigned_impl. rewrite I. cbn [orb arith_of].
    assert (B : 0 < p_bits p a \/ a = Bool).
    { destruct ST. unfold same_range in *. destruct a; try discriminate A; try discriminate La; auto; left; lia. }
    assert (O : of_int p a 0 = 0) by (unfold of_int; destruct a; try (rewrite Zmod_0_l; destruct (p_signed p _)); reflexivity).
    rewrite O. rewrite !Z.ltb_lt.
    destruct (p_signed p a) eqn:S.
    - assert (of_int p a (-1) = -1) as ->.
      { destruct ST. unfold same_range in *. unfold of_int; destruct a; try congruence; rewrite S; reflexivity. }
      assert (lo p a < 0).
      { destruct B as [B| ->]; [|destruct ST; congruence].
        assert (0 < 2 ^ (p_bits p a - 1)) by (apply Z.pow_pos_nonneg; lia).
        destruct ST. unfold lo; destruct a; try congruence; rewrite S; lia. }
      lia.
    - assert (lo p a = 0) as -> by (unfold lo; destruct a; try rewrite S; reflexivity).
      assert (0 < of_int p a (-1)).
      { destruct B as [B| ->]; [|reflexivity].
        assert (1 < 2 ^ p_bits p a) by (apply Z.pow_gt_1; lia).
        assert ((-1) mod 2 ^ p_bits p a = 2 ^ p_bits p a - 1) by (symmetry; apply Z.mod_unique_pos with (-1); lia).
        unfold of_int; destruct a; try rewrite S; try lia; reflexivity. }
      lia. }
  destruct t as [q|q a|q|q n|q n|q n|q t|q c t|t|t|t n|t|r ps e q s];
    try (unfold is_signed, is_unsigned, is_arithmetic, is_integral, is_floating_point; rewrite remove_cv_requal; cbn;
         split; (split; [discriminate|intros (?&?&X&_); discriminate X]); fail).
  destruct (int_like a) eqn:A.
  - destruct (G q a A L) as [G1 G2]. rewrite G1, G2. split; split.
    + intros H. exists q, a. auto.
    + intros (q' & a' & X & H). injection X as <- <-. auto.
    + intros H. exists q, a. auto.
    + intros (q' & a' & X & _ & H). injection X as <- <-. auto.
  - assert (is_signed p (TArith q a) = true /\ is_unsigned p (TArith q a) = false) as [-> ->].
    { unfold is_signed, is_unsigned, is_arithmetic, libcpp_is_signed_impl, libcpp_is_unsigned_impl, is_integral, is_floating_point.
      rewrite remove_cv_requal. destruct a; try discriminate A; split; reflexivity. }
    split; split.
    + intros _. exists q, a. split; [reflexivity|]. congruence.
    + reflexivity.
    + discriminate.
    + intros (q' & a' & X & H & _). injection X as <- <-. congruence.
Qed.
Print Assumptions C73_signed.
Example C73_signed_case :
  is_signed lp64 (TArith nocv Char) = true /\ is_unsigned lp64 (TArith (Cv true false) Bool) = true /\
  is_signed lp64 (TArith nocv Float) = true /\ is_unsigned lp64 (TArith nocv Char16) = false.
Proof. repeat split. Qed.
