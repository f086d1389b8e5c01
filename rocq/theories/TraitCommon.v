(** Lemmas on common_type. *)
From Coq Require Import ZArith NArith List Bool Lia Permutation.
From Verif Require Import TyModel TraitModel TraitSpec TraitProofs.
Import ListNotations.
Open Scope Z_scope.

(** general part *)
Section General.
  Variable cond : ty -> ty -> option ty.
  Hypothesis cond_wf : forall a b c, cond a b = Some c -> wf c.

  Lemma common_type2_decay : forall f t u dt du, wf t -> wf u -> decay t = Some dt -> decay u = Some du ->
    common_type2 cond (S (S f)) t u = Some (common_type2_imp cond dt du).
  Proof.
    intros f t u dt du Wt Wu Et Eu.
    destruct (decay_idem t dt Wt Et) as (It & Wdt & _). destruct (decay_idem u du Wu Eu) as (Iu & Wdu & _).
    cbn. rewrite Et, Eu. unfold conditional, is_same.
    destruct (ty_eqb t dt && ty_eqb u du) eqn:E.
    - apply andb_true_iff in E. destruct E as [E1 E2]. apply ty_eqb_eq in E1, E2. subst. reflexivity.
    - rewrite It, Iu, !ty_eqb_refl. reflexivity.
  Qed.
  Lemma common_type2_wf : forall t u c, wf t -> wf u -> common_type2 cond 2 t u = Some (Some c) -> wf c /\ decayed c.
  Proof.
    intros t u c Wt Wu H.
    destruct (decay_by_value t Wt) as (dt & Et & _). destruct (decay_by_value u Wu) as (du & Eu & _).
    rewrite (common_type2_decay 0 _ _ dt du) in H by assumption. injection H as H.
    unfold common_type2_imp in H.
    destruct (declval dt) as [a|]; [|discriminate H]. destruct (declval du) as [b|]; [|discriminate H].
    destruct (cond a b) as [x|] eqn:C; [|discriminate H].
    apply cond_wf in C. destruct (decay_idem _ _ C H) as (_ & A & B). auto.
  Qed.
  Lemma common_type2_total : forall t u, wf t -> wf u -> exists m, common_type2 cond 2 t u = Some m.
  Proof.
    intros t u Wt Wu.
    destruct (decay_by_value t Wt) as (dt & Et & _). destruct (decay_by_value u Wu) as (du & Eu & _).
    rewrite (common_type2_decay 0 _ _ dt du) by assumption. eauto.
  Qed.
  Lemma common_type2_cong : forall t u t' u', wf t -> wf u -> wf t' -> wf u' -> decay t = decay t' -> decay u = decay u' ->
    common_type2 cond 2 t u = common_type2 cond 2 t' u'.
  Proof.
    intros t u t' u' Wt Wu Wt' Wu' Et Eu.
    destruct (decay_by_value t Wt) as (dt & Dt & _). destruct (decay_by_value u Wu) as (du & Du & _).
    rewrite (common_type2_decay 0 t u dt du), (common_type2_decay 0 t' u' dt du); congruence.
  Qed.
  Lemma impl_cong : forall rest rest' t u t' u', wf t -> wf u -> wf t' -> wf u' -> decay t = decay t' -> decay u = decay u' ->
    Forall2 (fun x y => wf x /\ wf y /\ decay x = decay y) rest rest' ->
    common_type_impl cond 2 t u rest = common_type_impl cond 2 t' u' rest'.
  Proof.
    induction rest as [|v rest IH]; intros rest' t u t' u' Wt Wu Wt' Wu' Et Eu H; inversion H; subst; cbn [common_type_impl].
    - apply common_type2_cong; assumption.
    - rewrite (common_type2_cong t u t' u') by assumption.
      destruct (common_type2 cond 2 t' u') as [[c|]|] eqn:E; try reflexivity.
      destruct (common_type2_wf _ _ _ Wt' Wu' E) as [Wc _]. destruct H2 as (A & B & C).
      apply IH; auto.
  Qed.
  Lemma impl_total : forall rest t u, wf t -> wf u -> Forall wf rest ->
    exists m, common_type_impl cond 2 t u rest = Some m /\ forall c, m = Some c -> wf c /\ decayed c.
  Proof.
    induction rest as [|v rest IH]; intros t u Wt Wu H; cbn [common_type_impl].
    - destruct (common_type2_total t u Wt Wu) as [m E]. exists m. split; [exact E|].
      intros c ->. apply (common_type2_wf t u); assumption.
    - inversion H; subst.
      destruct (common_type2_total t u Wt Wu) as [m E]. rewrite E. destruct m as [c|].
      + apply IH; auto. apply (common_type2_wf t u c Wt Wu E).
      + exists None. split; [reflexivity|]. intros c X. discriminate X.
  Qed.
End General.

(** the arithmetic types *)
Definition join (p : plat) (a b : arith) : arith := if arith_eqb a b then a else usual p a b.

Definition promoted (a : arith) : bool := match a with Int | UInt | Long | ULong | LLong | ULLong => true | _ => false end.
Definition floaty (a : arith) : bool := negb (int_like a).

Lemma promote_promoted : forall p a, int_like a = true -> promoted (promote p a) = true.
Proof.
  intros p a H; destruct a; try discriminate H; cbn -[holds];
    repeat match goal with |- context [if ?b then _ else _] => destruct b end; reflexivity.
Qed.
Lemma promote_id : forall p a, promoted a = true -> promote p a = a.
Proof. intros p [] H; try discriminate H; reflexivity. Qed.

(* the only facts about a platform that decide the conversions *)
Lemma sign_facts : forall p, standard p ->
  p_signed p Int = true /\ p_signed p UInt = false /\ p_signed p Long = true /\ p_signed p ULong = false
  /\ p_signed p LLong = true /\ p_signed p ULLong = false.
Proof. intros p []. unfold same_range in *. tauto. Qed.
Lemma pow_mono : forall a b, 0 <= a -> (2 ^ a <= 2 ^ b <-> a <= b).
Proof.
  intros a b A. split; intros H.
  - destruct (Z_lt_le_dec b a) as [L|L]; [|exact L].
    destruct (Z_lt_le_dec b 0) as [B|B].
    + rewrite (Z.pow_neg_r 2 b) in H by exact B. pose proof (Z.pow_pos_nonneg 2 a). lia.
    + pose proof (Z.pow_lt_mono_r 2 b a). lia.
  - apply Z.pow_le_mono_r; lia.
Qed.
Lemma holds_su : forall p s u, s <> Bool -> u <> Bool -> p_signed p s = true -> p_signed p u = false -> 1 <= p_bits p s ->
  0 <= p_bits p u ->
  holds p s u = (p_bits p u <? p_bits p s).
Proof.
  intros p s u Ns Nu Hs Hu Bs Bu. unfold holds.
  assert (L : lo p s = - 2 ^ (p_bits p s - 1)) by (destruct s; try congruence; cbn; rewrite Hs; reflexivity).
  assert (L' : lo p u = 0) by (destruct u; try congruence; cbn; rewrite Hu; reflexivity).
  assert (M : hi p s = 2 ^ (p_bits p s - 1) - 1) by (destruct s; try congruence; cbn; rewrite Hs; reflexivity).
  assert (M' : hi p u = 2 ^ (p_bits p u) - 1) by (destruct u; try congruence; cbn; rewrite Hu; reflexivity).
  rewrite L, L', M, M'. pose proof (Z.pow_pos_nonneg 2 (p_bits p s - 1)).
  pose proof (pow_mono (p_bits p u) (p_bits p s - 1)).
  destruct (Z.ltb_spec (p_bits p u) (p_bits p s)).
  - apply andb_true_iff. rewrite !Z.leb_le. split; lia.
  - apply andb_false_iff. right. rewrite Z.leb_gt. lia.
Qed.
Lemma three_facts : forall p, standard p ->
  (holds p Long UInt = true -> holds p LLong UInt = true) /\ (holds p LLong ULong = true -> holds p LLong UInt = true) /\
  (holds p Long UInt = false -> holds p LLong UInt = true -> holds p LLong ULong = true).
Proof.
  intros p []. unfold same_range in *.
  rewrite !holds_su; try congruence; try tauto; try lia.
Qed.
Ltac comp S1 S2 S3 S4 S5 S6 :=
  repeat first [rewrite S1|rewrite S2|rewrite S3|rewrite S4|rewrite S5|rewrite S6|progress cbn -[holds]].
(* the conversions as a function of the three answers *)
Definition table (h1 h2 h3 : bool) (a b : arith) : arith :=
  match a, b with
  | Int, Int => Int
  | Int, UInt | UInt, Int | UInt, UInt => UInt
  | Int, Long | Long, Int | Long, Long => Long
  | UInt, Long | Long, UInt => if h1 then Long else ULong
  | (Int | UInt | Long | ULong), ULong | ULong, (Int | UInt | Long) => ULong
  | Int, LLong | LLong, Int | Long, LLong | LLong, Long | LLong, LLong => LLong
  | UInt, LLong | LLong, UInt => if h2 then LLong else ULLong
  | ULong, LLong | LLong, ULong => if h3 then LLong else ULLong
  | _, _ => ULLong
  end.
Definition answers (p : plat) (a b : arith) : arith := table (holds p Long UInt) (holds p LLong UInt) (holds p LLong ULong) a b.
Lemma usual_int_answers : forall p a b, standard p -> promoted a = true -> promoted b = true -> usual_int p a b = answers p a b.
Proof.
  intros p a b ST A B. destruct (sign_facts p ST) as (S1 & S2 & S3 & S4 & S5 & S6). unfold usual_int, answers.
  destruct a; try discriminate A; destruct b; try discriminate B; comp S1 S2 S3 S4 S5 S6; reflexivity.
Qed.
Definition all6 : list arith := [Int; UInt; Long; ULong; LLong; ULLong].
Definition check6 (h1 h2 h3 : bool) : bool :=
  forallb (fun a => forallb (fun b =>
    arith_eqb (table h1 h2 h3 a b) (table h1 h2 h3 b a) && promoted (table h1 h2 h3 a b) &&
    forallb (fun c => arith_eqb (table h1 h2 h3 (table h1 h2 h3 a b) c) (table h1 h2 h3 a (table h1 h2 h3 b c))) all6) all6) all6.
Lemma in6 : forall a, promoted a = true -> In a all6.
Proof. intros [] H; try discriminate H; cbn; tauto. Qed.
Lemma check6_holds : forall p, standard p -> check6 (holds p Long UInt) (holds p LLong UInt) (holds p LLong ULong) = true.
Proof.
  intros p ST. destruct (three_facts p ST) as (F1 & F2 & F3).
  destruct (holds p Long UInt), (holds p LLong UInt), (holds p LLong ULong); try reflexivity;
    try (specialize (F1 eq_refl); discriminate F1); try (specialize (F2 eq_refl); discriminate F2);
    specialize (F3 eq_refl eq_refl); discriminate F3.
Qed.
Lemma check6_use : forall p a b, standard p -> promoted a = true -> promoted b = true ->
  answers p a b = answers p b a /\ promoted (answers p a b) = true /\
  forall c, promoted c = true -> answers p (answers p a b) c = answers p a (answers p b c).
Proof.
  intros p a b ST A B. pose proof (check6_holds p ST) as C. unfold check6 in C.
  rewrite forallb_forall in C. specialize (C a (in6 a A)).
  rewrite forallb_forall in C. specialize (C b (in6 b B)).
  rewrite !andb_true_iff in C. destruct C as [[C1 C2] C3]. rewrite forallb_forall in C3.
  split; [apply arith_eqb_eq; exact C1|]. split; [exact C2|].
  intros c Hc. apply arith_eqb_eq. exact (C3 c (in6 c Hc)).
Qed.
Lemma usual_int_comm : forall p a b, standard p -> promoted a = true -> promoted b = true -> usual_int p a b = usual_int p b a.
Proof. intros p a b ST A B. rewrite !usual_int_answers by assumption. apply check6_use; assumption. Qed.
Lemma usual_int_promoted : forall p a b, standard p -> promoted a = true -> promoted b = true -> promoted (usual_int p a b) = true.
Proof. intros p a b ST A B. rewrite usual_int_answers by assumption. apply check6_use; assumption. Qed.
Lemma usual_int_assoc : forall p a b c, standard p -> promoted a = true -> promoted b = true -> promoted c = true ->
  usual_int p (usual_int p a b) c = usual_int p a (usual_int p b c).
Proof.
  intros p a b c ST A B C.
  rewrite (usual_int_answers p (usual_int p a b) c), (usual_int_answers p a (usual_int p b c))
    by (try apply usual_int_promoted; assumption).
  rewrite (usual_int_answers p a b), (usual_int_answers p b c) by assumption.
  apply check6_use; assumption.
Qed.
Lemma usual_int_idem : forall p a, usual_int p a a = a.
Proof. intros p a. unfold usual_int. destruct a; reflexivity. Qed.

(** join *)
Lemma usual_ints : forall p a b, int_like a = true -> int_like b = true -> usual p a b = usual_int p (promote p a) (promote p b).
Proof. intros p a b A B. destruct a; try discriminate A; destruct b; try discriminate B; reflexivity. Qed.
Lemma join_ints : forall p a b, int_like a = true -> int_like b = true -> int_like (join p a b) = true.
Proof.
  intros p a b A B. unfold join. destruct (arith_eqb a b) eqn:E; [exact A|].
  rewrite usual_ints by assumption. unfold usual_int.
  pose proof (promote_promoted p a A) as PA. pose proof (promote_promoted p b B) as PB.
  destruct (promote p a); try discriminate PA; destruct (promote p b); try discriminate PB; cbn -[holds];
    repeat match goal with |- context [if ?b then _ else _] => destruct b; cbn -[holds] end; reflexivity.
Qed.
Lemma promote_join : forall p a b, standard p -> int_like a = true -> int_like b = true ->
  promote p (join p a b) = usual_int p (promote p a) (promote p b).
Proof.
  intros p a b ST A B. unfold join. destruct (arith_eqb a b) eqn:E.
  - apply arith_eqb_eq in E. subst b. rewrite usual_int_idem. reflexivity.
  - rewrite usual_ints by assumption. apply promote_id. apply usual_int_promoted; [exact ST| |]; apply promote_promoted; assumption.
Qed.
(* the joined type is one of the operands or a promoted type *)
Lemma join_neq : forall p a b, standard p -> int_like a = true -> int_like b = true -> a <> b ->
  join p a b = usual_int p (promote p a) (promote p b).
Proof.
  intros p a b ST A B N. unfold join. destruct (arith_eqb a b) eqn:E; [apply arith_eqb_eq in E; contradiction|].
  apply usual_ints; assumption.
Qed.
Lemma join_idem : forall p a, join p a a = a.
Proof. intros p a. unfold join. replace (arith_eqb a a) with true by (destruct a; reflexivity). reflexivity. Qed.
Lemma join_comm : forall p a b, standard p -> join p a b = join p b a.
Proof.
  intros p a b ST. destruct (int_like a) eqn:A; [destruct (int_like b) eqn:B|].
  - destruct (arith_eqb a b) eqn:E; [apply arith_eqb_eq in E; subst; reflexivity|].
    assert (a <> b) by (intros ->; rewrite (proj2 (arith_eqb_eq b b) eq_refl) in E; discriminate E).
    rewrite !join_neq by auto. apply usual_int_comm; [exact ST| |]; apply promote_promoted; assumption.
  - destruct a; try discriminate A; destruct b; try discriminate B; reflexivity.
  - destruct a; try discriminate A; destruct b; reflexivity.
Qed.
Lemma join_assoc : forall p a b c, standard p -> join p (join p a b) c = join p a (join p b c).
Proof.
  intros p a b c ST.
  destruct (int_like a) eqn:A; [destruct (int_like b) eqn:B; [destruct (int_like c) eqn:C|]|].
  - (* integers: compare both sides through their promotions *)
    destruct (arith_eqb a b) eqn:E1; [apply arith_eqb_eq in E1; subst b|].
    + rewrite join_idem. destruct (arith_eqb a c) eqn:E2; [apply arith_eqb_eq in E2; subst c; rewrite !join_idem; reflexivity|].
      assert (N : a <> c) by (intros ->; rewrite (proj2 (arith_eqb_eq c c) eq_refl) in E2; discriminate E2).
      pose proof (join_ints p a c A C) as J.
      destruct (arith_eqb a (join p a c)) eqn:E3; [apply arith_eqb_eq in E3; rewrite <- E3; rewrite join_idem; reflexivity|].
      assert (N3 : a <> join p a c) by (intros X; rewrite <- X in E3; rewrite (proj2 (arith_eqb_eq a a) eq_refl) in E3; discriminate E3).
      rewrite (join_neq p a (join p a c)) by assumption. rewrite promote_join by assumption.
      rewrite (join_neq p a c) by assumption.
      rewrite <- usual_int_assoc by (try exact ST; apply promote_promoted; assumption). rewrite usual_int_idem. reflexivity.
    + assert (N1 : a <> b) by (intros ->; rewrite (proj2 (arith_eqb_eq b b) eq_refl) in E1; discriminate E1).
      pose proof (join_ints p a b A B) as J1. pose proof (join_ints p b c B C) as J2.
      pose proof (promote_promoted p a A) as PA. pose proof (promote_promoted p b B) as PB. pose proof (promote_promoted p c C) as PC.
      set (r := usual_int p (usual_int p (promote p a) (promote p b)) (promote p c)).
      assert (L : join p (join p a b) c = r).
      { destruct (arith_eqb (join p a b) c) eqn:E2.
        - apply arith_eqb_eq in E2. subst c. rewrite join_idem. unfold r. rewrite promote_join by assumption.
          rewrite usual_int_idem. apply join_neq; assumption.
        - assert (N2 : join p a b <> c) by (intros <-; rewrite (proj2 (arith_eqb_eq _ _) eq_refl) in E2; discriminate E2).
          rewrite (join_neq p (join p a b) c) by assumption. rewrite promote_join by assumption. reflexivity. }
      rewrite L. unfold r. rewrite usual_int_assoc by assumption. rewrite <- (promote_join p b c) by assumption.
      destruct (arith_eqb a (join p b c)) eqn:E2.
      * apply arith_eqb_eq in E2. rewrite <- E2. rewrite join_idem, usual_int_idem.
        destruct (arith_eqb b c) eqn:E3; [apply arith_eqb_eq in E3; subst c; rewrite join_idem in E2; contradiction|].
        assert (N3 : b <> c) by (intros ->; rewrite (proj2 (arith_eqb_eq c c) eq_refl) in E3; discriminate E3).
        rewrite (join_neq p b c) in E2 by assumption. rewrite E2. apply promote_id. apply usual_int_promoted; assumption.
      * assert (N2 : a <> join p b c) by (intros X; rewrite <- X in E2; rewrite (proj2 (arith_eqb_eq a a) eq_refl) in E2; discriminate E2).
        rewrite (join_neq p a (join p b c)) by assumption. reflexivity.
  - pose proof (join_ints p a b A B) as J.
    assert (G : forall x, int_like x = true -> join p x c = c).
    { intros x X. destruct x; try discriminate X; destruct c; try discriminate C; reflexivity. }
    rewrite !G by assumption. reflexivity.
  - assert (G : forall x, int_like x = true -> join p x b = b).
    { intros x X. destruct x; try discriminate X; destruct b; try discriminate B; reflexivity. }
    rewrite G by exact A. destruct (int_like c) eqn:C.
    + rewrite (join_comm p b c ST), G by exact C. rewrite G by exact A. reflexivity.
    + clear G. destruct a; try discriminate A; destruct b; try discriminate B; destruct c; try discriminate C; reflexivity.
  - destruct (int_like b) eqn:B; [destruct (int_like c) eqn:C|].
    + assert (G : forall x, int_like x = true -> join p a x = a).
      { intros x X. destruct x; try discriminate X; destruct a; try discriminate A; reflexivity. }
      rewrite (G (join p b c)) by (apply join_ints; assumption). rewrite (G b) by exact B. apply G. exact C.
    + assert (join p b c = c) as -> by (destruct b; try discriminate B; destruct c; try discriminate C; reflexivity).
      f_equal. destruct b; try discriminate B; destruct a; try discriminate A; reflexivity.
    + destruct (int_like c) eqn:C.
      * assert (G : forall x y, int_like x = false -> int_like y = true -> join p x y = x).
        { intros x y X Y. destruct y; try discriminate Y; destruct x; try discriminate X; reflexivity. }
        rewrite (G b c) by assumption. apply G; [|exact C].
        destruct a; try discriminate A; destruct b; try discriminate B; reflexivity.
      * destruct a; try discriminate A; destruct b; try discriminate B; destruct c; try discriminate C; reflexivity.
Qed.

(** common_type on arithmetic types *)
Lemma decay_value : forall t a, decay t = Some (TArith nocv a) -> wf t -> decayed (TArith nocv a).
Proof. intros t a _ _. constructor. Qed.
Lemma common_arith2 : forall p cond t u a b, arith_cond p cond -> wf t -> wf u ->
  decay t = Some (TArith nocv a) -> decay u = Some (TArith nocv b) ->
  common_type2 cond 2 t u = Some (Some (TArith nocv (join p a b))).
Proof.
  intros p cond t u a b AC Wt Wu Dt Du. rewrite (common_type2_decay cond 0 t u _ _ Wt Wu Dt Du).
  unfold common_type2_imp. cbn [declval rref qualified_fun]. rewrite AC. unfold join.
  destruct (arith_eqb a b); reflexivity.
Qed.
Lemma common_arith_impl : forall p cond rest as_ t u a b, arith_cond p cond -> wf t -> wf u -> Forall wf rest ->
  decay t = Some (TArith nocv a) -> decay u = Some (TArith nocv b) ->
  Forall2 (fun v c => decay v = Some (TArith nocv c)) rest as_ ->
  common_type_impl cond 2 t u rest = Some (Some (TArith nocv (fold_left (join p) as_ (join p a b)))).
Proof.
  intros p cond rest. induction rest as [|v rest IH]; intros as_ t u a b AC Wt Wu Wr Dt Du H; inversion H; subst; cbn [common_type_impl fold_left].
  - apply common_arith2; assumption.
  - inversion Wr; subst. rewrite (common_arith2 p cond t u a b) by assumption. apply IH; auto. exact I.
Qed.
Lemma common_arith : forall p cond ts a as_, arith_cond p cond -> Forall wf ts ->
  Forall2 (fun v c => decay v = Some (TArith nocv c)) ts (a :: as_) ->
  common_type cond 2 ts = Some (Some (TArith nocv (fold_left (join p) as_ a))).
Proof.
  intros p cond ts a as_ AC W H. inversion H as [|t ? l ? D H']; subst. inversion W as [|? ? Wt W']; subst.
  inversion H' as [|u b l' as' D' H'']; subst; cbn [common_type fold_left].
  - rewrite (common_arith2 p cond t t a a) by assumption. rewrite join_idem. reflexivity.
  - inversion W' as [|? ? Wu W'']; subst. destruct l' as [|v l'].
    + inversion H''; subst. apply common_arith2; assumption.
    + apply common_arith_impl; assumption.
Qed.

(* folding a join: order does not matter, and every member was joined in *)
Lemma fold_join_swap : forall p l a b, standard p -> fold_left (join p) l (join p a b) = join p a (fold_left (join p) l b).
Proof.
  intros p l. induction l as [|c l IH]; intros a b ST; cbn; [reflexivity|].
  rewrite join_assoc by exact ST. apply IH. exact ST.
Qed.
Lemma fold_join_perm : forall p l l', standard p -> Permutation l l' -> forall a, fold_left (join p) l a = fold_left (join p) l' a.
Proof.
  intros p l l' ST P. induction P; intros a; cbn; auto.
  - f_equal. rewrite !join_assoc by exact ST. f_equal. apply join_comm. exact ST.
  - rewrite IHP1. apply IHP2.
Qed.
Lemma fold_join_head : forall p l a b, standard p -> fold_left (join p) l (join p a b) = fold_left (join p) (a :: l) b.
Proof. intros p l a b ST. cbn. rewrite (join_comm p a b ST). reflexivity. Qed.
(* the fold over a nonempty list in any order *)
Lemma fold_join_cons : forall p a as_ b bs, standard p -> Permutation (a :: as_) (b :: bs) ->
  fold_left (join p) as_ a = fold_left (join p) bs b.
Proof.
  intros p a as_ b bs ST P.
  assert (A : fold_left (join p) (a :: as_) a = fold_left (join p) as_ a) by (cbn; rewrite join_idem; reflexivity).
  assert (B : fold_left (join p) (b :: bs) b = fold_left (join p) bs b) by (cbn; rewrite join_idem; reflexivity).
  assert (X : fold_left (join p) (b :: bs) a = fold_left (join p) (b :: bs) b).
  { assert (I : In a (b :: bs)) by (eapply Permutation_in; [exact P|left; reflexivity]).
    destruct I as [->|I]; [reflexivity|].
    destruct (in_split _ _ I) as (l1 & l2 & E). rewrite B. subst bs. cbn.
    rewrite (fold_join_perm p (l1 ++ a :: l2) (a :: l1 ++ l2) ST) by (symmetry; apply Permutation_middle).
    rewrite (fold_join_perm p (l1 ++ a :: l2) (a :: l1 ++ l2) ST) by (symmetry; apply Permutation_middle).
    cbn. f_equal. rewrite (join_comm p a b ST). rewrite join_assoc by exact ST. rewrite join_idem. reflexivity. }
  rewrite <- A, <- B, <- X. apply fold_join_perm; assumption.
Qed.
Lemma fold_join_member : forall p a as_ x, standard p -> In x (a :: as_) ->
  exists y, fold_left (join p) as_ a = join p x y.
Proof.
  intros p a as_ x ST I. destruct (in_split _ _ I) as (l1 & l2 & E).
  rewrite (fold_join_cons p a as_ x (l1 ++ l2) ST).
  - destruct (l1 ++ l2) as [|y l]; cbn; [exists x; rewrite join_idem; reflexivity|].
    exists (fold_left (join p) l y). apply fold_join_swap. exact ST.
  - rewrite E. symmetry. apply Permutation_middle.
Qed.

(** what the joined type can hold *)
Definition covers (p : plat) (r a : arith) : Prop := hi p a <= hi p r /\ (lo p r <= lo p a \/ p_signed p r = false).
Lemma halves : forall n, 1 <= n -> 2 ^ n = 2 * 2 ^ (n - 1).
Proof. intros n N. rewrite <- Z.pow_succ_r by lia. f_equal. lia. Qed.
Lemma range6 : forall p, standard p -> exists i l ll, 0 < i <= l /\ l <= ll /\
  (lo p Int = -i /\ hi p Int = i - 1) /\ (lo p UInt = 0 /\ hi p UInt = 2 * i - 1) /\
  (lo p Long = -l /\ hi p Long = l - 1) /\ (lo p ULong = 0 /\ hi p ULong = 2 * l - 1) /\
  (lo p LLong = -ll /\ hi p LLong = ll - 1) /\ (lo p ULLong = 0 /\ hi p ULLong = 2 * ll - 1).
Proof.
  intros p ST. pose proof (sign_facts p ST) as (S1 & S2 & S3 & S4 & S5 & S6).
  destruct ST. unfold same_range in *.
  exists (2 ^ (p_bits p Int - 1)), (2 ^ (p_bits p Long - 1)), (2 ^ (p_bits p LLong - 1)).
  split; [split; [apply Z.pow_pos_nonneg; lia|apply Z.pow_le_mono_r; lia]|].
  split; [apply Z.pow_le_mono_r; lia|].
  cbn. rewrite S1, S2, S3, S4, S5, S6.
  destruct st_int as (_ & _ & ->), st_long as (_ & _ & ->), st_llong as (_ & _ & ->).
  rewrite !(halves (p_bits p _)) by lia. repeat split.
Qed.
Lemma answers_covers : forall p a b, standard p -> promoted a = true -> promoted b = true -> covers p (answers p a b) a.
Proof.
  intros p a b ST A B. destruct (range6 p ST) as (i & l & ll & L1 & L2 & R1 & R2 & R3 & R4 & R5 & R6).
  pose proof (sign_facts p ST) as (S1 & S2 & S3 & S4 & S5 & S6).
  unfold answers, table.
  assert (H1 : holds p Long UInt = true -> hi p UInt <= hi p Long)
    by (unfold holds; rewrite andb_true_iff, !Z.leb_le; tauto).
  assert (H2 : holds p LLong UInt = true -> hi p UInt <= hi p LLong)
    by (unfold holds; rewrite andb_true_iff, !Z.leb_le; tauto).
  assert (H3 : holds p LLong ULong = true -> hi p ULong <= hi p LLong)
    by (unfold holds; rewrite andb_true_iff, !Z.leb_le; tauto).
  destruct (holds p Long UInt), (holds p LLong UInt), (holds p LLong ULong);
    try specialize (H1 eq_refl); try specialize (H2 eq_refl); try specialize (H3 eq_refl);
    destruct a; try discriminate A; destruct b; try discriminate B; unfold covers; rewrite ?S1, ?S2, ?S3, ?S4, ?S5, ?S6;
    (split; [lia|first [left; lia|right; reflexivity]]).
Qed.
Lemma promote_holds : forall p a, standard p -> int_like a = true -> lo p (promote p a) <= lo p a /\ hi p a <= hi p (promote p a).
Proof.
  intros p a ST A.
  assert (H : forall r, holds p r a = true -> lo p r <= lo p a /\ hi p a <= hi p r)
    by (intros r; unfold holds; rewrite andb_true_iff, !Z.leb_le; tauto).
  destruct (range6 p ST) as (i & l & ll & L1 & L2 & R1 & R2 & R3 & R4 & R5 & R6).
  assert (G : forall s u, same_range p s u -> 1 <= p_bits p s -> s <> Bool -> u <> Bool ->
     lo p u = 0 /\ hi p u = 2 * 2 ^ (p_bits p s - 1) - 1 /\ lo p s = - 2 ^ (p_bits p s - 1) /\ hi p s = 2 ^ (p_bits p s - 1) - 1).
  { intros s u (Q1 & Q2 & Q3) Hb N1 N2. rewrite <- halves by exact Hb.
    destruct s, u; try congruence; cbn; rewrite Q1, Q2, Q3; repeat split. }
  assert (B : forall n, n <= p_bits p Int -> 2 ^ (n - 1) <= i).
  { intros n N. assert (i = 2 ^ (p_bits p Int - 1)) as ->.
    { destruct R1 as [R1 _]. cbn in R1. destruct ST. destruct st_int as (Q & _). rewrite Q in R1. lia. }
    apply Z.pow_le_mono_r; lia. }
  assert (LLb : ll = 2 ^ (p_bits p LLong - 1)).
  { destruct R5 as [R5 _]. cbn in R5. destruct ST. destruct st_llong as (Q & _). rewrite Q in R5. lia. }
  assert (WC : forall w, w <> Bool -> 1 <= p_bits p w <= p_bits p LLong ->
     (p_signed p w = true -> lo p LLong <= lo p w /\ hi p w <= hi p LLong) /\
     (p_signed p w = false -> lo p ULLong <= lo p w /\ hi p w <= hi p ULLong)).
  { intros w N Hb. assert (2 ^ (p_bits p w - 1) <= ll) by (rewrite LLb; apply Z.pow_le_mono_r; lia).
    assert (Q : lo p w = (if p_signed p w then - 2 ^ (p_bits p w - 1) else 0) /\
                hi p w = (if p_signed p w then 2 ^ (p_bits p w - 1) - 1 else 2 * 2 ^ (p_bits p w - 1) - 1)).
    { rewrite <- halves by lia. destruct w; try congruence; split; reflexivity. }
    destruct Q as [Q1 Q2]. rewrite Q1, Q2. split; intros ->; lia. }
  assert (LW : forall w, w <> Bool -> 1 <= p_bits p w <= p_bits p LLong -> holds p LLong w = false -> lo p ULLong <= lo p w /\ hi p w <= hi p ULLong).
  { intros w N Hb HF. destruct (WC w N Hb) as [W1 W2]. destruct (p_signed p w); [|apply W2; reflexivity].
    destruct (W1 eq_refl) as [X Y]. unfold holds in HF. rewrite andb_false_iff, !Z.leb_gt in HF. lia. }
  destruct ST.
  destruct a; try discriminate A; cbn [promote]; try lia;
    repeat match goal with |- context [if holds p ?r ?a then _ else _] =>
             let E := fresh "E" in destruct (holds p r a) eqn:E; [apply H; exact E|] end;
    try (apply LW; [discriminate|lia|assumption]).
  - change (lo p Bool) with 0. change (hi p Bool) with 1. lia.
  - destruct (G SChar UChar) as (g1 & g2 & g3 & g4); try congruence; try lia; try exact st_char.
    assert (i >= 2 ^ (p_bits p SChar - 1)) by (specialize (B (p_bits p SChar)); lia).
    assert (Q : lo p Char = (if p_signed p Char then - 2 ^ (p_bits p SChar - 1) else 0) /\
                hi p Char = (if p_signed p Char then 2 ^ (p_bits p SChar - 1) - 1 else 2 * 2 ^ (p_bits p SChar - 1) - 1)).
    { rewrite <- halves by lia. cbn. rewrite st_char_bits. split; reflexivity. }
    destruct Q as [Q1 Q2]. unfold holds in E. rewrite andb_false_iff, !Z.leb_gt in E. rewrite Q1, Q2 in *.
    destruct (p_signed p Char); lia.
  - destruct (G SChar UChar) as (g1 & g2 & g3 & g4); try congruence; try lia; try exact st_char.
    assert (i >= 2 ^ (p_bits p SChar - 1)) by (specialize (B (p_bits p SChar)); lia).
    unfold holds in E. rewrite andb_false_iff, !Z.leb_gt in E. lia.
  - destruct (G SChar UChar) as (g1 & g2 & g3 & g4); try congruence; try lia; try exact st_char.
    assert (i >= 2 ^ (p_bits p SChar - 1)) by (specialize (B (p_bits p SChar)); lia). lia.
  - destruct (G Short UShort) as (g1 & g2 & g3 & g4); try congruence; try lia; try exact st_short.
    assert (i >= 2 ^ (p_bits p Short - 1)) by (specialize (B (p_bits p Short)); lia).
    unfold holds in E. rewrite andb_false_iff, !Z.leb_gt in E. lia.
  - destruct (G Short UShort) as (g1 & g2 & g3 & g4); try congruence; try lia; try exact st_short.
    assert (i >= 2 ^ (p_bits p Short - 1)) by (specialize (B (p_bits p Short)); lia). lia.
Qed.
Lemma join_covers : forall p a b, standard p -> int_like a = true -> int_like b = true -> covers p (join p a b) a.
Proof.
  intros p a b ST A B. destruct (arith_eqb a b) eqn:E.
  - apply arith_eqb_eq in E. subst b. rewrite join_idem. unfold covers. lia.
  - assert (N : a <> b) by (intros ->; rewrite (proj2 (arith_eqb_eq b b) eq_refl) in E; discriminate E).
    rewrite join_neq by assumption.
    pose proof (promote_promoted p a A). pose proof (promote_promoted p b B).
    rewrite usual_int_answers by assumption.
    pose proof (answers_covers p (promote p a) (promote p b)) as C. destruct C as [C1 C2]; try assumption.
    destruct (promote_holds p a ST A) as [P1 P2]. unfold covers. split; [lia|]. destruct C2; [left; lia|right; assumption].
Qed.
Lemma join_int_like : forall p a b, standard p -> (int_like (join p a b) = true <-> int_like a = true /\ int_like b = true).
Proof.
  intros p a b ST. split.
  - intros H. destruct (int_like a) eqn:A, (int_like b) eqn:B; auto; exfalso;
      destruct a; try discriminate A; destruct b; try discriminate B; cbn in H; discriminate H.
  - intros [A B]. apply join_ints; assumption.
Qed.
Lemma fold_int_like : forall p l a, standard p ->
  (int_like (fold_left (join p) l a) = true <-> Forall (fun x => int_like x = true) (a :: l)).
Proof.
  intros p l. induction l as [|b l IH]; intros a ST; cbn.
  - split; [intros H; constructor; auto|intros H; inversion H; auto].
  - rewrite IH by exact ST. split; intros H; inversion H; subst.
    + apply join_int_like in H2; [|exact ST]. destruct H2. auto.
    + inversion H3; subst. constructor; [|assumption]. apply join_int_like; auto.
Qed.
Lemma usual_int_signed : forall p a b, standard p -> promoted a = true -> promoted b = true ->
  p_signed p a = true -> p_signed p b = true -> p_signed p (usual_int p a b) = true.
Proof.
  intros p a b ST A B Sa Sb. rewrite usual_int_answers by assumption.
  pose proof (sign_facts p ST) as (S1 & S2 & S3 & S4 & S5 & S6). unfold answers, table.
  destruct a; try discriminate A; try congruence; destruct b; try discriminate B; try congruence; assumption.
Qed.
Lemma fold_signed : forall p l a, standard p -> Forall (fun x => int_like x = true /\ p_signed p (promote p x) = true) (a :: l) ->
  p_signed p (promote p (fold_left (join p) l a)) = true.
Proof.
  intros p l. induction l as [|b l IH]; intros a ST H; cbn.
  - inversion H; subst. tauto.
  - inversion H as [|? ? [A1 A2] H']; subst. inversion H' as [|? ? [B1 B2] H'']; subst.
    apply IH; [exact ST|]. constructor; [|exact H'']. split; [apply join_ints; assumption|].
    rewrite promote_join by assumption. apply usual_int_signed; try assumption; apply promote_promoted; assumption.
Qed.
(* the floating types in order *)
Definition frank (a : arith) : nat := match a with Float => 1 | Double => 2 | LDouble => 3 | _ => 0 end.
Lemma join_frank : forall p a b, standard p -> frank (join p a b) = Nat.max (frank a) (frank b).
Proof.
  intros p a b ST. destruct (int_like a) eqn:A, (int_like b) eqn:B.
  - pose proof (join_ints p a b A B) as J.
    assert (Z0 : forall x, int_like x = true -> frank x = 0%nat) by (intros []; cbn; congruence).
    rewrite !Z0 by assumption. reflexivity.
  - destruct a; try discriminate A; destruct b; try discriminate B; reflexivity.
  - destruct a; try discriminate A; destruct b; try discriminate B; reflexivity.
  - destruct a; try discriminate A; destruct b; try discriminate B; reflexivity.
Qed.
Lemma fold_frank : forall p l a, standard p -> frank (fold_left (join p) l a) = list_max (map frank (a :: l)).
Proof.
  intros p l. induction l as [|b l IH]; intros a ST.
  - cbn. lia.
  - cbn [fold_left]. rewrite IH by exact ST. cbn. rewrite join_frank by exact ST. lia.
Qed.
