(** Lemmas on is_convertible, is_destructible, is_empty and aligned_storage. *)
From Coq Require Import ZArith NArith List Bool Lia.
From Verif Require Import TyModel TraitModel TraitSpec TraitProofs.
Import ListNotations.
Open Scope Z_scope.

Lemma kind_code : forall t, wf t -> array_function_or_void t =
  match t with TArr _ _ | TArrU _ => 1%nat | TFun _ _ _ _ _ => 2%nat | TVoid _ => 3%nat | _ => 0%nat end.
Proof.
  intros t W. unfold array_function_or_void, is_void. rewrite remove_cv_requal.
  destruct t as [q|q a|q|q n|q n|q n|q t|q c t|t|t|t n|t|r ps e q s];
    try (rewrite not_fun; [reflexivity|exact W|exact I]).
  replace (is_function _) with true; [reflexivity|].
  symmetry. apply is_function_iff; [exact W|]. do 5 eexists. reflexivity.
Qed.
Lemma declval_expr : forall t, wf t ->
  declval t = match t with
              | TVoid q => Some (TVoid q)
              | TLref u => Some (TLref u)
              | TRref u => Some (TRref u)
              | TFun r ps el q s => match s with NoRef => if qc q || qv q then None else Some (TRref t) | _ => None end
              | _ => Some (TRref t)
              end.
Proof.
  intros t W. destruct t as [q|q a|q|q n|q n|q n|q t|q c t|t|t|t n|t|r ps e q s]; try reflexivity.
  destruct q as [[] []], s; reflexivity.
Qed.
Lemma convertible_returns : forall ci from to, wf from -> wf to -> (is_convertible ci from to = true <-> returns ci from to).
Proof.
  intros ci from to Wf Wt. unfold is_convertible. rewrite !kind_code by assumption.
  unfold is_convertible_test, returns. rewrite declval_expr by exact Wf.
  destruct to as [q|q a|q|q n|q n|q n|q t|q c t|t|t|t n|t|r ps e q s];
  destruct from as [q'|q' a'|q'|q' n'|q' n'|q' n'|q' t'|q' c' t'|t'|t'|t' n'|t'|r' ps' e' q' s']; cbn;
    try (split; [discriminate|
      intros [(?&?&X&Y)|(X & e0 & Y & Z)]; [try discriminate X; discriminate Y|try contradiction; try discriminate Y]]; fail);
    try (split; [intros _; left; eauto|reflexivity]; fail);
    try (split; [intros H; right; split; [exact I|eexists; split; [reflexivity|exact H]]
                |intros [(?&?&X&Y)|(X & e0 & Y & Z)]; [discriminate|congruence]]; fail).
  all: destruct s'; [destruct (qc q' || qv q')|..];
    try (split; [discriminate|
      intros [(?&?&X&Y)|(X & e0 & Y & Z)]; [try discriminate X; discriminate Y|try contradiction; try discriminate Y]]; fail);
    try (split; [intros H; right; split; [exact I|eexists; split; [reflexivity|exact H]]
                |intros [(?&?&X&Y)|(X & e0 & Y & Z)]; [discriminate|congruence]]; fail).
Qed.

Lemma destructible_spec : forall dtor t, wf t -> is_destructible dtor t = destructible dtor t.
Proof.
  intros dtor t W. unfold is_destructible.
  destruct t as [q|q a|q|q n|q n|q n|q t|q c t|t|t|t n|t|r ps e q s].
  11: { rewrite not_fun by (try exact W; exact I). cbn.
    cbn in W. destruct W as (A & _ & W). clear n.
    induction t; cbn in *; try contradiction; try reflexivity; try tauto. }
  12: { replace (is_function _) with true; [reflexivity|].
    symmetry. apply is_function_iff; [exact W|]. do 5 eexists. reflexivity. }
  all: try (rewrite not_fun by (try exact W; exact I)); try reflexivity.
  destruct q as [[] []]; reflexivity.
Qed.

Lemma empty_spec : forall k t n q, t = TClass q n -> l_final (k n) = false -> (l_empty (k n) = false -> 1 <= l_size (k n)) ->
  1 <= l_align (k n) <= 8 -> is_empty k t = Some (l_empty (k n)).
Proof.
  intros k t n q -> F S A. unfold is_empty, is_class. cbn [has_members]. unfold is_union. cbn [negb andb]. rewrite F.
  rewrite Z.max_r by lia. f_equal. unfold round_up. destruct (l_empty (k n)).
  - reflexivity.
  - apply Z.eqb_neq. specialize (S eq_refl).
    assert (1 <= (l_size (k n) + 8 - 1) / 8) by (apply Z.div_le_lower_bound; lia).
    assert (16 <= ((l_size (k n) + 8 - 1) / 8 * 8 + 8 + 8 - 1) / 8 * 8); [|lia].
    assert (2 <= ((l_size (k n) + 8 - 1) / 8 * 8 + 8 + 8 - 1) / 8) by (apply Z.div_le_lower_bound; lia). lia.
Qed.

(** aligned_storage *)
Lemma max_align_spec : forall tl h len,
  let r := find_max_align h tl len in
  In r (h :: tl) /\
  ((r <= len /\ forall x, In x (h :: tl) -> x <= len -> x <= r) \/
   (len < r /\ forall x, In x (h :: tl) -> len < x /\ r <= x)).
Proof.
  induction tl as [|h2 tl IH]; intros h len; cbn [find_max_align].
  - split; [left; reflexivity|]. destruct (Z_le_gt_dec h len); [left|right]; split; try lia;
      intros x [<-|[]]; lia.
  - specialize (IH h2 len). cbn zeta in IH. set (r := find_max_align h2 tl len) in *. clearbody r.
    destruct IH as [I IH]. unfold select_align. cbn zeta.
    destruct (Z.ltb_spec r h), (Z.ltb_spec h r); try lia;
      match goal with |- context [Z.ltb len ?m] => destruct (Z.ltb_spec len m) end;
      (split; [first [left; reflexivity|right; exact I]|]);
      destruct IH as [[A B]|[A B]]; destruct (Z_le_gt_dec h len); first
        [left; split; [lia|]; intros x [<-|J] L; [lia|try (specialize (B x J L)); try (destruct (B x J)); lia]
        |right; split; [lia|]; intros x [<-|J]; [lia|try (destruct (B x J)); lia]].
Qed.
Lemma round_up_spec : forall n a, 1 <= a -> 0 <= n -> n <= round_up n a < n + a /\ round_up n a mod a = 0.
Proof.
  intros n a A N. unfold round_up. split; [|apply Z_mod_mult].
  pose proof (Z.div_mod (n + a - 1) a). pose proof (Z.mod_pos_bound (n + a - 1) a). nia.
Qed.
Lemma round_up_id : forall n a, 1 <= a -> 0 <= n -> n mod a = 0 -> round_up n a = n.
Proof.
  intros n a A N H. destruct (round_up_spec n a A N) as [B C].
  apply Z.mod_divide in H; [|lia]. apply Z.mod_divide in C; [|lia]. destruct H as [x ->], C as [y E]. rewrite E in *. clear E N.
  assert (x <= y) by (apply Z.mul_le_mono_pos_r with a; lia).
  assert (y < x + 1) by (apply Z.mul_lt_mono_pos_r with a; lia). f_equal. lia.
Qed.
Lemma bytes_round : forall len a, 1 <= len -> 1 <= a -> len + a <= 2 ^ 64 -> bytes len a = round_up len a.
Proof.
  intros len a L A B. unfold bytes, size_mod, round_up.
  destruct (Z.eq_dec (len + a) (2 ^ 64)) as [E|E].
  - rewrite E, Z_mod_same_full. replace ((0 - 1) mod 2 ^ 64) with (2 ^ 64 - 1) by reflexivity.
    rewrite Z.mod_small; [rewrite <- E; reflexivity|].
    pose proof (Z.mul_div_le (2 ^ 64 - 1) a). pose proof (Z.div_pos (2 ^ 64 - 1) a). nia.
  - rewrite (Z.mod_small (len + a)) by lia. rewrite (Z.mod_small (len + a - 1)) by lia.
    rewrite Z.mod_small; [reflexivity|].
    pose proof (Z.mul_div_le (len + a - 1) a). pose proof (Z.div_pos (len + a - 1) a). nia.
Qed.
Lemma specialised_pow : forall a, specialised a = true -> 1 <= a /\ a = 2 ^ Z.log2 a.
Proof.
  intros a H. unfold specialised in H. apply existsb_exists in H. destruct H as (x & I & E). apply Z.eqb_eq in E. subst x.
  cbn in I. repeat (destruct I as [<-|I]; [split; [lia|reflexivity]|]). contradiction.
Qed.
Lemma pow_specialised : forall k, 0 <= k <= 14 -> specialised (2 ^ k) = true.
Proof.
  intros k K. assert (E : k = 0 \/ k = 1 \/ k = 2 \/ k = 3 \/ k = 4 \/ k = 5 \/ k = 6 \/ k = 7 \/ k = 8 \/ k = 9 \/ k = 10
    \/ k = 11 \/ k = 12 \/ k = 13 \/ k = 14) by lia.
  repeat (destruct E as [->|E]; [reflexivity|]). subst. reflexivity.
Qed.
Lemma find_pod_spec : forall tl h a s, find_pod h tl a = Some s ->
  In (a, s) (h :: tl) \/ (s = a /\ a = 2 ^ Z.log2 a).
Proof.
  assert (F : forall a s, fallback a = Some s -> s = a /\ a = 2 ^ Z.log2 a).
  { intros a s. unfold fallback. destruct (Z.eqb_spec a (2 ^ Z.log2 a)); [|discriminate]. intros H; injection H as <-. auto. }
  induction tl as [|h2 tl IH]; intros [a0 s0] a s H; cbn in H.
  - destruct (Z.eqb_spec a a0); [injection H as <-; subst; left; left; reflexivity|right; apply F; exact H].
  - destruct (Z.eqb_spec a a0); [injection H as <-; subst; left; left; reflexivity|].
    apply IH in H. destruct H as [H|H]; [left; right; exact H|right; exact H].
Qed.
Lemma find_pod_pow : forall tl h k, 0 <= k -> exists s, find_pod h tl (2 ^ k) = Some s.
Proof.
  assert (F : forall k, 0 <= k -> fallback (2 ^ k) = Some (2 ^ k)).
  { intros k K. unfold fallback. rewrite Z.log2_pow2 by exact K. rewrite Z.eqb_refl. reflexivity. }
  induction tl as [|h2 tl IH]; intros [a0 s0] k K; cbn.
  - destruct (Z.eqb (2 ^ k) a0); [eauto|]. rewrite F by exact K. eauto.
  - destruct (Z.eqb (2 ^ k) a0); [eauto|]. apply IH. exact K.
Qed.
