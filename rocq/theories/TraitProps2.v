(** C74-C76: common_type, conversions and lifetimes, aligned_storage. *)
From Coq Require Import ZArith NArith List Bool Lia Permutation.
From Verif Require Import TyModel TraitModel TraitSpec TraitProofs TraitCommon TraitMore.
Import ListNotations.
Open Scope Z_scope.

(** ** C74: common_type *)

(** The instantiation always ends, the result (if there is one) is decayed, and only the decayed arguments matter. *)
Theorem C74_decayed : forall cond ts us, (forall a b c, cond a b = Some c -> wf c) ->
  Forall2 (fun t u => wf t /\ wf u /\ decay t = decay u) ts us ->
  exists m, common_type cond 2 ts = Some m /\ common_type cond 2 us = Some m /\
            forall c, m = Some c -> wf c /\ decayed c.
Proof.
  intros cond ts us CW H.
  destruct H as [|t u ts us (Wt & Wu & E) H]; [exists None; repeat split; discriminate|].
  destruct H as [|t2 u2 ts us (Wt2 & Wu2 & E2) H].
  - cbn [common_type]. rewrite (common_type2_cong cond t t u u) by assumption.
    destruct (common_type2_total cond u u Wu Wu) as [m X]. rewrite X. exists m. repeat split; subst;
      apply (common_type2_wf cond CW u u c Wu Wu) in X; tauto.
  - destruct H as [|t3 u3 ts us (Wt3 & Wu3 & E3) H]; cbn [common_type].
    + rewrite (common_type2_cong cond t t2 u u2) by assumption.
      destruct (common_type2_total cond u u2 Wu Wu2) as [m X]. rewrite X. exists m. repeat split; subst;
        apply (common_type2_wf cond CW u u2 c Wu Wu2) in X; tauto.
    + rewrite (impl_cong cond CW (t3 :: ts) (u3 :: us) t t2 u u2); auto.
      assert (WL : Forall wf (u3 :: us)) by (constructor; [exact Wu3|]; clear - H; induction H; constructor; tauto).
      destruct (impl_total cond CW (u3 :: us) u u2 Wu Wu2 WL) as (m & X & Y). exists m. auto.
Qed.
Print Assumptions C74_decayed.

(** common_type of one type is its decay, when two values of that type have it as their common type in a conditional
    expression. *)
Theorem C74_single : forall cond t d e, wf t -> decay t = Some d -> declval d = Some e -> cond e e = Some e ->
  common_type cond 2 [t] = Some (Some d).
Proof.
  intros cond t d e W D E C. cbn [common_type]. rewrite (common_type2_decay cond 0 t t d d W W D D).
  unfold common_type2_imp. rewrite E, C. destruct (decay_idem t d W D) as (Dd & Wd & _).
  rewrite declval_expr in E by exact Wd.
  destruct d as [q|q a|q|q n|q n|q n|q u|q c u|u|u|u n|u|r ps el q s]; injection E as <- || idtac;
    try (f_equal; exact Dd).
  destruct s; [destruct (qc q || qv q); [discriminate E|]|discriminate E|discriminate E].
  injection E as <-. f_equal. exact Dd.
Qed.
Print Assumptions C74_single.

(** For arithmetic types, whatever their qualifiers and references: there is always a common type; it does not depend on
    the order of the arguments, nor on repetitions; it is the type itself if all are the same. *)
Theorem C74_arithmetic : forall p cond ts us, standard p -> arith_cond p cond -> ts <> [] ->
  Forall wf ts -> Forall wf us ->
  (forall t, In t (ts ++ us) -> exists a, decay t = Some (TArith nocv a)) ->
  (forall d, In (Some d) (map decay ts) <-> In (Some d) (map decay us)) ->
  exists r, common_type cond 2 ts = Some (Some (TArith nocv r)) /\ common_type cond 2 us = Some (Some (TArith nocv r)) /\
            (forall a, (forall t, In t ts -> decay t = Some (TArith nocv a)) -> r = a).
Proof.
  intros p cond ts us ST AC NE Wt Wu D S.
  assert (L : forall l, (forall t, In t l -> exists a, decay t = Some (TArith nocv a)) ->
              exists as_, Forall2 (fun v c => decay v = Some (TArith nocv c)) l as_).
  { induction l as [|t l IH]; intros H; [exists []; constructor|].
    destruct (H t (or_introl eq_refl)) as [a A]. destruct IH as [as_ F]; [intros x X; apply H; right; exact X|].
    exists (a :: as_). constructor; assumption. }
  destruct (L ts) as [as_ Fa]; [intros t I; apply D; apply in_or_app; auto|].
  destruct (L us) as [bs Fb]; [intros t I; apply D; apply in_or_app; auto|].
  assert (M : forall l cs, Forall2 (fun v c => decay v = Some (TArith nocv c)) l cs ->
     forall c, In c cs <-> In (Some (TArith nocv c)) (map decay l)).
  { induction 1 as [|v c0 l cs E F IH]; intros c; cbn; [tauto|]. rewrite IH, E. split; intros [X|X]; auto; left; congruence. }
  assert (SE : forall c, In c as_ <-> In c bs) by (intros c; rewrite (M _ _ Fa), (M _ _ Fb); apply S).
  destruct as_ as [|a as_]; [inversion Fa; subst; congruence|].
  destruct bs as [|b bs]; [exfalso; apply (proj1 (SE a)); left; reflexivity|].
  rewrite (common_arith p cond ts a as_ AC Wt Fa), (common_arith p cond us b bs AC Wu Fb).
  exists (fold_left (join p) as_ a).
  assert (AB : forall x l y, In x (y :: l) -> join p x (fold_left (join p) l y) = fold_left (join p) l y).
  { intros x l y I. destruct (fold_join_member p y l x ST I) as [z ->]. rewrite <- join_assoc by exact ST. rewrite join_idem. reflexivity. }
  assert (AC2 : forall l y m, (forall x, In x (y :: l) -> join p x m = m) -> join p (fold_left (join p) l y) m = m).
  { induction l as [|x l IH]; intros y m H; cbn; [apply H; left; reflexivity|].
    apply IH. intros w [<-|I]; [|apply H; right; right; exact I].
    rewrite join_assoc by exact ST. rewrite (H x (or_intror (or_introl eq_refl))). apply H. left. reflexivity. }
  split; [reflexivity|]. split.
  - do 3 f_equal.
    assert (X : join p (fold_left (join p) as_ a) (fold_left (join p) bs b) = fold_left (join p) bs b)
      by (apply AC2; intros x I; apply AB; apply SE; exact I).
    assert (Y : join p (fold_left (join p) bs b) (fold_left (join p) as_ a) = fold_left (join p) as_ a)
      by (apply AC2; intros x I; apply AB; apply SE; exact I).
    rewrite (join_comm p _ _ ST) in Y. congruence.
  - intros a' H. assert (AllE : forall c, In c (a :: as_) -> c = a').
    { intros c I. apply (M _ _ Fa) in I. apply in_map_iff in I. destruct I as (t & E & I).
      rewrite (H t I) in E. congruence. }
    assert (Z : forall l, (forall c, In c (a :: l) -> c = a') -> fold_left (join p) l a = a').
    { clear - ST. intros l H. assert (a = a') by (apply H; left; reflexivity). subst a'.
      induction l as [|c l IH]; cbn; [reflexivity|].
      rewrite (H c) by (right; left; reflexivity). rewrite join_idem. apply IH. intros d [<-|I]; [reflexivity|]. apply H. right. right. exact I. }
    apply Z. exact AllE.
Qed.
Print Assumptions C74_arithmetic.

(** What the common type can hold: it is a floating type as soon as one argument is, the largest of them; if all are
    integers, no argument has a value above its largest, every negative value of an argument is there unless the type is
    unsigned, and unless all arguments are the same type it is unsigned only if the promotion of some argument is. *)
Theorem C74_values : forall p cond ts as_, standard p -> arith_cond p cond -> ts <> [] -> Forall wf ts ->
  Forall2 (fun v c => decay v = Some (TArith nocv c)) ts as_ ->
  exists r, common_type cond 2 ts = Some (Some (TArith nocv r)) /\
    frank r = list_max (map frank as_) /\
    (Forall (fun a => int_like a = true) as_ ->
       int_like r = true /\
       (forall a, In a as_ -> hi p a <= hi p r /\ (lo p r <= lo p a \/ p_signed p r = false)) /\
       (Forall (fun a => p_signed p (promote p a) = true) as_ -> forall a, In a as_ -> lo p r <= lo p a)).
Proof.
  intros p cond ts as_ ST AC NE W F. destruct as_ as [|a as_]; [inversion F; subst; congruence|].
  exists (fold_left (join p) as_ a). split; [apply (common_arith p cond ts a as_ AC W F)|].
  split; [apply fold_frank; exact ST|].
  intros I. assert (IR : int_like (fold_left (join p) as_ a) = true) by (apply fold_int_like; assumption).
  split; [exact IR|].
  assert (CV : forall x, In x (a :: as_) -> covers p (fold_left (join p) as_ a) x).
  { intros x Hx. destruct (fold_join_member p a as_ x ST Hx) as [y E]. rewrite E in *.
    apply join_int_like in IR; [|exact ST]. apply join_covers; tauto. }
  split; [exact CV|].
  intros S x Hx. destruct (CV x Hx) as [_ [C|C]]; [exact C|].
  assert (SF : p_signed p (promote p (fold_left (join p) as_ a)) = true).
  { apply fold_signed; [exact ST|]. rewrite Forall_forall in *. intros y Hy. split; [apply I|apply S]; exact Hy. }
  (* an unsigned result with a signed promotion is one of the small types: all arguments are the same *)
  set (r := fold_left (join p) as_ a) in *.
  assert (lo p r = 0) by (unfold lo; destruct r; try rewrite C; reflexivity).
  destruct (fold_join_member p a as_ x ST Hx) as [y E]. fold r in E.
  destruct (arith_eqb x y) eqn:XY; [apply arith_eqb_eq in XY; subst y; rewrite join_idem in E; rewrite E; lia|].
  assert (NXY : x <> y) by (intros ->; rewrite (proj2 (arith_eqb_eq y y) eq_refl) in XY; discriminate XY).
  rewrite E in IR. apply join_int_like in IR; [|exact ST]. destruct IR as [IX IY].
  rewrite join_neq in E by assumption.
  assert (PR : promoted r = true) by (rewrite E; apply usual_int_promoted; [exact ST| |]; apply promote_promoted; assumption).
  rewrite promote_id in SF by exact PR. congruence.
Qed.
Print Assumptions C74_values.

(** Non-vacuity: a 64-bit platform meets the requirements; int, unsigned, const short& have common type unsigned int. *)
Lemma lp64_standard : standard lp64.
Proof. constructor; cbn; unfold same_range; cbn; repeat split; lia. Qed.
Definition lp64_cond (t u : ty) : option ty :=
  match t, u with
  | TRref (TArith q a), TRref (TArith q' b) =>
      if cv_eqb q nocv && cv_eqb q' nocv then
        Some (if arith_eqb a b then TRref (TArith nocv a) else TArith nocv (usual lp64 a b))
      else None
  | _, _ => None
  end.
Example C74_case : arith_cond lp64 lp64_cond /\
  common_type lp64_cond 2 [TLref (TArith (Cv true false) Short); TArith nocv Int; TArith (Cv false true) UInt]
    = Some (Some (TArith nocv UInt)) /\
  common_type lp64_cond 2 [TArith nocv Short; TArith nocv Short] = Some (Some (TArith nocv Short)) /\
  common_type lp64_cond 2 [TArith nocv Short; TArith nocv Char] = Some (Some (TArith nocv Int)) /\
  common_type lp64_cond 2 [TArith nocv ULong; TArith nocv LLong] = Some (Some (TArith nocv ULLong)).
Proof. split; [intros a b; reflexivity|]. repeat split. Qed.

(** ** C75: conversions and lifetimes *)

(** is_convertible<From, To> holds iff a function returning To may consist of return declval<From>(), whatever the
    conversions of the classes involved. *)
Theorem C75_convertible : forall copy_init from to, wf from -> wf to ->
  (is_convertible copy_init from to = true <-> returns copy_init from to).
Proof. exact convertible_returns. Qed.
Print Assumptions C75_convertible.
Example C75_convertible_case :
  let i := TArith nocv Int in
  let any := fun _ _ : ty => true in
  is_convertible any (TVoid (Cv true false)) (TVoid nocv) = true /\ is_convertible any i (TVoid nocv) = false /\
  is_convertible any (TArr i 3) (TPtr nocv i) = true /\ is_convertible any (TArr i 3) (TArr i 3) = false /\
  is_convertible any (TVoid nocv) i = false.
Proof. repeat split. Qed.

(** is_destructible: references are, objects with an accessible destructor are, arrays of known bound as their elements,
    and nothing else. *)
Theorem C75_destructible : forall dtor t, wf t -> is_destructible dtor t = destructible dtor t.
Proof. exact destructible_spec. Qed.
Print Assumptions C75_destructible.

(** is_default_constructible is right for destructible types that are not arrays; of an array it is always false. *)
Theorem C75_default_partial : forall ctor t, wf t ->
  (is_array t = false -> is_default_constructible ctor t = constructible ctor t) /\
  (is_array t = true -> is_default_constructible ctor t = false).
Proof.
  intros ctor t W. split; intros A; destruct t as [q|q a|q|q n|q n|q n|q t|q c t|t|t|t n|t|r ps e q s];
    try discriminate A; try reflexivity; destruct q as [[] []]; reflexivity.
Qed.
Print Assumptions C75_default_partial.
Theorem C75_default_refuted : exists t, wf t /\ constructible (fun _ => true) t = true /\
  is_default_constructible (fun _ => true) t = false.
Proof. exists (TArr (TArith nocv Int) 3). cbn. repeat split. discriminate. Qed.
Print Assumptions C75_default_refuted.

(** is_empty answers for classes that can be derived from and need no more alignment than a double. *)
Theorem C75_empty_partial : forall k q n, l_final (k n) = false -> (l_empty (k n) = false -> 1 <= l_size (k n)) ->
  1 <= l_align (k n) <= 8 -> is_empty k (TClass q n) = Some (l_empty (k n)).
Proof. intros k q n F S A. exact (empty_spec k (TClass q n) n q eq_refl F S A). Qed.
Print Assumptions C75_empty_partial.
(** For a union and for a final class the program does not compile; an empty class with a stricter alignment counts as
    not empty. *)
Theorem C75_empty_refuted :
  (forall k n, is_empty k (TUnion nocv n) = None) /\
  (exists k n, l_final (k n) = true /\ is_empty k (TClass nocv n) = None) /\
  (exists k n, l_empty (k n) = true /\ l_final (k n) = false /\ is_empty k (TClass nocv n) = Some false).
Proof.
  split; [reflexivity|]. split.
  - exists (fun _ => Layout true true 0 1), 5%nat. split; reflexivity.
  - exists (fun _ => Layout false true 0 16), 5%nat. repeat split.
Qed.
Print Assumptions C75_empty_refuted.
Example C75_empty_case :
  is_empty (fun _ => Layout false true 0 1) (TClass nocv 5) = Some true /\
  is_empty (fun _ => Layout false false 1 1) (TClass nocv 5) = Some false.
Proof. split; reflexivity. Qed.

(** ** C76: aligned_storage *)

(** For every length and every alignment that is a power of two, the storage has that alignment and room for the length, in
    whole units; up to alignment 2^14 it is the least such multiple. *)
Theorem C76_storage : forall h tl len k, 1 <= len -> 0 <= k -> len + 2 ^ k <= 2 ^ 64 ->
  (forall a s, In (a, s) (h :: tl) -> 0 <= s) ->
  exists size, aligned_storage h tl len (2 ^ k) = Some (size, 2 ^ k) /\ len <= size /\ size mod 2 ^ k = 0 /\
    (k <= 14 -> size < len + 2 ^ k).
Proof.
  intros h tl len k L K B P. unfold aligned_storage.
  assert (A : 1 <= 2 ^ k) by (pose proof (Z.pow_pos_nonneg 2 k); lia).
  rewrite bytes_round by assumption.
  destruct (round_up_spec len (2 ^ k) A) as [R1 R2]; [lia|].
  replace (round_up len (2 ^ k) =? 0) with false by (symmetry; apply Z.eqb_neq; lia).
  destruct (specialised (2 ^ k)) eqn:S.
  - rewrite (round_up_id (round_up len (2 ^ k))) by (try exact A; try exact R2; lia).
    eexists. split; [reflexivity|]. split; [lia|]. split; [exact R2|]. intros _. lia.
  - destruct (find_pod_pow tl h k K) as [s E]. rewrite E.
    assert (0 <= s).
    { destruct (find_pod_spec tl h _ _ E) as [I|[-> _]]; [exact (P _ _ I)|lia]. }
    destruct (round_up_spec (Z.max s (round_up len (2 ^ k))) (2 ^ k) A) as [Q1 Q2]; [lia|].
    eexists. split; [reflexivity|]. split; [lia|]. split; [exact Q2|].
    intros K14. rewrite pow_specialised in S by lia. discriminate S.
Qed.
Print Assumptions C76_storage.

(** The default alignment is that of a listed type: the largest that is not larger than the length, or the smallest of all
    if they all are. *)
Theorem C76_default_align : forall h tl len, let r := default_align h tl len in
  In r (map fst (h :: tl)) /\
  ((r <= len /\ forall x, In x (map fst (h :: tl)) -> x <= len -> x <= r) \/
   (len < r /\ forall x, In x (map fst (h :: tl)) -> len < x /\ r <= x)).
Proof. intros h tl len. exact (max_align_spec (map fst tl) (fst h) len). Qed.
Print Assumptions C76_default_align.

(** Without an alignment argument: enough room and the default alignment, for lists of powers of two up to 2^14. *)
Theorem C76_default : forall h tl len, 1 <= len <= 2 ^ 63 ->
  (forall a s, In (a, s) (h :: tl) -> 0 <= s /\ exists k, 0 <= k <= 14 /\ a = 2 ^ k) ->
  let al := default_align h tl len in
  exists size, aligned_storage h tl len al = Some (size, al) /\ len <= size < len + al.
Proof.
  intros h tl len L P al.
  destruct (C76_default_align h tl len) as [I _]. fold al in I.
  apply in_map_iff in I. destruct I as ([a s] & E & I). cbn in E. subst a.
  destruct (P _ _ I) as (_ & k & K & Ek). rewrite Ek.
  assert (2 ^ k <= 2 ^ 14) by (apply Z.pow_le_mono_r; lia).
  destruct (C76_storage h tl len k) as (size & A & B & _ & C); [lia|lia|lia|intros x y J; apply (P _ _ J)|].
  exists size. split; [exact A|]. split; [exact B|]. apply C. lia.
Qed.
Print Assumptions C76_default.
Example C76_case :
  let h := (1, 1) in
  let tl := [(2, 2); (4, 4); (8, 8); (8, 8); (8, 8); (16, 16); (16, 16); (8, 32); (8, 8)] in
  default_align h tl 13 = 8 /\ aligned_storage h tl 13 8 = Some (16, 8) /\ aligned_storage h tl 100 32768 = Some (32768, 32768).
Proof. repeat split. Qed.
