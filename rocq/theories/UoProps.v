(** C97: the comparisons of unique_ptr with each other and with nullptr; hash. *)
From Coq Require Import ZArith Lia Bool.
From Verif Require Import UoModel.
Open Scope Z_scope.

(** What holds of the classes of any program without virtual bases: the offset of a class
    in itself is 0; if e is a base of c by way of d its offset is the sum; no class is a
    base of its bases. *)
Definition classes (base : nat -> nat -> option Z) : Prop :=
  (forall c, base c c = Some 0) /\
  (forall c d e k l m, base c d = Some k -> base d e = Some l -> base c e = Some m -> m = k + l) /\
  (exists rank : nat -> nat, forall c d k, base c d = Some k -> c = d \/ (rank d < rank c)%nat).

(** A pointer that is null or points to an object, whose base subobjects all have an
    address. *)
Definition valid (base : nat -> nat -> option Z) (x : uptr) : Prop :=
  get x = 0 \/ forall b k, base (cls x) b = Some k -> 0 < get x + k.

(** One pointee class is the other or a base of it. *)
Definition related (base : nat -> nat -> option Z) (x y : uptr) : Prop :=
  exists k, base (cls x) (cls y) = Some k \/ base (cls y) (cls x) = Some k.

Lemma valid_nonneg base x : classes base -> valid base x -> 0 <= get x.
Proof. intros (R & _) [H|H]; [lia|]. specialize (H _ _ (R (cls x))). lia. Qed.

Lemma related_sym base x y : related base x y -> related base y x.
Proof. intros (k & H). exists k. tauto. Qed.

(** The composite type from both sides. *)
Lemma composite_cases base x y : related base x y ->
  (exists k, base (cls x) (cls y) = Some k /\ composite base (cls x) (cls y) = Some (cls y, k, 0)) \/
  (exists k, base (cls x) (cls y) = None /\ base (cls y) (cls x) = Some k /\ composite base (cls x) (cls y) = Some (cls x, 0, k)).
Proof.
  intros (k & H). unfold composite. destruct (base (cls x) (cls y)) as [k1|] eqn:B1; [left; eauto|].
  destruct H as [H|H]; [discriminate|]. right. exists k. rewrite H. auto.
Qed.

Lemma conv0 p : conv 0 p = p.
Proof. unfold conv. destruct (Z.eqb_spec p 0); lia. Qed.

(** Both ways round the same pair of addresses is compared. *)
Lemma both_ways base x y : classes base -> related base x y ->
  exists a b, (eq base x y = Some (a =? b) /\ lt base x y = Some (a <? b)) /\ (eq base y x = Some (b =? a) /\ lt base y x = Some (b <? a)).
Proof.
  intros (R & S & rank & K) H. unfold eq, lt, less.
  destruct (composite_cases base x y H) as [(k & B & ->)|(k & B & B' & ->)]; rewrite ?conv0.
  - destruct (composite_cases base y x (related_sym _ _ _ H)) as [(l & B1 & ->)|(l & B1 & B2 & ->)]; rewrite ?conv0.
    + assert (E : cls x = cls y) by (destruct (K _ _ _ B) as [E|E], (K _ _ _ B1) as [E'|E']; congruence || lia).
      rewrite E, R in B, B1. injection B as <-. injection B1 as <-. rewrite !conv0. exists (get x), (get y). auto.
    + rewrite B in B2. injection B2 as <-. exists (conv k (get x)), (get y). auto.
  - destruct (composite_cases base y x (related_sym _ _ _ H)) as [(l & B1 & ->)|(l & B1 & B2 & ->)]; rewrite ?conv0; [|congruence].
    rewrite B' in B1. injection B1 as <-. exists (get x), (conv k (get y)). auto.
Qed.

(** Two unique_ptrs can be compared, by any of the six operators, exactly when their
    pointee classes are related. *)
Theorem C97_compiles : forall base x y,
  (related base x y <-> eq base x y <> None) /\ (related base x y <-> ne base x y <> None) /\
  (related base x y <-> lt base x y <> None) /\ (related base x y <-> gt base x y <> None) /\
  (related base x y <-> le base x y <> None) /\ (related base x y <-> ge base x y <> None).
Proof.
  intros base x y. unfold related, ne, gt, le, ge, eq, lt, composite.
  destruct (base (cls x) (cls y)) as [k|] eqn:B1, (base (cls y) (cls x)) as [l|] eqn:B2; cbn;
    repeat split; try discriminate; eauto; intros H; (destruct H as (m & [H|H]); discriminate) || congruence.
Qed.
Print Assumptions C97_compiles.

(** Of two unique_ptrs exactly one of <, == and > holds; !=, <= and >= are what they
    should be in terms of those; and the operators agree with their mirror images. *)
Theorem C97_trichotomy : forall base x y, classes base -> related base x y ->
  exists e l g, eq base x y = Some e /\ lt base x y = Some l /\ gt base x y = Some g /\
    ne base x y = Some (negb e) /\ le base x y = Some (l || e) /\ ge base x y = Some (g || e) /\
    eq base y x = Some e /\ lt base y x = Some g /\ gt base y x = Some l /\
    ((e = true /\ l = false /\ g = false) \/ (e = false /\ l = true /\ g = false) \/ (e = false /\ l = false /\ g = true)).
Proof.
  intros base x y C H. destruct (both_ways base x y C H) as (a & b & (E1 & L1) & (E2 & L2)).
  exists (a =? b), (a <? b), (b <? a). unfold ne, gt, le, ge. rewrite E1, L1, E2, L2, (Z.eqb_sym b a). cbn.
  destruct (Z.eqb_spec a b), (Z.ltb_spec a b), (Z.ltb_spec b a); try lia; cbn; repeat split; auto.
Qed.
Print Assumptions C97_trichotomy.

(** == says whether both are null or both point to the same object: the object of the base
    class is the one inside the object of the derived class. *)
Theorem C97_same_object : forall base x y k, classes base -> valid base x -> base (cls x) (cls y) = Some k ->
  (eq base x y = Some true <-> (get x = 0 /\ get y = 0) \/ (get x <> 0 /\ get y = get x + k)) /\
  (eq base y x = Some true <-> (get x = 0 /\ get y = 0) \/ (get x <> 0 /\ get y = get x + k)).
Proof.
  intros base x y k C V B. assert (H : related base x y) by (exists k; auto).
  assert (E : eq base x y = Some true <-> (get x = 0 /\ get y = 0) \/ (get x <> 0 /\ get y = get x + k)).
  { unfold eq, composite. rewrite B, conv0. unfold conv. destruct (Z.eqb_spec (get x) 0) as [Z|Z].
    - destruct (Z.eqb_spec 0 (get y)); split; intros; try discriminate; try reflexivity; lia.
    - destruct (Z.eqb_spec (get x + k) (get y)); split; intros; try discriminate; try reflexivity; lia. }
  split; [exact E|]. destruct (C97_trichotomy base x y C H) as (e & l & g & E1 & _ & _ & _ & _ & _ & E2 & _). rewrite E2, <- E1. exact E.
Qed.
Print Assumptions C97_same_object.

(** Comparing at any class that both convert to gives the same. *)
Lemma at_top base x y t kx ky : classes base -> valid base x -> valid base y -> related base x y ->
  base (cls x) t = Some kx -> base (cls y) t = Some ky ->
  eq base x y = Some (conv kx (get x) =? conv ky (get y)) /\ lt base x y = Some (conv kx (get x) <? conv ky (get y)).
Proof.
  intros C Vx Vy H Bx By. pose proof (valid_nonneg _ _ C Vx) as Nx. pose proof (valid_nonneg _ _ C Vy) as Ny. destruct C as (R & S & _).
  unfold eq, lt, less. destruct (composite_cases base x y H) as [(k & B & ->)|(k & _ & B & ->)]; rewrite conv0.
  - pose proof (S _ _ _ _ _ _ B By Bx) as ->.
    assert (X : get x = 0 \/ (0 < get x + k /\ 0 < get x + (k + ky))) by (destruct Vx as [V|V]; [auto|right; split; eapply V; eassumption]).
    assert (Y : get y = 0 \/ (0 < get y /\ 0 < get y + ky)) by (destruct Vy as [V|V]; [auto|right; pose proof (V _ _ By); pose proof (V _ _ (R _)); lia]).
    clear - X Y Nx Ny. unfold conv. destruct (Z.eqb_spec (get x) 0), (Z.eqb_spec (get y) 0); split; f_equal;
      match goal with |- (?a =? ?b) = (?c =? ?d) => destruct (Z.eqb_spec a b), (Z.eqb_spec c d) | |- (?a <? ?b) = (?c <? ?d) => destruct (Z.ltb_spec a b), (Z.ltb_spec c d) end; lia.
  - pose proof (S _ _ _ _ _ _ B Bx By) as ->.
    assert (X : get y = 0 \/ (0 < get y + k /\ 0 < get y + (k + kx))) by (destruct Vy as [V|V]; [auto|right; split; eapply V; eassumption]).
    assert (Y : get x = 0 \/ (0 < get x /\ 0 < get x + kx)) by (destruct Vx as [V|V]; [auto|right; pose proof (V _ _ Bx); pose proof (V _ _ (R _)); lia]).
    clear - X Y Nx Ny. unfold conv. destruct (Z.eqb_spec (get x) 0), (Z.eqb_spec (get y) 0); split; f_equal;
      match goal with |- (?a =? ?b) = (?c =? ?d) => destruct (Z.eqb_spec a b), (Z.eqb_spec c d) | |- (?a <? ?b) = (?c <? ?d) => destruct (Z.ltb_spec a b), (Z.ltb_spec c d) end; lia.
Qed.

(** Of three classes that are pairwise related one is a base of the others. *)
Lemma top_of base x y z : classes base -> related base x y -> related base y z -> related base x z ->
  exists t kx ky kz, base (cls x) t = Some kx /\ base (cls y) t = Some ky /\ base (cls z) t = Some kz.
Proof.
  intros (R & S & rank & K) (a & A) (b & B) (c & D).
  assert (TX : forall k l, base (cls y) (cls x) = Some k -> base (cls z) (cls x) = Some l -> exists t kx ky kz, base (cls x) t = Some kx /\ base (cls y) t = Some ky /\ base (cls z) t = Some kz) by (intros; do 4 eexists; eauto).
  assert (TY : forall k l, base (cls x) (cls y) = Some k -> base (cls z) (cls y) = Some l -> exists t kx ky kz, base (cls x) t = Some kx /\ base (cls y) t = Some ky /\ base (cls z) t = Some kz) by (intros; do 4 eexists; eauto).
  assert (TZ : forall k l, base (cls x) (cls z) = Some k -> base (cls y) (cls z) = Some l -> exists t kx ky kz, base (cls x) t = Some kx /\ base (cls y) t = Some ky /\ base (cls z) t = Some kz) by (intros; do 4 eexists; eauto).
  pose proof (R (cls x)) as RX. pose proof (R (cls y)) as RY. pose proof (R (cls z)) as RZ.
  destruct A as [A|A], B as [B|B], D as [D|D]; try solve [eapply TX; eassumption | eapply TY; eassumption | eapply TZ; eassumption];
    pose proof (K _ _ _ A) as KA; pose proof (K _ _ _ B) as KB; pose proof (K _ _ _ D) as KD.
  all: destruct KA as [KA|KA]; [rewrite KA in *; solve [eapply TX; eassumption | eapply TY; eassumption | eapply TZ; eassumption]|].
  all: destruct KB as [KB|KB]; [rewrite KB in *; solve [eapply TX; eassumption | eapply TY; eassumption | eapply TZ; eassumption]|].
  all: destruct KD as [KD|KD]; [rewrite KD in *; solve [eapply TX; eassumption | eapply TY; eassumption | eapply TZ; eassumption]|lia].
Qed.

(** == is transitive and < is a strict order that respects ==, also between unique_ptrs of
    different types. *)
Theorem C97_transitive : forall base x y z, classes base -> valid base x -> valid base y -> valid base z ->
  related base x y -> related base y z -> related base x z ->
  (eq base x y = Some true -> eq base y z = Some true -> eq base x z = Some true) /\
  (lt base x y = Some true -> lt base y z = Some true -> lt base x z = Some true) /\
  (eq base x y = Some true -> lt base y z = lt base x z) /\
  (eq base y z = Some true -> lt base x y = lt base x z).
Proof.
  intros base x y z C Vx Vy Vz H1 H2 H3. destruct (top_of base x y z C H1 H2 H3) as (t & kx & ky & kz & Bx & By & Bz).
  destruct (at_top base x y t kx ky C Vx Vy H1 Bx By) as [-> ->]. destruct (at_top base y z t ky kz C Vy Vz H2 By Bz) as [-> ->].
  destruct (at_top base x z t kx kz C Vx Vz H3 Bx Bz) as [-> ->]. generalize (conv kx (get x)) (conv ky (get y)) (conv kz (get z)). clear. intros a b c.
  destruct (Z.eqb_spec a b), (Z.eqb_spec b c), (Z.eqb_spec a c), (Z.ltb_spec a b), (Z.ltb_spec b c), (Z.ltb_spec a c);
    repeat split; intros; try discriminate; try reflexivity; lia.
Qed.
Print Assumptions C97_transitive.

(** The comparisons with nullptr, on either side: null is equal to nullptr and everything
    else is greater; and they say the same as comparing with a null unique_ptr [n] of a
    related type. *)
Theorem C97_nullptr : forall base x n, classes base -> valid base x ->
  (eq_null x = true <-> get x = 0) /\ null_eq x = eq_null x /\
  ne_null x = negb (eq_null x) /\ null_ne x = negb (eq_null x) /\
  lt_null x = false /\ null_gt x = false /\ ge_null x = true /\ null_le x = true /\
  gt_null x = negb (eq_null x) /\ null_lt x = negb (eq_null x) /\ le_null x = eq_null x /\ null_ge x = eq_null x /\
  (related base x n -> get n = 0 ->
     eq base x n = Some (eq_null x) /\ lt base x n = Some (lt_null x) /\ gt base x n = Some (gt_null x) /\
     ne base x n = Some (ne_null x) /\ le base x n = Some (le_null x) /\ ge base x n = Some (ge_null x)).
Proof.
  intros base x n C V. pose proof (valid_nonneg _ _ C V) as N.
  unfold eq_null, null_eq, ne_null, null_ne, lt_null, null_gt, ge_null, null_le, gt_null, null_lt, le_null, null_ge, to_bool, lt_null, null_lt, less.
  destruct (Z.eqb_spec (get x) 0) as [Z|Z].
  - rewrite Z. cbn. repeat split; auto; rename H into HR, H0 into Zn; destruct (composite_cases base x n HR) as [(k & _ & E1)|(k & _ & _ & E1)];
      destruct (composite_cases base n x (related_sym _ _ _ HR)) as [(l & _ & E2)|(l & _ & _ & E2)]; unfold ne, gt, le, ge, eq, lt, less; rewrite ?E1, ?E2, ?Z, ?Zn; reflexivity.
  - assert (L : 0 < get x) by lia. replace (get x <? 0) with false by (symmetry; apply Z.ltb_ge; lia). replace (0 <? get x) with true by (symmetry; apply Z.ltb_lt; lia).
    repeat match goal with |- _ /\ _ => split end; try reflexivity; try (split; [discriminate|lia]).
    intros HR Zn. destruct C as (R & S & _).
    assert (P : forall b k, base (cls x) b = Some k -> 0 < get x + k) by (destruct V as [V|V]; [lia|exact V]).
    destruct (composite_cases base x n HR) as [(k & B & E1)|(k & _ & B & E1)]; destruct (composite_cases base n x (related_sym _ _ _ HR)) as [(l & B' & E2)|(l & _ & B' & E2)];
      unfold ne, gt, le, ge, eq, lt, less; rewrite E1, E2, Zn; change (conv k 0) with 0; change (conv l 0) with 0; rewrite ?conv0; change (conv 0 0) with 0; unfold conv;
      destruct (Z.eqb_spec (get x) 0); try lia;
      repeat match goal with B : base (cls x) _ = Some _ |- _ => apply P in B end;
      repeat match goal with |- _ /\ _ => split end; cbn; f_equal;
      first [apply Z.eqb_neq; lia | apply Z.ltb_ge; lia | apply Z.ltb_lt; lia
        | apply negb_true_iff; first [apply Z.eqb_neq; lia | apply Z.ltb_ge; lia]
        | apply negb_false_iff; apply Z.ltb_lt; lia].
Qed.
Print Assumptions C97_nullptr.

(** A deleter may name as its pointer an integer type; then the hashes of two unique_ptrs
    are equal exactly when the integers are.  With nullptr_t all are equal. *)
Theorem C97_hash : forall s bits v w, 0 < bits <= 64 ->
  (if s : bool then - 2 ^ (bits - 1) <= v < 2 ^ (bits - 1) /\ - 2 ^ (bits - 1) <= w < 2 ^ (bits - 1) else 0 <= v < 2 ^ bits /\ 0 <= w < 2 ^ bits) ->
  (hash_uptr (PInt s bits) v = hash_uptr (PInt s bits) w <-> v = w) /\
  (exists h, hash_uptr (PInt s bits) v = Some h /\ 0 <= h < 2 ^ 64) /\
  hash_uptr PNull v = hash_uptr PNull w.
Proof.
  intros s bits v w Hb Hr. pose proof (Z.pow_le_mono_r 2 bits 64 ltac:(lia) ltac:(lia)) as M.
  pose proof (Z.pow_le_mono_r 2 (bits - 1) 63 ltac:(lia) ltac:(lia)) as M'. change (2 ^ 64) with 18446744073709551616 in *. change (2 ^ 63) with 9223372036854775808 in *.
  cbn [hash_uptr hash_pointer]. change (2 ^ 64) with 18446744073709551616. repeat split.
  - intros H. injection H as H. pose proof (Z.div_mod v 18446744073709551616 ltac:(lia)) as D. pose proof (Z.div_mod w 18446744073709551616 ltac:(lia)) as D'.
    rewrite H in D. pose proof (Z.mod_pos_bound w 18446744073709551616 ltac:(lia)) as B.
    destruct s; clear H; nia.
  - intros ->. reflexivity.
  - exists (v mod 18446744073709551616). split; [reflexivity|apply Z.mod_pos_bound; lia].
Qed.
Print Assumptions C97_hash.

(** hash<unique_ptr<T>> cannot be used with the default deleter: hash is not defined for
    raw pointers. *)
Theorem C97_hash_refuted : exists p, forall v, hash_uptr p v = None.
Proof. exists PRaw. reflexivity. Qed.
Print Assumptions C97_hash_refuted.

(** Classes 0 : 1, 2 (at offsets 0 and 8) and 1 : 3 (at offset 0), and 4 alone; a pointer to
    an object of class 0 at 100 and one to its subobject of class 2, at 108, are equal; a
    pointer to class 1 and one to class 2 cannot be compared. *)
Definition base_case (c b : nat) : option Z :=
  if Nat.eqb c b then Some 0 else
  match c, b with 0%nat, 1%nat => Some 0 | 0%nat, 2%nat => Some 8 | 0%nat, 3%nat => Some 0 | 1%nat, 3%nat => Some 0 | _, _ => None end.
Example C97_case :
  classes base_case /\ valid base_case (U 0 100) /\ valid base_case (U 2 108) /\ valid base_case (U 3 50) /\
  eq base_case (U 0 100) (U 2 108) = Some true /\ lt base_case (U 2 100) (U 0 100) = Some true /\ eq base_case (U 2 0) (U 0 0) = Some true /\
  lt base_case (U 3 50) (U 1 100) = Some true /\ lt base_case (U 1 100) (U 0 104) = Some true /\ lt base_case (U 3 50) (U 0 104) = Some true /\
  eq base_case (U 1 100) (U 2 108) = None /\ gt_null (U 0 100) = true /\ eq_null (U 0 0) = true /\
  hash_uptr (PInt true 32) (-1) = Some 18446744073709551615.
Proof.
  assert (A : forall c b k, base_case c b = Some k -> (c = b /\ k = 0) \/ (c = 0%nat /\ b = 1%nat /\ k = 0 \/ c = 0%nat /\ b = 2%nat /\ k = 8 \/ c = 0%nat /\ b = 3%nat /\ k = 0 \/ c = 1%nat /\ b = 3%nat /\ k = 0)).
  { unfold base_case. intros c b k. destruct (Nat.eqb_spec c b); [intros H; injection H as <-; auto|].
    destruct c as [|[|c]], b as [|[|[|[|b]]]]; try discriminate; intros H; injection H as <-; tauto. }
  split; [|repeat split; try reflexivity; right; cbn [cls get]; intros b k H; apply A in H; lia].
  split; [|split].
  - intros c. unfold base_case. now rewrite Nat.eqb_refl.
  - intros c d e k l m H1 H2 H3. apply A in H1, H2, H3. lia.
  - exists (fun c => match c with 0 => 2 | 1 => 1 | _ => 0 end)%nat. intros c d k H. apply A in H.
    destruct H as [[-> _]|[(-> & -> & _)|[(-> & -> & _)|[(-> & -> & _)|(-> & -> & _)]]]]; auto; right; cbn; lia.
Qed.
