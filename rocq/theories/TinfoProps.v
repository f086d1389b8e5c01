(** C77: comparison and hashing of type_info. *)
From Coq Require Import ZArith List Bool Lia.
From Verif Require Import TinfoModel.
Import ListNotations.
Open Scope Z_scope.

(** The name at an address: bytes up to a NUL. *)
Fixpoint reads (mem : Z -> Z) (p : Z) (s : list Z) : Prop :=
  match s with [] => mem p = 0 | c :: s => mem p = c /\ 0 < c < 256 /\ reads mem (p + 1) s end.
(** Where the name of a type_info is: the word, without its top bit where that is a flag. *)
Definition name_at (i : impl) (v : Z) : Z := match i with ArmBit => v mod 2 ^ 63 | _ => v end.
(** A type_info and the text of its name. *)
Definition valid (mem : Z -> Z) (fuel : nat) (i : impl) (v : Z) (s : list Z) : Prop :=
  0 <= v < 2 ^ 64 /\ reads mem (name_at i v) s /\ (length s < fuel)%nat.

(** Dictionary order on names. *)
Inductive before_text : list Z -> list Z -> Prop :=
| bt_nil c s : before_text [] (c :: s)
| bt_lt c d s t : c < d -> before_text (c :: s) (d :: t)
| bt_eq c s t : before_text s t -> before_text (c :: s) (c :: t).
(** What identifies a type: its word where the compiler guarantees a single copy of the name, the text elsewhere. *)
Definition shared (i : impl) (v : Z) : Prop := match i with Unique => True | NonUnique => False | ArmBit => v < 2 ^ 63 end.

(** lemmas *)
Lemma shared_dec : forall i v, shared i v \/ ~ shared i v.
Proof. intros [] v; cbn; [tauto|tauto|lia]. Qed.
Lemma strcmp_spec : forall mem s t p q fuel, reads mem p s -> reads mem q t -> (length s < fuel)%nat ->
  exists c, strcmp mem fuel p q = Some c /\ (c = 0 <-> s = t) /\ (c < 0 <-> before_text s t).
Proof.
  intros mem s. induction s as [|a s IH]; intros t p q fuel P Q F; (destruct fuel as [|fuel]; [cbn in F; lia|]); cbn in P; cbn [strcmp].
  - destruct t as [|b t]; cbn in Q.
    + rewrite P, Q. cbn. exists 0. split; [reflexivity|]. split; split; intros; auto; try lia. inversion H.
    + destruct Q as (Q1 & Q2 & _). rewrite P, Q1. replace (0 =? b) with false by (symmetry; apply Z.eqb_neq; lia).
      eexists. split; [reflexivity|]. split; split; intros; try lia; try discriminate. constructor.
  - destruct P as (P1 & P2 & P3). destruct t as [|b t]; cbn in Q.
    + rewrite P1, Q. replace (a =? 0) with false by (symmetry; apply Z.eqb_neq; lia).
      eexists. split; [reflexivity|]. split; split; intros; try lia; try discriminate. inversion H.
    + destruct Q as (Q1 & Q2 & Q3). rewrite P1, Q1. destruct (Z.eqb_spec a b) as [->|N].
      * replace (b =? 0) with false by (symmetry; apply Z.eqb_neq; lia).
        destruct (IH t (p + 1) (q + 1) fuel P3 Q3) as (c & C1 & C2 & C3); [cbn in F; lia|].
        exists c. split; [exact C1|]. rewrite C2, C3. split; split; intros H; try (inversion H; subst; auto; lia); try congruence.
        apply bt_eq. exact H.
      * eexists. split; [reflexivity|]. split; split; intros H; try lia; try congruence.
        -- apply bt_lt. lia.
        -- inversion H; subst; lia.
Qed.
Lemma bt_irrefl : forall s, ~ before_text s s.
Proof. induction s as [|c s IH]; intros H; inversion H; subst; try lia; auto. Qed.
Lemma bt_trans : forall s t u, before_text s t -> before_text t u -> before_text s u.
Proof.
  intros s t u H. revert u. induction H; intros u K; inversion K; subst; try (apply bt_nil); try (apply bt_lt; lia).
  apply bt_eq. auto.
Qed.
Lemma bt_total : forall s t, before_text s t \/ s = t \/ before_text t s.
Proof.
  induction s as [|c s IH]; intros [|d t]; auto; try (left; constructor; fail); try (right; right; constructor; fail).
  destruct (Z.lt_trichotomy c d) as [L|[->|L]].
  - left. apply bt_lt. exact L.
  - destruct (IH t) as [H|[->|H]]; [left; apply bt_eq; exact H|auto|right; right; apply bt_eq; exact H].
  - right. right. apply bt_lt. exact L.
Qed.
Lemma land_bit : forall x, 0 <= x -> Z.land x rtti_bit = if Z.testbit x 63 then 2 ^ 63 else 0.
Proof.
  intros x X. apply Z.bits_inj'. intros n N. rewrite Z.land_spec. change rtti_bit with (2 ^ 63).
  rewrite Z.pow2_bits_eqb by lia. destruct (Z.eqb_spec 63 n) as [<-|E].
  - rewrite andb_true_r. destruct (Z.testbit x 63) eqn:T; [rewrite Z.pow2_bits_eqb by lia; reflexivity|rewrite Z.bits_0; reflexivity].
  - rewrite andb_false_r. destruct (Z.testbit x 63); [rewrite Z.pow2_bits_eqb by lia|rewrite Z.bits_0; reflexivity].
    symmetry. apply Z.eqb_neq. exact E.
Qed.
Lemma testbit63 : forall x, 0 <= x < 2 ^ 64 -> Z.testbit x 63 = negb (x <? 2 ^ 63).
Proof.
  intros x X. destruct (Z.ltb_spec x (2 ^ 63)); cbn [negb].
  - apply Z.testbit_false; [lia|]. rewrite Z.div_small by lia. reflexivity.
  - apply Z.testbit_true; [lia|]. replace (x / 2 ^ 63) with 1; [reflexivity|]. apply Z.div_unique with (x - 2 ^ 63); lia.
Qed.
Lemma is_unique_spec : forall v, 0 <= v < 2 ^ 64 -> is_unique v = (v <? 2 ^ 63).
Proof.
  intros v V. unfold is_unique. rewrite land_bit by lia. rewrite testbit63 by exact V.
  destruct (v <? 2 ^ 63); reflexivity.
Qed.
Lemma is_unique2_spec : forall l r, 0 <= l < 2 ^ 64 -> 0 <= r < 2 ^ 64 -> is_unique2 l r = (l <? 2 ^ 63) || (r <? 2 ^ 63).
Proof.
  intros l r L R. unfold is_unique2. rewrite land_bit by (apply Z.land_nonneg; lia).
  rewrite Z.land_spec, !testbit63 by assumption. destruct (l <? 2 ^ 63), (r <? 2 ^ 63); reflexivity.
Qed.
Lemma reads_fun : forall mem s t p, reads mem p s -> reads mem p t -> s = t.
Proof.
  intros mem s. induction s as [|c s IH]; intros [|d t] p P Q; cbn in *; auto.
  - destruct Q; lia.
  - destruct P; lia.
  - f_equal; [destruct P, Q; congruence|]. apply (IH t (p + 1)); tauto.
Qed.
Lemma hash_loop_ok : forall mem s p q f g h, reads mem p s -> reads mem q s -> (length s < f)%nat -> (length s < g)%nat ->
  exists x, hash_loop mem f p h = Some x /\ hash_loop mem g q h = Some x.
Proof.
  intros mem s. induction s as [|c s IH]; intros p q f g h P Q F G; (destruct f; [cbn in F; lia|]); (destruct g; [cbn in G; lia|]); cbn in *.
  - rewrite P, Q. exists h. auto.
  - destruct P as (P1 & P2 & P3), Q as (Q1 & _ & Q3). rewrite P1, Q1.
    replace (c =? 0) with false by (symmetry; apply Z.eqb_neq; lia). apply IH; auto; lia.
Qed.

Lemma to_string_name : forall i v, 0 <= v < 2 ^ 64 -> to_string i v = name_at i v.
Proof.
  intros [] v V; try reflexivity. cbn [to_string name_at]. change (2 ^ 64 - 1 - rtti_bit) with (Z.ones 63).
  apply Z.land_ones. lia.
Qed.
Lemma hash_range : forall mem s p f h x, reads mem p s -> 0 <= h < 2 ^ 64 -> hash_loop mem f p h = Some x -> 0 <= x < 2 ^ 64.
Proof.
  intros mem s. induction s as [|c s IH]; intros p f h x P H E; (destruct f; [discriminate E|]); cbn [hash_loop reads] in *.
  - rewrite P in E. cbn in E. injection E as <-. exact H.
  - destruct P as (P1 & P2 & P3). rewrite P1 in E. replace (c =? 0) with false in E by (symmetry; apply Z.eqb_neq; lia).
    refine (IH _ _ _ _ P3 _ E). pose proof (Z.mod_pos_bound (h * 33) (2 ^ 64) eq_refl) as M.
    set (a := (h * 33) mod 2 ^ 64) in *. clearbody a. clear - M P2. split; [apply Z.lxor_nonneg; lia|].
    apply Z.lt_le_trans with (2 ^ (Z.log2 (Z.lxor a c) + 1)).
    + destruct (Z.eq_dec (Z.lxor a c) 0) as [->|N]; [reflexivity|].
      assert (0 <= Z.lxor a c) by (apply Z.lxor_nonneg; lia).
      replace (Z.log2 (Z.lxor a c) + 1) with (Z.succ (Z.log2 (Z.lxor a c))) by lia. apply Z.log2_spec. lia.
    + apply Z.pow_le_mono_r; [lia|]. pose proof (Z.log2_lxor a c ltac:(lia) ltac:(lia)) as L.
      assert (La : Z.log2 a < 64) by (destruct (Z.eq_dec a 0) as [->|]; [reflexivity|apply Z.log2_lt_pow2; lia]).
      assert (Lc : Z.log2 c < 64) by (apply Z.log2_lt_pow2; lia). lia.
Qed.

(** operator== and before always return, and say exactly this: two names of which the compiler guarantees single copies
    are compared as words and come before all others; two others are compared as texts. *)
Theorem C77_meaning : forall mem fuel i v w s t, valid mem fuel i v s -> valid mem fuel i w t ->
  exists e l, eq mem fuel i v w = Some e /\ lt mem fuel i v w = Some l /\
    (e = true <-> (shared i v /\ shared i w /\ v = w) \/ (~ shared i v /\ ~ shared i w /\ s = t)) /\
    (l = true <-> (shared i v /\ shared i w /\ v < w) \/ (~ shared i v /\ ~ shared i w /\ before_text s t) \/
                  (shared i v /\ ~ shared i w)).
Proof.
  intros mem fuel i v w s t (V & Rv & Fv) (W & Rw & Fw). rewrite <- to_string_name in Rv, Rw by assumption.
  destruct (strcmp_spec mem s t _ _ fuel Rv Rw Fv) as (c & C1 & C2 & C3).
  assert (ST : v = w -> s = t) by (intros ->; exact (reads_fun _ _ _ _ Rv Rw)).
  destruct i; cbn [eq lt shared] in *.
  - do 2 eexists. split; [reflexivity|]. split; [reflexivity|]. rewrite Z.eqb_eq, Z.ltb_lt. split; split; intros H; tauto.
  - cbn in C1. rewrite C1.
    exists (if v =? w then true else c =? 0), (c <? 0). split; [destruct (v =? w); reflexivity|]. split; [reflexivity|].
    rewrite Z.ltb_lt, C3. split; [|tauto].
    destruct (Z.eqb_spec v w) as [E|E]; [split; auto; intros _; right; auto|]. rewrite Z.eqb_eq, C2. tauto.
  - rewrite C1, is_unique2_spec by assumption.
    destruct (Z.ltb_spec v (2 ^ 63)) as [A|A]; [|destruct (Z.ltb_spec w (2 ^ 63)) as [B|B]]; cbn [orb].
    + exists (v =? w), (v <? w). split; [destruct (v =? w); reflexivity|]. split; [reflexivity|].
      rewrite Z.eqb_eq, Z.ltb_lt. split; split; intros H; try lia.
    + exists (v =? w), (v <? w). split; [destruct (v =? w); reflexivity|]. split; [reflexivity|].
      rewrite Z.eqb_eq, Z.ltb_lt. split; split; intros H; try lia.
    + exists (if v =? w then true else c =? 0), (c <? 0). split; [destruct (v =? w); reflexivity|]. split; [reflexivity|].
      rewrite Z.ltb_lt, C3. split.
      * destruct (Z.eqb_spec v w) as [E|E]; [split; auto; intros _; right; repeat split; auto; lia|].
        rewrite Z.eqb_eq, C2. split; [intros H; right; repeat split; auto; lia|intros [H|H]; [lia|tauto]].
      * split; [intros H; right; left; repeat split; auto; lia|intros [H|[H|H]]; [lia|tauto|lia]].
Qed.
Print Assumptions C77_meaning.

Definition same (i : impl) (v : Z) (s : list Z) (w : Z) (t : list Z) : Prop := (shared i v /\ shared i w /\ v = w) \/ (~ shared i v /\ ~ shared i w /\ s = t).
Definition less (i : impl) (v : Z) (s : list Z) (w : Z) (t : list Z) : Prop :=
  (shared i v /\ shared i w /\ v < w) \/ (~ shared i v /\ ~ shared i w /\ before_text s t) \/ (shared i v /\ ~ shared i w).
Lemma same_refl : forall i v s, same i v s v s.
Proof. intros i v s. unfold same. destruct (shared_dec i v); tauto. Qed.
Lemma same_sym : forall i v s w t, same i v s w t -> same i w t v s.
Proof. intros i v s w t [(?&?&?)|(?&?&?)]; [left|right]; auto. Qed.
Lemma same_trans : forall i v s w t x u, same i v s w t -> same i w t x u -> same i v s x u.
Proof. intros i v s w t x u [(?&?&?)|(?&?&?)] [(?&?&?)|(?&?&?)]; try contradiction; [left|right]; repeat split; auto; congruence. Qed.
Lemma less_trans : forall i v s w t x u, less i v s w t -> less i w t x u -> less i v s x u.
Proof.
  intros i v s w t x u [(?&?&?)|[(?&?&H)|(?&?)]] [(?&?&?)|[(?&?&K)|(?&?)]]; try contradiction;
    try (right; right; split; assumption).
  - left. repeat split; auto. lia.
  - right. left. repeat split; auto. exact (bt_trans _ _ _ H K).
Qed.
Lemma less_not_same : forall i v s w t, less i v s w t -> ~ same i v s w t.
Proof.
  intros i v s w t [(?&?&?)|[(?&?&H)|(?&?)]] [(?&?&?)|(?&?&?)]; try contradiction; try lia.
  subst. exact (bt_irrefl _ H).
Qed.
Lemma less_asym : forall i v s w t, less i v s w t -> ~ less i w t v s.
Proof. intros i v s w t H K. exact (less_not_same _ _ _ _ _ (less_trans _ _ _ _ _ _ _ H K) (same_refl _ _ _)). Qed.
Lemma less_total : forall i v s w t, less i v s w t \/ same i v s w t \/ less i w t v s.
Proof.
  intros i v s w t. unfold less, same. destruct (shared_dec i v) as [Ha|Ha], (shared_dec i w) as [Hb|Hb]; auto 6.
  - destruct (Z.lt_trichotomy v w) as [X|[X|X]]; auto 6.
  - destruct (bt_total s t) as [X|[X|X]]; auto 8.
Qed.

(** == is an equivalence, before a strict total order on its classes, and equal type_infos have the same hash code. *)
Theorem C77_laws : forall mem fuel i a b c sa sb sc,
  valid mem fuel i a sa -> valid mem fuel i b sb -> valid mem fuel i c sc ->
  eq mem fuel i a a = Some true /\
  (eq mem fuel i a b = eq mem fuel i b a) /\
  (eq mem fuel i a b = Some true -> eq mem fuel i b c = Some true -> eq mem fuel i a c = Some true) /\
  (lt mem fuel i a b = Some true -> lt mem fuel i b c = Some true -> lt mem fuel i a c = Some true) /\
  (lt mem fuel i a b = Some true -> eq mem fuel i a b = Some false /\ lt mem fuel i b a = Some false) /\
  (eq mem fuel i a b = Some false -> lt mem fuel i a b = Some false -> lt mem fuel i b a = Some true) /\
  (exists h, hash_code mem fuel i a = Some h /\ 0 <= h < 2 ^ 64 /\
             (eq mem fuel i a b = Some true -> hash_code mem fuel i b = Some h)).
Proof.
  intros mem fuel i a b c sa sb sc A B C.
  destruct (C77_meaning mem fuel i a a sa sa A A) as (eaa & laa & Eaa & _ & Saa & _).
  destruct (C77_meaning mem fuel i a b sa sb A B) as (eab & lab & Eab & Lab & Sab & Tab).
  destruct (C77_meaning mem fuel i b a sb sa B A) as (eba & lba & Eba & Lba & Sba & Tba).
  destruct (C77_meaning mem fuel i b c sb sc B C) as (ebc & lbc & Ebc & Lbc & Sbc & Tbc).
  destruct (C77_meaning mem fuel i a c sa sc A C) as (eac & lac & Eac & Lac & Sac & Tac).
  fold (same i a sa a sa) in Saa. fold (same i a sa b sb) in Sab. fold (same i b sb a sa) in Sba.
  fold (same i b sb c sc) in Sbc. fold (same i a sa c sc) in Sac.
  fold (less i a sa b sb) in Tab. fold (less i b sb a sa) in Tba. fold (less i b sb c sc) in Tbc. fold (less i a sa c sc) in Tac.
  rewrite Eaa, Eab, Eba, Ebc, Eac, Lab, Lba, Lbc, Lac. clear laa Eaa Eab Eba Ebc Eac Lab Lba Lbc Lac.
  assert (I1 : forall x, @Some bool x = Some true <-> x = true) by (intros x; split; congruence).
  assert (I2 : forall x, @Some bool x = Some false <-> ~ x = true) by (intros []; split; congruence).
  rewrite !I1, !I2.
  split; [apply Saa, same_refl|].
  split. { destruct eab, eba; auto; f_equal; symmetry.
    - apply Sba, same_sym, Sab. reflexivity.
    - symmetry. apply Sab, same_sym, Sba. reflexivity. }
  split; [rewrite Sab, Sbc, Sac; apply same_trans|].
  split; [rewrite Tab, Tbc, Tac; apply less_trans|].
  split; [rewrite Tab, Sab, Tba; intros H; split; [exact (less_not_same _ _ _ _ _ H)|exact (less_asym _ _ _ _ _ H)]|].
  split; [rewrite Sab, Tab, Tba; intros H K; destruct (less_total i a sa b sb) as [X|[X|X]]; [contradiction|contradiction|exact X]|].
  clear - A B Sab I1. unfold same in Sab.
  destruct A as (Va & Ra & Fa), B as (Vb & Rb & Fb). rewrite <- to_string_name in Ra, Rb by assumption.
  destruct i; cbn [hash_code shared to_string] in *.
  - exists a. split; [reflexivity|]. split; [exact Va|]. intros E. apply I1, Sab in E. destruct E as [(_&_&<-)|(X&_)]; [reflexivity|tauto].
  - destruct (hash_loop_ok mem sa a a fuel fuel 5381 Ra Ra Fa Fa) as (x & X & _). exists x. split; [exact X|].
    split; [apply (hash_range mem sa _ fuel 5381 x Ra); [lia|exact X]|].
    intros E. apply I1, Sab in E. destruct E as [(Y&_)|(_&_&<-)]; [tauto|].
    destruct (hash_loop_ok mem sa a b fuel fuel 5381 Ra Rb Fa Fb) as (y & X1 & Y1). unfold hash_string. congruence.
  - rewrite !is_unique_spec by assumption. destruct (Z.ltb_spec a (2 ^ 63)) as [L|L].
    + exists a. split; [reflexivity|]. split; [exact Va|]. intros E. apply I1, Sab in E. destruct E as [(_&_&<-)|(X&_)]; [|tauto].
      destruct (Z.ltb_spec a (2 ^ 63)); [reflexivity|lia].
    + destruct (hash_loop_ok mem sa _ _ fuel fuel 5381 Ra Ra Fa Fa) as (x & X & _). exists x. split; [exact X|].
    split; [apply (hash_range mem sa _ fuel 5381 x Ra); [lia|exact X]|].
      intros E. apply I1, Sab in E. destruct E as [(Y&_)|(_&Y&<-)]; [lia|].
      destruct (Z.ltb_spec b (2 ^ 63)); [tauto|].
      destruct (hash_loop_ok mem sa _ _ fuel fuel 5381 Ra Rb Fa Fb) as (y & X1 & Y1). unfold hash_string. congruence.
Qed.
Print Assumptions C77_laws.

(** Non-vacuity: two copies of the name "i" at 16 and 24 are the same type where names are not unique, two types where
    they are taken to be; with the top bit set the addresses are compared as texts. *)
Example C77_case :
  let mem := fun p => if (p =? 16) || (p =? 24) then 105 else if p =? 40 then 106 else 0 in
  valid mem 5 NonUnique 16 [105] /\ valid mem 5 ArmBit (2 ^ 63 + 24) [105] /\
  eq mem 5 NonUnique 16 24 = Some true /\ eq mem 5 Unique 16 24 = Some false /\
  eq mem 5 ArmBit (2 ^ 63 + 16) (2 ^ 63 + 24) = Some true /\ lt mem 5 ArmBit (2 ^ 63 + 16) (2 ^ 63 + 40) = Some true /\
  hash_code mem 5 NonUnique 16 = Some 177612.
Proof.
  cbv zeta. repeat match goal with |- _ /\ _ => split | |- valid _ _ _ _ _ => unfold valid; cbn [reads length] end;
    first [reflexivity|lia|vm_compute; reflexivity].
Qed.
