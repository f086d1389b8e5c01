(** Proofs about UptrModel. *)
From Coq Require Import List Lia Bool PeanoNat.
From Verif Require Import Mem UptrModel.
Import ListNotations.
Open Scope nat_scope.

Definition obj (e : nat * nat * option nat) : nat := fst (fst e).

Definition holds (w : world) (x o : nat) : Prop := exists c, vars w x = Some c /\ first c = Some o.

(** [C]: objects the client deleted itself. *)
Record Inv (C : list nat) (w : world) : Prop := {
  i_live : forall x o, holds w x o -> In o (live w);
  i_uniq : forall x y o, holds w x o -> holds w y o -> x = y;
  i_raw : forall o, In o (raws w) -> In o (live w) /\ forall x, ~ holds w x o;
  i_owned : forall o, In o (live w) -> In o (raws w) \/ exists x, holds w x o;
  i_nodup : NoDup (raws w);
  i_total : forall o, o < nobj w <-> In o (live w) \/ In o (map obj (log w)) \/ In o C;
  i_log : NoDup (map obj (log w));
  i_dis : forall o, In o (live w) -> ~ In o (map obj (log w)) /\ ~ In o C;
  i_dis2 : forall o, In o (map obj (log w)) -> ~ In o C }.

Lemma memb_In o l : memb o l = true <-> In o l.
Proof.
  unfold memb. rewrite existsb_exists. split.
  - intros (x & H & E). apply Nat.eqb_eq in E. now subst.
  - intro H. exists o. split; [exact H|apply Nat.eqb_refl].
Qed.
Lemma del_In p o l : In p (del o l) <-> In p l /\ p <> o.
Proof.
  unfold del. rewrite filter_In. split; intros [A B]; split; auto.
  - intro E. subst. rewrite Nat.eqb_refl in B. discriminate.
  - destruct (Nat.eqb_spec p o); [contradiction|reflexivity].
Qed.
Lemma del_NoDup o l : NoDup l -> NoDup (del o l).
Proof. apply NoDup_filter. Qed.

Lemma upd_eq v x c : upd v x c x = c.
Proof. unfold upd. now rewrite Nat.eqb_refl. Qed.
Lemma upd_neq v x c y : y <> x -> upd v x c y = v y.
Proof. unfold upd. intro H. destruct (Nat.eqb_spec y x); [contradiction|reflexivity]. Qed.

(** entry added by deleting what [c] held *)
Definition dlog (c : cell) (during : option nat) : list (nat * nat * option nat) :=
  match first c with Some o => [(o, second c, during)] | None => [] end.
Definition dlive (c : cell) (l : list nat) : list nat :=
  match first c with Some o => del o l | None => l end.

Lemma reset_eq w x p c : vars w x = Some c -> (forall o, first c = Some o -> In o (live w)) ->
  reset w x p = Ok (World (upd (vars w) x (Some (Cell p (second c)))) (dlive c (live w)) (nobj w) (raws w) (log w ++ dlog c p)).
Proof.
  intros E H. unfold reset, dlive, dlog. rewrite E. destruct (first c) as [o|] eqn:F.
  - unfold call_deleter, set_var. cbn [vars live nobj raws log]. rewrite upd_eq.
    rewrite (proj2 (memb_In o (live w)) (H o eq_refl)). reflexivity.
  - unfold set_var. now rewrite app_nil_r.
Qed.

Ltac cell x := match goal with H : in_scope _ x |- _ => unfold in_scope in H; destruct (vars _ x) as [?c|] eqn:?Vx; [clear H|contradiction] end.

Lemma holds_upd v l n r g x c y o :
  holds (World (upd v x c) l n r g) y o <->
  (y = x /\ exists d, c = Some d /\ first d = Some o) \/ (y <> x /\ exists d, v y = Some d /\ first d = Some o).
Proof.
  unfold holds. cbn [vars]. destruct (Nat.eq_dec y x) as [->|N].
  - rewrite upd_eq. split; [left; auto|]. intros [[_ H]|[H _]]; [exact H|contradiction].
  - rewrite upd_neq by exact N. split; [right; auto|]. intros [[H _]|[_ H]]; [contradiction|exact H].
Qed.

(** A world's variables described by which objects they hold. *)
Lemma inv_moves C w v r :
  Inv C w ->
  (forall x o, (exists d, v x = Some d /\ first d = Some o) -> In o (live w)) ->
  (forall x y o, (exists d, v x = Some d /\ first d = Some o) -> (exists d, v y = Some d /\ first d = Some o) -> x = y) ->
  (forall o, In o r -> In o (live w) /\ forall x, ~ (exists d, v x = Some d /\ first d = Some o)) ->
  (forall o, In o (live w) -> In o r \/ exists x d, v x = Some d /\ first d = Some o) ->
  NoDup r ->
  Inv C (World v (live w) (nobj w) r (log w)).
Proof.
  intros [A1 A2 A3 A4 A5 A6 A7 A8 A9] H1 H2 H3 H4 H5. constructor; unfold holds; cbn [vars live nobj raws log]; auto.
Qed.

Lemma inv_delete C w v c p :
  Inv C w -> forall x, vars w x = Some c ->
  (forall y o, (exists d, v y = Some d /\ first d = Some o) -> In o (dlive c (live w))) ->
  (forall y z o, (exists d, v y = Some d /\ first d = Some o) -> (exists d, v z = Some d /\ first d = Some o) -> y = z) ->
  forall r, (forall o, In o r -> In o (dlive c (live w)) /\ forall y, ~ (exists d, v y = Some d /\ first d = Some o)) ->
  (forall o, In o (dlive c (live w)) -> In o r \/ exists y d, v y = Some d /\ first d = Some o) ->
  NoDup r ->
  Inv C (World v (dlive c (live w)) (nobj w) r (log w ++ dlog c p)).
Proof.
  intros [A1 A2 A3 A4 A5 A6 A7 A8 A9] x Vx H1 H2 r H3 H4 H5.
  assert (L : forall o, first c = Some o -> In o (live w)) by (intros o Ho; apply (A1 x); exists c; auto).
  constructor; unfold holds; cbn [vars live nobj raws log]; auto; unfold dlive, dlog in *; destruct (first c) as [o|] eqn:F.
  - intro q. rewrite map_app, in_app_iff, A6. cbn. rewrite del_In. specialize (L o eq_refl).
    split.
    + intros [?|[?|?]]; auto. destruct (Nat.eq_dec q o); subst; auto.
    + intros [[? ?]|[[?|[?|[]]]|?]]; subst; auto.
  - intro q. rewrite app_nil_r. apply A6.
  - rewrite map_app. cbn. apply NoDup_rev in A7. rewrite <- rev_involutive. apply NoDup_rev.
    rewrite rev_app_distr. cbn. constructor; [|exact A7]. rewrite <- in_rev. apply A8, L. reflexivity.
  - now rewrite app_nil_r.
  - intros q Hq. apply del_In in Hq. destruct Hq as [Hq N]. rewrite map_app, in_app_iff. cbn.
    destruct (A8 q Hq). split; [|assumption]. intros [?|[?|[]]]; auto.
  - intros q Hq. rewrite app_nil_r. auto.
  - intro q. rewrite map_app, in_app_iff. cbn. intros [?|[<-|[]]]; [auto|]. apply A8, L. reflexivity.
  - intro q. rewrite app_nil_r. auto.
Qed.

Definition client_del (o : op) : list nat := match o with Delete p => [p] | _ => [] end.

Ltac hsimp := repeat match goal with
  | H : exists _, _ |- _ => destruct H
  | H : _ /\ _ |- _ => destruct H
  | H : Some _ = Some _ |- _ => injection H; clear H; intros; subst
  | H : Some _ = None |- _ => discriminate H
  | H : None = Some _ |- _ => discriminate H
  end.

(** The state after a client-correct step, described by its effect on each variable,
    the deletion log, the client's pointers and the result. *)
Definition get_ (w : world) (x : nat) : option (option nat * nat) :=
  match vars w x with Some c => Some (first c, second c) | None => None end.

Definition same_except (w w' : world) (xs : list nat) : Prop :=
  forall z, ~ In z xs -> vars w' z = vars w z.

Definition deletion (p : option nat) (d : nat) (during : option nat) : list (nat * nat * option nat) :=
  match p with Some o => [(o, d, during)] | None => [] end.

Definition effect (w : world) (o : op) (r : out) (w' : world) : Prop :=
  match o with
  | Alloc => r = Ptr (Some (nobj w)) /\ nobj w' = S (nobj w) /\ log w' = log w /\ same_except w w' [] /\
             (forall p, In p (raws w') <-> p = nobj w \/ In p (raws w))
  | Delete q => r = Unit /\ log w' = log w /\ same_except w w' [] /\ (forall p, In p (raws w') <-> In p (raws w) /\ p <> q)
  | NewNull x d => r = Unit /\ get_ w' x = Some (None, d) /\ log w' = log w /\ raws w' = raws w /\ same_except w w' [x]
  | NewPtr x d q => r = Unit /\ get_ w' x = Some (Some q, d) /\ log w' = log w /\ same_except w w' [x] /\
                    (forall p, In p (raws w') <-> In p (raws w) /\ p <> q)
  | MoveNew x y => r = Unit /\ log w' = log w /\ raws w' = raws w /\ same_except w w' [x; y] /\
      exists p d, get_ w y = Some (p, d) /\ get_ w' x = Some (p, d) /\ get_ w' y = Some (None, d)
  | MoveAssign x y => r = Unit /\ raws w' = raws w /\ same_except w w' [x; y] /\
      if Nat.eqb x y then log w' = log w /\ get_ w' x = get_ w x
      else exists px dx py dy, get_ w x = Some (px, dx) /\ get_ w y = Some (py, dy) /\
           get_ w' x = Some (py, dy) /\ get_ w' y = Some (None, dy) /\ log w' = log w ++ deletion px dx py
  | Reset x q => r = Unit /\ same_except w w' [x] /\
      (forall p, In p (raws w') <-> In p (raws w) /\ q <> Some p) /\
      exists p d, get_ w x = Some (p, d) /\ get_ w' x = Some (q, d) /\ log w' = log w ++ deletion p d q
  | Release x => same_except w w' [x] /\ log w' = log w /\
      exists p d, get_ w x = Some (p, d) /\ r = Ptr p /\ get_ w' x = Some (None, d) /\
      (forall q, In q (raws w') <-> In q (raws w) \/ p = Some q)
  | Swap x y => r = Unit /\ log w' = log w /\ raws w' = raws w /\ same_except w w' [x; y] /\
      get_ w' x = get_ w y /\ get_ w' y = get_ w x
  | Destroy x => r = Unit /\ raws w' = raws w /\ same_except w w' [x] /\ get_ w' x = None /\
      exists p d, get_ w x = Some (p, d) /\ log w' = log w ++ deletion p d None
  | Get x => w' = w /\ exists p d, get_ w x = Some (p, d) /\ r = Ptr p
  | ToBool x => w' = w /\ exists p d, get_ w x = Some (p, d) /\ r = Bool (match p with Some _ => true | None => false end)
  | Deref x => w' = w /\ exists p d, get_ w x = Some (Some p, d) /\ r = Ptr (Some p) /\ In p (live w)
  | Equal x y => w' = w /\ exists p d q e, get_ w x = Some (p, d) /\ get_ w y = Some (q, e) /\ exists b, r = Bool b /\ (b = true <-> p = q)
  end.

Lemma same_upd v l n r g l' n' r' g' x c : same_except (World v l n r g) (World (upd v x c) l' n' r' g') [x].
Proof. intros z Hz. cbn [vars]. apply upd_neq. intro. subst. apply Hz. now left. Qed.

Lemma opt_eqb_eq a b : opt_eqb a b = true <-> a = b.
Proof.
  destruct a, b; cbn; split; intro H; try discriminate; auto.
  - apply Nat.eqb_eq in H. now subst.
  - injection H as ->. apply Nat.eqb_refl.
Qed.

Lemma step_ok C w o : Inv C w -> client_ok w o ->
  exists r w', step w o = Ok (r, w') /\ Inv (client_del o ++ C) w' /\ effect w o r w'.
Proof.
  intros I K. destruct w as [v l n r g].
  pose proof I as [A1 A2 A3 A4 A5 A6 A7 A8 A9]. unfold holds in A1, A2, A3, A4. cbn [vars live nobj raws log] in *.
  destruct o as [|q|x d|x d q|x y|x y|x q|x|x y|x|x|x|x|x y]; cbn [client_ok client_del app] in *; unfold step; cbn [vars live nobj raws log].
  - (* Alloc *)
    eexists _, _. split; [reflexivity|]. assert (N : ~ In n l).
    { intro H. assert (n < n) by (apply A6; auto). lia. }
    split; [constructor; unfold holds; cbn [vars live nobj raws log]; auto|].
    + intros x o H. right. eauto.
    + intros o [<-|H]; [split; [now left|]|].
      * intros x H. apply N. eauto.
      * destruct (A3 o H). split; [now right|auto].
    + intros o [<-|H]; [left; now left|]. destruct (A4 o H); [left; now right|auto].
    + constructor; [|assumption]. intro H. apply N. now apply A3.
    + intro o. split.
      * intro H. destruct (Nat.eq_dec o n); [subst; left; now left|].
        assert (o < n) as H' by lia. apply A6 in H'. destruct H' as [?|[?|?]]; auto. left; now right.
      * intros [[<-|?]|[?|?]]; [lia|..]; apply Nat.lt_lt_succ_r, A6; auto.
    + intros o [<-|H]; [|auto]. split; intro H; assert (n < n) by (apply A6; auto); lia.
    + cbn. split; [reflexivity|]. split; [reflexivity|]. split; [reflexivity|]. split; [intros z Hz; reflexivity|]. intro p. intuition.
  - (* Delete *)
    cbn [raws] in K. destruct (A3 q K) as [L N]. rewrite (proj2 (memb_In q l) L).
    eexists _, _. split; [reflexivity|]. split; [constructor; unfold holds; cbn [vars live nobj raws log]; auto|].
    + intros x o H. apply del_In. split; [eauto|]. intros ->. now apply (N x).
    + intros o H. apply del_In in H. destruct H as [H1 H2]. destruct (A3 o H1). rewrite del_In. auto.
    + intros o H. apply del_In in H. destruct H as [H1 H2]. rewrite del_In. destruct (A4 o H1); auto.
    + now apply del_NoDup.
    + intro o. rewrite A6, del_In. cbn. split.
      * intros [?|[?|?]]; auto. destruct (Nat.eq_dec o q); auto.
      * intros [[? ?]|[?|[<-|?]]]; auto.
    + intros o H. apply del_In in H. destruct H as [H1 H2]. destruct (A8 o H1). cbn. split; auto. intros [?|?]; auto.
    + intros o H. cbn. intros [->|?]; [apply A8 in L; tauto|now apply A9 in H].
    + cbn. split; [reflexivity|]. split; [reflexivity|]. split; [intros z Hz; reflexivity|]. intro p. apply del_In.
  - (* NewNull *)
    unfold in_scope in K. cbn [vars] in K. destruct (v x) as [c|] eqn:Vx; [exfalso; apply K; discriminate|].
    eexists _, _. split; [reflexivity|]. split.
    + assert (Q : forall y o, (exists d0, upd v x (Some (Cell None d)) y = Some d0 /\ first d0 = Some o) ->
                   exists d0, v y = Some d0 /\ first d0 = Some o).
      { intros y o (d0 & E1 & E2). destruct (Nat.eq_dec y x) as [->|Ny];
          [rewrite upd_eq in E1; hsimp; discriminate|rewrite upd_neq in E1 by assumption; eauto]. }
      apply (inv_moves C (World v l n r g)); cbn [vars live nobj raws log]; auto.
      * intros y o H. eauto.
      * intros y z o H H'. eauto.
      * intros o H. destruct (A3 o H) as [? N]. split; auto. intros y Hy. eapply N; eauto.
      * intros o H. destruct (A4 o H) as [?|(y & c & E1 & E2)]; auto. right. exists y, c. split; [|assumption].
        rewrite upd_neq; [assumption|]. intro; subst; congruence.
    + cbn. unfold get_, set_var. cbn [vars log raws]. rewrite upd_eq. repeat split. apply same_upd.
  - (* NewPtr *)
    unfold in_scope in K. cbn [vars raws] in K. destruct K as [K1 K2]. destruct (v x) as [c|] eqn:Vx; [exfalso; apply K1; discriminate|].
    destruct (A3 q K2) as [L N].
    eexists _, _. split; [reflexivity|]. split.
    + assert (Q : forall y o, (exists d0, upd v x (Some (Cell (Some q) d)) y = Some d0 /\ first d0 = Some o) ->
                   (y = x /\ o = q) \/ (y <> x /\ exists d0, v y = Some d0 /\ first d0 = Some o)).
      { intros y o (d0 & E1 & E2). destruct (Nat.eq_dec y x) as [->|Ny];
          [rewrite upd_eq in E1; hsimp; cbn in E2; hsimp; auto|rewrite upd_neq in E1 by assumption; eauto]. }
      unfold set_raws, set_var; cbn [vars live nobj raws log].
      apply (inv_moves C (World v l n r g)); cbn [vars live nobj raws log]; auto.
      * intros y o H. destruct (Q _ _ H) as [[-> ->]|[? ?]]; eauto.
      * intros y z o H H'. destruct (Q _ _ H) as [[-> ->]|[? ?]]; destruct (Q _ _ H') as [[-> E]|[? ?]]; auto.
        -- exfalso. eapply N; eauto.
        -- subst o. exfalso. eapply N; eauto.
        -- eauto.
      * intros o H. apply del_In in H. destruct H as [H Nq]. destruct (A3 o H) as [? N']. split; auto. intros y Hy.
        destruct (Q _ _ Hy) as [[-> ->]|[? ?]]; [congruence|eapply N'; eauto].
      * intros o H. destruct (Nat.eq_dec o q) as [->|Nq].
        { right. exists x, (Cell (Some q) d). rewrite upd_eq. auto. }
        destruct (A4 o H) as [?|(y & c & E1 & E2)]; [left; now apply del_In|]. right. exists y, c. split; [|assumption].
        rewrite upd_neq; [assumption|]. intro; subst; congruence.
      * now apply del_NoDup.
    + cbn. unfold get_, set_raws, set_var. cbn [vars log raws]. rewrite upd_eq.
      split; [reflexivity|]. split; [reflexivity|]. split; [reflexivity|]. split; [apply same_upd|]. intro p. apply del_In.
  - (* MoveNew *)
    destruct K as [K1 K2]. unfold in_scope in *. cbn [vars] in *. destruct (v x) as [c|] eqn:Vx; [exfalso; apply K1; discriminate|].
    destruct (v y) as [c|] eqn:Vy; [clear K2|contradiction].
    assert (NE : x <> y) by (intro; subst; congruence).
    unfold move_ctor, release, get_deleter, set_var. cbn [vars]. rewrite Vy. cbn [bind vars]. rewrite upd_eq. cbn [bind second vars].
    eexists _, _. split; [reflexivity|]. split.
    + set (v' := upd (upd v y (Some (Cell None (second c)))) x (Some (Cell (first c) (second c)))).
      assert (Q : forall z o, (exists d0, v' z = Some d0 /\ first d0 = Some o) <->
                   (z = x /\ first c = Some o) \/ (z <> x /\ z <> y /\ exists d0, v z = Some d0 /\ first d0 = Some o)).
      { intros z o. unfold v'. destruct (Nat.eq_dec z x) as [->|Nx].
        - rewrite upd_eq. split; [intros H; hsimp; auto|]. intros [[_ H]|[H _]]; [eauto|congruence].
        - rewrite upd_neq by assumption. destruct (Nat.eq_dec z y) as [->|Ny].
          + rewrite upd_eq. split; [intro H; hsimp; discriminate|intros [[? _]|[_ [? _]]]; congruence].
          + rewrite upd_neq by assumption. split; [auto|]. intros [[? _]|[_ [_ ?]]]; [congruence|assumption]. }
      apply (inv_moves C (World v l n r g)); cbn [vars live nobj raws log]; auto.
      * intros z o H. apply Q in H. destruct H as [[-> H]|(? & ? & H)]; eauto.
      * intros z z' o H H'. apply Q in H. apply Q in H'.
        destruct H as [[-> H]|(? & ? & H)]; destruct H' as [[-> H']|(? & ? & H')]; auto.
        -- exfalso. assert (z' = y) by (eapply A2; eauto). contradiction.
        -- exfalso. assert (z = y) by (eapply A2; eauto). contradiction.
        -- eauto.
      * intros o H. destruct (A3 o H) as [? N]. split; auto. intros z Hz. apply Q in Hz.
        destruct Hz as [[-> Hz]|(? & ? & Hz)]; eapply N; eauto.
      * intros o H. destruct (A4 o H) as [?|(z & c' & E1 & E2)]; auto. right.
        destruct (Nat.eq_dec z y) as [->|Ny].
        -- exists x. apply Q. left. split; [reflexivity|]. congruence.
        -- exists z. apply Q. right. repeat split; auto; [intro; subst; congruence|eauto].
    + cbn. unfold get_. cbn [vars log raws]. rewrite Vy, upd_eq, upd_neq, upd_eq by auto. repeat split.
      * intros z Hz. cbn. rewrite !upd_neq; [reflexivity|intro; subst; apply Hz; cbn; auto..].
      * exists (first c), (second c). auto.
  - (* MoveAssign *)
    destruct K as [K1 K2]. unfold in_scope in *. cbn [vars] in *.
    destruct (v x) as [cx|] eqn:Vx; [clear K1|contradiction]. destruct (v y) as [cy|] eqn:Vy; [clear K2|contradiction].
    unfold move_assign, release. cbn [vars]. rewrite Vy. cbn [bind]. unfold set_var at 1. cbn [vars live nobj raws log].
    destruct (Nat.eq_dec x y) as [->|NE].
    + rewrite Vx in Vy. injection Vy as <-.
      rewrite (reset_eq _ y (first cx) (Cell None (second cx))) by (cbn; try apply upd_eq; discriminate).
      cbn [bind second vars live nobj raws log]. unfold get_deleter. cbn [vars]. rewrite upd_eq. cbn [bind second first].
      unfold set_var. cbn [vars live nobj raws log]. unfold dlive, dlog. cbn [first]. rewrite app_nil_r.
      eexists _, _. split; [reflexivity|]. split.
      * set (v' := upd _ _ _).
        assert (Q : forall z, v' z = v z).
        { intro z. unfold v'. destruct (Nat.eq_dec z y) as [->|]; [rewrite upd_eq, Vx; now destruct cx|now rewrite !upd_neq]. }
        apply (inv_moves C (World v l n r g)); cbn [vars live nobj raws log]; auto.
        -- intros z o. rewrite Q. eauto.
        -- intros z z' o. rewrite !Q. eauto.
        -- intros o H. destruct (A3 o H) as [? N]. split; auto. intro z. rewrite Q. auto.
        -- intros o H. destruct (A4 o H) as [?|(z & c' & E1 & E2)]; auto. right. exists z, c'. now rewrite Q.
      * cbn. rewrite Nat.eqb_refl. unfold get_. cbn [vars log raws]. rewrite upd_eq, Vx. cbn. repeat split.
        intros z Hz. cbn. rewrite !upd_neq; [reflexivity|intro; subst; apply Hz; cbn; auto..].
    + rewrite (reset_eq _ x (first cy) cx).
      2:{ cbn. now rewrite upd_neq. }
      2:{ cbn. intros o Ho. eauto. }
      cbn [bind second vars live nobj raws log]. unfold get_deleter. cbn [vars].
      rewrite (upd_neq _ x _ y), upd_eq by auto. cbn [bind second first]. rewrite upd_eq. unfold set_var. cbn [vars live nobj raws log first].
      eexists _, _. split; [reflexivity|]. split.
      * set (v' := upd (upd _ _ _) x (Some (Cell (first cy) (second cy)))).
        assert (Q : forall z o, (exists d0, v' z = Some d0 /\ first d0 = Some o) <->
                   (z = x /\ first cy = Some o) \/ (z <> x /\ z <> y /\ exists d0, v z = Some d0 /\ first d0 = Some o)).
        { intros z o. unfold v'. destruct (Nat.eq_dec z x) as [->|Nx].
          - rewrite upd_eq. split; [intros H; hsimp; auto|]. intros [[_ H]|[H _]]; [eauto|congruence].
          - rewrite !upd_neq with (x := x) by assumption. destruct (Nat.eq_dec z y) as [->|Ny].
            + rewrite upd_eq. split; [intro H; hsimp; discriminate|intros [[? _]|[_ [? _]]]; congruence].
            + rewrite upd_neq by assumption. split; [auto|]. intros [[? _]|[_ [_ ?]]]; [congruence|assumption]. }
        apply (inv_delete C (World v l n r g) v' cx (first cy) I x Vx); cbn [vars live nobj raws log]; auto.
        -- intros z o H. apply Q in H.
           assert (Lo : In o l) by (destruct H as [[-> H]|(? & ? & H)]; eauto).
           unfold dlive. destruct (first cx) as [ox|] eqn:Fx; [|exact Lo]. apply del_In. split; [exact Lo|].
           intros ->. destruct H as [[-> H]|(? & ? & H)].
           ++ apply NE. eapply A2; eauto.
           ++ assert (z = x) by (eapply A2; eauto). contradiction.
        -- intros z z' o H H'. apply Q in H. apply Q in H'.
           destruct H as [[-> H]|(? & ? & H)]; destruct H' as [[-> H']|(? & ? & H')]; auto.
           ++ exfalso. assert (z' = y) by (eapply A2; eauto). contradiction.
           ++ exfalso. assert (z = y) by (eapply A2; eauto). contradiction.
           ++ eauto.
        -- intros o H. destruct (A3 o H) as [? N]. split.
           ++ unfold dlive. destruct (first cx) as [ox|] eqn:Fx; [|assumption]. apply del_In. split; [assumption|].
              intros ->. eapply N; eauto.
           ++ intros z Hz. apply Q in Hz. destruct Hz as [[-> Hz]|(? & ? & Hz)]; eapply N; eauto.
        -- intros o H.
           assert (H' : In o l /\ first cx <> Some o).
           { unfold dlive in H. destruct (first cx) as [ox|]; [apply del_In in H|split; [assumption|discriminate]].
             destruct H. split; [assumption|congruence]. }
           destruct H' as [H' Nx]. destruct (A4 o H') as [?|(z & c' & E1 & E2)]; auto. right.
           destruct (Nat.eq_dec z y) as [->|Ny].
           ++ exists x. apply Q. left. split; [reflexivity|]. congruence.
           ++ exists z. apply Q. right. repeat split; auto; [intro; subst; congruence|eauto].
      * cbn. destruct (Nat.eqb_spec x y); [contradiction|]. unfold get_. cbn [vars log raws].
        rewrite Vx, Vy, upd_eq, !upd_neq with (y := y), upd_eq by auto. repeat split.
        -- intros z Hz. cbn. rewrite !upd_neq; [reflexivity|intro; subst; apply Hz; cbn; auto..].
        -- exists (first cx), (second cx), (first cy), (second cy). cbn. repeat split.
  - (* Reset *)
    assert (S : exists c, v x = Some c).
    { destruct q; [destruct K as [K _]|]; unfold in_scope in K; cbn in K; destruct (v x); eauto; contradiction. }
    destruct S as [c Vx].
    rewrite (reset_eq (World v l n r g) x q c Vx) by (cbn; eauto). cbn [bind vars live nobj raws log].
    eexists _, _. split; [reflexivity|].
    set (v' := upd v x (Some (Cell q (second c)))).
    set (r' := match q with Some i => del i r | None => r end).
    match goal with |- Inv _ ?w /\ _ => assert (EW : w = World v' (dlive c l) n r' (g ++ dlog c q)) by (destruct q; reflexivity) end.
    rewrite EW. clear EW.
    assert (KR : forall i, q = Some i -> In i r) by (intros i ->; apply K).
    assert (Q : forall z o, (exists d0, v' z = Some d0 /\ first d0 = Some o) <->
                 (z = x /\ q = Some o) \/ (z <> x /\ exists d0, v z = Some d0 /\ first d0 = Some o)).
    { intros z o. unfold v'. destruct (Nat.eq_dec z x) as [->|Nx].
      - rewrite upd_eq. split; [intros H; hsimp; auto|]. intros [[_ H]|[H _]]; [|congruence]. subst q. eexists; split; reflexivity.
      - rewrite upd_neq by assumption. split; [auto|]. intros [[? _]|[_ ?]]; [congruence|assumption]. }
    split.
    + apply (inv_delete C (World v l n r g) v' c q I x Vx); cbn [vars live nobj raws log]; auto.
      * intros z o H. apply Q in H.
        assert (Lo : In o l). { destruct H as [[-> H]|(? & H)]; eauto. apply KR in H. now apply A3. }
        unfold dlive. destruct (first c) as [ox|] eqn:Fx; [|exact Lo]. apply del_In. split; [exact Lo|].
        intros ->. destruct H as [[-> H]|(? & H)].
        -- apply KR in H. destruct (A3 _ H) as [_ N]. eapply N; eauto.
        -- assert (z = x) by (eapply A2; eauto). contradiction.
      * intros z z' o H H'. apply Q in H. apply Q in H'.
        destruct H as [[-> H]|(? & H)]; destruct H' as [[-> H']|(? & H')]; auto.
        -- exfalso. apply KR in H. destruct (A3 _ H) as [_ N]. eapply N; eauto.
        -- exfalso. apply KR in H'. destruct (A3 _ H') as [_ N]. eapply N; eauto.
        -- eauto.
      * intros o H. assert (H' : In o r /\ q <> Some o).
        { unfold r' in H. destruct q; [apply del_In in H; destruct H; split; [assumption|congruence]|split; [assumption|discriminate]]. }
        destruct H' as [H' Nq]. destruct (A3 o H') as [? N]. split.
        -- unfold dlive. destruct (first c) as [ox|] eqn:Fx; [|assumption]. apply del_In. split; [assumption|].
           intros ->. eapply N; eauto.
        -- intros z Hz. apply Q in Hz. destruct Hz as [[-> Hz]|(? & Hz)]; [congruence|eapply N; eauto].
      * intros o H.
        assert (H' : In o l /\ first c <> Some o).
        { unfold dlive in H. destruct (first c) as [ox|]; [apply del_In in H|split; [assumption|discriminate]].
          destruct H. split; [assumption|congruence]. }
        destruct H' as [H' Nx].
        assert (D : q = Some o \/ q <> Some o) by (destruct q as [i|]; [destruct (Nat.eq_dec i o); [left|right]; congruence|right; discriminate]).
        destruct D as [D|D].
        { right. exists x. apply Q. left. auto. }
        destruct (A4 o H') as [?|(z & c' & E1 & E2)].
        -- left. unfold r'. destruct q; [apply del_In; split; [assumption|congruence]|assumption].
        -- right. exists z. apply Q. right. split; [intro; subst; congruence|eauto].
      * unfold r'. destruct q; [now apply del_NoDup|assumption].
    + cbn. unfold get_. cbn [vars log raws]. rewrite Vx. unfold v'. rewrite upd_eq. repeat split.
      * intros z Hz. cbn. rewrite !upd_neq; [reflexivity|intro; subst; apply Hz; cbn; auto..].
      * unfold r' in H. destruct q; [apply del_In in H; tauto|assumption].
      * unfold r' in H. destruct q; [apply del_In in H; destruct H; congruence|discriminate].
      * intros [H1 H2]. unfold r'. destruct q; [apply del_In; split; congruence|assumption].
      * exists (first c), (second c). cbn. repeat split.
  - (* Release *)
    unfold in_scope in K. cbn [vars] in K. destruct (v x) as [c|] eqn:Vx; [clear K|contradiction].
    unfold release. cbn [vars]. rewrite Vx. cbn [bind]. unfold set_var. cbn [vars live nobj raws log].
    eexists _, _. split; [reflexivity|].
    set (v' := upd v x (Some (Cell None (second c)))).
    set (r' := match first c with Some i => i :: r | None => r end).
    match goal with |- Inv _ ?w /\ _ => assert (EW : w = World v' l n r' g) by (unfold r'; destruct (first c); reflexivity) end.
    rewrite EW. clear EW.
    assert (Q : forall z o, (exists d0, v' z = Some d0 /\ first d0 = Some o) <->
                 (z <> x /\ exists d0, v z = Some d0 /\ first d0 = Some o)).
    { intros z o. unfold v'. destruct (Nat.eq_dec z x) as [->|Nx].
      - rewrite upd_eq. split; [intros H; hsimp; discriminate|intros [? _]; congruence].
      - rewrite upd_neq by assumption. split; [auto|]. intros [_ ?]; assumption. }
    split.
    + apply (inv_moves C (World v l n r g)); cbn [vars live nobj raws log]; auto.
      * intros z o H. apply Q in H. destruct H; eauto.
      * intros z z' o H H'. apply Q in H. apply Q in H'. destruct H, H'. eauto.
      * intros o H. assert (H' : In o r \/ first c = Some o).
        { unfold r' in H. destruct (first c); [destruct H; [subst; auto|auto]|auto]. }
        destruct H' as [H'|H'].
        -- destruct (A3 o H') as [? N]. split; [assumption|]. intros z Hz. apply Q in Hz. destruct Hz. eapply N; eauto.
        -- split; [eauto|]. intros z Hz. apply Q in Hz. destruct Hz as [Nz Hz]. apply Nz. eapply A2; eauto.
      * intros o H. destruct (A4 o H) as [?|(z & c' & E1 & E2)].
        -- left. unfold r'. destruct (first c); [now right|assumption].
        -- destruct (Nat.eq_dec z x) as [->|Nz].
           ++ left. rewrite Vx in E1. injection E1 as <-. unfold r'. rewrite E2. now left.
           ++ right. exists z. apply Q. eauto.
      * unfold r'. destruct (first c) as [i|] eqn:F; [|assumption]. constructor; [|assumption].
        intro H. destruct (A3 _ H) as [_ N]. eapply N; eauto.
    + cbn. unfold get_. cbn [vars log raws]. rewrite Vx. unfold v'. rewrite upd_eq. repeat split.
      * intros z Hz. cbn. rewrite !upd_neq; [reflexivity|intro; subst; apply Hz; cbn; auto..].
      * exists (first c), (second c). cbn. repeat split; unfold r'; destruct (first c) as [i|]; cbn; try tauto.
        -- intros [->|?]; auto.
        -- intros [?|E]; [auto|]. injection E as ->. auto.
        -- intros [?|?]; [assumption|discriminate].
  - (* Swap *)
    destruct K as [K1 K2]. unfold in_scope in *. cbn [vars] in *.
    destruct (v x) as [cx|] eqn:Vx; [clear K1|contradiction]. destruct (v y) as [cy|] eqn:Vy; [clear K2|contradiction].
    assert (SW : exists v', swap (World v l n r g) x y = Ok (World v' l n r g) /\ v' x = Some cy /\ v' y = Some cx /\ forall z, z <> x -> z <> y -> v' z = v z).
    { unfold swap. cbn [vars]. rewrite Vx, Vy. unfold set_var. cbn [vars live nobj raws log].
      destruct (Nat.eq_dec x y) as [->|NE].
      - rewrite Vx in Vy. injection Vy as <-.
        rewrite upd_eq. cbn [vars live nobj raws log second]. rewrite upd_eq. cbn [vars live nobj raws log second first]. rewrite upd_eq.
        cbn [first second]. eexists. split; [reflexivity|]. rewrite upd_eq. destruct cx. repeat split. intros. now rewrite !upd_neq.
      - rewrite (upd_neq v x _ y), Vy by auto. cbn [vars live nobj raws log second].
        rewrite (upd_neq _ y _ x), !upd_eq by auto. cbn [vars live nobj raws log second first].
        rewrite (upd_neq _ x _ y), upd_eq by auto. cbn [vars live nobj raws log second first].
        eexists. split; [reflexivity|]. rewrite upd_eq, (upd_neq _ y _ x), upd_eq by auto. destruct cx, cy. repeat split.
        intros. now rewrite !upd_neq. }
    destruct SW as (v' & -> & Sx & Sy & So). cbn [bind]. eexists _, _. split; [reflexivity|].
    assert (Q : forall z o, (exists d0, v' z = Some d0 /\ first d0 = Some o) ->
                exists z', (z' = if Nat.eqb z x then y else if Nat.eqb z y then x else z) /\ exists d0, v z' = Some d0 /\ first d0 = Some o).
    { intros z o H. destruct (Nat.eqb_spec z x) as [->|]; [|destruct (Nat.eqb_spec z y) as [->|]].
      - rewrite Sx in H. exists y. rewrite Vy. auto.
      - rewrite Sy in H. exists x. rewrite Vx. auto.
      - rewrite So in H by assumption. eauto. }
    split.
    + apply (inv_moves C (World v l n r g)); cbn [vars live nobj raws log]; auto.
      * intros z o H. destruct (Q _ _ H) as (? & _ & ?). eauto.
      * intros z z' o H H'. destruct (Q _ _ H) as (a & Ea & Ha). destruct (Q _ _ H') as (b & Eb & Hb).
        assert (a = b) by eauto. clear -Ea Eb H0. subst a b.
        destruct (Nat.eqb_spec z x), (Nat.eqb_spec z' x), (Nat.eqb_spec z y), (Nat.eqb_spec z' y); subst; try congruence.
      * intros o H. destruct (A3 o H) as [? N]. split; auto. intros z Hz. destruct (Q _ _ Hz) as (a & _ & Ha). eapply N; eauto.
      * intros o H. destruct (A4 o H) as [?|(z & c' & E1 & E2)]; auto. right.
        destruct (Nat.eq_dec z x) as [->|]; [|destruct (Nat.eq_dec z y) as [->|]].
        -- exists y, c'. split; [congruence|assumption].
        -- exists x, c'. split; [congruence|assumption].
        -- exists z, c'. split; [|assumption]. now rewrite So.
    + cbn. unfold get_. cbn [vars log raws]. rewrite Sx, Sy, Vx, Vy. repeat split.
      intros z Hz. cbn. apply So; intro; subst; apply Hz; cbn; auto.
  - (* Destroy *)
    unfold in_scope in K. cbn [vars] in K. destruct (v x) as [c|] eqn:Vx; [clear K|contradiction].
    unfold destroy. rewrite (reset_eq (World v l n r g) x None c Vx) by (cbn; eauto). cbn [bind vars live nobj raws log].
    eexists _, _. split; [reflexivity|]. unfold set_var. cbn [vars live nobj raws log].
    set (v' := upd (upd v x (Some (Cell None (second c)))) x None).
    assert (Q : forall z o, (exists d0, v' z = Some d0 /\ first d0 = Some o) <->
                 (z <> x /\ exists d0, v z = Some d0 /\ first d0 = Some o)).
    { intros z o. unfold v'. destruct (Nat.eq_dec z x) as [->|Nx].
      - rewrite upd_eq. split; [intros H; hsimp|intros [? _]; congruence].
      - rewrite !upd_neq by assumption. split; [auto|]. intros [_ ?]; assumption. }
    split.
    + apply (inv_delete C (World v l n r g) v' c None I x Vx); cbn [vars live nobj raws log]; auto.
      * intros z o H. apply Q in H. destruct H as [Nz H].
        assert (Lo : In o l) by eauto.
        unfold dlive. destruct (first c) as [ox|] eqn:Fx; [|exact Lo]. apply del_In. split; [exact Lo|].
        intros ->. apply Nz. eapply A2; eauto.
      * intros z z' o H H'. apply Q in H. apply Q in H'. destruct H, H'. eauto.
      * intros o H. destruct (A3 o H) as [? N]. split.
        -- unfold dlive. destruct (first c) as [ox|] eqn:Fx; [|assumption]. apply del_In. split; [assumption|].
           intros ->. eapply N; eauto.
        -- intros z Hz. apply Q in Hz. destruct Hz. eapply N; eauto.
      * intros o H.
        assert (H' : In o l /\ first c <> Some o).
        { unfold dlive in H. destruct (first c) as [ox|]; [apply del_In in H|split; [assumption|discriminate]].
          destruct H. split; [assumption|congruence]. }
        destruct H' as [H' Nx]. destruct (A4 o H') as [?|(z & c' & E1 & E2)]; auto.
        right. exists z. apply Q. split; [intro; subst; congruence|eauto].
    + cbn. unfold get_. cbn [vars log raws]. rewrite Vx. unfold v'. rewrite upd_eq. repeat split.
      * intros z Hz. cbn. rewrite !upd_neq; [reflexivity|intro; subst; apply Hz; cbn; auto..].
      * exists (first c), (second c). cbn. repeat split.
  - (* Get *)
    unfold in_scope in K. cbn [vars] in K. destruct (v x) as [c|] eqn:Vx; [clear K|contradiction].
    eexists _, _. split; [reflexivity|]. split; [exact I|]. cbn. unfold get_. cbn. rewrite Vx. eauto.
  - unfold in_scope in K. cbn [vars] in K. destruct (v x) as [c|] eqn:Vx; [clear K|contradiction].
    eexists _, _. split; [reflexivity|]. split; [exact I|]. cbn. unfold get_. cbn. rewrite Vx. eauto.
  - destruct K as (c & o & Vx & F). cbn in Vx. rewrite Vx, F.
    assert (Lo : In o l) by eauto. rewrite (proj2 (memb_In o l) Lo).
    eexists _, _. split; [reflexivity|]. split; [exact I|]. cbn. unfold get_. cbn. rewrite Vx, F. eauto 6.
  - destruct K as [K1 K2]. unfold in_scope in *. cbn [vars] in *.
    destruct (v x) as [cx|] eqn:Vx; [clear K1|contradiction]. destruct (v y) as [cy|] eqn:Vy; [clear K2|contradiction].
    eexists _, _. split; [reflexivity|]. split; [exact I|]. cbn. unfold get_. cbn. rewrite Vx, Vy.
    split; [reflexivity|]. exists (first cx), (second cx), (first cy), (second cy). repeat split; eauto.
    eexists. split; [reflexivity|]. apply opt_eqb_eq.
Qed.

Lemma inv_init : Inv [] init.
Proof.
  constructor; unfold holds; cbn; try constructor; intros; try contradiction; try (hsimp; fail).
  - lia.
  - destruct H as [[]|[[]|[]]].
Qed.

Definition client_deleted (ops : list op) : list nat := flat_map client_del (rev ops).

Lemma exec_inv ops outs w : exec ops outs w -> Inv (client_deleted ops) w.
Proof.
  induction 1 as [|ops outs w o r w' E IH K S]; [exact inv_init|].
  destruct (step_ok _ _ _ IH K) as (r1 & w1 & S1 & I1 & _). rewrite S in S1. injection S1 as <- <-.
  unfold client_deleted. rewrite rev_app_distr. exact I1.
Qed.

Lemma client_deleted_In ops p : In p (client_deleted ops) <-> In (Delete p) ops.
Proof.
  unfold client_deleted. rewrite in_flat_map. split.
  - intros (o & H & K). apply in_rev in H. destruct o; cbn in K; try contradiction. destruct K as [<-|[]]. exact H.
  - intro H. exists (Delete p). rewrite <- in_rev. split; [exact H|now left].
Qed.
