From Coq Require Import ZArith List Lia Bool ZifyBool ZifyNat.
From Verif Require Import Mem VecModel VecSpec VecProofs.
Import ListNotations.
Open Scope Z_scope.

Section R.
  Context {V : Type}.
  Notation heap := (heap V).
  Notation cell := (option V).
  Notation world := (world V).
  Implicit Types (h : heap) (v : vec) (w : world).

  Record Inv w : Prop := {
    inv_fresh : freshok (hp w);
    inv_wf : forall x v, vecs w x = Some v -> wfv (hp w) v;
    inv_disj : forall x y v u b, x <> y -> vecs w x = Some v -> vecs w y = Some u ->
      elements v = Some b -> elements u <> Some b;
    inv_noleak : forall b, mem (hp w) b <> None ->
      exists x v, vecs w x = Some v /\ elements v = Some b;
    inv_len : forall x v, vecs w x = Some v -> size v < max_len }.

  Definition R (s : sstate V) w : Prop := forall x,
    match s x, vecs w x with
    | Some l, Some v => Forall2 cell_ok l (contents (hp w) v)
    | None, None => True
    | _, _ => False
    end.

  Lemma inv0 : Inv world0.
  Proof. split; cbn; try discriminate; try (intros; congruence). intros b _; reflexivity. Qed.
  Lemma r0 : R spec0 world0.
  Proof. intros x; cbn; exact I. Qed.

  Lemma upd_same {A} (f : nat -> A) x a : upd f x a x = a.
  Proof. unfold upd. rewrite Nat.eqb_refl. reflexivity. Qed.
  Lemma upd_other {A} (f : nat -> A) x a y : y <> x -> upd f x a y = f y.
  Proof. unfold upd. destruct (Nat.eqb_spec y x); congruence. Qed.

  Definition old_at w x v := vecs w x = Some v \/ (vecs w x = None /\ elements v = None).

  Lemma old_disj w x v y u : Inv w -> old_at w x v -> y <> x -> vecs w y = Some u ->
    forall b, elements u = Some b -> elements v <> Some b.
  Proof.
    intros I [O|[_ O]] Hy Hu b Hb.
    - eapply (inv_disj w I y x); eauto.
    - congruence.
  Qed.

  Lemma put_inv w x v h' v' : Inv w -> old_at w x v ->
    frame (hp w) v h' v' -> wfv h' v' -> size v' < max_len ->
    Inv (put w x v' h') /\
    (forall y u, y <> x -> vecs w y = Some u -> contents h' u = contents (hp w) u).
  Proof.
    intros I O F W HS.
    assert (HO : forall y u, y <> x -> vecs w y = Some u ->
       arr h' u = arr (hp w) u /\ wfv h' u /\ (forall b, elements u = Some b -> elements v' <> Some b)).
    { intros y u Hy Hu. apply (frame_arr_same (hp w) v h' v' u F).
      - eapply inv_wf; eauto.
      - eapply old_disj; eauto. }
    split; [split|]; cbn [put hp vecs].
    - apply F. apply I.
    - intros y u. destruct (Nat.eq_dec y x) as [->|Hy].
      + rewrite upd_same. intros E; inversion E; subst; auto.
      + rewrite upd_other by auto. intros Hu. apply (HO y u Hy Hu).
    - intros y z u t b Hyz.
      destruct (Nat.eq_dec y x) as [->|Hy], (Nat.eq_dec z x) as [->|Hz]; try congruence.
      + rewrite upd_same, upd_other by auto. intros E Ht Hb. inversion E; subst u.
        intros Hb'. destruct (HO z t Hz Ht) as (_ & _ & D). apply (D b Hb'). exact Hb.
      + rewrite upd_same, upd_other by auto. intros Hu E Hb. inversion E; subst t.
        destruct (HO y u Hy Hu) as (_ & _ & D). apply (D b Hb).
      + rewrite !upd_other by auto. intros. eapply (inv_disj w I y z); eauto.
    - intros b Hb. destruct (ptr_eq_dec (elements v') (Some b)) as [E|E].
      + exists x, v'. rewrite upd_same. auto.
      + destruct (ptr_eq_dec (elements v) (Some b)) as [E'|E'].
        * exfalso. destruct F as (_ & [D|[_ D]] & _); [congruence|]. apply Hb. apply D. exact E'.
        * assert (Hb' : mem (hp w) b <> None).
          { destruct F as (F & _). rewrite <- F by auto. exact Hb. }
          destruct (inv_noleak w I b Hb') as (y & u & Hu & Hbu).
          exists y, u. rewrite upd_other; auto.
          intros ->. destruct O as [O|[O _]]; congruence.
    - intros y u. destruct (Nat.eq_dec y x) as [->|Hy].
      + rewrite upd_same. intros E; inversion E; subst; auto.
      + rewrite upd_other by auto. apply I.
    - intros y u Hy Hu. unfold contents. destruct (HO y u Hy Hu) as (-> & _). reflexivity.
  Qed.

  Lemma put_refine (s : sstate V) w x v h' v' l : Inv w -> R s w -> old_at w x v ->
    frame (hp w) v h' v' -> wfv h' v' -> size v' < max_len -> Forall2 cell_ok l (contents h' v') ->
    Inv (put w x v' h') /\ R (sset s x (Some l)) (put w x v' h').
  Proof.
    intros I HR O F W HS C. destruct (put_inv w x v h' v' I O F W HS) as [I' K].
    split; [exact I'|]. intros y. unfold sset, put; cbn [hp vecs].
    destruct (Nat.eqb_spec y x) as [->|Hy].
    - rewrite upd_same. exact C.
    - rewrite upd_other by auto. specialize (HR y).
      destruct (s y) as [ly|], (vecs w y) as [u|] eqn:Eu; auto.
      rewrite (K y u); auto.
  Qed.

  Lemma R_get (s : sstate V) w x l : R s w -> s x = Some l ->
    exists v, vecs w x = Some v /\ Forall2 cell_ok l (contents (hp w) v).
  Proof.
    intros HR E. specialize (HR x). rewrite E in HR.
    destruct (vecs w x) as [v|]; [|contradiction]. exists v. auto.
  Qed.

  Lemma Forall2_len {A B} (P : A -> B -> Prop) l k : Forall2 P l k -> length l = length k.
  Proof. intros F; induction F; cbn; auto. Qed.

  Lemma R_len w l v : Inv w -> (exists x, vecs w x = Some v) ->
    Forall2 (@cell_ok V) l (contents (hp w) v) -> len l = size v.
  Proof.
    intros I [x Hx] F. unfold len. rewrite (Forall2_len _ _ _ F).
    apply contents_length. eapply inv_wf; eauto.
  Qed.

  Lemma Forall2_firstn (l k : list cell) n : Forall2 cell_ok l k -> Forall2 cell_ok (firstn n l) (firstn n k).
  Proof. intros F; revert n; induction F; intros [|n]; cbn; auto. Qed.
  Lemma Forall2_skipn (l k : list cell) n : Forall2 cell_ok l k -> Forall2 cell_ok (skipn n l) (skipn n k).
  Proof. intros F; revert n; induction F; intros [|n]; cbn; auto. Qed.
  Lemma Forall2_nth (l k : list cell) n : Forall2 cell_ok l k -> cell_ok (nth n l None) (nth n k None).
  Proof. intros F; revert n; induction F; intros [|n]; cbn; auto. Qed.
  Lemma Forall2_repeat_None (k : list cell) n : length k = n -> Forall2 (@cell_ok V) (repeat None n) k.
  Proof. revert n; induction k; intros [|n] H; cbn in *; try discriminate; constructor; cbn; auto. Qed.


  Ltac found HR Hs := let u := fresh "u" in let Hu := fresh "Hu" in let Fu := fresh "Fu" in
    destruct (R_get _ _ _ _ HR Hs) as (u & Hu & Fu); rewrite ?Hu; cbn [bind].

  Lemma step_refines (s : sstate V) w o r s' :
    Inv w -> R s w -> spec_step s o = Some (r, s') ->
    exists r' w', step w o = Ok (r', w') /\ out_ok r r' /\ Inv w' /\ R s' w'.
  Proof.
    intros I HR. destruct o; cbn [spec_step step]; unfold sget, find, guard.
    - (* New *)
      pose proof (HR x) as Hx. destruct (s x); [discriminate|].
      destruct (vecs w x) eqn:Ev; [contradiction|]. intros E; inversion E; subst; clear E.
      eexists _, _. split; [reflexivity|]. split; [exact Logic.I|].
      apply put_refine with (v := vec_new); auto.
      + right. auto.
      + apply frame_refl.
      + unfold wfv, vec_new; cbn; lia.
      + cbn; unfold max_len; lia.
      + constructor.
    - (* NewCopy *)
      pose proof (HR x) as Hx. destruct (s x) eqn:Ex; [discriminate|].
      destruct (vecs w x) eqn:Ev; [contradiction|].
      destruct (s y) as [l|] eqn:Ey; [|discriminate]. intros E; inversion E; subst; clear E.
      found HR Ey.
      assert (Wu : wfv (hp w) u) by (eapply inv_wf; eauto).
      assert (Su : size u < max_len) by (eapply inv_len; eauto). unfold max_len in Su.
      assert (Wn : wfv (hp w) vec_new) by (unfold wfv, vec_new; cbn; lia).
      unfold vec_copy.
      destruct (assign_ok (hp w) vec_new u 0 (size u)) as (v' & h' & E & W' & F' & C');
        auto; try apply I; try (destruct Wu; lia).
      { cbn; congruence. }
      rewrite E. cbn [bind]. eexists _, _. split; [reflexivity|]. split; [exact Logic.I|].
      assert (C2 : contents h' v' = contents (hp w) u).
      { rewrite C'. change (Z.to_nat 0) with 0%nat. cbn [skipn].
        apply firstn_all2. pose proof (contents_length _ _ Wu). lia. }
      apply put_refine with (v := vec_new); auto.
      + right. auto.
      + pose proof (contents_length _ _ W'). pose proof (contents_length _ _ Wu). unfold max_len.
        rewrite C2 in *. lia.
      + rewrite C2. exact Fu.
    - (* Delete *)
      destruct (s x) as [l|] eqn:Ex; [|discriminate]. intros E; inversion E; subst; clear E.
      found HR Ex.
      assert (Wu : wfv (hp w) u) by (eapply inv_wf; eauto).
      unfold vec_delete, deallocate.
      assert (Hres : exists h', (match elements u with
                | None => Ok (hp w)
                | Some b => match mem (hp w) b with
                            | None => UB BadFree
                            | Some _ => Ok (Heap (upd_mem (mem (hp w)) b None) (fresh (hp w)) (allocs (hp w)) (moves (hp w)))
                            end end) = Ok h' /\
              freshok h' /\
              (forall b, elements u = Some b -> mem h' b = None) /\
              (forall b, elements u <> Some b -> mem h' b = mem (hp w) b)).
      { destruct (elements u) as [b|] eqn:Eu.
        - destruct Wu as (_ & _ & He). rewrite Eu in He. destruct He as (_ & a & Ha & _). rewrite Ha.
          eexists. split; [reflexivity|]. cbn. split; [|split].
          + intros b0 Hb0. cbn. destruct (Nat.eq_dec b0 b) as [->|Hn]; [apply upd_mem_same|].
            rewrite upd_mem_other by auto. apply I; exact Hb0.
          + intros b0 E; inversion E; subst. apply upd_mem_same.
          + intros b0 E. apply upd_mem_other. congruence.
        - eexists. split; [reflexivity|]. split; [apply I|]. split; [congruence|auto]. }
      destruct Hres as (h' & E & Fr & H1 & H2). rewrite E. cbn [bind].
      eexists _, _. split; [reflexivity|]. split; [exact Logic.I|].
      assert (K : forall y t, y <> x -> vecs w y = Some t -> wfv h' t /\ arr h' t = arr (hp w) t).
      { intros y t Hy Ht. assert (Wt : wfv (hp w) t) by (eapply inv_wf; eauto).
        destruct Wt as (? & ? & He). unfold wfv, arr.
        destruct (elements t) as [b|] eqn:Et; [|auto].
        rewrite (H2 b); auto.
        eapply (inv_disj w I y x); eauto. }
      split.
      + split; cbn [hp vecs].
        * exact Fr.
        * intros y t. destruct (Nat.eq_dec y x) as [->|Hy]; [rewrite upd_same; discriminate|].
          rewrite upd_other by auto. intros Ht. apply (K y t Hy Ht).
        * intros y z t t' b Hyz.
          destruct (Nat.eq_dec y x) as [->|Hy]; [rewrite upd_same; discriminate|].
          destruct (Nat.eq_dec z x) as [->|Hz]; [rewrite upd_same; discriminate|].
          rewrite !upd_other by auto. intros; eapply (inv_disj w I y z); eauto.
        * intros b Hb. destruct (ptr_eq_dec (elements u) (Some b)) as [Eb|Eb].
          -- exfalso. apply Hb. apply H1. exact Eb.
          -- rewrite (H2 b Eb) in Hb. destruct (inv_noleak w I b Hb) as (y & t & Ht & Hbt).
             exists y, t. rewrite upd_other; auto. intros ->. congruence.
        * intros y t. destruct (Nat.eq_dec y x) as [->|Hy]; [rewrite upd_same; discriminate|].
          rewrite upd_other by auto. apply I.
      + intros y. unfold sset; cbn [hp vecs]. destruct (Nat.eqb_spec y x) as [->|Hy].
        * rewrite upd_same. exact Logic.I.
        * rewrite upd_other by auto. specialize (HR y).
          destruct (s y), (vecs w y) as [t|] eqn:Et; auto.
          unfold contents in *. destruct (K y t Hy Et) as [_ ->]. exact HR.
    - (* PushBack *)
      destruct (s x) as [l|] eqn:Ex; [|discriminate].
      destruct (Z.ltb_spec (len l + 1) max_len) as [Hm|]; [|discriminate].
      intros E; inversion E; subst; clear E. found HR Ex.
      assert (Wu : wfv (hp w) u) by (eapply inv_wf; eauto).
      assert (Lu : len l = size u) by (eapply R_len; eauto). unfold max_len in *.
      destruct (push_back_ok (hp w) u (Some c)) as (v' & h' & E & W' & F' & C' & S' & _);
        auto; try apply I; try lia.
      rewrite E. cbn [bind]. eexists _, _. split; [reflexivity|]. split; [exact Logic.I|].
      apply put_refine with (v := u); auto.
      + left; exact Hu.
      + unfold max_len; lia.
      + rewrite C'. apply Forall2_app; auto. constructor; [reflexivity|constructor].
    - (* PopBack *)
      destruct (s x) as [l|] eqn:Ex; [|discriminate].
      destruct (Z.ltb_spec 0 (len l)) as [Hm|]; [|discriminate].
      intros E; inversion E; subst; clear E. found HR Ex.
      assert (Wu : wfv (hp w) u) by (eapply inv_wf; eauto).
      assert (Lu : len l = size u) by (eapply R_len; eauto).
      assert (Su : size u < max_len) by (eapply inv_len; eauto). unfold max_len in Su.
      eexists _, _. split; [reflexivity|]. split; [exact Logic.I|].
      unfold pop_back. rewrite w64_small by lia.
      apply put_refine with (v := u); auto.
      + left; exact Hu.
      + unfold frame; cbn; auto.
      + destruct Wu as (?&?&?). unfold wfv; cbn. repeat split; auto; lia.
      + cbn; unfold max_len; lia.
      + assert (Hl : removelast l = firstn (Z.to_nat (size u - 1)) l).
        { rewrite removelast_firstn_len. f_equal. unfold len in *. lia. }
        rewrite Hl. unfold contents; cbn [size].
        replace (firstn (Z.to_nat (size u - 1)) (arr (hp w) _))
          with (firstn (Z.to_nat (size u - 1)) (contents (hp w) u)).
        * apply Forall2_firstn. exact Fu.
        * unfold contents. rewrite firstn_firstn. f_equal. lia.
    - (* Erase *)
      destruct (s x) as [l|] eqn:Ex; [|discriminate].
      destruct (_ && _) eqn:Hb; [|discriminate].
      intros E; inversion E; subst; clear E. found HR Ex.
      assert (Wu : wfv (hp w) u) by (eapply inv_wf; eauto).
      assert (Lu : len l = size u) by (eapply R_len; eauto).
      assert (Su : size u < max_len) by (eapply inv_len; eauto). unfold max_len in Su.
      destruct (erase_ok (hp w) u i Wu ltac:(lia)) as (v' & h' & E & W' & F' & S' & _ & _ & C').
      rewrite E. cbn [bind]. eexists _, _. split; [reflexivity|]. split; [exact Logic.I|].
      apply put_refine with (v := u); auto.
      + left; exact Hu.
      + unfold max_len; lia.
      + rewrite C'. apply Forall2_app; [apply Forall2_firstn|apply (Forall2_skipn l _ (S (Z.to_nat i)))]; exact Fu.
    - (* Clear *)
      destruct (s x) as [l|] eqn:Ex; [|discriminate].
      intros E; inversion E; subst; clear E. found HR Ex.
      assert (Wu : wfv (hp w) u) by (eapply inv_wf; eauto).
      eexists _, _. split; [reflexivity|]. split; [exact Logic.I|].
      apply put_refine with (v := u); auto.
      + left; exact Hu.
      + unfold frame; cbn; auto.
      + destruct Wu as (?&?&?). unfold wfv; cbn. repeat split; auto; lia.
      + cbn; unfold max_len; lia.
      + constructor.
    - (* Resize *)
      destruct (s x) as [l|] eqn:Ex; [|discriminate].
      destruct (_ && _) eqn:Hb; [|discriminate].
      intros E; inversion E; subst; clear E. found HR Ex.
      assert (Wu : wfv (hp w) u) by (eapply inv_wf; eauto).
      assert (Lu : len l = size u) by (eapply R_len; eauto). unfold max_len in *.
      rewrite w64_small by lia.
      destruct (resize_ok (hp w) u n Wu (inv_fresh w I) ltac:(lia))
        as (v' & h' & E & W' & S' & _ & _ & F' & N & _).
      rewrite E. cbn [bind]. eexists _, _. split; [reflexivity|]. split; [exact Logic.I|].
      apply put_refine with (v := u); auto.
      + left; exact Hu.
      + unfold max_len; lia.
      + pose proof (wfv_len _ _ W') as L'. pose proof (wfv_len _ _ Wu) as L.
        pose proof (contents_length _ _ Wu) as LC.
        destruct W' as (Hs' & _). destruct Wu as (Hs & _).
        assert (Hpre : firstn (Nat.min (Z.to_nat n) (length l)) (arr h' v') =
                       firstn (Nat.min (Z.to_nat n) (length l)) (contents (hp w) u)).
        { unfold contents. unfold len in Lu. rewrite firstn_firstn.
          replace (Nat.min (Nat.min (Z.to_nat n) (length l)) (Z.to_nat (size u)))
            with (Nat.min (Z.to_nat n) (length l)) by lia.
          apply nth_ext_firstn with (d := None); try lia.
          intros j Hj. apply N. lia. }
        unfold contents at 1. rewrite S'. unfold len in Lu.
        rewrite <- (firstn_skipn (Nat.min (Z.to_nat n) (length l)) (firstn (Z.to_nat n) (arr h' v'))).
        apply Forall2_app.
        * rewrite firstn_firstn.
          replace (Nat.min (Nat.min (Z.to_nat n) (length l)) (Z.to_nat n))
            with (Nat.min (Z.to_nat n) (length l)) by lia.
          rewrite Hpre.
          replace (firstn (Z.to_nat n) l) with (firstn (Nat.min (Z.to_nat n) (length l)) l).
          { apply Forall2_firstn; exact Fu. }
          destruct (Nat.le_ge_cases (Z.to_nat n) (length l)).
          { f_equal; lia. }
          { rewrite (firstn_all2 (n := Z.to_nat n)) by lia. apply firstn_all2. lia. }
        * apply Forall2_repeat_None. rewrite skipn_length, firstn_length. lia.
    - (* Set_ *)
      destruct (s x) as [l|] eqn:Ex; [|discriminate].
      destruct (_ && _) eqn:Hb; [|discriminate].
      intros E; inversion E; subst; clear E. found HR Ex.
      assert (Wu : wfv (hp w) u) by (eapply inv_wf; eauto).
      assert (Lu : len l = size u) by (eapply R_len; eauto).
      assert (Su : size u < max_len) by (eapply inv_len; eauto).
      destruct (vstore_ok (hp w) u i (Some c) Wu ltac:(destruct Wu; lia))
        as (h' & E & W' & F' & A' & _).
      unfold set. rewrite E. cbn [bind]. eexists _, _. split; [reflexivity|]. split; [exact Logic.I|].
      assert (Wu' : wfv h' u) by (apply W'; auto; apply Wu).
      assert (G : Inv (put w x u h') /\
        R (sset s x (Some (firstn (Z.to_nat i) l ++ Some c :: skipn (S (Z.to_nat i)) l))) (put w x u h')).
      { apply put_refine with (v := u); auto; [left; exact Hu|].
        unfold contents. rewrite A'.
        assert (EE : firstn (Z.to_nat (size u)) (set_nth (arr (hp w) u) (Z.to_nat i) (Some c)) =
                set_nth (contents (hp w) u) (Z.to_nat i) (Some c)).
        { unfold contents. generalize (Z.to_nat (size u)). generalize (Z.to_nat i).
          generalize (arr (hp w) u). clear. intros a; induction a as [|z t IH]; intros [|i] [|n]; cbn; auto.
          rewrite IH; reflexivity. }
        rewrite EE. pose proof (contents_length _ _ Wu) as LC.
        rewrite set_nth_split by lia.
        apply Forall2_app; [apply Forall2_firstn; exact Fu|].
        constructor; [reflexivity|]. apply (Forall2_skipn l _ (S (Z.to_nat i))); exact Fu. }
      (* the record table is unchanged up to extensionality *)
      destruct G as [G1 G2]. split.
      + destruct G1 as [g1 g2 g3 g4 g5]. cbn [put hp vecs] in *.
        assert (X : forall y, upd (vecs w) x (Some u) y = vecs w y).
        { intros y. unfold upd. destruct (Nat.eqb_spec y x); congruence. }
        split; cbn [hp vecs]; auto.
        * intros y t Ht. apply (g2 y). rewrite X; exact Ht.
        * intros y z t t' b Hyz Ht Ht'. apply (g3 y z); auto; rewrite X; auto.
        * intros b Hbb. destruct (g4 b Hbb) as (y & t & Ht & Hbt). exists y, t. rewrite X in Ht. auto.
        * intros y t Ht. apply (g5 y). rewrite X; exact Ht.
      + intros y. specialize (G2 y). cbn [put hp vecs] in *.
        assert (X : upd (vecs w) x (Some u) y = vecs w y).
        { unfold upd. destruct (Nat.eqb_spec y x); congruence. }
        rewrite X in G2. exact G2.
    - (* Assign *)
      destruct (s x) as [l|] eqn:Ex; [|discriminate].
      destruct (s y) as [l'|] eqn:Ey; [|discriminate].
      intros E; inversion E; subst; clear E. found HR Ex. found HR Ey.
      destruct (Nat.eqb_spec x y) as [->|Hxy].
      + eexists _, _. split; [reflexivity|]. split; [exact Logic.I|]. split; [exact I|].
        intros z. unfold sset. destruct (Nat.eqb_spec z y) as [->|Hz]; [|apply HR].
        rewrite Hu0. exact Fu0.
      + assert (Wu : wfv (hp w) u) by (eapply inv_wf; eauto).
        assert (Wu0 : wfv (hp w) u0) by (eapply inv_wf; eauto).
        assert (Su0 : size u0 < max_len) by (eapply inv_len; eauto). unfold max_len in Su0.
        destruct (assign_ok (hp w) u u0 0 (size u0)) as (v' & h' & E & W' & F' & C');
          auto; try apply I; try (destruct Wu0; lia).
        { intros b Hb. eapply (inv_disj w I y x); eauto. }
        rewrite E. cbn [bind]. eexists _, _. split; [reflexivity|]. split; [exact Logic.I|].
        assert (C2 : contents h' v' = contents (hp w) u0).
        { rewrite C'. change (Z.to_nat 0) with 0%nat. cbn [skipn].
          apply firstn_all2. pose proof (contents_length _ _ Wu0). lia. }
        apply put_refine with (v := u); auto.
        * left; exact Hu.
        * pose proof (contents_length _ _ W'). pose proof (contents_length _ _ Wu0). unfold max_len.
          rewrite C2 in *. lia.
        * rewrite C2. exact Fu0.
    - (* AssignRange *)
      destruct (s x) as [l|] eqn:Ex; [|discriminate].
      destruct (s y) as [l'|] eqn:Ey; [|discriminate].
      destruct (_ && _) eqn:Hb; [|discriminate].
      destruct (Nat.eqb_spec x y) as [->|Hxy]; [cbn in Hb; discriminate|]. cbn [negb] in Hb.
      intros E; inversion E; subst; clear E. found HR Ex. found HR Ey.
      assert (Wu : wfv (hp w) u) by (eapply inv_wf; eauto).
      assert (Wu0 : wfv (hp w) u0) by (eapply inv_wf; eauto).
      assert (Lu0 : len l' = size u0) by (eapply R_len; eauto).
      assert (Su0 : size u0 < max_len) by (eapply inv_len; eauto). unfold max_len in Su0.
      destruct (assign_ok (hp w) u u0 i j) as (v' & h' & E & W' & F' & C');
          auto; try apply I; try lia.
      { intros b Hb'. eapply (inv_disj w I y x); eauto. }
      rewrite E. cbn [bind]. eexists _, _. split; [reflexivity|]. split; [exact Logic.I|].
      apply put_refine with (v := u); auto.
      + left; exact Hu.
      + pose proof (contents_length _ _ W'). pose proof (contents_length _ _ Wu0). unfold max_len.
        rewrite C', firstn_length, skipn_length in *. lia.
      + rewrite C'. unfold slice. apply Forall2_firstn, Forall2_skipn. exact Fu0.
    - (* PushBackOf *)
      destruct (s x) as [l|] eqn:Ex; [|discriminate].
      destruct (s y) as [l'|] eqn:Ey; [|discriminate].
      destruct (_ && _) eqn:Hb; [|discriminate].
      destruct (Nat.eqb_spec x y) as [->|Hxy]; [cbn in Hb; discriminate|]. cbn [negb] in Hb.
      intros E; inversion E; subst; clear E. found HR Ex. found HR Ey.
      assert (Wu : wfv (hp w) u) by (eapply inv_wf; eauto).
      assert (Wu0 : wfv (hp w) u0) by (eapply inv_wf; eauto).
      assert (Lu : len l = size u) by (eapply R_len; eauto).
      assert (Lu0 : len l' = size u0) by (eapply R_len; eauto). unfold max_len in *.
      destruct (push_back_ref_ok (hp w) u u0 i) as (v' & h' & E & W' & F' & C' & S' & _);
        auto; try apply I; try lia.
      { intros b Hb'. eapply (inv_disj w I y x); eauto. }
      { destruct Wu0; lia. }
      rewrite E. cbn [bind]. eexists _, _. split; [reflexivity|]. split; [exact Logic.I|].
      apply put_refine with (v := u); auto.
      + left; exact Hu.
      + unfold max_len; lia.
      + rewrite C'. apply Forall2_app; [exact Fu|]. constructor; [|constructor].
        pose proof (Forall2_nth _ _ (Z.to_nat i) Fu0) as Hn.
        replace (nth (Z.to_nat i) (arr (hp w) u0) None) with (nth (Z.to_nat i) (contents (hp w) u0) None); auto.
        unfold contents. rewrite <- (firstn_skipn (Z.to_nat (size u0)) (arr (hp w) u0)) at 2.
        rewrite app_nth1; auto. pose proof (contents_length _ _ Wu0). unfold contents in *. lia.
    - (* Swap *)
      destruct (s x) as [l|] eqn:Ex; [|discriminate].
      destruct (s y) as [l'|] eqn:Ey; [|discriminate].
      intros E; inversion E; subst; clear E. found HR Ex. found HR Ey.
      eexists _, _. split; [reflexivity|]. split; [exact Logic.I|].
      assert (X : forall z, exists z', upd (upd (vecs w) x (Some u0)) y (Some u) z = vecs w z' /\
                 sset (sset s x (Some l')) y (Some l) z = s z' /\
                 z' = if Nat.eqb z y then x else if Nat.eqb z x then y else z).
      { intros z. unfold upd, sset.
        destruct (Nat.eqb_spec z y) as [->|]; [exists x; auto|].
        destruct (Nat.eqb_spec z x) as [->|]; [exists y; auto|]. exists z; auto. }
      split.
      + split; cbn [hp vecs].
        * apply I.
        * intros z t Ht. destruct (X z) as (z' & E & _). rewrite E in Ht. eapply inv_wf; eauto.
        * intros a b t t' bb Hab Ht Ht'.
          destruct (X a) as (a' & Ea & _ & Na). destruct (X b) as (b' & Eb & _ & Nb).
          rewrite Ea in Ht. rewrite Eb in Ht'. apply (inv_disj w I a' b'); auto.
          subst a' b'.
          destruct (Nat.eqb_spec a y), (Nat.eqb_spec b y), (Nat.eqb_spec a x), (Nat.eqb_spec b x); congruence.
        * intros b Hb. destruct (inv_noleak w I b Hb) as (z & t & Ht & Hbt).
          exists (if Nat.eqb z y then x else if Nat.eqb z x then y else z), t.
          split; [|exact Hbt]. unfold upd.
          destruct (Nat.eqb_spec z y) as [->|].
          -- destruct (Nat.eqb_spec x y) as [->|]; [congruence|].
             rewrite Nat.eqb_refl. congruence.
          -- destruct (Nat.eqb_spec z x) as [->|].
             ++ rewrite Nat.eqb_refl. congruence.
             ++ destruct (Nat.eqb_spec z y); [congruence|]. destruct (Nat.eqb_spec z x); congruence.
        * intros z t Ht. destruct (X z) as (z' & E & _). rewrite E in Ht. eapply inv_len; eauto.
      + intros z. cbn [hp vecs]. destruct (X z) as (z' & E & E' & _). rewrite E, E'. apply HR.
    - (* Get *)
      destruct (s x) as [l|] eqn:Ex; [|discriminate].
      destruct (_ && _) eqn:Hb; [|discriminate].
      intros E; inversion E; subst; clear E. found HR Ex.
      assert (Wu : wfv (hp w) u) by (eapply inv_wf; eauto).
      assert (Lu : len l = size u) by (eapply R_len; eauto).
      unfold get. rewrite vload_ok by (auto; destruct Wu; lia). cbn [bind].
      eexists _, _. split; [reflexivity|]. split; [|auto]. cbn.
      pose proof (Forall2_nth _ _ (Z.to_nat i) Fu) as Hn.
      replace (nth (Z.to_nat i) (arr (hp w) u) None) with (nth (Z.to_nat i) (contents (hp w) u) None); auto.
      unfold contents. rewrite <- (firstn_skipn (Z.to_nat (size u)) (arr (hp w) u)) at 2.
      rewrite app_nth1; auto. pose proof (contents_length _ _ Wu). unfold contents in *. lia.
    - (* Size *)
      destruct (s x) as [l|] eqn:Ex; [|discriminate].
      intros E; inversion E; subst; clear E. found HR Ex.
      eexists _, _. split; [reflexivity|]. split; [|auto]. cbn. eapply R_len; eauto.
    - (* Empty *)
      destruct (s x) as [l|] eqn:Ex; [|discriminate].
      intros E; inversion E; subst; clear E. found HR Ex.
      eexists _, _. split; [reflexivity|]. split; [|auto]. cbn. unfold vempty.
      replace (size u) with (len l); [reflexivity|]. eapply R_len; eauto.
  Qed.

  Lemma run_refines ops : forall (s : sstate V) w outs s',
    Inv w -> R s w -> spec_run s ops = Some (outs, s') ->
    exists outs' w', run w ops = Ok (outs', w') /\ Forall2 out_ok outs outs' /\ Inv w' /\ R s' w'.
  Proof.
    induction ops as [|o t IH]; cbn [spec_run run]; intros s w outs s' I HR E.
    - inversion E; subst. exists [], w. auto.
    - destruct (spec_step s o) as [[r s1]|] eqn:E1; [|discriminate].
      destruct (spec_run s1 t) as [[rs s2]|] eqn:E2; [|discriminate].
      inversion E; subst; clear E.
      destruct (step_refines s w o r s1 I HR E1) as (r' & w1 & H1 & O1 & I1 & R1).
      destruct (IH s1 w1 rs s' I1 R1 E2) as (rs' & w2 & H2 & O2 & I2 & R2).
      rewrite H1. cbn [bind]. rewrite H2. cbn [bind].
      exists (r' :: rs'), w2. auto.
  Qed.
End R.
