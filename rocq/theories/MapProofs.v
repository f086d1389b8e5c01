(** Lemmas about the treap model. *)
From Coq Require Import ZArith List Bool Lia Sorting.Sorted Permutation.
From Verif Require Import Mem MapModel MapSpec.
Import ListNotations.
Open Scope Z_scope.

Lemma ss_app {A} (R : A -> A -> Prop) l1 l2 :
  StronglySorted R (l1 ++ l2) <->
  StronglySorted R l1 /\ StronglySorted R l2 /\ (forall x y, In x l1 -> In y l2 -> R x y).
Proof.
  induction l1 as [|a l1 IH]; cbn.
  - split; [intros H; repeat split; [constructor|exact H|tauto]|tauto].
  - split.
    + intros H. inversion H as [|? ? Hs Hf]; subst. apply IH in Hs. destruct Hs as (S1 & S2 & S3).
      rewrite Forall_forall in Hf. split; [constructor; [exact S1|]|split; [exact S2|]].
      * apply Forall_forall. intros x Hx. apply Hf, in_or_app. auto.
      * intros x y [->|Hx] Hy; [apply Hf, in_or_app; auto|auto].
    + intros (S1 & S2 & S3). inversion S1 as [|? ? Hs Hf]; subst. constructor.
      * apply IH. repeat split; auto.
      * rewrite Forall_forall in *. intros x Hx. apply in_app_or in Hx. destruct Hx; auto.
Qed.

Lemma ss_map {A B} (f : A -> B) (R : B -> B -> Prop) l :
  StronglySorted R (map f l) <-> StronglySorted (fun a b => R (f a) (f b)) l.
Proof.
  induction l as [|a l IH]; cbn; [split; constructor|].
  split; intros H; inversion H as [|? ? Hs Hf]; subst; constructor.
  - apply IH; auto.
  - rewrite Forall_map in Hf. exact Hf.
  - apply IH; auto.
  - rewrite Forall_map. exact Hf.
Qed.

Section P.
  Context {K T : Type}.
  Variables (eqb gtb ltb : K -> K -> bool) (dflt : T) (pri : nat -> Z).
  Hypothesis KO : key_order eqb gtb ltb.
  Notation tree := (tree K T).
  Notation heap := (nheap K T).
  Notation ent := (nat * (K * T))%type.
  Definition kof (e : ent) : K := fst (snd e).
  Definition elt (a b : ent) : Prop := ltb (kof a) (kof b) = true.
  Notation ss := (StronglySorted elt).

  Lemma so_ss (t : tree) : search_order ltb t <-> ss (nl t).
  Proof. unfold search_order, entries. rewrite ss_map. reflexivity. Qed.

  Lemma eqb_refl k : eqb k k = true. Proof. apply (ko_eq _ _ _ KO). reflexivity. Qed.
  Lemma eqb_false a b : eqb a b = false -> a <> b.
  Proof. intros H E. subst. rewrite eqb_refl in H. discriminate. Qed.
  Lemma ltb_asym a b : ltb a b = true -> ltb b a = false.
  Proof.
    intros H. destruct (ltb b a) eqn:E; [|reflexivity].
    pose proof (ko_trans _ _ _ KO _ _ _ H E). rewrite (ko_irrefl _ _ _ KO) in H0. discriminate.
  Qed.
  Lemma gt_split k k' : eqb k k' = false ->
    (gtb k k' = true /\ ltb k' k = true) \/ (gtb k k' = false /\ ltb k k' = true).
  Proof.
    intros H. rewrite (ko_gt _ _ _ KO). destruct (ltb k' k) eqn:E; [auto|right; split; auto].
    destruct (ko_total _ _ _ KO k k') as [?|[?|?]]; auto.
    - apply eqb_false in H. contradiction.
    - congruence.
  Qed.

  (** ** Functional insertion *)
  Definition bal_r (j : nat) (k' : K) (v' : T) (p' : Z) (l r' : tree) : tree :=
    match r' with
    | E => N j k' v' p' l E
    | N jr kr vr pr lr rr =>
      if Z.gtb p' pr then N jr kr vr pr (N j k' v' p' l lr) rr else N j k' v' p' l r'
    end.
  Definition bal_l (j : nat) (k' : K) (v' : T) (p' : Z) (l' r : tree) : tree :=
    match l' with
    | E => N j k' v' p' E r
    | N jl kl vl pl ll rl =>
      if Z.gtb p' pl then N jl kl vl pl ll (N j k' v' p' rl r) else N j k' v' p' l' r
    end.
  Fixpoint tins (t : tree) (k : K) (v : T) (i : nat) (p : Z) : tree * nat * bool :=
    match t with
    | E => (N i k v p E E, i, true)
    | N j k' v' p' l r =>
      if eqb k k' then (t, j, false)
      else if gtb k k'
           then let '(r', x, b) := tins r k v i p in (bal_r j k' v' p' l r', x, b)
           else let '(l', x, b) := tins l k v i p in (bal_l j k' v' p' l' r, x, b)
    end.

  Lemma nl_bal_r j k v p l r : nl (bal_r j k v p l r) = nl l ++ (j, (k, v)) :: nl r.
  Proof.
    destruct r as [|jr kr vr pr lr rr]; [reflexivity|]. unfold bal_r.
    destruct (Z.gtb p pr); cbn [nl]; [rewrite <- !app_assoc; reflexivity|reflexivity].
  Qed.
  Lemma nl_bal_l j k v p l r : nl (bal_l j k v p l r) = nl l ++ (j, (k, v)) :: nl r.
  Proof.
    destruct l as [|jr kr vr pr lr rr]; [reflexivity|]. unfold bal_l.
    destruct (Z.gtb p pr); cbn [nl]; [|reflexivity].
    rewrite <- !app_assoc. reflexivity.
  Qed.

  Definition key_in (k : K) (l : list ent) : Prop := exists e, In e l /\ kof e = k.

  Lemma ss_node i k v p (l r : tree) : ss (nl (N i k v p l r)) <->
    ss (nl l) /\ ss (nl r) /\ (forall e, In e (nl l) -> ltb (kof e) k = true) /\
    (forall e, In e (nl r) -> ltb k (kof e) = true).
  Proof.
    cbn [nl]. rewrite ss_app. split.
    - intros (A & B & C). inversion B as [|? ? Bs Bf]; subst. rewrite Forall_forall in Bf.
      split; [exact A|]. split; [exact Bs|]. split.
      + intros e He. apply (C e (i, (k, v)) He). left; reflexivity.
      + intros e He. apply (Bf e He).
    - intros (A & B & C & D). split; [exact A|]. split.
      + constructor; [exact B|]. apply Forall_forall. intros e He. apply (D e He).
      + intros x y Hx [<-|Hy]; [apply (C x Hx)|].
        eapply (ko_trans _ _ _ KO); [apply (C x Hx)|apply (D y Hy)].
  Qed.

  Lemma tins_spec t k v i p : ss (nl t) -> forall t' x b, tins t k v i p = (t', x, b) ->
    ss (nl t') /\
    (b = true -> x = i /\ ~ key_in k (nl t) /\
                 exists a c, nl t = a ++ c /\ nl t' = a ++ (i, (k, v)) :: c) /\
    (b = false -> nl t' = nl t /\ exists v', In (x, (k, v')) (nl t)).
  Proof.
    induction t as [|j k' v' p' l IHl r IHr]; intros Hs t' x b Ht; cbn in Ht.
    - inversion Ht; subst. cbn. repeat split; try discriminate.
      + repeat constructor.
      + intros (e & [] & _).
      + exists [], []. auto.
    - apply ss_node in Hs. destruct Hs as (Sl & Sr & Ll & Lr).
      destruct (eqb k k') eqn:Eq.
      { inversion Ht; subst. apply (ko_eq _ _ _ KO) in Eq. subst k'. split; [apply ss_node; auto|].
        split; [discriminate|]. intros _. split; [reflexivity|]. exists v'.
        cbn. apply in_or_app. right. left. reflexivity. }
      destruct (gt_split _ _ Eq) as [[Hg Hl]|[Hg Hl]]; rewrite Hg in Ht.
      + destruct (tins r k v i p) as [[r' x'] b'] eqn:Er. inversion Ht; subst.
        destruct (IHr Sr _ _ _ eq_refl) as (S' & HT & HF).
        assert (Hin : forall e, In e (nl r') -> ltb k' (kof e) = true).
        { intros e He. destruct b.
          - destruct (HT eq_refl) as (_ & _ & a & c & E1 & E2). rewrite E2 in He.
            apply in_app_or in He. destruct He as [He|[<-|He]]; [|exact Hl|];
              apply Lr; rewrite E1; apply in_or_app; auto.
          - destruct (HF eq_refl) as (E1 & _). apply Lr. congruence. }
        rewrite nl_bal_r. split; [apply (ss_node j k' v' p' l r'); auto|]. split; intros ->.
        * destruct (HT eq_refl) as (-> & Hn & a & c & E1 & E2). split; [reflexivity|]. split.
          -- intros (e & He & Hk). cbn in He. apply in_app_or in He. destruct He as [He|[<-|He]].
             ++ apply Ll in He. rewrite Hk in He. apply ltb_asym in He. congruence.
             ++ cbn in Hk. subst. rewrite (ko_irrefl _ _ _ KO) in Hl. discriminate.
             ++ apply Hn. exists e; auto.
          -- exists (nl l ++ (j, (k', v')) :: a), c. cbn [nl]. rewrite E1, E2.
             rewrite <- !app_assoc. auto.
        * destruct (HF eq_refl) as (E1 & v0 & Hv). cbn [nl]. rewrite E1. split; [reflexivity|].
          exists v0. apply in_or_app. right. right. exact Hv.
      + destruct (tins l k v i p) as [[l' x'] b'] eqn:Er. inversion Ht; subst.
        destruct (IHl Sl _ _ _ eq_refl) as (S' & HT & HF).
        assert (Hin : forall e, In e (nl l') -> ltb (kof e) k' = true).
        { intros e He. destruct b.
          - destruct (HT eq_refl) as (_ & _ & a & c & E1 & E2). rewrite E2 in He.
            apply in_app_or in He. destruct He as [He|[<-|He]]; [|exact Hl|];
              apply Ll; rewrite E1; apply in_or_app; auto.
          - destruct (HF eq_refl) as (E1 & _). apply Ll. congruence. }
        rewrite nl_bal_l. split; [apply (ss_node j k' v' p' l' r); auto|]. split; intros ->.
        * destruct (HT eq_refl) as (-> & Hn & a & c & E1 & E2). split; [reflexivity|]. split.
          -- intros (e & He & Hk). cbn in He. apply in_app_or in He. destruct He as [He|[<-|He]].
             ++ apply Hn. exists e; auto.
             ++ cbn in Hk. subst. rewrite (ko_irrefl _ _ _ KO) in Hl. discriminate.
             ++ apply Lr in He. rewrite Hk in He. apply ltb_asym in He. congruence.
          -- exists a, (c ++ (j, (k', v')) :: nl r). cbn [nl]. rewrite E1, E2.
             rewrite <- !app_assoc. auto.
        * destruct (HF eq_refl) as (E1 & v0 & Hv). cbn [nl]. rewrite E1. split; [reflexivity|].
          exists v0. apply in_or_app. left. exact Hv.
  Qed.

  Definition kids_ge (B : Z) (t : tree) : Prop :=
    match t with E => False | N _ _ _ _ l r => hroot B l /\ hroot B r end.

  Lemma hroot_le B B' (t : tree) : B' <= B -> hroot B t -> hroot B' t.
  Proof. destruct t; cbn; [auto|lia]. Qed.

  Lemma tins_heap t k v i p : heap_order t -> forall B, hroot B t ->
    forall t' x b, tins t k v i p = (t', x, b) -> heap_order t' /\ kids_ge B t' /\ (b = false -> t' = t).
  Proof.
    induction t as [|j k' v' p' l IHl r IHr]; intros Hh B HB t' x b Ht; cbn in Ht.
    - inversion Ht; subst. cbn. repeat split; discriminate.
    - cbn in Hh, HB. destruct Hh as (Hl & Hr & Hhl & Hhr).
      assert (Bl : hroot B l) by (eapply hroot_le; eauto).
      assert (Br : hroot B r) by (eapply hroot_le; eauto).
      destruct (eqb k k').
      { inversion Ht; subst. cbn. repeat split; auto. }
      destruct (gtb k k').
      + destruct (tins r k v i p) as [[r' x'] b'] eqn:Er. inversion Ht; subst.
        destruct (IHr Hhr p' Hr _ _ _ eq_refl) as (Hh' & Hk & Hf).
        destruct r' as [|jr kr vr pr lr rr]; [destruct Hk|]. cbn in Hk, Hh'.
        destruct Hk as [K1 K2]. destruct Hh' as (A1 & A2 & A3 & A4). unfold bal_r.
        destruct (Z.gtb_spec p' pr); cbn.
        * split; [|split].
          -- repeat split; auto; lia.
          -- split; [lia|eapply hroot_le; eauto].
          -- intros E. specialize (Hf E). subst r. cbn in Hr. lia.
        * split; [|split].
          -- repeat split; auto; lia.
          -- split; [auto|lia].
          -- intros E. rewrite <- (Hf E). reflexivity.
      + destruct (tins l k v i p) as [[l' x'] b'] eqn:Er. inversion Ht; subst.
        destruct (IHl Hhl p' Hl _ _ _ eq_refl) as (Hh' & Hk & Hf).
        destruct l' as [|jr kr vr pr lr rr]; [destruct Hk|]. cbn in Hk, Hh'.
        destruct Hk as [K1 K2]. destruct Hh' as (A1 & A2 & A3 & A4). unfold bal_l.
        destruct (Z.gtb_spec p' pr); cbn.
        * split; [|split].
          -- repeat split; auto; lia.
          -- split; [eapply hroot_le; eauto|lia].
          -- intros E. specialize (Hf E). subst l. cbn in Hl. lia.
        * split; [|split].
          -- repeat split; auto; lia.
          -- split; [lia|auto].
          -- intros E. rewrite <- (Hf E). reflexivity.
  Qed.

  (** ** Heap simulation *)
  Lemma rep_frame (h h' : heap) t : forall q, rep h q t ->
    (forall j, In j (ids t) -> nodes h' j = nodes h j) -> rep h' q t.
  Proof.
    induction t as [|i k v p l IHl r IHr]; intros q Hr Hf; cbn in *; [exact Hr|].
    destruct Hr as (-> & ql & qr & Hn & Hl & Hrr). split; [reflexivity|]. exists ql, qr.
    unfold ids in *. cbn [nl] in Hf. rewrite map_app in Hf. cbn [map fst] in Hf.
    rewrite Hf by (apply in_or_app; right; left; reflexivity).
    repeat split; auto; [apply IHl|apply IHr]; auto; intros j Hj; apply Hf, in_or_app; auto.
    right. right. exact Hj.
  Qed.

  Lemma upd_same (m : nat -> option (node K T)) i x : upd_node m i x i = x.
  Proof. unfold upd_node. rewrite Nat.eqb_refl. reflexivity. Qed.
  Lemma upd_other (m : nat -> option (node K T)) i x j : j <> i -> upd_node m i x j = m j.
  Proof. unfold upd_node. intros H. destruct (Nat.eqb_spec j i); congruence. Qed.

  Lemma ids_node i k v p (l r : tree) : ids (N i k v p l r) = ids l ++ i :: ids r.
  Proof. unfold ids. cbn [nl]. rewrite map_app. reflexivity. Qed.

  Lemma NoDup_mid {A} (l r : list A) i : NoDup (l ++ i :: r) ->
    NoDup l /\ NoDup r /\ ~ In i l /\ ~ In i r /\ (forall x, In x l -> ~ In x r).
  Proof.
    intros H. pose proof (NoDup_remove_1 _ _ _ H) as H1. pose proof (NoDup_remove_2 _ _ _ H) as H2.
    assert (HA : forall (l r : list A), NoDup (l ++ r) -> NoDup l /\ NoDup r /\ (forall x, In x l -> ~ In x r)).
    { clear. induction l as [|a l IH]; cbn; intros r H.
      - repeat split; [constructor|exact H|tauto].
      - inversion H as [|? ? Hn Hd]; subst. destruct (IH _ Hd) as (A1 & A2 & A3).
        repeat split; auto.
        + constructor; [|exact A1]. intros Hx. apply Hn, in_or_app; auto.
        + intros x [<-|Hx] Hy; [apply Hn, in_or_app; auto|eapply A3; eauto]. }
    destruct (HA _ _ H1) as (A1 & A2 & A3). repeat split; auto; intros Hx; apply H2, in_or_app; auto.
  Qed.

  Lemma tins_ids t k v i p t' x b : tins t k v i p = (t', x, b) ->
    Permutation (ids t') (if b then i :: ids t else ids t).
  Proof.
    revert t' x b. induction t as [|j k' v' p' l IHl r IHr]; intros t' x b Ht; cbn in Ht.
    - inversion Ht; subst. apply Permutation_refl.
    - destruct (eqb k k'); [inversion Ht; subst; apply Permutation_refl|].
      destruct (gtb k k').
      + destruct (tins r k v i p) as [[r' x'] b'] eqn:Er. inversion Ht; subst.
        unfold ids at 1. rewrite nl_bal_r, map_app. cbn [map fst]. fold (ids l) (ids r').
        rewrite ids_node. rewrite (IHr _ _ _ eq_refl). destruct b; [|apply Permutation_refl].
        rewrite perm_swap. rewrite <- Permutation_middle. apply Permutation_refl.
      + destruct (tins l k v i p) as [[l' x'] b'] eqn:Er. inversion Ht; subst.
        unfold ids at 1. rewrite nl_bal_l, map_app. cbn [map fst]. fold (ids r) (ids l').
        rewrite ids_node. rewrite (IHl _ _ _ eq_refl). destruct b; apply Permutation_refl.
  Qed.

  Lemma tins_nonempty t k v i p t' x b : tins t k v i p = (t', x, b) -> t' <> E.
  Proof.
    destruct t as [|j k' v' p' l r]; cbn; intros Ht.
    - inversion Ht. discriminate.
    - destruct (eqb k k'); [inversion Ht; discriminate|].
      destruct (gtb k k').
      + destruct (tins r k v i p) as [[r' x'] b']. inversion Ht. unfold bal_r.
        destruct r'; [discriminate|]. destruct (_ >? _); discriminate.
      + destruct (tins l k v i p) as [[r' x'] b']. inversion Ht. unfold bal_l.
        destruct r'; [discriminate|]. destruct (_ >? _); discriminate.
  Qed.

  Lemma insert_sim fuel : forall (h : heap) q t k v, rep h q t -> NoDup (ids t) ->
    (forall j, In j (ids t) -> (j < nfresh h)%nat) -> (length (ids t) < fuel)%nat ->
    forall t' x b, tins t k v (nfresh h) (pri (nfresh h)) = (t', x, b) ->
    exists q' h', insert_ eqb gtb pri fuel h q k v = Ok (q', (Some x, b), h') /\
      rep h' q' t' /\ nfresh h' = (if b then S (nfresh h) else nfresh h) /\
      (forall j, ~ In j (ids t') -> nodes h' j = nodes h j).
  Proof.
    induction fuel as [|fuel IH]; intros h q t k v Hr Hnd Hlt Hfu t' x b Ht; [lia|].
    destruct t as [|j k' v' p' l r].
    - cbn in Hr. subst q. cbn in Ht. inversion Ht; subst. cbn [insert_ new_node].
      eexists _, _. split; [reflexivity|]. cbn [nodes nfresh]. split; [|split; [reflexivity|]].
      + cbn. split; [reflexivity|]. exists None, None. rewrite upd_same. auto.
      + intros j Hj. apply upd_other. cbn in Hj. intros ->. apply Hj. auto.
    - cbn [rep] in Hr. destruct Hr as (-> & ql & qr & Hn & Hl & Hrr).
      rewrite ids_node in *. destruct (NoDup_mid _ _ _ Hnd) as (Nl & Nr & Il & Ir & Dlr).
      rewrite app_length in Hfu. cbn [length] in Hfu.
      cbn [insert_ ldn]. rewrite Hn. cbn [bind nkey]. cbn [tins] in Ht.
      destruct (eqb k k') eqn:Eq.
      { inversion Ht; subst. eexists _, _. split; [reflexivity|]. split; [|split; [reflexivity|auto]].
        cbn. split; [reflexivity|]. exists ql, qr. auto. }
      assert (Lj : (j < nfresh h)%nat) by (apply Hlt, in_or_app; right; left; reflexivity).
      destruct (gtb k k') eqn:Eg.
      + destruct (tins r k v (nfresh h) (pri (nfresh h))) as [[r' x'] b'] eqn:Er.
        inversion Ht; subst. clear Ht.
        destruct (IH h qr r k v Hrr Nr) with (t' := r') (x := x) (b := b)
          as (q' & h1 & E1 & R1 & F1 & G1); auto.
        { intros i Hi. apply Hlt, in_or_app. right; right; exact Hi. }
        { lia. }
        cbn [ch ch1 nkey]. rewrite E1. cbn [bind].
        pose proof (tins_ids _ _ _ _ _ _ _ _ Er) as Pids.
        assert (Ij : ~ In j (ids r')).
        { intros Hj. eapply Permutation_in in Hj; [|exact Pids]. destruct b; [destruct Hj as [Hj|Hj]|];
          [lia|tauto|tauto]. }
        assert (Gl : forall i, In i (ids l) -> ~ In i (ids r')).
        { intros i Hi Hi'. eapply Permutation_in in Hi'; [|exact Pids].
          assert (i < nfresh h)%nat by (apply Hlt, in_or_app; left; exact Hi).
          destruct b; [destruct Hi' as [Hi'|Hi']|]; [lia|eapply Dlr; eauto|eapply Dlr; eauto]. }
        rewrite (G1 j Ij), Hn. cbn [bind set_ch nkey nval npri ch0 stn].
        rewrite (G1 j Ij), Hn. cbn [bind nodes]. rewrite upd_same. cbn [bind ch1 npri].
        pose proof (tins_nonempty _ _ _ _ _ _ _ _ Er) as Hne.
        destruct r' as [|jr kr vr pr lr rr]; [congruence|].
        cbn [rep] in R1. destruct R1 as (-> & qlr & qrr & Hn1 & R1l & R1r).
        assert (Hjr : jr <> j) by (intros ->; apply Ij; rewrite ids_node; apply in_or_app; right; left; reflexivity).
        rewrite ids_node in Pids, Ij, Gl, G1.
        cbn [ldn nodes]. rewrite upd_other by exact Hjr. rewrite Hn1. cbn [bind npri]. unfold bal_r.
        assert (NDr' : NoDup (ids lr ++ jr :: ids rr)).
        { eapply Permutation_NoDup; [symmetry; exact Pids|]. destruct b; [|exact Nr].
          constructor; [|exact Nr]. intros Hi. 
          assert (nfresh h < nfresh h)%nat by (apply Hlt, in_or_app; right; right; exact Hi). lia. }
        destruct (NoDup_mid _ _ _ NDr') as (_ & _ & Ilr & Irr & _).
        assert (Fl : forall i, In i (ids l) -> i <> j /\ i <> jr /\ nodes h1 i = nodes h i).
        { intros i Hi. split; [intros ->; tauto|]. split.
          - intros ->. apply (Gl jr Hi), in_or_app; right; left; reflexivity.
          - apply G1, Gl, Hi. }
        assert (FL : forall i, In i (ids lr) -> i <> j /\ i <> jr).
        { intros i Hi. split; intros ->; [apply Ij, in_or_app; auto|tauto]. }
        assert (FR : forall i, In i (ids rr) -> i <> j /\ i <> jr).
        { intros i Hi. split; intros ->; [apply Ij, in_or_app; right; right; auto|tauto]. }
        destruct (p' >? pr) eqn:Ep.
        * unfold rotate. cbn [negb ldn nodes]. rewrite upd_same. cbn [bind ch ch1 ldn nodes].
          rewrite upd_other by exact Hjr. rewrite Hn1.
          cbn [bind stn nodes]. rewrite upd_same. cbn [bind ldn nodes].
          rewrite upd_other by exact Hjr. rewrite upd_other by exact Hjr. rewrite Hn1.
          cbn [bind stn nodes nfresh set_ch nkey nval npri ch0 ch1 ch].
          eexists _, _. split; [reflexivity|]. split; [|split; [exact F1|]].
          -- cbn [rep nodes]. split; [reflexivity|]. exists (Some j), qrr. rewrite upd_same.
             split; [reflexivity|]. split.
             ++ split; [reflexivity|]. exists ql, qlr. rewrite upd_other by congruence.
                rewrite upd_same. split; [reflexivity|]. split.
                ** eapply rep_frame; [exact Hl|]. cbn [nodes]. intros i Hi.
                   destruct (Fl i Hi) as (? & ? & ?). rewrite !upd_other by auto. auto.
                ** eapply rep_frame; [exact R1l|]. cbn [nodes]. intros i Hi.
                   destruct (FL i Hi). rewrite !upd_other by auto. auto.
             ++ eapply rep_frame; [exact R1r|]. cbn [nodes]. intros i Hi.
                destruct (FR i Hi). rewrite !upd_other by auto. auto.
          -- intros i Hi. rewrite !ids_node in Hi. rewrite !in_app_iff in Hi. cbn in Hi.
             rewrite ?in_app_iff in Hi. cbn in Hi. cbn [nodes].
             rewrite !upd_other by (intros ->; tauto). apply G1. rewrite in_app_iff. cbn. tauto.
        * eexists _, _. split; [reflexivity|]. split; [|split; [exact F1|]].
          -- cbn [rep nodes]. split; [reflexivity|]. exists ql, (Some jr). rewrite upd_same.
             split; [reflexivity|]. split.
             ++ eapply rep_frame; [exact Hl|]. cbn [nodes]. intros i Hi.
                destruct (Fl i Hi) as (? & ? & ?). rewrite !upd_other by auto. auto.
             ++ split; [reflexivity|]. exists qlr, qrr. rewrite upd_other by exact Hjr.
                split; [exact Hn1|]. split.
                ** eapply rep_frame; [exact R1l|]. cbn [nodes]. intros i Hi.
                   destruct (FL i Hi). rewrite !upd_other by auto. auto.
                ** eapply rep_frame; [exact R1r|]. cbn [nodes]. intros i Hi.
                   destruct (FR i Hi). rewrite !upd_other by auto. auto.
          -- intros i Hi. rewrite !ids_node in Hi. rewrite !in_app_iff in Hi. cbn in Hi.
             rewrite ?in_app_iff in Hi. cbn in Hi. cbn [nodes].
             rewrite !upd_other by (intros ->; tauto). apply G1. rewrite in_app_iff. cbn. tauto.
      + destruct (tins l k v (nfresh h) (pri (nfresh h))) as [[l' x'] b'] eqn:Er.
        inversion Ht; subst. clear Ht.
        destruct (IH h ql l k v Hl Nl) with (t' := l') (x := x) (b := b)
          as (q' & h1 & E1 & R1 & F1 & G1); auto.
        { intros i Hi. apply Hlt, in_or_app. left; exact Hi. }
        { lia. }
        cbn [ch ch0 nkey]. rewrite E1. cbn [bind].
        pose proof (tins_ids _ _ _ _ _ _ _ _ Er) as Pids.
        assert (Ij : ~ In j (ids l')).
        { intros Hj. eapply Permutation_in in Hj; [|exact Pids]. destruct b; [destruct Hj as [Hj|Hj]|];
          [lia|tauto|tauto]. }
        assert (Gl : forall i, In i (ids r) -> ~ In i (ids l')).
        { intros i Hi Hi'. eapply Permutation_in in Hi'; [|exact Pids].
          assert (i < nfresh h)%nat by (apply Hlt, in_or_app; right; right; exact Hi).
          destruct b; [destruct Hi' as [Hi'|Hi']|]; [lia|eapply Dlr; eauto|eapply Dlr; eauto]. }
        rewrite (G1 j Ij), Hn. cbn [bind set_ch nkey nval npri ch1 stn].
        rewrite (G1 j Ij), Hn. cbn [bind nodes]. rewrite upd_same. cbn [bind ch0 npri].
        pose proof (tins_nonempty _ _ _ _ _ _ _ _ Er) as Hne.
        destruct l' as [|jr kr vr pr lr rr]; [congruence|].
        cbn [rep] in R1. destruct R1 as (-> & qlr & qrr & Hn1 & R1l & R1r).
        assert (Hjr : jr <> j) by (intros ->; apply Ij; rewrite ids_node; apply in_or_app; right; left; reflexivity).
        rewrite ids_node in Pids, Ij, Gl, G1.
        cbn [ldn nodes]. rewrite upd_other by exact Hjr. rewrite Hn1. cbn [bind npri]. unfold bal_l.
        assert (NDr' : NoDup (ids lr ++ jr :: ids rr)).
        { eapply Permutation_NoDup; [symmetry; exact Pids|]. destruct b; [|exact Nl].
          constructor; [|exact Nl]. intros Hi. 
          assert (nfresh h < nfresh h)%nat by (apply Hlt, in_or_app; left; exact Hi). lia. }
        destruct (NoDup_mid _ _ _ NDr') as (_ & _ & Ilr & Irr & _).
        assert (Fl : forall i, In i (ids r) -> i <> j /\ i <> jr /\ nodes h1 i = nodes h i).
        { intros i Hi. split; [intros ->; tauto|]. split.
          - intros ->. apply (Gl jr Hi), in_or_app; right; left; reflexivity.
          - apply G1, Gl, Hi. }
        assert (FL : forall i, In i (ids lr) -> i <> j /\ i <> jr).
        { intros i Hi. split; intros ->; [apply Ij, in_or_app; auto|tauto]. }
        assert (FR : forall i, In i (ids rr) -> i <> j /\ i <> jr).
        { intros i Hi. split; intros ->; [apply Ij, in_or_app; right; right; auto|tauto]. }
        destruct (p' >? pr) eqn:Ep.
        * unfold rotate. cbn [negb ldn nodes]. rewrite upd_same. cbn [bind ch ch0 ldn nodes].
          rewrite upd_other by exact Hjr. rewrite Hn1.
          cbn [bind stn nodes]. rewrite upd_same. cbn [bind ldn nodes].
          rewrite upd_other by exact Hjr. rewrite upd_other by exact Hjr. rewrite Hn1.
          cbn [bind stn nodes nfresh set_ch nkey nval npri ch0 ch1 ch].
          eexists _, _. split; [reflexivity|]. split; [|split; [exact F1|]].
          -- cbn [rep nodes]. split; [reflexivity|]. exists qlr, (Some j). rewrite upd_same.
             split; [reflexivity|]. split.
             ++ eapply rep_frame; [exact R1l|]. cbn [nodes]. intros i Hi.
                destruct (FL i Hi). rewrite !upd_other by auto. auto.
             ++ split; [reflexivity|]. exists qrr, qr. rewrite upd_other by congruence.
                rewrite upd_same. split; [reflexivity|]. split.
                ** eapply rep_frame; [exact R1r|]. cbn [nodes]. intros i Hi.
                   destruct (FR i Hi). rewrite !upd_other by auto. auto.
                ** eapply rep_frame; [exact Hrr|]. cbn [nodes]. intros i Hi.
                   destruct (Fl i Hi) as (? & ? & ?). rewrite !upd_other by auto. auto.
          -- intros i Hi. rewrite !ids_node in Hi. rewrite !in_app_iff in Hi. cbn in Hi.
             rewrite ?in_app_iff in Hi. cbn in Hi. cbn [nodes].
             rewrite !upd_other by (intros ->; tauto). apply G1. rewrite in_app_iff. cbn. tauto.
        * eexists _, _. split; [reflexivity|]. split; [|split; [exact F1|]].
          -- cbn [rep nodes]. split; [reflexivity|]. exists (Some jr), qr. rewrite upd_same.
             split; [reflexivity|]. split.
             ++ split; [reflexivity|]. exists qlr, qrr. rewrite upd_other by exact Hjr.
                split; [exact Hn1|]. split.
                ** eapply rep_frame; [exact R1l|]. cbn [nodes]. intros i Hi.
                   destruct (FL i Hi). rewrite !upd_other by auto. auto.
                ** eapply rep_frame; [exact R1r|]. cbn [nodes]. intros i Hi.
                   destruct (FR i Hi). rewrite !upd_other by auto. auto.
             ++ eapply rep_frame; [exact Hrr|]. cbn [nodes]. intros i Hi.
                destruct (Fl i Hi) as (? & ? & ?). rewrite !upd_other by auto. auto.
          -- intros i Hi. rewrite !ids_node in Hi. rewrite !in_app_iff in Hi. cbn in Hi.
             rewrite ?in_app_iff in Hi. cbn in Hi. cbn [nodes].
             rewrite !upd_other by (intros ->; tauto). apply G1. rewrite in_app_iff. cbn. tauto.
  Qed.

  (** ** find, upper_bound, delete *)
  Lemma find_sim fuel : forall (h : heap) q t k, rep h q t -> ss (nl t) ->
    (length (ids t) < fuel)%nat ->
    exists r, find_ eqb gtb fuel h q k = Ok r /\
      match r with
      | None => ~ key_in k (nl t)
      | Some x => exists v, In (x, (k, v)) (nl t)
      end.
  Proof.
    induction fuel as [|fuel IH]; intros h q t k Hr Hs Hfu; [lia|].
    destruct t as [|j k' v' p' l r].
    - cbn in Hr. subst q. exists None. split; [reflexivity|]. intros (e & [] & _).
    - cbn [rep] in Hr. destruct Hr as (-> & ql & qr & Hn & Hl & Hrr).
      rewrite ids_node, app_length in Hfu. cbn [length] in Hfu.
      apply ss_node in Hs. destruct Hs as (Sl & Sr & Ll & Lr).
      cbn [find_ ldn]. rewrite Hn. cbn [bind nkey].
      destruct (eqb k k') eqn:Eq.
      { apply (ko_eq _ _ _ KO) in Eq. subst. eexists. split; [reflexivity|]. exists v'. cbn.
        apply in_or_app. right. left. reflexivity. }
      destruct (gt_split _ _ Eq) as [[Hg Hlt]|[Hg Hlt]]; rewrite Hg; cbn [ch ch0 ch1].
      + destruct (IH h qr r k Hrr Sr ltac:(lia)) as (x & E & P). exists x. split; [exact E|].
        destruct x as [x|].
        * destruct P as (v & P). exists v. cbn. apply in_or_app. right. right. exact P.
        * intros (e & He & Hk). cbn in He. apply in_app_or in He. destruct He as [He|[<-|He]].
          -- apply Ll in He. rewrite Hk in He. apply ltb_asym in He. congruence.
          -- cbn in Hk. subst. rewrite (ko_irrefl _ _ _ KO) in Hlt. discriminate.
          -- apply P. exists e. auto.
      + destruct (IH h ql l k Hl Sl ltac:(lia)) as (x & E & P). exists x. split; [exact E|].
        destruct x as [x|].
        * destruct P as (v & P). exists v. cbn. apply in_or_app. left. exact P.
        * intros (e & He & Hk). cbn in He. apply in_app_or in He. destruct He as [He|[<-|He]].
          -- apply P. exists e. auto.
          -- cbn in Hk. subst. rewrite (ko_irrefl _ _ _ KO) in Hlt. discriminate.
          -- apply Lr in He. rewrite Hk in He. apply ltb_asym in He. congruence.
  Qed.

  (** the first entry above k in the in-order listing *)
  Definition above (k : K) (e : ent) : bool := ltb k (kof e).

  Lemma find_app {A} (f : A -> bool) l1 l2 :
    List.find f (l1 ++ l2) = match List.find f l1 with Some x => Some x | None => List.find f l2 end.
  Proof. induction l1 as [|a l IH]; cbn; [reflexivity|]. destruct (f a); auto. Qed.

  Lemma upper_sim fuel : forall (h : heap) q t k, rep h q t -> ss (nl t) ->
    (length (ids t) < fuel)%nat ->
    upper_bound_ ltb fuel h q k = Ok (option_map fst (List.find (above k) (nl t))).
  Proof.
    induction fuel as [|fuel IH]; intros h q t k Hr Hs Hfu; [lia|].
    destruct t as [|j k' v' p' l r].
    - cbn in Hr. subst q. reflexivity.
    - cbn [rep] in Hr. destruct Hr as (-> & ql & qr & Hn & Hl & Hrr).
      rewrite ids_node, app_length in Hfu. cbn [length] in Hfu.
      apply ss_node in Hs. destruct Hs as (Sl & Sr & Ll & Lr).
      cbn [upper_bound_ ldn]. rewrite Hn. cbn [bind nkey ch0 ch1 nl]. rewrite find_app.
      cbn [List.find]. unfold above at 2. cbn [kof fst snd].
      destruct (ltb k k') eqn:Eq.
      + rewrite (IH h ql l k Hl Sl) by lia. cbn [bind].
        destruct (List.find (above k) (nl l)); reflexivity.
      + rewrite (IH h qr r k Hrr Sr) by lia.
        destruct (List.find (above k) (nl l)) eqn:F; [|reflexivity].
        apply find_some in F. destruct F as [F1 F2]. apply Ll in F1. unfold above in F2.
        pose proof (ko_trans _ _ _ KO _ _ _ F2 F1). congruence.
  Qed.

  Lemma delete_sim fuel : forall (h : heap) q t, rep h q t -> NoDup (ids t) ->
    (length (ids t) < fuel)%nat ->
    exists h', delete_ fuel h q = Ok h' /\ nfresh h' = nfresh h /\
      (forall j, In j (ids t) -> nodes h' j = None) /\
      (forall j, ~ In j (ids t) -> nodes h' j = nodes h j).
  Proof.
    induction fuel as [|fuel IH]; intros h q t Hr Hnd Hfu; [lia|].
    destruct t as [|j k' v' p' l r].
    - cbn in Hr. subst q. exists h. cbn. repeat split; auto; tauto.
    - cbn [rep] in Hr. destruct Hr as (-> & ql & qr & Hn & Hl & Hrr).
      rewrite ids_node in *. destruct (NoDup_mid _ _ _ Hnd) as (Nl & Nr & Il & Ir & Dlr).
      rewrite app_length in Hfu. cbn [length] in Hfu.
      cbn [delete_ ldn]. rewrite Hn. cbn [bind ch0].
      destruct (IH h ql l Hl Nl ltac:(lia)) as (h1 & E1 & F1 & A1 & B1).
      rewrite E1. cbn [bind]. rewrite (B1 j Il), Hn. cbn [bind ch1].
      destruct (IH h1 qr r) as (h2 & E2 & F2 & A2 & B2); auto; [|lia|].
      { eapply rep_frame; [exact Hrr|]. intros i Hi. apply B1. intros Hi'. eapply Dlr; eauto. }
      rewrite E2. cbn [bind]. rewrite (B2 j Ir), (B1 j Il), Hn.
      eexists. split; [reflexivity|]. cbn [nfresh nodes]. split; [congruence|]. split.
      + intros i Hi. unfold upd_node. destruct (Nat.eqb_spec i j); [reflexivity|].
        rewrite in_app_iff in Hi. cbn in Hi.
        destruct (in_dec Nat.eq_dec i (ids r)) as [Hi'|Hi']; [apply A2; exact Hi'|].
        rewrite B2 by exact Hi'. apply A1. destruct Hi as [?|[?|?]]; congruence || tauto.
      + intros i Hi. rewrite in_app_iff in Hi. cbn in Hi. rewrite upd_other by (intros ->; tauto).
        rewrite B2 by tauto. apply B1. tauto.
  Qed.

  (** ** Reading and writing a node of a represented tree *)
  Lemma rep_node (h : heap) q t x k v : rep h q t -> In (x, (k, v)) (nl t) ->
    exists p a b, nodes h x = Some (Node k v p a b).
  Proof.
    revert q. induction t as [|j k' v' p' l IHl r IHr]; intros q Hr Hin; [destruct Hin|].
    cbn [rep] in Hr. destruct Hr as (-> & ql & qr & Hn & Hl & Hrr).
    cbn in Hin. apply in_app_or in Hin. destruct Hin as [H|[H|H]]; eauto.
    inversion H; subst. eauto.
  Qed.

  Fixpoint tset (t : tree) (x : nat) (v : T) : tree :=
    match t with
    | E => E
    | N j k' v' p' l r =>
      if Nat.eqb j x then N j k' v p' l r else N j k' v' p' (tset l x v) (tset r x v)
    end.
  Definition eset (x : nat) (v : T) (e : ent) : ent :=
    if Nat.eqb (fst e) x then (fst e, (kof e, v)) else e.

  Lemma eset_notin x v l : ~ In x (map fst l) -> map (eset x v) l = l.
  Proof.
    induction l as [|e l IH]; cbn; intros H; [reflexivity|]. rewrite IH by tauto.
    unfold eset. destruct (Nat.eqb_spec (fst e) x); [tauto|]. reflexivity.
  Qed.
  Lemma tset_notin t x v : ~ In x (ids t) -> tset t x v = t.
  Proof.
    induction t as [|j k' v' p' l IHl r IHr]; intros Hi; [reflexivity|].
    rewrite ids_node, in_app_iff in Hi. cbn in Hi. cbn.
    destruct (Nat.eqb_spec j x); [tauto|]. rewrite IHl, IHr by tauto. reflexivity.
  Qed.
  Lemma tset_nl t x v : NoDup (ids t) -> nl (tset t x v) = map (eset x v) (nl t).
  Proof.
    induction t as [|j k' v' p' l IHl r IHr]; intros Hnd; [reflexivity|].
    rewrite ids_node in Hnd. destruct (NoDup_mid _ _ _ Hnd) as (Nl & Nr & Il & Ir & Dlr).
    cbn [tset]. cbn [nl]. rewrite map_app. cbn [map]. unfold eset at 2. cbn [fst].
    destruct (Nat.eqb_spec j x); cbn [nl].
    - subst. rewrite !eset_notin by assumption. reflexivity.
    - rewrite IHl, IHr by assumption. reflexivity.
  Qed.
  Lemma tset_ids t x v : NoDup (ids t) -> ids (tset t x v) = ids t.
  Proof.
    intros Hnd. unfold ids. rewrite tset_nl by exact Hnd. rewrite map_map. apply map_ext.
    intros e. unfold eset. destruct (Nat.eqb _ _); reflexivity.
  Qed.
  Lemma tset_hroot B t x v : hroot B (tset t x v) <-> hroot B t.
  Proof. destruct t; cbn; [tauto|]. destruct (Nat.eqb _ _); cbn; tauto. Qed.
  Lemma tset_heap t x v : heap_order t -> heap_order (tset t x v).
  Proof.
    induction t as [|j k' v' p' l IHl r IHr]; cbn; [auto|]. intros (A & B & C & D).
    destruct (Nat.eqb _ _); cbn; rewrite ?tset_hroot; auto 6.
  Qed.
  Lemma tset_ss t x v : NoDup (ids t) -> ss (nl t) -> ss (nl (tset t x v)).
  Proof.
    intros Hnd H. rewrite tset_nl by exact Hnd. rewrite ss_map.
    assert (forall e, kof (eset x v e) = kof e) as Hk.
    { intros e. unfold eset. destruct (Nat.eqb _ _); reflexivity. }
    clear Hnd. induction H as [|e l Hs IH Hf]; constructor; auto.
    revert Hf. apply Forall_impl. intros a. unfold elt. rewrite !Hk. auto.
  Qed.

  Lemma tset_rep (h : heap) q t x v k v0 p a b : rep h q t -> NoDup (ids t) ->
    nodes h x = Some (Node k v0 p a b) ->
    rep (NHeap (upd_node (nodes h) x (Some (Node k v p a b))) (nfresh h)) q (tset t x v).
  Proof.
    intros Hr Hnd Hx. revert q Hr Hnd. induction t as [|j k' v' p' l IHl r IHr]; intros q Hr Hnd;
      [exact Hr|].
    cbn [rep] in Hr. destruct Hr as (-> & ql & qr & Hn & Hl & Hrr).
    rewrite ids_node in Hnd. destruct (NoDup_mid _ _ _ Hnd) as (Nl & Nr & Il & Ir & Dlr).
    cbn [tset]. destruct (Nat.eqb_spec j x).
    - subst j. rewrite Hn in Hx. inversion Hx; subst. cbn [rep nodes]. split; [reflexivity|].
      exists a, b. rewrite upd_same. split; [reflexivity|].
      split; (eapply rep_frame; [eassumption|]); cbn [nodes]; intros i Hi; apply upd_other; intros ->; tauto.
    - cbn [rep nodes]. split; [reflexivity|]. exists ql, qr. rewrite upd_other by exact n.
      split; [exact Hn|]. auto.
  Qed.

  (** ** Iteration *)
  Lemma iterate_suffix (h : heap) root t : rep h root t -> NoDup (ids t) -> ss (nl t) ->
    (length (ids t) < depth h)%nat ->
    forall suf pre fuel, nl t = pre ++ suf -> (length suf < fuel)%nat ->
    iterate ltb fuel h root (option_map fst (hd_error suf)) = Ok (map snd suf).
  Proof.
    intros Hr Hnd Hs Hfu. induction suf as [|e suf IH]; intros pre fuel E Hl.
    - destruct fuel; [cbn in Hl; lia|]. reflexivity.
    - destruct fuel as [|fuel]; [lia|]. cbn [length] in Hl.
      destruct e as [x [k v]]. cbn [hd_error option_map fst iterate is_end].
      destruct (rep_node h root t x k v Hr) as (p & a & b & Hx).
      { rewrite E. apply in_or_app. right. left. reflexivity. }
      unfold it_deref, it_next. cbn [ldn]. rewrite Hx. cbn [bind nkey nval].
      rewrite (upper_sim _ h root t k Hr Hs Hfu). cbn [bind].
      assert (EF : List.find (above k) (nl t) = hd_error suf).
      { rewrite E in Hs |- *. apply ss_app in Hs. destruct Hs as (_ & S2 & S3).
        rewrite find_app.
        destruct (List.find (above k) pre) as [y|] eqn:F.
        - apply find_some in F. destruct F as [F1 F2].
          pose proof (S3 y _ F1 (or_introl eq_refl)) as Hy. unfold elt, above in *. cbn in *.
          apply ltb_asym in Hy. congruence.
        - cbn [List.find]. unfold above at 1. cbn. rewrite (ko_irrefl _ _ _ KO).
          inversion S2 as [|? ? Ss Sf]; subst. destruct suf as [|y suf]; [reflexivity|].
          cbn. apply Forall_inv in Sf. unfold elt, above in *. cbn in Sf. rewrite Sf. reflexivity. }
      rewrite EF. rewrite (IH (pre ++ [(x, (k, v))]) fuel) by
        (rewrite <- ?app_assoc; cbn [length]; auto; lia).
      reflexivity.
  Qed.
End P.
