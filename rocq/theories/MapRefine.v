(** World-level refinement of the treap model to dictionaries. *)
From Coq Require Import ZArith List Bool Lia Sorting.Sorted Permutation.
From Verif Require Import Mem MapModel MapSpec MapProofs.
Import ListNotations.
Open Scope Z_scope.

Lemma nth_set_same {A} (l : list A) m x y : nth_error l m = Some x -> nth_error (set_nth l m y) m = Some y.
Proof. revert m. induction l as [|a l IH]; intros [|m] H; cbn in *; try discriminate; auto. Qed.
Lemma nth_set_other {A} (l : list A) m n y : n <> m -> nth_error (set_nth l m y) n = nth_error l n.
Proof.
  revert m n. induction l as [|a l IH]; intros [|m] [|n] H; cbn in *; try reflexivity; try congruence.
  apply IH. congruence.
Qed.
Lemma set_nth_length {A} (l : list A) m y : length (set_nth l m y) = length l.
Proof. revert m. induction l as [|a l IH]; intros [|m]; cbn; auto. Qed.

Section R.
  Context {K T : Type}.
  Variables (eqb gtb ltb : K -> K -> bool) (dflt : T) (pri : nat -> Z).
  Hypothesis KO : key_order eqb gtb ltb.
  Notation tree := (tree K T).
  Notation heap := (nheap K T).
  Notation dict := (list (K * T)).

  Definition oids (o : option tree) : list nat := match o with Some t => ids t | None => [] end.
  Definition allids (ts : list (option tree)) : list nat := flat_map oids ts.

  Lemma allids_set ts m x y : nth_error ts m = Some x ->
    Permutation (allids (set_nth ts m y)) (oids y ++ allids (set_nth ts m None)).
  Proof.
    revert m. induction ts as [|a ts IH]; intros [|m] H; cbn in *; try discriminate.
    - reflexivity.
    - rewrite (IH _ H). rewrite !app_assoc. apply Permutation_app_tail, Permutation_app_comm.
  Qed.
  Lemma set_nth_id {A} (l : list A) m x : nth_error l m = Some x -> set_nth l m x = l.
  Proof.
    revert m. induction l as [|a l IH]; intros [|m] H; cbn in *; try discriminate; [congruence|].
    rewrite IH by exact H. reflexivity.
  Qed.
  Lemma allids_split ts m x : nth_error ts m = Some x ->
    Permutation (allids ts) (oids x ++ allids (set_nth ts m None)).
  Proof. intros H. rewrite <- (allids_set _ _ _ x H), (set_nth_id _ _ _ H). reflexivity. Qed.
  Lemma in_allids ts m x j : nth_error ts m = Some x -> In j (oids x) -> In j (allids ts).
  Proof. intros H Hj. apply in_flat_map. exists x. split; [eapply nth_error_In; eauto|exact Hj]. Qed.

  Definition obj_ok (h : heap) (mo : option ptr) (so : option dict) (to : option tree) : Prop :=
    match mo, so, to with
    | None, None, None => True
    | Some q, Some d, Some t =>
      rep h q t /\ search_order ltb t /\ heap_order t /\ Permutation (entries t) d
    | _, _, _ => False
    end.

  Record Inv (w : mworld K T) (s : list (option dict)) (ts : list (option tree)) : Prop := {
    inv_ls : length s = length (maps w);
    inv_lt : length ts = length (maps w);
    inv_obj : forall m mo so to, nth_error (maps w) m = Some mo -> nth_error s m = Some so ->
      nth_error ts m = Some to -> obj_ok (mh w) mo so to;
    inv_nd : NoDup (allids ts);
    inv_lt_fresh : forall j, In j (allids ts) -> (j < nfresh (mh w))%nat;
    inv_live : forall j, nodes (mh w) j <> None -> In j (allids ts) }.

  Lemma nth_total {A B} (l : list A) (l' : list B) m x : length l = length l' ->
    nth_error l m = Some x -> exists y, nth_error l' m = Some y.
  Proof.
    intros HL H. destruct (nth_error l' m) eqn:E; [eauto|]. apply nth_error_None in E.
    assert (m < length l)%nat by (apply nth_error_Some; congruence). lia.
  Qed.

  Lemma inv_get w s ts m d : Inv w s ts -> nth_error s m = Some (Some d) ->
    exists q t, nth_error (maps w) m = Some (Some q) /\ nth_error ts m = Some (Some t) /\
      rep (mh w) q t /\ search_order ltb t /\ heap_order t /\ Permutation (entries t) d /\
      NoDup (ids t) /\ (forall j, In j (ids t) -> (j < nfresh (mh w))%nat) /\
      (length (ids t) < depth (mh w))%nat.
  Proof.
    intros I Hs.
    destruct (nth_total _ (maps w) _ _ (inv_ls _ _ _ I) Hs) as (mo & Hm).
    destruct (nth_total _ ts _ _ (eq_sym (inv_lt _ _ _ I)) Hm) as (to & Ht).
    pose proof (inv_obj _ _ _ I _ _ _ _ Hm Hs Ht) as O.
    destruct mo as [q|], to as [t|]; cbn in O; try contradiction.
    exists q, t. destruct O as (O1 & O2 & O3 & O4). do 6 (split; [assumption|]).
    pose proof (inv_nd _ _ _ I) as ND. rewrite (allids_split _ _ _ Ht) in ND. cbn [oids] in ND.
    assert (NoDup (ids t)) as NDt.
    { clear - ND. revert ND. generalize (allids (set_nth ts m None)) as l2. generalize (ids t) as l.
      induction l as [|a l IH]; cbn; intros l2 H; constructor; inversion H; subst; eauto.
      intros Hx. apply H2, in_or_app; auto. }
    assert (HL : forall j, In j (ids t) -> (j < nfresh (mh w))%nat).
    { intros j Hj. apply (inv_lt_fresh _ _ _ I). eapply in_allids; eauto. }
    repeat split; auto.
    unfold depth. apply le_n_S.
    rewrite <- (seq_length (nfresh (mh w)) 0). apply NoDup_incl_length; [exact NDt|].
    intros j Hj. apply in_seq. specialize (HL j Hj). lia.
  Qed.

  Lemma NoDup_app_elim {A} (l r : list A) : NoDup (l ++ r) ->
    NoDup l /\ NoDup r /\ (forall x, In x l -> ~ In x r).
  Proof.
    induction l as [|a l IH]; cbn; intros H.
    - repeat split; [constructor|exact H|tauto].
    - inversion H as [|? ? Hn Hd]; subst. destruct (IH Hd) as (A1 & A2 & A3).
      repeat split; auto.
      + constructor; [|exact A1]. intros Hx. apply Hn, in_or_app; auto.
      + intros x [<-|Hx] Hy; [apply Hn, in_or_app; auto|eapply A3; eauto].
  Qed.
  Lemma NoDup_app_intro {A} (l r : list A) : NoDup l -> NoDup r -> (forall x, In x l -> ~ In x r) ->
    NoDup (l ++ r).
  Proof.
    induction l as [|a l IH]; cbn; intros H1 H2 H3; [exact H2|]. inversion H1; subst.
    constructor; [|apply IH; auto]. rewrite in_app_iff. intros [Hx|Hx]; [tauto|]. eapply H3; eauto.
  Qed.

  (** Replacing one object. *)
  Lemma inv_put w s ts m d q t mo' so' to' h' : Inv w s ts ->
    nth_error s m = Some (Some d) -> nth_error (maps w) m = Some (Some q) ->
    nth_error ts m = Some (Some t) ->
    obj_ok h' mo' so' to' -> NoDup (oids to') ->
    (nfresh (mh w) <= nfresh h')%nat ->
    (forall j, In j (oids to') -> (j < nfresh h')%nat /\ (In j (ids t) \/ (nfresh (mh w) <= j)%nat)) ->
    (forall j, ~ In j (ids t) -> (j < nfresh (mh w))%nat -> nodes h' j = nodes (mh w) j) ->
    (forall j, nodes h' j <> None -> In j (oids to') \/ (nodes (mh w) j <> None /\ ~ In j (ids t))) ->
    Inv (put_map w m mo' h') (set_nth s m so') (set_nth ts m to').
  Proof.
    intros I Hs Hm Ht O ND' HF Hin Hfr Hlive.
    pose proof (allids_split _ _ _ Ht) as P0. cbn [oids] in P0.
    pose proof (allids_set _ _ _ to' Ht) as P1.
    pose proof (inv_nd _ _ _ I) as ND. rewrite P0 in ND.
    destruct (NoDup_app_elim _ _ ND) as (N1 & N2 & N3).
    assert (Hrest : forall j, In j (allids (set_nth ts m None)) -> (j < nfresh (mh w))%nat /\ ~ In j (ids t)).
    { intros j Hj. split; [|intros Hx; eapply N3; eauto]. apply (inv_lt_fresh _ _ _ I).
      rewrite P0. apply in_or_app. auto. }
    constructor; cbn [mh maps put_map].
    - rewrite !set_nth_length. apply (inv_ls _ _ _ I).
    - rewrite !set_nth_length. apply (inv_lt _ _ _ I).
    - intros n mo so to Hmo Hso Hto. destruct (Nat.eq_dec n m) as [->|Hne].
      + rewrite (nth_set_same _ _ _ _ Hm) in Hmo. rewrite (nth_set_same _ _ _ _ Hs) in Hso.
        rewrite (nth_set_same _ _ _ _ Ht) in Hto. congruence.
      + rewrite nth_set_other in Hmo by exact Hne. rewrite nth_set_other in Hso by exact Hne.
        rewrite nth_set_other in Hto by exact Hne.
        pose proof (inv_obj _ _ _ I _ _ _ _ Hmo Hso Hto) as O'.
        destruct mo as [q'|], so as [d'|], to as [t'|]; cbn in O' |- *; try contradiction; auto.
        destruct O' as (O1 & O2). split; [|exact O2]. eapply rep_frame; [exact O1|].
        intros j Hj. assert (In j (allids (set_nth ts m None))) as Hj'.
        { apply in_flat_map. exists (Some t'). split; [|exact Hj].
          eapply nth_error_In. rewrite nth_set_other; eauto. }
        destruct (Hrest j Hj'). apply Hfr; auto.
    - rewrite P1. apply NoDup_app_intro; auto. intros j Hj Hj'. destruct (Hrest j Hj').
      destruct (Hin j Hj) as (_ & [?|?]); [tauto|lia].
    - intros j Hj. rewrite P1 in Hj. apply in_app_or in Hj. destruct Hj as [Hj|Hj].
      + apply (Hin j Hj).
      + destruct (Hrest j Hj). lia.
    - intros j Hj. rewrite P1. apply in_or_app. destruct (Hlive j Hj) as [?|[H1 H2]]; [auto|right].
      apply (inv_live _ _ _ I) in H1. rewrite P0 in H1. apply in_app_or in H1. tauto.
  Qed.

  (** ** Dictionary facts *)
  Definition keys (d : dict) : list K := map fst d.

  Lemma so_nodup t : search_order ltb t -> NoDup (keys (entries t)).
  Proof.
    unfold search_order. induction 1 as [|e l Hs IH Hf]; cbn; constructor; auto.
    intros Hin. apply in_map_iff in Hin. destruct Hin as (e' & E & Hin).
    rewrite Forall_forall in Hf. apply Hf in Hin. unfold key_lt in Hin. rewrite E in Hin.
    rewrite (ko_irrefl _ _ _ KO) in Hin. discriminate.
  Qed.
  Lemma perm_nodup t (d : dict) : search_order ltb t -> Permutation (entries t) d -> NoDup (keys d).
  Proof.
    intros H P. eapply Permutation_NoDup; [|apply (so_nodup t H)]. apply Permutation_map. exact P.
  Qed.

  Lemma dlookup_in (d : dict) k v : NoDup (keys d) -> (dlookup eqb d k = Some v <-> In (k, v) d).
  Proof.
    induction d as [|[k' v'] d IH]; cbn; intros ND; [split; [discriminate|tauto]|].
    inversion ND as [|? ? Hn Hd]; subst. destruct (eqb k k') eqn:E.
    - apply (ko_eq _ _ _ KO) in E. subst. split; [intros H; inversion H; auto|].
      intros [H|H]; [congruence|]. exfalso. apply Hn. apply in_map_iff. exists (k', v). auto.
    - rewrite IH by exact Hd. split; [auto|]. intros [H|H]; [|exact H].
      inversion H; subst. rewrite (eqb_refl eqb gtb ltb KO) in E. discriminate.
  Qed.
  Lemma dlookup_none (d : dict) k : dlookup eqb d k = None <-> ~ In k (keys d).
  Proof.
    induction d as [|[k' v'] d IH]; cbn; [tauto|]. destruct (eqb k k') eqn:E.
    - apply (ko_eq _ _ _ KO) in E. subst. split; [discriminate|]. intros H. exfalso; auto.
    - rewrite IH. split; [|tauto]. intros H [<-|H1]; [|auto].
      rewrite (eqb_refl eqb gtb ltb KO) in E. discriminate.
  Qed.

  Lemma key_in_entries (t : tree) k : key_in k (nl t) <-> In k (keys (entries t)).
  Proof.
    unfold key_in, keys, entries. rewrite map_map, in_map_iff. unfold kof.
    split; intros (e & A & B); exists e; auto.
  Qed.
  Lemma in_entries (t : tree) x kv : In (x, kv) (nl t) -> In kv (entries t).
  Proof. intros H. unfold entries. apply in_map_iff. exists (x, kv). auto. Qed.

  Lemma dmin_spec (d : dict) : match dmin ltb d with
    | None => d = []
    | Some m => In m d /\ forall e, In e d -> ltb (fst e) (fst m) = false
    end.
  Proof.
    induction d as [|e d IH]; cbn; [reflexivity|]. destruct (dmin ltb d) as [m|].
    - destruct IH as [H1 H2]. destruct (ltb (fst m) (fst e)) eqn:E.
      + split; [auto|]. intros e' [<-|He]; [apply (ltb_asym eqb gtb ltb KO _ _ E)|auto].
      + split; [auto|]. intros e' [<-|He]; [apply (ko_irrefl _ _ _ KO)|].
        destruct (ltb (fst e') (fst e)) eqn:F; [|reflexivity]. specialize (H2 _ He).
        destruct (ko_total _ _ _ KO (fst m) (fst e')) as [G|[G|G]].
        * pose proof (ko_trans _ _ _ KO _ _ _ G F). congruence.
        * rewrite G in E. congruence.
        * congruence.
    - subst. split; [auto|]. intros e' [<-|[]]. apply (ko_irrefl _ _ _ KO).
  Qed.

  Lemma nodup_key (d : dict) a b : NoDup (keys d) -> In a d -> In b d -> fst a = fst b -> a = b.
  Proof.
    intros ND Ha Hb E. destruct a as [k v], b as [k' v']. cbn in E. subst k'.
    apply (dlookup_in d k v ND) in Ha. apply (dlookup_in d k v' ND) in Hb. congruence.
  Qed.

  Lemma upper_eq (t : tree) (d : dict) k : search_order ltb t -> Permutation (entries t) d ->
    option_map snd (List.find (above ltb k) (nl t)) = dupper ltb d k.
  Proof.
    intros So P. unfold dupper.
    pose proof (dmin_spec (filter (fun kv => ltb k (fst kv)) d)) as Hm.
    assert (HF : forall kv, In kv (filter (fun kv => ltb k (fst kv)) d) <->
                 exists x, In (x, kv) (nl t) /\ ltb k (fst kv) = true).
    { intros kv. rewrite filter_In. split.
      - intros [Hi Hl]. eapply Permutation_in in Hi; [|symmetry; exact P].
        unfold entries in Hi. apply in_map_iff in Hi. destruct Hi as ([x kv'] & E & Hi).
        cbn in E. subst. eauto.
      - intros (x & Hx & Hl). split; [|exact Hl]. eapply Permutation_in; [exact P|].
        eapply in_entries; eauto. }
    destruct (List.find (above ltb k) (nl t)) as [[x kv]|] eqn:F; cbn.
    - destruct (dmin ltb _) as [m|].
      + destruct Hm as [Hm1 Hm2]. f_equal.
        pose proof (find_some _ _ F) as [F1 F2]. unfold above, kof in F2. cbn in F2.
        destruct (proj1 (HF m) Hm1) as (y & Hy & Hyl).
        apply (nodup_key d); [eapply perm_nodup; eauto| | |].
        * eapply Permutation_in; [exact P|]. eapply in_entries; eauto.
        * eapply Permutation_in; [exact P|]. eapply in_entries; eauto.
        * assert (H1 : ltb (fst kv) (fst m) = false) by (apply Hm2, HF; eauto).
          (* find returns the first, sortedness gives fst kv <= fst m *)
          assert (H2 : ltb (fst m) (fst kv) = false).
          { apply so_ss in So. apply (in_split) in F1.
            clear - So F Hy Hyl KO. revert So F Hy. generalize (nl t). induction l as [|e l IH]; cbn; [tauto|].
            intros So. destruct (above ltb k e) eqn:A.
            - intros E [Hy|Hy].
              + assert ((y, m) = (x, kv)) as Z by congruence. inversion Z. apply (ko_irrefl _ _ _ KO).
              + inversion So as [|? ? Ss Sf]; subst. rewrite Forall_forall in Sf. apply Sf in Hy.
                assert (e = (x, kv)) by congruence. subst e. unfold elt, kof in Hy. cbn in Hy.
                apply (ltb_asym eqb gtb ltb KO _ _ Hy).
            - intros E [Hy|Hy].
              + subst e. unfold above, kof in A. cbn in A. congruence.
              + inversion So; subst. apply IH; auto. }
          destruct (ko_total _ _ _ KO (fst kv) (fst m)) as [?|[?|?]]; congruence.
      + exfalso. apply find_some in F. destruct F as [F1 F2]. unfold above, kof in F2. cbn in F2.
        assert (In kv (filter (fun kv => ltb k (fst kv)) d)) by (apply HF; eauto).
        rewrite Hm in H. destruct H.
    - destruct (dmin ltb _) as [m|]; [|reflexivity]. destruct Hm as [Hm1 _].
      destruct (proj1 (HF m) Hm1) as (y & Hy & Hyl).
      pose proof (find_none _ _ F _ Hy) as G. unfold above, kof in G. cbn in G. congruence.
  Qed.

  (** ** insert at object level *)
  Lemma insert_world w s ts m d k v : Inv w s ts -> nth_error s m = Some (Some d) ->
    exists q r x b h' ts', nth_error (maps w) m = Some (Some q) /\
      map_insert eqb gtb pri (mh w) q k v = Ok (r, (Some x, b), h') /\
      b = (match dlookup eqb d k with Some _ => false | None => true end) /\
      (exists t', nth_error ts' m = Some (Some t') /\ rep h' r t' /\
         In (x, (k, match dlookup eqb d k with Some v' => v' | None => v end)) (nl t')) /\
      Inv (put_map w m (Some r) h') (set_nth s m (Some (dinsert eqb d k v))) ts'.
  Proof.
    intros I Hs. destruct (inv_get _ _ _ _ _ I Hs) as (q & t & Hm & Ht & Hr & So & Ho & P & ND & LF & LD).
    destruct (tins eqb gtb t k v (nfresh (mh w)) (pri (nfresh (mh w)))) as [[t' x] b] eqn:E.
    destruct (insert_sim eqb gtb pri _ _ _ _ _ v Hr ND LF LD _ _ _ E) as (r & h' & E1 & R1 & F1 & G1).
    pose proof (proj1 (so_ss ltb t) So) as So'.
    destruct (tins_spec eqb gtb ltb KO t k v _ _ So' _ _ _ E) as (S1 & HT & HF).
    destruct (tins_heap eqb gtb t k v _ _ Ho (match t with E => 0 | N _ _ _ p _ _ => p end)
                ltac:(destruct t; cbn; lia) _ _ _ E) as (H1 & _ & _).
    pose proof (tins_ids _ _ _ _ _ _ _ _ _ _ E) as PI.
    assert (Hb : b = match dlookup eqb d k with Some _ => false | None => true end).
    { destruct b.
      - destruct (HT eq_refl) as (_ & Hn & _). rewrite (key_in_entries t k) in Hn.
        destruct (dlookup eqb d k) eqn:L; [|reflexivity]. exfalso.
        apply (dlookup_in d k t0 (perm_nodup _ _ So P)) in L. apply Hn.
        eapply Permutation_in; [apply Permutation_map; symmetry; exact P|].
        apply in_map_iff. exists (k, t0). auto.
      - destruct (HF eq_refl) as (_ & v' & Hv). apply in_entries in Hv.
        eapply Permutation_in in Hv; [|exact P].
        apply (dlookup_in d k v' (perm_nodup _ _ So P)) in Hv. rewrite Hv. reflexivity. }
    exists q, r, x, b, h', (set_nth ts m (Some t')). split; [exact Hm|].
    split; [exact E1|]. split; [exact Hb|]. split.
    - exists t'. split; [eapply nth_set_same; eauto|]. split; [exact R1|].
      destruct (dlookup eqb d k) as [v0|] eqn:L; subst b.
      + destruct (HF eq_refl) as (E2 & v' & Hv). rewrite E2. pose proof Hv as Hv'.
        apply in_entries in Hv'. eapply Permutation_in in Hv'; [|exact P].
        apply (dlookup_in d k v' (perm_nodup _ _ So P)) in Hv'. congruence.
      + destruct (HT eq_refl) as (-> & _ & a & c & _ & E2). rewrite E2.
        apply in_or_app. right. left. reflexivity.
    - eapply inv_put; eauto.
      + cbn. repeat split; auto.
        * apply (so_ss ltb). exact S1.
        * unfold dinsert. destruct (dlookup eqb d k) as [v0|] eqn:L; subst b.
          -- destruct (HF eq_refl) as (E2 & _). unfold entries. rewrite E2. exact P.
          -- destruct (HT eq_refl) as (-> & _ & a & c & E2 & E3). rewrite <- P. unfold entries.
             rewrite E2, E3. rewrite !map_app. cbn [map snd].
             rewrite <- Permutation_middle. apply Permutation_cons_append.
      + cbn. eapply Permutation_NoDup; [symmetry; exact PI|]. destruct b; [|exact ND].
        constructor; [|exact ND]. intros Hi. apply LF in Hi. lia.
      + rewrite F1. destruct b; lia.
      + cbn. intros j Hj. eapply Permutation_in in Hj; [|exact PI]. rewrite F1.
        destruct b; [destruct Hj as [<-|Hj]; [lia|]|]; specialize (LF _ Hj); split; auto; lia.
      + intros j Hj Hl. apply G1. intros Hj'. eapply Permutation_in in Hj'; [|exact PI].
        destruct b; [destruct Hj' as [<-|Hj']; [lia|tauto]|tauto].
      + intros j Hj. cbn. destruct (in_dec Nat.eq_dec j (ids t')) as [Hi|Hi]; [auto|right].
        rewrite G1 in Hj by exact Hi. split; [exact Hj|]. intros Hx. apply Hi.
        eapply Permutation_in; [symmetry; exact PI|]. destruct b; [right; exact Hx|exact Hx].
  Qed.

  Lemma put_put w m a b h1 h2 : put_map (put_map w m a h1) m b h2 = put_map w m b h2 :> mworld K T.
  Proof.
    unfold put_map. cbn. f_equal. generalize (maps w). clear. revert m.
    induction m as [|m IH]; intros [|x l]; cbn; auto. f_equal. apply IH.
  Qed.
  Lemma set_nth_twice {A} (l : list A) m a b : set_nth (set_nth l m a) m b = set_nth l m b.
  Proof. revert m. induction l as [|x l IH]; intros [|m]; cbn; auto. f_equal. apply IH. Qed.

  Lemma dinsert_same (d : dict) k v v' : dlookup eqb d k = Some v' -> dinsert eqb d k v = d.
  Proof. unfold dinsert. intros ->. reflexivity. Qed.

  (** ** One step *)
  Lemma step_refines w s ts o x s' : Inv w s ts -> mspec_step eqb ltb dflt s o = Some (x, s') ->
    exists w' ts', mstep eqb gtb ltb dflt pri w o = Ok (x, w') /\ Inv w' s' ts'.
  Proof.
    intros I Hst.
    destruct o as [|m k v|m k v|m k|m k|m k|m|m]; cbn [mspec_step] in Hst.
    - inversion Hst; subst. eexists _, (ts ++ [Some E]). split; [reflexivity|].
      destruct I as [I1 I2 I3 I4 I5 I6].
      assert (EA : allids (ts ++ [Some E]) = allids ts).
      { unfold allids. rewrite flat_map_app. cbn. rewrite app_nil_r. reflexivity. }
      constructor; cbn [mh maps]; rewrite ?EA; auto.
      + rewrite !app_length. cbn. lia.
      + rewrite !app_length. cbn. lia.
      + intros m mo so to A B C.
        destruct (Nat.lt_ge_cases m (length (maps w))) as [Hl|Hl].
        * rewrite nth_error_app1 in A, B, C by lia. eauto.
        * rewrite nth_error_app2 in A, B, C by lia. rewrite I1 in B. rewrite I2 in C.
          destruct (m - length (maps w))%nat as [|n] eqn:En; cbn in A, B, C.
          -- inversion A; inversion B; inversion C; subst. cbn. repeat split; auto. constructor.
          -- destruct n; discriminate.
    - (* insert *)
      destruct (nth_error s m) as [[d|]|] eqn:Hs; try discriminate.
      destruct (insert_world _ _ _ _ _ k v I Hs) as (q & r & y & b & h' & ts' & Hm & E & Hb & (t' & Ht' & R' & Hin) & I').
      cbn [mstep]. unfold get_map. rewrite Hm. cbn [bind]. rewrite E. cbn [bind].
      destruct (rep_node _ _ _ _ _ _ R' Hin) as (p & a & c & Hn).
      unfold it_deref. cbn [ldn]. rewrite Hn. cbn [bind nkey nval].
      destruct (dlookup eqb d k) as [v'|] eqn:L; subst b; inversion Hst; subst.
      + eexists _, _. split; [reflexivity|]. rewrite (dinsert_same d k v v' L) in I'.
        rewrite (set_nth_id s' m _ Hs) in I'. exact I'.
      + eexists _, _. split; [reflexivity|]. unfold dinsert in I'. rewrite L in I'. exact I'.
    - (* assign *)
      destruct (nth_error s m) as [[d|]|] eqn:Hs; try discriminate. inversion Hst; subst. clear Hst.
      destruct (insert_world _ _ _ _ _ k dflt I Hs) as (q & r & y & b & h' & ts' & Hm & E & Hb & (t' & Ht' & R' & Hin) & I').
      cbn [mstep]. unfold get_map. rewrite Hm. cbn [bind]. unfold map_assign. rewrite E. cbn [bind].
      destruct (rep_node _ _ _ _ _ _ R' Hin) as (p & a & c & Hn).
      cbn [ldn]. rewrite Hn. cbn [bind stn nkey nval npri ch0 ch1]. rewrite Hn. cbn [bind].
      eexists _, (set_nth ts' m (Some (tset t' y v))). split; [reflexivity|].
      set (d1 := dinsert eqb d k dflt) in *.
      assert (Hs1 : nth_error (set_nth s m (Some d1)) m = Some (Some d1)) by (eapply nth_set_same; eauto).
      destruct (inv_get _ _ _ _ _ I' Hs1) as (q1 & t1 & Hm1 & Ht1 & Hr1 & So1 & Ho1 & P1 & ND1 & LF1 & LD1).
      rewrite Ht' in Ht1. inversion Ht1; subst t1. clear Ht1.
      cbn [put_map maps] in Hm1. rewrite (nth_set_same _ _ _ _ Hm) in Hm1. inversion Hm1; subst q1.
      rewrite <- (put_put w m (Some r) (Some r) h').
      rewrite <- (set_nth_twice s m (Some d1) (Some (dassign eqb d k v))).
      eapply inv_put; [exact I'|exact Hs1| |exact Ht'| | | | | | ].
      + cbn [put_map maps]. eapply nth_set_same; eauto.
      + cbn. split; [|split; [|split]].
        * eapply tset_rep; eauto.
        * apply (so_ss ltb). apply tset_ss; auto. apply (so_ss ltb). exact So1.
        * apply (tset_heap pri). exact Ho1.
        * (* entries *)
          unfold entries. rewrite (tset_nl pri) by exact ND1.
          assert (EQ : map snd (map (eset y v) (nl t')) =
                       map (fun kv => if eqb k (fst kv) then (fst kv, v) else kv) (entries t')).
          { unfold entries. rewrite !map_map. apply map_ext_in. intros [z [kz vz]] Hz. unfold eset, kof. cbn.
            destruct (Nat.eqb_spec z y).
            - subst z. destruct (rep_node _ _ _ _ _ _ R' Hz) as (? & ? & ? & Hn2). rewrite Hn in Hn2.
              inversion Hn2; subst. rewrite (eqb_refl eqb gtb ltb KO). reflexivity.
            - destruct (eqb k kz) eqn:Ek; [|reflexivity]. exfalso. apply (ko_eq _ _ _ KO) in Ek. subst kz.
              assert ((k, vz) = (k, match dlookup eqb d k with Some v' => v' | None => dflt end)) as Ev.
              { apply (nodup_key (entries t')); [apply so_nodup; auto|eapply in_entries; eauto|eapply in_entries; eauto|reflexivity]. }
              inversion Ev; subst vz. clear Ev. 
              assert (NoDup (nl t')) as NDn.
              { eapply NoDup_map_inv. exact ND1. }
              assert (NoDup (keys (entries t'))) as NK by (apply so_nodup; auto).
              unfold keys, entries in NK. rewrite map_map in NK.
              clear - NK Hz Hin n. revert NK Hz Hin. generalize (nl t').
              induction l as [|e l IH]; cbn; [tauto|]. intros NK. inversion NK; subst.
              intros [->|H3] [E4|H4].
              + inversion E4; subst. congruence.
              + apply H1. apply in_map_iff. exists (y, (k, match dlookup eqb d k with Some v' => v' | None => dflt end)). auto.
              + subst e. apply H1. apply in_map_iff. eexists. split; [|exact H3]. reflexivity.
              + auto. }
          rewrite EQ. rewrite P1. unfold dassign, d1, dinsert.
          destruct (dlookup eqb d k) as [v0|] eqn:L; [reflexivity|].
          rewrite map_app. cbn [map fst]. rewrite (eqb_refl eqb gtb ltb KO).
          apply Permutation_app_tail. rewrite map_ext_in with (g := fun x => x); [rewrite map_id; reflexivity|].
          intros [k0 v0] H0. cbn. destruct (eqb k k0) eqn:Ek; [|reflexivity].
          apply (ko_eq _ _ _ KO) in Ek. subst. apply dlookup_none in L. exfalso. apply L.
          apply in_map_iff. exists (k0, v0). auto.
      + cbn [oids]. rewrite (tset_ids pri) by exact ND1. exact ND1.
      + cbn. lia.
      + cbn [oids]. rewrite (tset_ids pri) by exact ND1. intros j Hj. cbn. split; [apply LF1; exact Hj|auto].
      + intros j Hj _. cbn. apply upd_other. intros ->. apply Hj.
        apply in_map_iff. eexists. split; [|exact Hin]. reflexivity.
      + intros j Hj. cbn [oids]. rewrite (tset_ids pri) by exact ND1. cbn in Hj |- *.
        destruct (in_dec Nat.eq_dec j (ids t')) as [Hi|Hi]; [auto|right].
        split; [|exact Hi]. unfold upd_node in Hj. destruct (Nat.eqb_spec j y); [|exact Hj].
        subst. exfalso. apply Hi. apply in_map_iff. eexists. split; [|exact Hin]. reflexivity.
    - (* at *)
      destruct (nth_error s m) as [[d|]|] eqn:Hs; try discriminate. inversion Hst; subst. clear Hst.
      destruct (insert_world _ _ _ _ _ k dflt I Hs) as (q & r & y & b & h' & ts' & Hm & E & Hb & (t' & Ht' & R' & Hin) & I').
      cbn [mstep]. unfold get_map. rewrite Hm. cbn [bind]. unfold map_at. rewrite E. cbn [bind].
      destruct (rep_node _ _ _ _ _ _ R' Hin) as (p & a & c & Hn).
      cbn [ldn]. rewrite Hn. cbn [bind nval].
      eexists _, _. split; [reflexivity|]. exact I'.
    - (* find *)
      destruct (nth_error s m) as [[d|]|] eqn:Hs; try discriminate. inversion Hst; subst. clear Hst.
      destruct (inv_get _ _ _ _ _ I Hs) as (q & t & Hm & Ht & Hr & So & Ho & P & ND & LF & LD).
      cbn [mstep]. unfold get_map. rewrite Hm. cbn [bind]. unfold map_find.
      destruct (find_sim eqb gtb ltb KO _ _ _ _ k Hr (proj1 (so_ss ltb t) So) LD) as (r & E & Hrr).
      rewrite E. cbn [bind]. eexists w, ts. split; [|exact I].
      destruct r as [y|]; cbn [obs_it].
      + destruct Hrr as (v & Hv). destruct (rep_node _ _ _ _ _ _ Hr Hv) as (p & a & c & Hn).
        unfold it_deref. cbn [ldn]. rewrite Hn. cbn [bind nkey nval].
        apply in_entries in Hv. eapply Permutation_in in Hv; [|exact P].
        apply (dlookup_in d k v (perm_nodup _ _ So P)) in Hv. rewrite Hv. reflexivity.
      + cbn [bind]. rewrite (key_in_entries t k) in Hrr.
        assert (L : dlookup eqb d k = None).
        { apply dlookup_none. intros Hx. apply Hrr.
          eapply Permutation_in; [apply Permutation_map; symmetry; exact P|exact Hx]. }
        rewrite L. reflexivity.
    - (* upper *)
      destruct (nth_error s m) as [[d|]|] eqn:Hs; try discriminate. inversion Hst; subst. clear Hst.
      destruct (inv_get _ _ _ _ _ I Hs) as (q & t & Hm & Ht & Hr & So & Ho & P & ND & LF & LD).
      cbn [mstep]. unfold get_map. rewrite Hm. cbn [bind]. unfold map_upper_bound.
      rewrite (upper_sim eqb gtb ltb KO _ _ _ _ k Hr (proj1 (so_ss ltb t) So) LD). cbn [bind].
      eexists w, ts. split; [|exact I]. rewrite <- (upper_eq t d k So P).
      destruct (List.find (above ltb k) (nl t)) as [[y [k1 v1]]|] eqn:F; cbn [option_map fst snd obs_it].
      + apply find_some in F. destruct F as [F _].
        destruct (rep_node _ _ _ _ _ _ Hr F) as (p & a & c & Hn).
        unfold it_deref. cbn [ldn]. rewrite Hn. reflexivity.
      + reflexivity.
    - (* empty *)
      destruct (nth_error s m) as [[d|]|] eqn:Hs; try discriminate. inversion Hst; subst. clear Hst.
      destruct (inv_get _ _ _ _ _ I Hs) as (q & t & Hm & Ht & Hr & So & Ho & P & ND & LF & LD).
      cbn [mstep]. unfold get_map. rewrite Hm. cbn [bind]. eexists w, ts. split; [|exact I].
      destruct t as [|i k v p l r].
      + cbn in Hr. subst q. cbn in P. apply Permutation_nil in P. subst d. reflexivity.
      + cbn in Hr. destruct Hr as (-> & _). destruct d; [|reflexivity].
        symmetry in P. apply Permutation_nil in P. unfold entries in P. cbn in P.
        rewrite map_app in P. destruct (map snd (nl l)); discriminate.
    - (* destroy *)
      destruct (nth_error s m) as [[d|]|] eqn:Hs; try discriminate. inversion Hst; subst. clear Hst.
      destruct (inv_get _ _ _ _ _ I Hs) as (q & t & Hm & Ht & Hr & So & Ho & P & ND & LF & LD).
      cbn [mstep]. unfold get_map. rewrite Hm. cbn [bind]. unfold map_destroy.
      destruct (delete_sim pri _ _ _ _ Hr ND LD) as (h' & E & F & A & B). rewrite E. cbn [bind].
      eexists _, (set_nth ts m None). split; [reflexivity|].
      eapply inv_put; eauto.
      + cbn. exact Logic.I.
      + constructor.
      + rewrite F. lia.
      + intros j [].
      + intros j Hj. right. split.
        * destruct (in_dec Nat.eq_dec j (ids t)) as [Hi|Hi]; [|rewrite B in Hj by exact Hi; exact Hj].
          rewrite (A j Hi) in Hj. congruence.
        * intros Hi. rewrite (A j Hi) in Hj. congruence.
  Qed.

  Lemma inv0 : Inv mworld0 [] [].
  Proof.
    constructor; cbn; auto; try tauto; try constructor.
    - intros [|m] mo so to H; discriminate.
  Qed.

  Lemma run_refines ops : forall w s ts xs s', Inv w s ts ->
    mspec_run eqb ltb dflt s ops = Some (xs, s') ->
    exists w' ts', mrun eqb gtb ltb dflt pri w ops = Ok (xs, w') /\ Inv w' s' ts'.
  Proof.
    induction ops as [|o ops IH]; intros w s ts xs s' I H; cbn in H.
    - inversion H; subst. exists w, ts. auto.
    - destruct (mspec_step eqb ltb dflt s o) as [[x s1]|] eqn:E; [|discriminate].
      destruct (mspec_run eqb ltb dflt s1 ops) as [[ys s2]|] eqn:E2; [|discriminate].
      inversion H; subst.
      destruct (step_refines _ _ _ _ _ _ I E) as (w1 & ts1 & E3 & I1).
      destruct (IH _ _ _ _ _ I1 E2) as (w2 & ts2 & E4 & I2).
      exists w2, ts2. cbn [mrun]. rewrite E3. cbn [bind]. rewrite E4. split; [reflexivity|exact I2].
  Qed.
End R.
