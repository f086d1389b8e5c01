(** Iteration, ownership and copying of maps in reachable worlds. *)
From Coq Require Import ZArith List Bool Lia Sorting.Sorted Permutation.
From Verif Require Import Mem MapModel MapSpec MapProofs MapRefine.
Import ListNotations.
Open Scope Z_scope.

Section More.
  Context {K T : Type}.
  Variables (eqb gtb ltb : K -> K -> bool) (dflt : T) (pri : nat -> Z).
  Hypothesis KO : key_order eqb gtb ltb.
  Notation heap := (nheap K T).
  Notation dict := (list (K * T)).

  Lemma suffix_entries (t : tree K T) (d : dict) pre x k v suf :
    search_order ltb t -> Permutation (entries t) d -> nl t = pre ++ (x, (k, v)) :: suf ->
    let L := map snd ((x, (k, v)) :: suf) in
    StronglySorted (key_lt ltb) L /\ (forall kv : K * T, In kv L <-> In kv d /\ ltb (fst kv) k = false).
  Proof.
    intros So P E L. unfold search_order, entries in So. rewrite E, map_app in So.
    apply ss_app in So. destruct So as (S1 & S2 & S3). split; [exact S2|].
    intros kv.
    assert (HD : In kv d <-> In kv (map snd pre) \/ In kv L).
    { rewrite <- in_app_iff. unfold L. rewrite <- map_app, <- E. split; intros H.
      - eapply Permutation_in; [symmetry; exact P|exact H].
      - eapply Permutation_in; [exact P|exact H]. }
    rewrite HD. split.
    - intros H. split; [auto|]. cbn in H. destruct H as [<-|H]; [apply (ko_irrefl _ _ _ KO)|].
      cbn in S2. inversion S2 as [|? ? Ss Sf]; subst. rewrite Forall_forall in Sf. apply Sf in H.
      apply (ltb_asym eqb gtb ltb KO). exact H.
    - intros [[H|H] Hl]; [|exact H]. exfalso.
      specialize (S3 kv (k, v) H (or_introl eq_refl)). unfold key_lt in S3. cbn in S3. congruence.
  Qed.

  Lemma iterate_from w s ts m q d (t : tree K T) x k v : Inv ltb w s ts ->
    nth_error (maps w) m = Some (Some q) -> nth_error s m = Some (Some d) ->
    nth_error ts m = Some (Some t) -> In (x, (k, v)) (nl t) ->
    exists L, iterate ltb (depth (mh w)) (mh w) q (Some x) = Ok L /\
      StronglySorted (key_lt ltb) L /\ hd_error L = Some (k, v) /\
      (forall kv : K * T, In kv L <-> In kv d /\ ltb (fst kv) k = false).
  Proof.
    intros I Hm Hs Ht Hin.
    destruct (inv_get _ _ _ _ _ _ I Hs) as (q' & t' & Hm' & Ht' & Hr & So & Ho & P & ND & LF & LD).
    rewrite Hm in Hm'. inversion Hm'; subst q'. rewrite Ht in Ht'. inversion Ht'; subst t'.
    destruct (in_split _ _ Hin) as (pre & suf & E).
    pose proof (iterate_suffix eqb gtb ltb KO (mh w) q t Hr ND (proj1 (so_ss ltb t) So) LD
                  ((x, (k, v)) :: suf) pre (depth (mh w)) E) as It.
    cbn [hd_error option_map fst] in It.
    eexists. split; [apply It|].
    - unfold ids in LD. rewrite map_length, E, app_length in LD. lia.
    - destruct (suffix_entries t d pre x k v suf So P E) as [H1 H2]. split; [exact H1|].
      split; [reflexivity|exact H2].
  Qed.

  Lemma begin_iteration w s ts m q d : Inv ltb w s ts ->
    nth_error (maps w) m = Some (Some q) -> nth_error s m = Some (Some d) ->
    exists L : list (K * T), iterate_all ltb (mh w) q = Ok L /\ StronglySorted (key_lt ltb) L /\
      match L with
      | [] => d = []
      | (k0, v0) :: _ => forall kv : K * T, In kv L <-> In kv d /\ ltb (fst kv) k0 = false
      end.
  Proof.
    intros I Hm Hs.
    destruct (inv_get _ _ _ _ _ _ I Hs) as (q' & t & Hm' & Ht & Hr & So & Ho & P & ND & LF & LD).
    rewrite Hm in Hm'. inversion Hm'; subst q'. unfold iterate_all, map_begin.
    destruct t as [|i k v p l r].
    - cbn in Hr. subst q. exists []. split; [reflexivity|]. split; [constructor|].
      cbn in P. apply Permutation_nil in P. exact P.
    - pose proof Hr as Hr'. cbn in Hr'. destruct Hr' as (-> & _).
      destruct (iterate_from w s ts m (Some i) d _ i k v I Hm Hs Ht) as (L & E & S & H & Hin).
      { cbn. apply in_or_app. right. left. reflexivity. }
      exists L. split; [exact E|]. split; [exact S|].
      destruct L as [|[k0 v0] L]; [discriminate|]. cbn in H. inversion H; subst. exact Hin.
  Qed.

  (** Two iterators that find returned, compared. *)
  Lemma find_compare (veq : T -> T -> bool) w s ts m q d k1 v1 k2 v2 : Inv ltb w s ts -> (forall v, veq v v = true) ->
    nth_error (maps w) m = Some (Some q) -> nth_error s m = Some (Some d) -> In (k1, v1) d -> In (k2, v2) d ->
    exists i j b, map_find eqb gtb (mh w) q k1 = Ok (Some i) /\ map_find eqb gtb (mh w) q k2 = Ok (Some j) /\
      it_eq eqb veq (mh w) (Some i) (Some j) = Ok b /\ it_ne eqb veq (mh w) (Some i) (Some j) = Ok (negb b) /\
      (b = true <-> i = j) /\ (i = j <-> k1 = k2).
  Proof.
    intros I Rv Hm Hs H1 H2. destruct (inv_get _ _ _ _ _ _ I Hs) as (q' & t & Hm' & Ht & Hr & So & Ho & P & ND & LF & LD).
    rewrite Hm in Hm'. inversion Hm'; subst q'.
    assert (Fd : forall k v, In (k, v) d -> exists x v' p a b, map_find eqb gtb (mh w) q k = Ok (Some x) /\ nodes (mh w) x = Some (Node k v' p a b)).
    { intros k v H. destruct (find_sim eqb gtb ltb KO _ _ _ _ k Hr (proj1 (so_ss ltb t) So) LD) as (r & E & Hrr). destruct r as [x|].
      - destruct Hrr as (v' & Hv). destruct (rep_node _ _ _ _ _ _ Hr Hv) as (p & a & b & Hn). exists x, v', p, a, b. auto.
      - exfalso. apply Hrr. apply key_in_entries. eapply Permutation_in; [apply Permutation_map; symmetry; exact P|]. apply in_map_iff. exists (k, v). auto. }
    destruct (Fd k1 v1 H1) as (i & u1 & p1 & a1 & b1 & F1 & N1). destruct (Fd k2 v2 H2) as (j & u2 & p2 & a2 & b2 & F2 & N2).
    assert (Eij : i = j <-> k1 = k2) by (split; [intros ->; congruence|intros ->; congruence]).
    exists i, j, (eqb k2 k1 && veq u2 u1). split; [exact F1|]. split; [exact F2|]. unfold it_eq, it_ne. cbn [is_end andb orb ldn]. rewrite N1, N2. cbn [bind nkey nval].
    split; [reflexivity|]. split; [reflexivity|]. split; [|exact Eij]. rewrite andb_true_iff, (ko_eq _ _ _ KO). split; [intros [-> _]; now apply Eij|].
    intros ->. split; [symmetry; now apply Eij|]. assert (u1 = u2) by congruence. subst. apply Rv.
  Qed.

  Lemma find_iteration w s ts m q d k v : Inv ltb w s ts ->
    nth_error (maps w) m = Some (Some q) -> nth_error s m = Some (Some d) -> In (k, v) d ->
    exists p L, map_find eqb gtb (mh w) q k = Ok p /\
      iterate ltb (depth (mh w)) (mh w) q p = Ok L /\ StronglySorted (key_lt ltb) L /\
      (forall kv : K * T, In kv L <-> In kv d /\ ltb (fst kv) k = false).
  Proof.
    intros I Hm Hs Hk.
    destruct (inv_get _ _ _ _ _ _ I Hs) as (q' & t & Hm' & Ht & Hr & So & Ho & P & ND & LF & LD).
    rewrite Hm in Hm'. inversion Hm'; subst q'.
    destruct (find_sim eqb gtb ltb KO _ _ _ _ k Hr (proj1 (so_ss ltb t) So) LD) as (r & E & Hrr).
    destruct r as [x|].
    - destruct Hrr as (v' & Hv). destruct (iterate_from w s ts m q d t x k v' I Hm Hs Ht Hv) as (L & E2 & S & _ & Hin).
      exists (Some x), L. auto.
    - exfalso. apply Hrr. apply key_in_entries. eapply Permutation_in;
        [apply Permutation_map; symmetry; exact P|]. apply in_map_iff. exists (k, v). auto.
  Qed.

  Lemma no_leak (w : mworld K T) s ts : Inv ltb w s ts -> (forall m d, nth_error s m <> Some (Some d)) ->
    forall j, nodes (mh w) j = None.
  Proof.
    intros I Hs j. destruct (nodes (mh w) j) as [n|] eqn:E; [exfalso|reflexivity].
    assert (In j (allids ts)) as Hj by (apply (inv_live _ _ _ _ I); congruence).
    unfold allids in Hj. apply in_flat_map in Hj. destruct Hj as (o & Ho & Hj).
    destruct o as [t|]; [|destruct Hj]. apply In_nth_error in Ho. destruct Ho as (m & Ho).
    destruct (nth_total _ (maps w) _ _ (inv_lt _ _ _ _ I) Ho) as (mo & Hm).
    destruct (nth_total _ s _ _ (eq_sym (inv_ls _ _ _ _ I)) Hm) as (so & Hso).
    pose proof (inv_obj _ _ _ _ I _ _ _ _ Hm Hso Ho) as O.
    destruct mo, so; cbn in O; try contradiction. eapply Hs; eauto.
  Qed.

  Lemma double_destroy (w : mworld K T) s ts m q d : Inv ltb w s ts ->
    nth_error (maps w) m = Some (Some q) -> nth_error s m = Some (Some d) -> d <> [] ->
    exists h1, map_destroy (mh w) q = Ok h1 /\ map_destroy h1 q = UB UseAfterFree.
  Proof.
    intros I Hm Hs Hd.
    destruct (inv_get _ _ _ _ _ _ I Hs) as (q' & t & Hm' & Ht & Hr & So & Ho & P & ND & LF & LD).
    rewrite Hm in Hm'. inversion Hm'; subst q'.
    destruct (delete_sim pri _ _ _ _ Hr ND LD) as (h' & E & F & A & B).
    exists h'. split; [exact E|].
    destruct t as [|i k v p l r].
    - cbn in P. apply Permutation_nil in P. congruence.
    - cbn in Hr. destruct Hr as (-> & _). unfold map_destroy, depth. cbn [delete_ ldn].
      rewrite A; [reflexivity|]. rewrite ids_node. apply in_or_app. right. left. reflexivity.
  Qed.

  Lemma nodes_owned_once (w : mworld K T) s ts : Inv ltb w s ts ->
    NoDup (flat_map (fun o => match o with Some t => ids t | None => [] end) ts) /\
    (forall j, nodes (mh w) j <> None <->
       In j (flat_map (fun o => match o with Some t => ids t | None => [] end) ts)).
  Proof.
    intros I. split; [apply (inv_nd _ _ _ _ I)|]. intros j. split; [apply (inv_live _ _ _ _ I)|].
    intros Hj. apply in_flat_map in Hj. destruct Hj as (o & Ho & Hj).
    destruct o as [t|]; [|destruct Hj]. apply In_nth_error in Ho. destruct Ho as (m & Ho).
    destruct (nth_total _ (maps w) _ _ (inv_lt _ _ _ _ I) Ho) as (mo & Hm).
    destruct (nth_total _ s _ _ (eq_sym (inv_ls _ _ _ _ I)) Hm) as (so & Hso).
    pose proof (inv_obj _ _ _ _ I _ _ _ _ Hm Hso Ho) as O.
    destruct mo as [q|], so as [d|]; cbn in O; try contradiction.
    destruct O as (Hr & _). unfold ids in Hj. apply in_map_iff in Hj.
    destruct Hj as ([x [k v]] & Ex & Hx). cbn in Ex. subst x.
    destruct (rep_node _ _ _ _ _ _ Hr Hx) as (p & a & b & Hn). congruence.
  Qed.
End More.
