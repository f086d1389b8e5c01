From Coq Require Import ZArith List Lia Bool ZifyBool ZifyNat.
From Verif Require Import Mem VecModel VecSpec VecProofs VecRefine.
Import ListNotations.
Open Scope Z_scope.

(** States a client can reach by a history that respects every precondition. *)
Definition reachable {V} (w : world V) : Prop :=
  exists ops outs s outs', spec_run spec0 ops = Some (outs, s) /\ run world0 ops = Ok (outs', w).

Section M.
  Context {V : Type}.
  Notation heap := (heap V).
  Notation world := (world V).

  Lemma reachable_inv (w : world) : reachable w -> Inv w.
  Proof.
    intros (ops & outs & s & outs' & E & E').
    destruct (run_refines ops spec0 world0 outs s inv0 r0 E) as (o2 & w2 & H & _ & I & _).
    rewrite H in E'. inversion E'; subst. exact I.
  Qed.

  Lemma refines_list (ops : list (op V)) outs s :
    spec_run spec0 ops = Some (outs, s) ->
    exists outs' w, run world0 ops = Ok (outs', w) /\ Forall2 out_ok outs outs'.
  Proof.
    intros E. destruct (run_refines ops spec0 world0 outs s inv0 r0 E) as (o & w & H & O & _).
    exists o, w. auto.
  Qed.

  Lemma memory_discipline (ops : list (op V)) outs s :
    spec_run spec0 ops = Some (outs, s) ->
    exists outs' w, run world0 ops = Ok (outs', w) /\
      (forall b, mem (hp w) b <> None <->
                 exists x v, vecs w x = Some v /\ elements v = Some b) /\
      (forall x y v u b, vecs w x = Some v -> vecs w y = Some u ->
                 elements v = Some b -> elements u = Some b -> x = y) /\
      ((forall x, s x = None) -> forall b, mem (hp w) b = None).
  Proof.
    intros E. destruct (run_refines ops spec0 world0 outs s inv0 r0 E) as (o & w & H & O & I & HR).
    exists o, w. split; [exact H|]. split; [|split].
    - intros b. split; [apply I|]. intros (x & v & Hx & Hb).
      pose proof (inv_wf w I x v Hx) as (_ & _ & He). rewrite Hb in He.
      destruct He as (_ & a & Ha & _). congruence.
    - intros x y v u b Hx Hy Hb Hb'. destruct (Nat.eq_dec x y) as [|Hn]; [assumption|].
      exfalso. apply (inv_disj w I x y v u b Hn Hx Hy Hb Hb').
    - intros Hn b. destruct (mem (hp w) b) eqn:Eb; [|reflexivity]. exfalso.
      destruct (inv_noleak w I b) as (x & v & Hx & _); [congruence|].
      specialize (HR x). rewrite Hn, Hx in HR. exact HR.
  Qed.

  Lemma push_self_spare (w : world) x v i : reachable w -> vecs w x = Some v ->
    0 <= i < size v -> size v < capacity v ->
    exists w' v', step w (PushBackOf x x i) = Ok (ONone, w') /\
      vecs w' x = Some v' /\ size v' = size v + 1 /\
      (forall j, 0 <= j < size v -> get (hp w') v' j = get (hp w) v j) /\
      get (hp w') v' (size v) = get (hp w) v i.
  Proof.
    intros Rw Hx Hi Hc. apply reachable_inv in Rw.
    pose proof (inv_wf w Rw x v Hx) as W. pose proof (inv_len w Rw x v Hx) as Lm.
    unfold max_len in Lm. pose proof W as (Hs & Hcap & He).
    cbn [step]. unfold find. rewrite Hx. cbn [bind]. unfold push_back_ref.
    rewrite w64_small by lia. unfold resize.
    replace (size v + 1 <? 1) with false by lia.
    replace (capacity v <? size v + 1) with false by lia. cbn [bind elements size].
    rewrite vload_ok by (auto; lia). cbn [bind].
    replace (size v + 1 - 1) with (size v) by lia. rewrite w64_small by lia.
    destruct (vstore_ok (hp w) v (size v) (nth (Z.to_nat i) (arr (hp w) v) None) W ltac:(lia))
      as (h' & E & W' & F & A & _). rewrite E. cbn [bind].
    eexists _, _. split; [reflexivity|]. cbn [put vecs hp]. rewrite upd_same.
    split; [reflexivity|]. split; [reflexivity|].
    pose proof (wfv_len _ _ W) as L.
    assert (Wv' : wfv h' (Vec (elements v) (capacity v) (size v + 1))).
    { apply W'; cbn; auto; lia. }
    assert (G : forall j, 0 <= j < capacity v ->
       get h' (Vec (elements v) (capacity v) (size v + 1)) j =
       Ok (nth (Z.to_nat j) (set_nth (arr (hp w) v) (Z.to_nat (size v)) (nth (Z.to_nat i) (arr (hp w) v) None)) None)).
    { intros j Hj. unfold get. rewrite (vload_ok _ _ j Wv') by (cbn; lia).
      rewrite <- A. reflexivity. }
    split.
    - intros j Hj. rewrite G by lia. unfold get. rewrite vload_ok by (auto; lia).
      rewrite nth_set_nth by lia. destruct (Nat.eqb_spec (Z.to_nat j) (Z.to_nat (size v))); [lia|reflexivity].
    - rewrite G by lia. unfold get. rewrite vload_ok by (auto; lia).
      rewrite nth_set_nth by lia. rewrite Nat.eqb_refl. reflexivity.
  Qed.

  Lemma push_self_full (w : world) x v i : reachable w -> vecs w x = Some v ->
    0 <= i < size v -> size v = capacity v -> size v + 1 < 2 ^ 62 ->
    step w (PushBackOf x x i) = UB UseAfterFree.
  Proof.
    intros Rw Hx Hi Hc Hm. apply reachable_inv in Rw.
    pose proof (inv_wf w Rw x v Hx) as W.
    destruct (resize_ok (hp w) v (size v + 1) W (inv_fresh w Rw) ltac:(lia))
      as (v1 & h1 & E & W1 & S1 & C1 & Ne & (F1 & D1 & _) & _ & _ & G).
    destruct (G ltac:(lia)) as (_ & _ & _ & Hne).
    pose proof W as (Hs & Hcap & He).
    destruct (elements v) as [b|] eqn:Ev; [|lia].
    cbn [step]. unfold find. rewrite Hx. cbn [bind]. unfold push_back_ref.
    rewrite w64_small by lia. rewrite E. cbn [bind]. rewrite Ev. unfold load.
    destruct D1 as [D1|[_ D1]]; [congruence|].
    rewrite (D1 b eq_refl). reflexivity.
  Qed.

  (** Capacity never decreases, whatever the state. *)
  Lemma resize_capacity (h : heap) v n v' h' : resize h v n = Ok (v', h') -> capacity v <= capacity v'.
  Proof.
    unfold resize. destruct (n <? 1); [intros E; inversion E; subst; lia|].
    destruct (Z.ltb_spec (capacity v) n).
    - destruct (allocate h _) as [[p h1]| |]; cbn [bind]; [|discriminate|discriminate].
      destruct (copy_loop _ _ _ _ _); cbn [bind]; [|discriminate|discriminate].
      destruct (deallocate _ _); cbn [bind]; [|discriminate|discriminate].
      intros E; inversion E; subst. cbn. destruct (Z.ltb_spec (recommended_size v) n); lia.
    - intros E; inversion E; subst. cbn; lia.
  Qed.

  Lemma push_back_ref_capacity (h : heap) v p i v' h' :
    push_back_ref h v p i = Ok (v', h') -> capacity v <= capacity v'.
  Proof.
    unfold push_back_ref. destruct (resize _ _ _) as [[v1 h1]| |] eqn:E; cbn [bind]; [|discriminate|discriminate].
    destruct (load _ _ _); cbn [bind]; [|discriminate|discriminate].
    destruct (store _ _ _ _); cbn [bind]; [|discriminate|discriminate].
    intros X; inversion X; subst. eapply resize_capacity; eauto.
  Qed.

  Lemma assign_loop_capacity k : forall (h : heap) v p j v' h',
    assign_loop k h v p j = Ok (v', h') -> capacity v <= capacity v'.
  Proof.
    induction k as [|k IH]; cbn [assign_loop]; intros h v p j v' h' E.
    - inversion E; subst; lia.
    - destruct (push_back_ref h v p j) as [[v1 h1]| |] eqn:E1; cbn [bind] in E; [|discriminate|discriminate].
      apply IH in E. apply push_back_ref_capacity in E1. lia.
  Qed.

  Definition rebinds (o : op V) (x : nat) : Prop :=
    match o with Delete y => y = x | Swap y z => y = x \/ z = x | _ => False end.

  Lemma capacity_monotone (w : world) o r w' x v : step w o = Ok (r, w') -> vecs w x = Some v ->
    ~ rebinds o x -> exists v', vecs w' x = Some v' /\ capacity v <= capacity v'.
  Proof.
    intros E Hx Hnr.
    assert (P : forall y v1 v1' h1, vecs w y = Some v1 -> capacity v1 <= capacity v1' ->
                exists v', vecs (put w y v1' h1) x = Some v' /\ capacity v <= capacity v').
    { intros y v1 v1' h1 Hy Hc. cbn. destruct (Nat.eq_dec x y) as [->|Hn].
      - rewrite upd_same. exists v1'. split; auto. congruence.
      - rewrite upd_other by auto. exists v. split; auto. lia. }
    assert (Q : forall y v1 h1, vecs w y = None ->
                exists v', vecs (put w y v1 h1) x = Some v' /\ capacity v <= capacity v').
    { intros y v1 h1 Hy. cbn. rewrite upd_other by congruence. exists v. split; auto; lia. }
    destruct o as [y|y z|y|y c|y|y i|y|y n|y i c|y z|y z i j|y z i|y z|y i|y|y];
      cbn [step] in E; unfold find in E;
      destruct (vecs w y) as [vy|] eqn:Ey; cbn [bind] in E; try discriminate.
    - inversion E; subst. eauto.
    - destruct (vecs w z) as [vz|]; cbn [bind] in E; try discriminate.
      destruct (vec_copy _ _) as [[v1 h1]| |]; cbn [bind] in E; try discriminate.
      inversion E; subst. eauto.
    - destruct (vec_delete _ _); cbn [bind] in E; try discriminate. inversion E; subst. cbn.
      rewrite upd_other by (intros ->; apply Hnr; reflexivity). exists v. split; auto; lia.
    - unfold push_back in E.
      destruct (resize _ _ _) as [[v1 h1]| |] eqn:E1; cbn [bind] in E; try discriminate.
      destruct (store _ _ _ _); cbn [bind] in E; try discriminate. inversion E; subst.
      apply resize_capacity in E1. eauto.
    - inversion E; subst. eapply P; eauto. cbn; lia.
    - unfold erase in E. destruct (erase_loop _ _ _ _ _) as [[r1 h1]| |]; cbn [bind] in E; try discriminate.
      inversion E; subst. eapply P; eauto. cbn; lia.
    - inversion E; subst. eapply P; eauto. cbn; lia.
    - destruct (resize _ _ _) as [[v1 h1]| |] eqn:E1; cbn [bind] in E; try discriminate.
      inversion E; subst. apply resize_capacity in E1. eauto.
    - destruct (set _ _ _ _); cbn [bind] in E; try discriminate. inversion E; subst. cbn.
      exists v; split; auto; lia.
    - destruct (vecs w z) as [vz|]; cbn [bind] in E; try discriminate.
      destruct (Nat.eqb y z); [inversion E; subst; exists v; split; auto; lia|].
      unfold assign in E. destruct (assign_loop _ _ _ _ _) as [[v1 h1]| |] eqn:E1; cbn [bind] in E; try discriminate.
      inversion E; subst. apply assign_loop_capacity in E1. cbn in E1. eauto.
    - destruct (vecs w z) as [vz|]; cbn [bind] in E; try discriminate.
      unfold assign in E. destruct (assign_loop _ _ _ _ _) as [[v1 h1]| |] eqn:E1; cbn [bind] in E; try discriminate.
      inversion E; subst. apply assign_loop_capacity in E1. cbn in E1. eauto.
    - destruct (vecs w z) as [vz|]; cbn [bind] in E; try discriminate.
      destruct (push_back_ref _ _ _ _) as [[v1 h1]| |] eqn:E1; cbn [bind] in E; try discriminate.
      inversion E; subst. apply push_back_ref_capacity in E1. eauto.
    - destruct (vecs w z) as [vz|]; cbn [bind] in E; try discriminate. inversion E; subst. cbn.
      rewrite !upd_other by (intros ->; apply Hnr; cbn; auto). exists v; split; auto; lia.
    - destruct (get _ _ _); cbn [bind] in E; try discriminate. inversion E; subst. exists v; split; auto; lia.
    - inversion E; subst. exists v; split; auto; lia.
    - inversion E; subst. exists v; split; auto; lia.
  Qed.

  Lemma size_le_capacity (w : world) x v : reachable w -> vecs w x = Some v ->
    0 <= size v <= capacity v.
  Proof. intros Rw Hx. apply reachable_inv in Rw. apply (inv_wf w Rw x v Hx). Qed.

  (** Exact cost of building a vector by push_back alone. *)
  Definition grown (w : world) (k : Z) : Prop :=
    exists v, vecs w 0%nat = Some v /\ Inv w /\ size v = k /\
      (k = 0 -> capacity v = 0 /\ allocs (hp w) = 0 /\ moves (hp w) = 0) /\
      (0 < k -> capacity v = 2 ^ Z.log2_up k /\ allocs (hp w) = Z.log2_up k + 1 /\
                moves (hp w) = 2 ^ Z.log2_up k - 1).

  Lemma grown_push w k c : grown w k -> k + 1 < 2 ^ 62 -> 0 <= k ->
    exists w', step w (PushBack 0 c) = Ok (ONone, w') /\ grown w' (k + 1).
  Proof.
    intros (v & Hv & I & Sz & Z0 & Zp) Hk Hk0.
    pose proof (inv_wf w I _ _ Hv) as W.
    destruct (push_back_ok (hp w) v (Some c) W (inv_fresh w I) ltac:(lia))
      as (v' & h' & E & W' & F' & C' & S' & _ & Same & Grow).
    cbn [step]. unfold find. rewrite Hv. cbn [bind]. rewrite E. cbn [bind].
    eexists. split; [reflexivity|]. exists v'. cbn [put vecs hp]. rewrite upd_same.
    split; [reflexivity|]. split; [|split; [lia|split; [lia|intros _]]].
    { eapply put_inv; eauto; [left; exact Hv|unfold max_len; lia]. }
    destruct (Z.eq_dec k 0) as [->|Hkn].
    - destruct (Z0 eq_refl) as (Hc & Ha & Hm).
      destruct (Grow ltac:(lia)) as (Gc & Ga & Gm). rewrite Gc, Ga, Gm. rewrite Hc, Ha, Hm, Sz.
      cbn. lia.
    - destruct (Zp ltac:(lia)) as (Hc & Ha & Hm).
      pose proof (Z.log2_up_nonneg k) as Hn0.
      destruct (Z.eq_dec k 1) as [->|Hk1].
      { change (Z.log2_up 1) with 0 in *. cbn in Hc, Ha, Hm.
        destruct (Grow ltac:(lia)) as (Gc & Ga & Gm). rewrite Gc, Ga, Gm, Hc, Ha, Hm, Sz. cbn. lia. }
      pose proof (Z.log2_up_spec k ltac:(lia)) as (B1 & B2).
      destruct (Z.eq_dec k (2 ^ Z.log2_up k)) as [Heq|Hne].
      + (* full: relocate *)
        assert (Hl : Z.log2_up (k + 1) = Z.log2_up k + 1).
        { apply Z.log2_up_unique; [lia|]. rewrite Heq at 2. rewrite Heq at 4.
          replace (Z.pred (Z.log2_up k + 1)) with (Z.log2_up k) by lia.
          rewrite Z.log2_up_pow2 by lia.
          replace (Z.log2_up k + 1) with (Z.succ (Z.log2_up k)) by lia.
          rewrite Z.pow_succ_r by lia. lia. }
        destruct (Grow ltac:(lia)) as (Gc & Ga & Gm).
        rewrite Gc, Ga, Gm, Ha, Hm, Sz, Hc, Hl.
        replace (2 ^ (Z.log2_up k + 1)) with (2 * 2 ^ Z.log2_up k)
          by (rewrite Z.pow_add_r by lia; lia). lia.
      + assert (Hl : Z.log2_up (k + 1) = Z.log2_up k).
        { apply Z.log2_up_unique; [|lia].
          pose proof (Z.log2_up_pos k ltac:(lia)). lia. }
        destruct (Same ltac:(lia)) as (_ & Gc & Ga & Gm).
        rewrite Gc, Ga, Gm, Ha, Hm, Hc, Hl. lia.
  Qed.

  Lemma grown_run (cs : list V) : forall w k, grown w k -> 0 <= k -> k + Z.of_nat (length cs) < 2 ^ 62 ->
    exists outs w', run w (map (PushBack 0) cs) = Ok (outs, w') /\ grown w' (k + Z.of_nat (length cs)).
  Proof.
    induction cs as [|c t IH]; intros w k G Hk Hb; cbn [map run].
    - exists [], w. split; [reflexivity|]. cbn [length]. rewrite Z.add_0_r. exact G.
    - cbn [length] in *.
      destruct (grown_push w k c G) as (w1 & E1 & G1); try lia.
      destruct (IH w1 (k+1) G1) as (outs & w2 & E2 & G2); try lia.
      rewrite E1. cbn [bind]. rewrite E2. cbn [bind].
      eexists _, _. split; [reflexivity|].
      replace (k + Z.of_nat (S (length t))) with (k + 1 + Z.of_nat (length t)) by lia. exact G2.
  Qed.

  Lemma push_cost (cs : list V) : let n := Z.of_nat (length cs) in 0 < n < 2 ^ 62 ->
    exists outs w, run world0 (New 0 :: map (PushBack 0) cs) = Ok (outs, w) /\
      allocs (hp w) = Z.log2_up n + 1 /\ moves (hp w) < 2 * n.
  Proof.
    intros n Hn. cbn [run step]. cbn [world0 vecs bind].
    assert (G0 : grown (put (@world0 V) 0 vec_new (hp world0)) 0).
    { exists vec_new. cbn [put vecs hp world0]. rewrite upd_same. split; [reflexivity|]. split.
      - apply (put_inv world0 0%nat vec_new _ vec_new inv0).
        + right; auto.
        + apply frame_refl.
        + unfold wfv, vec_new; cbn; lia.
        + cbn; unfold max_len; lia.
      - cbn. lia. }
    destruct (grown_run cs _ 0 G0) as (outs & w & E & v & Hv & I & Sz & _ & Zp); try lia.
    rewrite E. cbn [bind]. eexists _, _. split; [reflexivity|].
    destruct (Zp ltac:(lia)) as (Hc & Ha & Hm). fold n in Ha, Hm.
    rewrite Z.add_0_l in *. split; [exact Ha|]. rewrite Hm.
    destruct (Z.eq_dec n 1) as [->|]; [cbn; lia|].
    pose proof (Z.log2_up_spec n ltac:(lia)) as (B1 & B2).
    pose proof (Z.log2_up_pos n ltac:(lia)).
    replace (Z.log2_up n) with (Z.succ (Z.pred (Z.log2_up n))) by lia.
    rewrite Z.pow_succ_r by lia. lia.
  Qed.

  Lemma erase_contract (w : world) x v i : reachable w -> vecs w x = Some v -> 0 <= i < size v ->
    exists v' h', erase (hp w) v i = Ok (size v - 1, v', h') /\
      size v' = size v - 1 /\ capacity v' = capacity v /\
      (forall j, 0 <= j < i -> get h' v' j = get (hp w) v j) /\
      (forall j, i <= j < size v - 1 -> get h' v' j = get (hp w) v (j + 1)).
  Proof.
    intros Rw Hx Hi. apply reachable_inv in Rw. pose proof (inv_wf w Rw x v Hx) as W.
    pose proof (inv_len w Rw x v Hx) as Lm. unfold max_len in Lm.
    pose proof W as (Hs & Hc & He). unfold erase.
    destruct (erase_loop_ok (Z.to_nat (size v - 1 - i)) (S (Z.to_nat (capacity v))) (hp w) v i (size v) (arr (hp w) v) W eq_refl)
      as (h' & E & W' & F & L & N & _); try lia.
    rewrite E. cbn [bind]. rewrite w64_small by lia.
    eexists _, _. split; [reflexivity|]. cbn [size capacity]. split; [reflexivity|]. split; [reflexivity|].
    split; intros j Hj; unfold get; cbn [elements]; rewrite !vload_ok by (auto; lia); rewrite N;
      destruct (_ && _) eqn:Eb; try lia; try reflexivity.
    f_equal. f_equal. lia.
  Qed.

  Lemma resize_contract (w : world) x v n : reachable w -> vecs w x = Some v -> 1 <= n < 2 ^ 62 ->
    exists v' h', resize (hp w) v n = Ok (v', h') /\ size v' = n /\
      (forall j, 0 <= j < Z.min n (size v) -> get h' v' j = get (hp w) v j).
  Proof.
    intros Rw Hx Hn. apply reachable_inv in Rw. pose proof (inv_wf w Rw x v Hx) as W.
    destruct (resize_ok (hp w) v n W (inv_fresh w Rw) Hn) as (v' & h' & E & W' & S' & C' & _ & F & N & _).
    exists v', h'. split; [exact E|]. split; [exact S'|]. intros j Hj.
    pose proof W as (Hs & _). pose proof W' as (Hs' & _). unfold get.
    rewrite !vload_ok by (auto; lia).
    f_equal. apply N. lia.
  Qed.

  Definition mentions (o : op V) (x : nat) : bool :=
    match o with
    | New y | Delete y | PushBack y _ | PopBack y | Erase y _ | Clear y | Resize y _ | Set_ y _ _
    | Get y _ | Size y | Empty y => Nat.eqb x y
    | NewCopy y z | Assign y z | AssignRange y z _ _ | PushBackOf y z _ | Swap y z =>
      Nat.eqb x y || Nat.eqb x z
    end.

  Lemma spec_step_frame (s : sstate V) o r s' x : spec_step s o = Some (r, s') ->
    mentions o x = false -> s' x = s x.
  Proof.
    intros E M.
    destruct o; cbn [spec_step mentions] in *; unfold sget, guard in E;
      repeat match type of E with
             | match ?a with _ => _ end = _ => destruct a eqn:?; try discriminate
             | (if ?a then _ else _) = _ => destruct a eqn:?; try discriminate
             end; inversion E; subst; unfold sset; try reflexivity;
      try (apply orb_false_elim in M; destruct M as [M1 M2]); rewrite ?M, ?M1, ?M2; reflexivity.
  Qed.

  Lemma spec_run_frame (ops : list (op V)) : forall s outs s' x, spec_run s ops = Some (outs, s') ->
    forallb (fun o => negb (mentions o x)) ops = true -> s' x = s x.
  Proof.
    induction ops as [|o t IH]; cbn [spec_run forallb]; intros s outs s' x E M.
    - inversion E; subst; reflexivity.
    - destruct (spec_step s o) as [[r s1]|] eqn:E1; [|discriminate].
      destruct (spec_run s1 t) as [[rs s2]|] eqn:E2; [|discriminate].
      inversion E; subst. apply andb_prop in M. destruct M as [M1 M2].
      rewrite (IH s1 rs s' x E2 M2). eapply spec_step_frame; eauto.
      destruct (mentions o x); [discriminate|reflexivity].
  Qed.

  Lemma spec_run_app (a : list (op V)) : forall b s o1 s1 o2 s2,
    spec_run s a = Some (o1, s1) -> spec_run s1 b = Some (o2, s2) ->
    spec_run s (a ++ b) = Some (o1 ++ o2, s2).
  Proof.
    induction a as [|o t IH]; cbn [spec_run app]; intros b s o1 s1 o2 s2 E1 E2.
    - inversion E1; subst. exact E2.
    - destruct (spec_step s o) as [[r s']|]; [|discriminate].
      destruct (spec_run s' t) as [[rs s'']|] eqn:E; [|discriminate].
      inversion E1; subst. rewrite (IH b s' rs s1 o2 s2 E E2). reflexivity.
  Qed.

  Lemma copy_independent (ops1 ops2 : list (op V)) cp x y z l outs1 s1 outs2 s2 i :
    spec_run spec0 ops1 = Some (outs1, s1) ->
    (cp = NewCopy x y /\ s1 x = None \/ cp = Assign x y /\ s1 x <> None) ->
    s1 y = Some l -> x <> y ->
    spec_run (sset s1 x (Some l)) ops2 = Some (outs2, s2) ->
    (z = x \/ z = y) ->
    forallb (fun o => negb (mentions o z)) ops2 = true -> 0 <= i < len l ->
    exists outs c w, run world0 (ops1 ++ cp :: ops2 ++ [Size z; Get z i]) =
        Ok (outs ++ [OZ (len l); OCell c], w) /\
      cell_ok (nth (Z.to_nat i) l None) c.
  Proof.
    intros E1 Nx Ny Hxy E2 Hz M Hi.
    assert (Ez : s2 z = Some l).
    { rewrite (spec_run_frame ops2 _ _ _ z E2 M). unfold sset.
      destruct Hz as [->| ->]; [rewrite Nat.eqb_refl; reflexivity|].
      destruct (Nat.eqb_spec y x); congruence. }
    assert (E3 : spec_run s2 [Size z; Get z i] = Some ([OZ (len l); OCell (nth (Z.to_nat i) l None)], s2)).
    { cbn [spec_run spec_step]. unfold sget, guard. rewrite !Ez.
      replace ((0 <=? i) && (i <? len l)) with true by lia. reflexivity. }
    assert (E4 : spec_run s1 (cp :: ops2 ++ [Size z; Get z i]) =
       Some (ONone :: outs2 ++ [OZ (len l); OCell (nth (Z.to_nat i) l None)], s2)).
    { cbn [spec_run].
      assert (Ec : spec_step s1 cp = Some (ONone, sset s1 x (Some l))).
      { destruct Nx as [[-> Nx]|[-> Nx]]; cbn [spec_step]; unfold sget.
        - rewrite Nx, Ny. reflexivity.
        - destruct (s1 x); [|congruence]. rewrite Ny. reflexivity. }
      rewrite Ec. rewrite (spec_run_app ops2 _ _ _ _ _ _ E2 E3). reflexivity. }
    pose proof (spec_run_app ops1 _ _ _ _ _ _ E1 E4) as E5.
    destruct (refines_list _ _ _ E5) as (outs' & w & Hr & Hf).
    replace (outs1 ++ ONone :: outs2 ++ [OZ (len l); OCell (nth (Z.to_nat i) l None)])
      with ((outs1 ++ ONone :: outs2) ++ [OZ (len l); OCell (nth (Z.to_nat i) l None)]) in Hf
      by (rewrite <- app_assoc; reflexivity).
    apply Forall2_app_inv_l in Hf. destruct Hf as (p & q & _ & Fq & ->).
    inversion Fq as [|a b c d H1 H2]; subst. inversion H2 as [|a' b' c' d' H3 H4]; subst. inversion H4; subst.
    destruct b; cbn in H1; try contradiction. subst z0.
    destruct b'; cbn in H3; try contradiction.
    exists p, c, w. split; [exact Hr|exact H3].
  Qed.
End M.
