(** C82: lists, trees and graphs linked by unique_ptr. *)
From Coq Require Import List Bool PeanoNat Lia Permutation.
From Verif Require Import Mem UgModel UgProofs UgStep.
Import ListNotations.

(** At every point of every program: each object made is live or was deleted, not both, and was
    deleted at most once; each live object has exactly one owner: one unique_ptr (a variable or a
    member of a live object), or the client's raw pointer; no unique_ptr holds a pointer to an
    object that is gone. *)
Theorem C82_one_owner ops w : run init ops = Ok w ->
  (forall o, o < nobj w <-> In o (live w) \/ In o (map fst (log w))) /\ NoDup (live w ++ map fst (log w)) /\
  NoDup (ptrs (cells w) ++ raws w) /\ forall o, In o (live w) <-> In o (ptrs (cells w)) \/ In o (raws w).
Proof.
  intros E. destruct (run_good ops _ _ init_good E) as [[I1 I2] _]. rewrite app_nil_r in I1. split; [|split; [|split]].
  - intros o. rewrite <- in_app_iff. split; intros H.
    + eapply Permutation_in; [symmetry; exact I2|]. apply in_seq. lia.
    + eapply Permutation_in in H; [|exact I2]. apply in_seq in H. lia.
  - eapply Permutation_NoDup; [symmetry; exact I2|apply seq_NoDup].
  - eapply Permutation_NoDup; [symmetry; exact I1|]. apply (nodup_left _ (map fst (log w))). eapply Permutation_NoDup; [symmetry; exact I2|apply seq_NoDup].
  - intros o. rewrite <- in_app_iff. split; apply Permutation_in; [symmetry|]; exact I1.
Qed.
Print Assumptions C82_one_owner.

(** Each operation is defined exactly when it is [legal], and then does what [outcome] says. *)
Theorem C82_operations ops w a : run init ops = Ok w ->
  (legal w a -> exists r w', step w a = Ok (r, w') /\ outcome w a r w') /\ (~ legal w a -> exists e, step w a = UB e) /\ (legal w a \/ ~ legal w a).
Proof.
  intros E. destruct (step_ok w a (run_good ops _ _ init_good E)) as [(L & r & w' & E' & _ & O)|(L & X)]; (split; [|split]); try tauto; intros _; eauto.
Qed.
Print Assumptions C82_operations.

(** A tree: 0 owns 1 and 2, 2 owns 3; deleters 10 for the variable, 20 and 21 for the members. *)
Definition tree : list op :=
  [New [20; 21]; New [20; 21]; New [20; 21]; New [20; 21]; Make 0 10 (Some 0); Reset (F 0 0) (Some 1); Reset (F 0 1) (Some 2); Reset (F 2 0) (Some 3)].
(* the live objects, the deletions and the raw pointers at the end of a program *)
Definition fin (ops : list op) := match run init ops with Ok w => Some (live w, log w, raws w) | _ => None end.
Example tree_runs : fin tree = Some ([3; 2; 1; 0], [], []) /\
  fin (tree ++ [Reset (F 0 1) None]) = Some ([1; 0], [(3, Some 20); (2, Some 21)], []) /\
  fin (tree ++ [Destroy 0]) = Some ([], [(3, Some 20); (2, Some 21); (1, Some 20); (0, Some 10)], []) /\
  fin (tree ++ [MoveAssign (F 0 0) (F 2 0)]) = Some ([3; 2; 0], [(1, Some 20)], []) /\
  fin (tree ++ [Release (F 0 1); Delete 2; Destroy 0]) = Some ([], [(3, Some 20); (2, None); (1, Some 20); (0, Some 10)], []) /\
  run init (tree ++ [MoveAssign (V 0) (F 2 0)]) = UB UseAfterFree.
Proof. vm_compute. auto 10. Qed.
(** A reset of a member that deletes the member's object takes the new pointee along. *)
Example reset_on_cycle :
  fin [New [7]; New [8]; New [9]; Make 0 5 (Some 0); Reset (F 0 0) (Some 1); MoveAssign (F 1 0) (V 0); Reset (F 0 0) (Some 2)] = Some ([], [(2, Some 7); (0, Some 5); (1, Some 7)], []).
Proof. vm_compute. reflexivity. Qed.

(** The live objects after a step are those that were live and not [doomed]. *)
Theorem C82_survivors ops w a r w' : run init ops = Ok w -> step w a = Ok (r, w') -> (forall ds, a <> New ds) ->
  forall k, (doomed w a k -> In k (live w)) /\ (In k (live w') <-> In k (live w) /\ ~ doomed w a k).
Proof.
  intros E E' NN k. assert (G := run_good ops _ _ init_good E). destruct (step_ok w a G) as [(L & r1 & w1 & E1 & G' & O)|(_ & e & X)]; [|congruence].
  assert (w1 = w') as -> by congruence. destruct O as (_ & _ & On & (l & El & Nl & Xl & _) & _).
  assert (On' : nobj w' = nobj w) by (destruct a; auto; now destruct (NN ds)).
  destruct G as [[I1 I2] Nv]. destruct G' as [[J1 J2] Nv'].
  assert (P : Permutation (live w) (live w' ++ map fst l)).
  { apply Permutation_app_inv_r with (map fst (log w)). rewrite I2, <- On', <- J2, El, map_app, <- app_assoc. apply Permutation_app_head, Permutation_app_comm. }
  assert (Nl' : NoDup (live w' ++ map fst l)).
  { eapply Permutation_NoDup; [exact P|]. apply (nodup_left _ (map fst (log w))). eapply Permutation_NoDup; [symmetry; exact I2|apply seq_NoDup]. }
  rewrite <- Xl. split; [intros H; eapply Permutation_in; [symmetry; exact P|apply in_or_app; now right]|]. split.
  - intros H. split; [eapply Permutation_in; [symmetry; exact P|apply in_or_app; now left]|]. intros H'. clear -Nl' H H'.
    induction (live w') as [|y m IH]; [contradiction|]. inversion Nl' as [|? ? Ny Nm]; subst. destruct H as [->|H]; [apply Ny, in_or_app; now right|auto].
  - intros [H H']. eapply Permutation_in in H; [|exact P]. apply in_app_or in H. tauto.
Qed.
Print Assumptions C82_survivors.

(** The end of a variable's scope deletes everything below it: all descendants, however deep,
    and nothing else. *)
Theorem C82_scope_end ops w x o d : run init ops = Ok w -> read w (V x) = Ok (Cell (Some o) d) ->
  exists w', step w (Destroy x) = Ok (None, w') /\ (forall k, In k (live w') <-> In k (live w) /\ ~ reach w o k) /\
    (forall k, reach w o k -> In k (live w)) /\ (forall k i, In k (live w') -> read w' (F k i) = read w (F k i)).
Proof.
  intros E R. destruct (C82_operations ops w (Destroy x) E) as (H & _).
  destruct H as (r & w' & E' & An & _ & _ & _ & Re); [apply (there_read w (V x)); eauto|]. cbn in An. subst r. exists w'. split; [exact E'|].
  assert (Sv := C82_survivors ops w (Destroy x) None w' E E' ltac:(discriminate)).
  assert (Dx : forall k, doomed w (Destroy x) k <-> reach w o k).
  { intros k. cbn. split; [intros (o' & (d' & P) & H); congruence|intros H; exists o; split; [now exists d|exact H]]. }
  split; [intros k; rewrite <- Dx; apply Sv|]. split; [intros k H; apply Dx in H; exact (proj1 (Sv k) H)|].
  intros k i Hk. rewrite Re; [cbn [after]; destruct (place_dec (F k i) (V x)); [discriminate|reflexivity]|]. intros h [<-|[]]. exact (proj2 (proj1 (proj2 (Sv k)) Hk)).
Qed.
Print Assumptions C82_scope_end.
Example scope_end_case : exists w, run init tree = Ok w /\ read w (V 0) = Ok (Cell (Some 0) 10) /\ reach w 0 3.
Proof.
  eexists. split; [vm_compute; reflexivity|]. split; [reflexivity|]. eapply (reach_step _ 0 2); [reflexivity|cbn; auto|]. eapply (reach_step _ 2 3); [reflexivity|cbn; auto|constructor].
Qed.

(** No leak without a cycle: every live object is below a variable, a raw pointer of the client,
    or an object that owns itself through its members. *)
Theorem C82_no_leak ops w k : run init ops = Ok w -> In k (live w) ->
  exists o, reach w o k /\ (In o (ptrs (map snd (vars w))) \/ In o (raws w) \/ exists b fs, get o (heap w) = Some fs /\ In b (ptrs fs) /\ reach w b o).
Proof.
  intros E L. destruct (run_good ops _ _ init_good E) as [I _].
  set (own := fun a b => exists b' fs, get a (heap w) = Some fs /\ In b' (ptrs fs) /\ reach w b' b).
  assert (K : forall n x vs, length (live w) <= n + length vs -> In x (live w) -> reach w x k -> NoDup vs -> incl vs (live w) -> (forall v, In v vs -> own x v) ->
    exists o, reach w o k /\ (In o (ptrs (map snd (vars w))) \/ In o (raws w) \/ own o o)).
  { induction n as [|n IH]; intros x vs Ln Lx Rx Nv Iv Ov; (destruct (in_dec Nat.eq_dec x vs) as [H|H]; [exists x; split; [exact Rx|auto]|]).
    - exfalso. assert (Nx : NoDup (x :: vs)) by now constructor. apply NoDup_incl_length with (l' := live w) in Nx; [cbn in *; lia|]. intros y [<-|Hy]; auto.
    - destruct (has_owner w [] x I Lx) as [P|[P|[[]|(a & fs & G & P)]]]; [exists x; auto|exists x; auto|].
      apply (IH a (x :: vs)); [cbn; lia|apply in_live; congruence|econstructor; eauto|now constructor|intros y [<-|Hy]; auto|].
      intros v [<-|Hv]; [exists x, fs; repeat split; auto; constructor|]. destruct (Ov v Hv) as (b & f & Gb & Hb & Rb). exists x, fs. split; [exact G|]. split; [exact P|]. econstructor; eauto. }
  apply (K (length (live w)) k []); [lia|exact L|constructor|constructor|intros y []|intros v []].
Qed.
Print Assumptions C82_no_leak.
Theorem C82_all_deleted ops w : run init ops = Ok w -> vars w = [] -> raws w = [] ->
  (forall a b fs, get a (heap w) = Some fs -> In b (ptrs fs) -> ~ reach w b a) -> live w = [] /\ Permutation (map fst (log w)) (seq 0 (nobj w)).
Proof.
  intros E V R A. assert (L : live w = []).
  { destruct (live w) as [|k m] eqn:Lw; [reflexivity|]. destruct (C82_no_leak ops w k E) as (o & _ & H); [rewrite Lw; now left|]. rewrite V, R in H.
    destruct H as [[]|[[]|(b & fs & G & B & H)]]. destruct (A _ _ _ G B H). }
  split; [exact L|]. destruct (run_good ops _ _ init_good E) as [[_ I2] _]. now rewrite L in I2.
Qed.
Print Assumptions C82_all_deleted.
Example all_deleted_case : exists w, run init (tree ++ [Destroy 0]) = Ok w /\ vars w = [] /\ raws w = [] /\ heap w = [] /\ nobj w = 4.
Proof. eexists. split; [vm_compute; reflexivity|]. auto. Qed.

(** Two objects that own each other are never deleted: unique_ptr does not collect cycles. *)
Definition cycle : list op := [New [0]; New [0]; Make 0 0 (Some 0); Reset (F 0 0) (Some 1); MoveAssign (F 1 0) (V 0); Destroy 0].
Theorem C82_cycle_leak_refuted : exists ops w, run init ops = Ok w /\ vars w = [] /\ raws w = [] /\ live w <> [].
Proof. exists cycle. eexists. split; [vm_compute; reflexivity|]. repeat split. discriminate. Qed.
Print Assumptions C82_cycle_leak_refuted.

(** p = move(p->next): the source is a member of the object that the assignment deletes, and its
    deleter is read afterwards (516-517).  It is undefined for every list; with a deleter that has
    state (a function pointer, a reference) the read is from released storage. *)
Theorem C82_pop_front ops w p o d i fs : run init ops = Ok w -> read w p = Ok (Cell (Some o) d) -> get o (heap w) = Some fs -> i < length fs ->
  p <> F o i -> exists e, step w (MoveAssign p (F o i)) = UB e.
Proof.
  intros E R G Li Np. destruct (C82_operations ops w (MoveAssign p (F o i)) E) as (_ & H & _). apply H. intros (_ & _ & [->|L]); [now destruct Np|].
  apply (L o o); [now exists d|apply in_or_app; right; now left|constructor].
Qed.
Print Assumptions C82_pop_front.
(** A list 0 -> 1 -> 2 held by a variable. *)
Definition chain : list op := [New [0]; New [0]; New [0]; Make 0 0 (Some 0); Reset (F 0 0) (Some 1); Reset (F 1 0) (Some 2)].
Theorem C82_pop_front_refuted : exists ops w, run init ops = Ok w /\ step w (MoveAssign (V 0) (F 0 0)) = UB UseAfterFree.
Proof. exists chain. eexists. split; vm_compute; reflexivity. Qed.
Print Assumptions C82_pop_front_refuted.
(** p.reset(p->next.release()) is the way to do it: one node goes, the rest stays. *)
Theorem C82_pop_front_release ops w x o d i c : run init ops = Ok w -> read w (V x) = Ok (Cell (Some o) d) -> read w (F o i) = Ok c ->
  exists w1 w2, step w (Release (F o i)) = Ok (cptr c, w1) /\ step w1 (Reset (V x) (cptr c)) = Ok (None, w2) /\
    read w2 (V x) = Ok (Cell (cptr c) d) /\ ~ In o (live w2) /\ (forall n k, cptr c = Some n -> reach w n k -> In k (live w2) /\ forall j, read w2 (F k j) = read w (F k j)) /\
    Permutation (raws w2) (raws w).
Proof.
  intros E R Rc. destruct (C82_operations ops w (Release (F o i)) E) as (H & _).
  destruct H as (r & w1 & E1 & An & Cl & On & (l & El & _ & Xl & _) & Re); [apply there_read; eauto|].
  assert (r = cptr c) as ->.
  { cbn in E1. unfold release in E1. rewrite Rc in E1. cbn [bind] in E1. destruct (write w (F o i) _); cbn in E1; congruence. }
  assert (E2 : run init (ops ++ [Release (F o i)]) = Ok w1).
  { clear -E E1. revert E. generalize init. induction ops as [|a ops IH]; cbn [run app]; intros u E; [injection E as ->; rewrite E1; reflexivity|].
    destruct (step u a) as [[r' u']| |]; cbn [bind] in *; try discriminate. now apply IH. }
  assert (Re' : forall s, read w1 s = if place_dec s (F o i) then Ok (Cell None (cdel c)) else read w s).
  { intros s. rewrite Re by (intros h _ []). cbn [after]. destruct (place_dec s (F o i)); [unfold null; rewrite Rc|]; reflexivity. }
  assert (G := run_good _ _ _ init_good E). assert (G1 := run_good _ _ _ init_good E2).
  assert (Rx : read w1 (V x) = Ok (Cell (Some o) d)) by (rewrite Re'; destruct (place_dec (V x) (F o i)); [discriminate|exact R]).
  destruct (C82_operations _ w1 (Reset (V x) (cptr c)) E2) as (H & _).
  destruct H as (r & w2 & E3 & An2 & Cl2 & _ & _ & Re2).
  { split; [|apply there_read; eauto]. cbn [client] in Cl. destruct (cptr c); cbn; [rewrite Cl; now left|exact I]. }
  cbn in An2. subst r. exists w1, w2. split; [exact E1|]. split; [exact E3|].
  assert (Sv := C82_survivors _ w1 (Reset (V x) (cptr c)) None w2 E2 E3 ltac:(discriminate)).
  assert (Dx : forall k, doomed w1 (Reset (V x) (cptr c)) k <-> reach w1 o k).
  { intros k. cbn. split; [intros (o' & (d' & P) & [H|(h & q & [] & _)]); congruence|intros H; exists o; split; [now exists d|now left]]. }
  split; [|split; [|split]].
  - rewrite Re2 by (intros h []). cbn [after]. destruct (place_dec (V x) (V x)); [|contradiction]. rewrite Rx. reflexivity.
  - intros H. apply Sv in H as [_ H]. apply H, Dx. constructor.
  - intros n k Cn Hk. rewrite Cn in *.
    assert (Root : forall u D y, inv u D -> read u (V y) = Ok (Cell (Some o) d) -> forall a fs, get a (heap u) = Some fs -> ~ In o (ptrs fs)).
    { intros u D y Iu Ru a fs Ga Ho. destruct (owner_unique u D a fs o Iu Ga Ho) as (U & _). apply U. cbn [read] in Ru. destruct (get y (vars u)) as [cy|] eqn:Gy; [|discriminate].
      apply ptrs_in. exists cy. split; [apply in_map_iff; exists (y, cy); split; [reflexivity|now apply get_some_in]|]. now injection Ru as ->. }
    assert (Snoc : forall u a b, reach u a b -> a = b \/ exists m fs, reach u a m /\ get m (heap u) = Some fs /\ In b (ptrs fs)).
    { intros u a b Rab. induction Rab as [a|a b b' fs Ga Hb Rb IH]; [now left|right]. destruct IH as [<-|(m & f & R1 & R2 & R3)]; [exists a, fs; split; [constructor|auto]|].
      exists m, f. split; [econstructor; eauto|auto]. }
    cbn [read] in Rc. destruct (get o (heap w)) as [fo|] eqn:Go; [|discriminate]. destruct (nth_error fo i) as [c'|] eqn:Ni; [|discriminate]. injection Rc as ->.
    assert (Nfo : In n (ptrs fo)) by (apply ptrs_in; exists c; split; [eapply nth_error_In; exact Ni|exact Cn]).
    assert (No : ~ reach w n o).
    { intros Rn. destruct (Snoc _ _ _ Rn) as [->|(m & f & _ & Gm & Hm)]; [apply (Root w [] x (proj1 G) R o fo Go Nfo)|apply (Root w [] x (proj1 G) R m f Gm Hm)]. }
    assert (Hh : forall a, ~ In a [o] -> get a (heap w1) = get a (heap w)).
    { intros a Na. cbn in E1. unfold release in E1. cbn [read] in E1. rewrite Go, Ni in E1. cbn [bind write] in E1. rewrite Go, Ni in E1. cbn [bind] in E1. rewrite Cn in E1. injection E1 as <-. cbn [keep heap].
      apply get_put_ne. intros ->. apply Na. now left. }
    assert (Hk1 : reach w1 n k) by (apply (reach_avoid w w1 [o]); auto; intros s [<-|[]]; exact No).
    assert (Rn : In n (raws w1)) by (cbn [client] in Cl; rewrite Cl; now left).
    assert (Disj : ~ reach w1 o k).
    { intros Ro. assert (Nn : forall a fs, get a (heap w1) = Some fs -> ~ In n (ptrs fs)) by (intros a fs Ga Hn; destruct (owner_unique w1 [] a fs n (proj1 G1) Ga Hn) as (_ & U & _); contradiction).
      assert (On1 : o <> n) by (intros ->; apply No; constructor).
      assert (Up : forall a b, reach w1 a b -> (forall m fs, get m (heap w1) = Some fs -> ~ In a (ptrs fs)) -> forall k', reach w1 b k' -> reach w1 a k') by (intros a b Rab _ k'; apply reach_trans; exact Rab).
      (* the ancestors of k form one line *)
      assert (Line : forall a, reach w1 a k -> forall b, reach w1 b k -> reach w1 a b \/ reach w1 b a).
      { intros a Ra. clear Up. revert Ra. generalize k. intros k' Ra. induction Ra as [a|a b k' fs Ga Hb Rb IH]; intros c0 Rc0; [now right|].
        destruct (IH c0 Rc0) as [Z|Z]; [left; econstructor; eauto|]. destruct (Snoc _ _ _ Z) as [->|(m & f & Z1 & Gm & Hm)]; [left; econstructor; eauto; constructor|].
        right. destruct (Nat.eq_dec m a) as [->|Nm]; [exact Z1|]. destruct (owner_unique w1 [] a fs b (proj1 G1) Ga Hb) as (_ & _ & _ & U). destruct (U m f Nm Gm Hm). }
      destruct (Line o Ro n Hk1) as [Z|Z].
      - destruct (Snoc _ _ _ Z) as [->|(m & f & _ & Gm & Hm)]; [contradiction|apply (Nn m f Gm Hm)].
      - destruct (Snoc _ _ _ Z) as [->|(m & f & _ & Gm & Hm)]; [contradiction|apply (Root w1 [] x (proj1 G1) Rx m f Gm Hm)]. }
    assert (Lk : In k (live w1)).
    { destruct (Snoc _ _ _ Hk1) as [<-|(m & f & _ & Gm & Hm)].
      - eapply Permutation_in; [apply (proj1 G1)|]. rewrite app_nil_r. apply in_or_app. now right.
      - eapply Permutation_in; [apply (proj1 G1)|]. apply in_or_app. left. unfold cells. rewrite ptrs_app. apply in_or_app. right. apply ptrs_in in Hm as (c0 & I0 & P0). apply ptrs_in. exists c0.
        split; [|exact P0]. apply in_concat. exists f. split; [|exact I0]. apply in_map_iff. exists (m, f). split; [reflexivity|now apply get_some_in]. }
    split; [apply Sv; split; [exact Lk|rewrite Dx; exact Disj]|]. intros j. rewrite Re2; [|intros h [<-|[]]; rewrite Dx; exact Disj].
    cbn [after]. destruct (place_dec (F k j) (V x)); [discriminate|]. rewrite Re'. destruct (place_dec (F k j) (F o i)) as [[= -> _]|]; [contradiction|reflexivity].
  - cbn [client] in Cl, Cl2. destruct (cptr c) as [n|]; [|now rewrite Cl2, Cl]. rewrite Cl in Cl2. symmetry. apply Permutation_cons_inv with n. exact Cl2.
Qed.
Print Assumptions C82_pop_front_release.
Example pop_front_case : fin (chain ++ [Release (F 0 0); Reset (V 0) (Some 1)]) = Some ([2; 1], [(0, Some 0)], []) /\ fin chain = Some ([2; 1; 0], [], []).
Proof. vm_compute. auto. Qed.
