(** Properties of nanostl::map (C14, C15, C16, C41, C42). *)
From Coq Require Import ZArith List Bool Lia Sorting.Sorted Permutation.
From Verif Require Import Mem MapModel MapSpec MapProofs MapRefine MapMore XorshiftModel.
Import ListNotations.
Open Scope Z_scope.

Lemma Z_key_order : key_order Z.eqb Z.gtb Z.ltb.
Proof.
  constructor; intros.
  - apply Z.eqb_eq.
  - apply Z.gtb_ltb.
  - apply Z.ltb_irrefl.
  - rewrite Z.ltb_lt in *. lia.
  - rewrite !Z.ltb_lt. lia.
Qed.

(** A worked history used by the examples: two maps, real priorities. *)
Definition hist : list (mop Z Z) :=
  [MNew; MNew; MInsert 0 5 50; MInsert 0 3 30; MInsert 0 8 80; MInsert 0 3 31;
   MAssign 0 8 81; MAt 0 9; MInsert 1 7 70; MFind 0 3; MFind 0 4; MUpper 0 5; MEmpty 1;
   MDestroy 1].

(** C14: for every history over any number of maps, every key order and every
    priority stream, the code answers exactly as the dictionaries do, and no
    undefined behaviour or unbounded recursion occurs. *)
Theorem C14_map_refines_dictionary :
  forall (K T : Type) eqb gtb ltb (dflt : T) (pri : nat -> Z) (ops : list (mop K T)) xs s,
  key_order eqb gtb ltb ->
  mspec_run eqb ltb dflt [] ops = Some (xs, s) ->
  exists w, mrun eqb gtb ltb dflt pri mworld0 ops = Ok (xs, w).
Proof.
  intros K T eqb gtb ltb dflt pri ops xs s KO H.
  destruct (run_refines eqb gtb ltb dflt pri KO ops _ _ _ _ _ (inv0 ltb pri) H) as (w & ts & E & _).
  exists w. exact E.
Qed.
Print Assumptions C14_map_refines_dictionary.

(** The dictionaries used as specification obey the laws stated in C14. *)
Theorem C14_dictionary_laws : forall (K T : Type) eqb gtb ltb, key_order eqb gtb ltb ->
  forall (d : list (K * T)) k v k',
  (dlookup eqb (dinsert eqb d k v) k' =
     if eqb k' k then match dlookup eqb d k with Some v0 => Some v0 | None => Some v end
     else dlookup eqb d k') /\
  (dlookup eqb (dassign eqb d k v) k' = if eqb k' k then Some v else dlookup eqb d k').
Proof.
  intros K T eqb gtb ltb KO d k v k'.
  assert (HA : forall d' : list (K * T), dlookup eqb (d' ++ [(k, v)]) k' =
    match dlookup eqb d' k' with Some x => Some x | None => if eqb k' k then Some v else None end).
  { induction d' as [|[k1 v1] d' IH]; cbn; [reflexivity|]. destruct (eqb k' k1); auto. }
  assert (HE : forall a b, eqb a b = true -> a = b) by (intros a b; apply (ko_eq _ _ _ KO)).
  split.
  - unfold dinsert. destruct (dlookup eqb d k) as [v0|] eqn:L.
    + destruct (eqb k' k) eqn:E; [|reflexivity]. apply HE in E. subst. exact L.
    + rewrite HA. destruct (eqb k' k) eqn:E.
      * apply HE in E. subst. rewrite L. reflexivity.
      * destruct (dlookup eqb d k'); reflexivity.
  - unfold dassign. destruct (dlookup eqb d k) as [v0|] eqn:L.
    + revert L. induction d as [|[k1 v1] d IH]; cbn; [discriminate|].
      destruct (eqb k k1) eqn:E.
      * apply HE in E. subst k1. intros _. cbn. destruct (eqb k' k) eqn:E2; [reflexivity|].
        clear IH HA. induction d as [|[k2 v2] d IH2]; cbn; [reflexivity|].
        destruct (eqb k k2) eqn:E3; cbn.
        -- apply HE in E3. subst. rewrite E2. exact IH2.
        -- destruct (eqb k' k2); auto.
      * intros L. cbn. destruct (eqb k' k1) eqn:E2.
        -- apply HE in E2. subst. destruct (eqb k1 k) eqn:E3; [|reflexivity].
           apply HE in E3. subst. rewrite (proj2 (ko_eq _ _ _ KO _ _) eq_refl) in E. discriminate.
        -- apply IH. exact L.
    + rewrite HA. destruct (eqb k' k) eqn:E.
      * apply HE in E. subst. rewrite L. reflexivity.
      * destruct (dlookup eqb d k'); reflexivity.
Qed.
Print Assumptions C14_dictionary_laws.

Example C14_case : match mrun Z.eqb Z.gtb Z.ltb 0 priority_rand mworld0 hist with
  | Ok (xs, _) => xs = [ONone; ONone; OIns (5, 50) true; OIns (3, 30) true; OIns (8, 80) true;
      OIns (3, 30) false; ONone; OVal 0; OIns (7, 70) true; OIt (Some (3, 30)); OIt None;
      OIt (Some (8, 81)); OBool false; ONone]
  | _ => False end.
Proof. vm_compute. reflexivity. Qed.

(** Observations do not depend on the priorities. *)
Theorem C16_results_independent_of_priorities :
  forall (K T : Type) eqb gtb ltb (dflt : T) (pri pri' : nat -> Z) (ops : list (mop K T)) xs s,
  key_order eqb gtb ltb -> mspec_run eqb ltb dflt [] ops = Some (xs, s) ->
  exists w w', mrun eqb gtb ltb dflt pri mworld0 ops = Ok (xs, w) /\
               mrun eqb gtb ltb dflt pri' mworld0 ops = Ok (xs, w').
Proof.
  intros K T eqb gtb ltb dflt pri pri' ops xs s KO H.
  destruct (C14_map_refines_dictionary K T eqb gtb ltb dflt pri ops xs s KO H) as (w & E).
  destruct (C14_map_refines_dictionary K T eqb gtb ltb dflt pri' ops xs s KO H) as (w' & E').
  exists w, w'. auto.
Qed.
Print Assumptions C16_results_independent_of_priorities.

(** C16: every reachable map is a tree in search order and heap order holding
    exactly the dictionary's entries; nodes are not shared within or between
    maps; the live nodes are exactly the nodes of live maps. *)
Theorem C16_tree_invariants :
  forall (K T : Type) eqb gtb ltb (dflt : T) (pri : nat -> Z) (ops : list (mop K T)) xs s w,
  key_order eqb gtb ltb -> mspec_run eqb ltb dflt [] ops = Some (xs, s) ->
  mrun eqb gtb ltb dflt pri mworld0 ops = Ok (xs, w) ->
  exists ts : list (option (tree K T)),
    (forall m d, nth_error s m = Some (Some d) ->
       exists q t, nth_error (maps w) m = Some (Some q) /\ nth_error ts m = Some (Some t) /\
         rep (mh w) q t /\ search_order ltb t /\ heap_order t /\ Permutation (entries t) d) /\
    NoDup (flat_map (fun o => match o with Some t => ids t | None => [] end) ts) /\
    (forall j, nodes (mh w) j <> None <->
       In j (flat_map (fun o => match o with Some t => ids t | None => [] end) ts)).
Proof.
  intros K T eqb gtb ltb dflt pri ops xs s w KO H E.
  destruct (run_refines eqb gtb ltb dflt pri KO ops _ _ _ _ _ (inv0 ltb pri) H) as (w' & ts & E' & I).
  rewrite E in E'. inversion E'; subst w'. exists ts. split; [|exact (nodes_owned_once ltb w s ts I)].
  intros m d Hs. destruct (inv_get _ _ _ _ _ _ I Hs) as (q & t & A).
  exists q, t. tauto.
Qed.
Print Assumptions C16_tree_invariants.

(** Destroying every map leaves no node alive. *)
Theorem C16_no_leak :
  forall (K T : Type) eqb gtb ltb (dflt : T) (pri : nat -> Z) (ops : list (mop K T)) xs s w,
  key_order eqb gtb ltb -> mspec_run eqb ltb dflt [] ops = Some (xs, s) ->
  mrun eqb gtb ltb dflt pri mworld0 ops = Ok (xs, w) ->
  (forall m d, nth_error s m <> Some (Some d)) -> forall j, nodes (mh w) j = None.
Proof.
  intros K T eqb gtb ltb dflt pri ops xs s w KO H E.
  destruct (run_refines eqb gtb ltb dflt pri KO ops _ _ _ _ _ (inv0 ltb pri) H) as (w' & ts & E' & I).
  rewrite E in E'. inversion E'; subst w'. exact (no_leak ltb w s ts I).
Qed.
Print Assumptions C16_no_leak.

Example C16_case : match mrun Z.eqb Z.gtb Z.ltb 0 priority_rand mworld0 (hist ++ [MDestroy 0]) with
  | Ok (_, w) => map (nodes (mh w)) (seq 0 6) = repeat None 6 /\ nfresh (mh w) = 5%nat
  | _ => False end.
Proof. vm_compute. repeat split. Qed.

(** C15, what holds: starting from begin() the loop terminates, is strictly
    ascending and visits exactly the entries whose key is not below that of the
    first visited one.  Missing: begin() is the root, not the least key. *)
Theorem C15_iteration_partial :
  forall (K T : Type) eqb gtb ltb (dflt : T) (pri : nat -> Z) (ops : list (mop K T)) xs s w m q d,
  key_order eqb gtb ltb -> mspec_run eqb ltb dflt [] ops = Some (xs, s) ->
  mrun eqb gtb ltb dflt pri mworld0 ops = Ok (xs, w) ->
  nth_error (maps w) m = Some (Some q) -> nth_error s m = Some (Some d) ->
  exists L : list (K * T), iterate_all ltb (mh w) q = Ok L /\ StronglySorted (key_lt ltb) L /\
    match L with
    | [] => d = []
    | (k0, v0) :: _ => forall kv : K * T, In kv L <-> In kv d /\ ltb (fst kv) k0 = false
    end.
Proof.
  intros K T eqb gtb ltb dflt pri ops xs s w m q d KO H E.
  destruct (run_refines eqb gtb ltb dflt pri KO ops _ _ _ _ _ (inv0 ltb pri) H) as (w' & ts & E' & I).
  rewrite E in E'. inversion E'; subst w'. exact (begin_iteration eqb gtb ltb KO w s ts m q d I).
Qed.
Print Assumptions C15_iteration_partial.

(** Starting from any present key (in particular the least) the loop visits
    exactly the entries from that key on, in ascending order. *)
Theorem C15_iteration_from_key :
  forall (K T : Type) eqb gtb ltb (dflt : T) (pri : nat -> Z) (ops : list (mop K T)) xs s w m q d k v,
  key_order eqb gtb ltb -> mspec_run eqb ltb dflt [] ops = Some (xs, s) ->
  mrun eqb gtb ltb dflt pri mworld0 ops = Ok (xs, w) ->
  nth_error (maps w) m = Some (Some q) -> nth_error s m = Some (Some d) -> In (k, v) d ->
  exists p L, map_find eqb gtb (mh w) q k = Ok p /\
    iterate ltb (depth (mh w)) (mh w) q p = Ok L /\ StronglySorted (key_lt ltb) L /\
    (forall kv : K * T, In kv L <-> In kv d /\ ltb (fst kv) k = false).
Proof.
  intros K T eqb gtb ltb dflt pri ops xs s w m q d k v KO H E.
  destruct (run_refines eqb gtb ltb dflt pri KO ops _ _ _ _ _ (inv0 ltb pri) H) as (w' & ts & E' & I).
  rewrite E in E'. inversion E'; subst w'. exact (find_iteration eqb gtb ltb KO w s ts m q d k v I).
Qed.
Print Assumptions C15_iteration_from_key.

(** With the real priorities, inserting 5 then 3 makes begin() skip key 3. *)
Theorem C15_full_iteration_refuted : exists ops : list (mop Z Z),
  match mrun Z.eqb Z.gtb Z.ltb 0 priority_rand mworld0 ops with
  | Ok (_, w) => match nth_error (maps w) 0 with
                 | Some (Some q) => iterate_all Z.ltb (mh w) q = Ok [(5, 50)] /\
                     map_find Z.eqb Z.gtb (mh w) q 3 <> Ok None
                 | _ => False end
  | _ => False end.
Proof.
  exists [MNew; MInsert 0 5 50; MInsert 0 3 30]. vm_compute. split; [reflexivity|discriminate].
Qed.
Print Assumptions C15_full_iteration_refuted.

Example C15_case : match mrun Z.eqb Z.gtb Z.ltb 0 priority_rand mworld0 hist with
  | Ok (_, w) => match nth_error (maps w) 0 with
                 | Some (Some q) => iterate_all Z.ltb (mh w) q = Ok [(5, 50); (8, 81); (9, 0)] /\
                   (p <- map_find Z.eqb Z.gtb (mh w) q 3 ;; iterate Z.ltb 9 (mh w) q p) =
                     Ok [(3, 30); (5, 50); (8, 81); (9, 0)]
                 | _ => False end
  | _ => False end.
Proof. vm_compute. repeat split. Qed.

(** C41: comparing with end() through operator== is undefined whenever exactly
    one side is end(); operator!= is fine there. *)
Theorem C41_iterator_equality_with_end_faults :
  forall (K T : Type) (eqb : K -> K -> bool) (veq : T -> T -> bool) (h : nheap K T) i n,
  nodes h i = Some n ->
  it_eq eqb veq h (Some i) map_end = UB NullDeref /\
  it_eq eqb veq h map_end (Some i) = UB NullDeref /\
  it_ne eqb veq h (Some i) map_end = Ok true /\ it_ne eqb veq h map_end (Some i) = Ok true /\
  it_eq eqb veq h map_end map_end = Ok true /\ it_ne eqb veq h map_end map_end = Ok false.
Proof.
  intros K T eqb veq h i n H. unfold it_eq, it_ne. cbn [is_end map_end andb orb ldn].
  rewrite H. cbn. auto 8.
Qed.
Print Assumptions C41_iterator_equality_with_end_faults.

(** Two iterators to entries of one map compare as their positions do, if == of the values is
    reflexive: == and != are complementary, and == holds exactly for the same entry. *)
Theorem C41_same_map_partial :
  forall (K T : Type) eqb gtb ltb (veq : T -> T -> bool) (dflt : T) (pri : nat -> Z) (ops : list (mop K T)) xs s w m q d k1 v1 k2 v2,
  key_order eqb gtb ltb -> (forall v, veq v v = true) -> mspec_run eqb ltb dflt [] ops = Some (xs, s) ->
  mrun eqb gtb ltb dflt pri mworld0 ops = Ok (xs, w) ->
  nth_error (maps w) m = Some (Some q) -> nth_error s m = Some (Some d) -> In (k1, v1) d -> In (k2, v2) d ->
  exists i j b, map_find eqb gtb (mh w) q k1 = Ok (Some i) /\ map_find eqb gtb (mh w) q k2 = Ok (Some j) /\
    it_eq eqb veq (mh w) (Some i) (Some j) = Ok b /\ it_ne eqb veq (mh w) (Some i) (Some j) = Ok (negb b) /\
    (b = true <-> i = j) /\ (i = j <-> k1 = k2).
Proof.
  intros K T eqb gtb ltb veq dflt pri ops xs s w m q d k1 v1 k2 v2 KO Rv H E.
  destruct (run_refines eqb gtb ltb dflt pri KO ops _ _ _ _ _ (inv0 ltb pri) H) as (w' & ts & E' & I).
  rewrite E in E'. inversion E'; subst w'. exact (find_compare eqb gtb ltb KO veq w s ts m q d k1 v1 k2 v2 I Rv).
Qed.
Print Assumptions C41_same_map_partial.
(* with one value for all entries, so that only the keys tell them apart *)
Example C41_case : match mrun Z.eqb Z.gtb Z.ltb 0 priority_rand mworld0 [MNew; MInsert 0 5 7; MInsert 0 3 7; MInsert 0 8 7] with
  | Ok (_, w) => match nth_error (maps w) 0 with
                 | Some (Some q) => (i <- map_find Z.eqb Z.gtb (mh w) q 5 ;; j <- map_find Z.eqb Z.gtb (mh w) q 8 ;; it_eq Z.eqb Z.eqb (mh w) i j) = Ok false
                 | _ => False end
  | _ => False end.
Proof. vm_compute. reflexivity. Qed.
(** The values take part in the comparison: an iterator to a value that is not equal to itself,
    like a NaN (here [None]), is not equal to itself. *)
Theorem C41_value_comparison_refuted : exists ops : list (mop Z (option Z)),
  let veq (a b : option Z) := match a, b with Some x, Some y => Z.eqb x y | _, _ => false end in
  match mrun Z.eqb Z.gtb Z.ltb (Some 0) priority_rand mworld0 ops with
  | Ok (_, w) => match nth_error (maps w) 0 with
                 | Some (Some q) => (i <- map_find Z.eqb Z.gtb (mh w) q 5 ;; it_eq Z.eqb veq (mh w) i i) = Ok false
                 | _ => False end
  | _ => False end.
Proof. exists [MNew; MInsert 0 5 None]. vm_compute. reflexivity. Qed.
Print Assumptions C41_value_comparison_refuted.

Theorem C41_iterator_equality_refuted : exists ops : list (mop Z Z),
  match mrun Z.eqb Z.gtb Z.ltb 0 priority_rand mworld0 ops with
  | Ok (_, w) => match nth_error (maps w) 0 with
                 | Some (Some q) => it_eq Z.eqb Z.eqb (mh w) (map_begin q) map_end = UB NullDeref
                 | _ => False end
  | _ => False end.
Proof. exists [MNew; MInsert 0 5 50]. vm_compute. reflexivity. Qed.
Print Assumptions C41_iterator_equality_refuted.

(** C42: a map has no copy constructor or assignment of its own, so a copy
    shares the root (nanomap.h:59-179: only ~map is declared).  Destroying a
    non-empty map and then its copy is always a double release. *)
Theorem C42_copied_map_double_frees :
  forall (K T : Type) eqb gtb ltb (dflt : T) (pri : nat -> Z) (ops : list (mop K T)) xs s w m q d,
  key_order eqb gtb ltb -> mspec_run eqb ltb dflt [] ops = Some (xs, s) ->
  mrun eqb gtb ltb dflt pri mworld0 ops = Ok (xs, w) ->
  nth_error (maps w) m = Some (Some q) -> nth_error s m = Some (Some d) -> d <> [] ->
  exists h1, map_destroy (mh w) q = Ok h1 /\ map_destroy h1 (map_copy q) = UB UseAfterFree.
Proof.
  intros K T eqb gtb ltb dflt pri ops xs s w m q d KO H E.
  destruct (run_refines eqb gtb ltb dflt pri KO ops _ _ _ _ _ (inv0 ltb pri) H) as (w' & ts & E' & I).
  rewrite E in E'. inversion E'; subst w'. exact (double_destroy ltb pri w s ts m q d I).
Qed.
Print Assumptions C42_copied_map_double_frees.

Theorem C42_map_copies_independent_refuted : exists ops : list (mop Z Z),
  match mrun Z.eqb Z.gtb Z.ltb 0 priority_rand mworld0 ops with
  | Ok (_, w) => match nth_error (maps w) 0 with
                 | Some (Some q) => (h1 <- map_destroy (mh w) q ;; map_destroy h1 (map_copy q))
                                    = UB UseAfterFree
                 | _ => False end
  | _ => False end.
Proof. exists [MNew; MInsert 0 5 50; MInsert 0 2 1]. vm_compute. reflexivity. Qed.
Print Assumptions C42_map_copies_independent_refuted.
