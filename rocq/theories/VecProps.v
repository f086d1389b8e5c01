(** Property theorems for nanostl::vector (C01-C07).  The model is VecModel.v,
    the list specification VecSpec.v. *)
From Coq Require Import ZArith List Lia Bool.
From Verif Require Import Mem VecModel VecSpec VecProofs VecRefine VecMore.
Import ListNotations.
Open Scope Z_scope.

(** C01.  Every history that the list specification admits runs without fault,
    and every observation (size, empty, element read) agrees with the lists. *)
Theorem C01_vector_refines_list : forall (V : Type) (ops : list (op V)) outs s,
  spec_run spec0 ops = Some (outs, s) ->
  exists outs' w, run world0 ops = Ok (outs', w) /\ Forall2 out_ok outs outs'.
Proof. exact (fun V => @refines_list V). Qed.
Print Assumptions C01_vector_refines_list.

Definition demo : list (op Z) :=
  [New 0; PushBack 0 10; PushBack 0 20; PushBack 0 30; Erase 0 1; NewCopy 1 0;
   Set_ 0 0 99; PushBack 1 7; Swap 0 1; Get 0 0; Get 0 1; Get 0 2; Size 0; Get 1 0; PopBack 1;
   Size 1; Resize 1 4; Size 1; Clear 1; Empty 1; Assign 1 0; Get 1 2;
   AssignRange 1 0 1 3; Get 1 0; Size 1].

Example C01_case : exists outs s, spec_run spec0 demo = Some (outs, s) /\
  outs = [ONone; ONone; ONone; ONone; ONone; ONone; ONone; ONone; ONone;
          OCell (Some 10); OCell (Some 30); OCell (Some 7); OZ 3; OCell (Some 99); ONone;
          OZ 1; ONone; OZ 4; ONone; OBool true; ONone; OCell (Some 7);
          ONone; OCell (Some 30); OZ 2].
Proof. eexists _, _. split; [vm_compute; reflexivity|reflexivity]. Qed.

(** C02.  No fault occurs (the outcome is [Ok]: no null, released or
    out-of-range access and no bad release), the live arrays are exactly those
    owned by live vectors, each by one vector only, and when every vector has
    been destroyed nothing is left allocated. *)
Theorem C02_vector_memory_discipline : forall (V : Type) (ops : list (op V)) outs s,
  spec_run spec0 ops = Some (outs, s) ->
  exists outs' w, run world0 ops = Ok (outs', w) /\
    (forall b, mem (hp w) b <> None <->
               exists x v, vecs w x = Some v /\ elements v = Some b) /\
    (forall x y v u b, vecs w x = Some v -> vecs w y = Some u ->
               elements v = Some b -> elements u = Some b -> x = y) /\
    ((forall x, s x = None) -> forall b, mem (hp w) b = None).
Proof. exact (fun V => @memory_discipline V). Qed.
Print Assumptions C02_vector_memory_discipline.

Example C02_case :
  match spec_run (spec0 (V:=Z)) (demo ++ [Delete 0; Delete 1]), run world0 (demo ++ [Delete 0; Delete 1]) with
  | Some _, Ok (_, w) => allocs (hp w) = 6 /\ fresh (hp w) = 6%nat /\ mem (hp w) 0%nat = None /\ mem (hp w) 4%nat = None
  | _, _ => False
  end.
Proof. vm_compute. repeat split. Qed.

(** C03, positive part: with spare capacity v.push_back(v[i]) appends v[i].
    Missing from the full statement: a full vector, see the refutation. *)
Theorem C03_push_back_own_element_partial :
  forall (V : Type) (w : world V) x v i, reachable w -> vecs w x = Some v ->
    0 <= i < size v -> size v < capacity v ->
    exists w' v', step w (PushBackOf x x i) = Ok (ONone, w') /\
      vecs w' x = Some v' /\ size v' = size v + 1 /\
      (forall j, 0 <= j < size v -> get (hp w') v' j = get (hp w) v j) /\
      get (hp w') v' (size v) = get (hp w) v i.
Proof. exact (fun V => @push_self_spare V). Qed.
Print Assumptions C03_push_back_own_element_partial.

(** C03 is false of the code: whenever the vector is full, the reference is read
    after its array has been released. *)
Theorem C03_push_back_own_element_always_faults_when_full :
  forall (V : Type) (w : world V) x v i, reachable w -> vecs w x = Some v ->
    0 <= i < size v -> size v = capacity v -> size v + 1 < 2 ^ 62 ->
    step w (PushBackOf x x i) = UB UseAfterFree.
Proof. exact (fun V => @push_self_full V). Qed.
Print Assumptions C03_push_back_own_element_always_faults_when_full.

Theorem C03_push_back_own_element_refuted :
  exists ops : list (op Z), (exists r, spec_run spec0 ops = Some r) /\
    exists w outs v, run world0 ops = Ok (outs, w) /\ vecs w 0%nat = Some v /\ size v = 2 /\
      step w (PushBackOf 0 0 1) = UB UseAfterFree.
Proof.
  exists [New 0; PushBack 0 5; PushBack 0 6].
  split; [eexists; vm_compute; reflexivity|]. eexists _, _, _.
  split; [vm_compute; reflexivity|]. split; [vm_compute; reflexivity|].
  split; [vm_compute; reflexivity|]. vm_compute; reflexivity.
Qed.
Print Assumptions C03_push_back_own_element_refuted.

Example C03_case :
  match spec_run spec0 [New 0; PushBack 0 5; PushBack 0 6; PushBack 0 7],
        run (world0 (V:=Z)) [New 0; PushBack 0 5; PushBack 0 6; PushBack 0 7] with
  | Some _, Ok (_, w) =>
    match vecs w 0%nat with Some v => size v = 3 /\ capacity v = 4 | None => False end
  | _, _ => False
  end.
Proof. vm_compute. repeat split. Qed.

(** C04, content part: element i disappears, the others keep their order,
    capacity is kept.  The iterator returned is begin() + (size-1). *)
Theorem C04_erase_partial : forall (V : Type) (w : world V) x v i,
  reachable w -> vecs w x = Some v -> 0 <= i < size v ->
  exists v' h', erase (hp w) v i = Ok (size v - 1, v', h') /\
    size v' = size v - 1 /\ capacity v' = capacity v /\
    (forall j, 0 <= j < i -> get h' v' j = get (hp w) v j) /\
    (forall j, i <= j < size v - 1 -> get h' v' j = get (hp w) v (j + 1)).
Proof. exact (fun V => @erase_contract V). Qed.
Print Assumptions C04_erase_partial.

(** The returned iterator is the new end() and not the successor, unless the
    last element was erased: the "returns its successor" part is false. *)
Theorem C04_erase_returns_successor_refuted :
  exists (w : world Z) x v i, reachable w /\ vecs w x = Some v /\ 0 <= i < size v /\
    forall v' h', erase (hp w) v i <> Ok (i, v', h').
Proof.
  assert (R : exists w outs, run (world0 (V:=Z)) [New 0; PushBack 0 5; PushBack 0 6; PushBack 0 7] = Ok (outs, w) /\
              exists v, vecs w 0%nat = Some v /\ size v = 3).
  { eexists _, _. split; [vm_compute; reflexivity|]. eexists. split; vm_compute; reflexivity. }
  destruct R as (w & outs & E & v & Hv & Hs).
  assert (Rw : reachable w).
  { exists [New 0; PushBack 0 5; PushBack 0 6; PushBack 0 7]. eexists _, _, _. split; [vm_compute; reflexivity|exact E]. }
  exists w, 0%nat, v, 0. split; [exact Rw|]. split; [exact Hv|]. split; [lia|].
  intros v' h' E'.
  destruct (erase_contract w _ v 0 Rw Hv ltac:(lia)) as (v2 & h2 & E2 & _). rewrite E2 in E'. inversion E'. lia.
Qed.
Print Assumptions C04_erase_returns_successor_refuted.

Example C04_case :
  match run (world0 (V:=Z)) demo with
  | Ok (_, w) =>
    match vecs w 0%nat with
    | Some v => size v = 3 /\ capacity v = 4 /\ get (hp w) v 1 = Ok (Some 30)
    | None => False
    end
  | _ => False
  end.
Proof. vm_compute. repeat split. Qed.

(** C05 for n >= 1. *)
Theorem C05_resize_partial : forall (V : Type) (w : world V) x v n,
  reachable w -> vecs w x = Some v -> 1 <= n < 2 ^ 62 ->
  exists v' h', resize (hp w) v n = Ok (v', h') /\ size v' = n /\
    (forall j, 0 <= j < Z.min n (size v) -> get h' v' j = get (hp w) v j).
Proof. exact (fun V => @resize_contract V). Qed.
Print Assumptions C05_resize_partial.

(** resize(0) is a no-op, so size() = 0 is not established. *)
Theorem C05_resize_zero_refuted :
  exists (ops : list (op Z)), (exists r, spec_run spec0 ops = Some r) /\
    exists w outs, run world0 (ops ++ [Resize 0 0; Size 0]) = Ok (outs ++ [OZ 2], w).
Proof.
  exists [New 0; PushBack 0 5; PushBack 0 6]. split; [eexists; vm_compute; reflexivity|].
  eexists _, [ONone; ONone; ONone; ONone]. vm_compute; reflexivity.
Qed.
Print Assumptions C05_resize_zero_refuted.

(** Growing after shrinking re-exposes old values: new elements are not
    value-initialised (std::vector::resize would give 0). *)
Theorem C05_resize_value_initialises_refuted :
  exists (ops : list (op Z)), (exists r, spec_run spec0 ops = Some r) /\
    exists w outs, run world0 (ops ++ [Resize 0 1; Resize 0 2; Get 0 1]) = Ok (outs ++ [OCell (Some 6)], w).
Proof.
  exists [New 0; PushBack 0 5; PushBack 0 6]. split; [eexists; vm_compute; reflexivity|].
  eexists _, [ONone; ONone; ONone; ONone; ONone]. vm_compute; reflexivity.
Qed.
Print Assumptions C05_resize_value_initialises_refuted.

Example C05_case :
  match run (world0 (V:=Z)) demo with
  | Ok (_, w) =>
    match vecs w 0%nat with
    | Some v =>
      match resize (hp w) v 9 with
      | Ok (v', h') => size v = 3 /\ capacity v' = 9 /\ get h' v' 2 = Ok (Some 7)
      | _ => False
      end
    | None => False
    end
  | _ => False
  end.
Proof. vm_compute. repeat split. Qed.

(** C06: cost of n push_backs on a fresh vector. *)
Theorem C06_push_back_amortised : forall (V : Type) (cs : list V),
  let n := Z.of_nat (length cs) in 0 < n < 2 ^ 62 ->
  exists outs w, run world0 (New 0 :: map (PushBack 0) cs) = Ok (outs, w) /\
    allocs (hp w) = Z.log2_up n + 1 /\ moves (hp w) < 2 * n.
Proof. exact (fun V => @push_cost V). Qed.
Print Assumptions C06_push_back_amortised.

Example C06_case :
  match run (world0 (V:=Z)) (New 0 :: map (PushBack 0) (repeat 3 9)) with
  | Ok (_, w) => allocs (hp w) = 5 /\ moves (hp w) = 15
  | _ => False
  end.
Proof. vm_compute. repeat split. Qed.

(** C06: no operation shrinks the capacity of a vector that is not destroyed or
    swapped, in any state; and size never exceeds capacity. *)
Theorem C06_capacity_monotone : forall (V : Type) (w : world V) o r w' x v,
  step w o = Ok (r, w') -> vecs w x = Some v ->
  ~ match o with Delete y => y = x | Swap y z => y = x \/ z = x | _ => False end ->
  exists v', vecs w' x = Some v' /\ capacity v <= capacity v'.
Proof. exact (fun V => @capacity_monotone V). Qed.
Print Assumptions C06_capacity_monotone.

Theorem C06_size_le_capacity : forall (V : Type) (w : world V) x v,
  reachable w -> vecs w x = Some v -> 0 <= size v <= capacity v.
Proof. exact (fun V => @size_le_capacity V). Qed.
Print Assumptions C06_size_le_capacity.

Example C06_mono_case :
  match step (V:=Z) (put world0 0 vec_new empty_heap) (PushBack 0 1) with
  | Ok (_, w) => match vecs w 0%nat with Some v => capacity v = 1 | None => False end
  | _ => False
  end.
Proof. vm_compute. repeat split. Qed.

(** C07: after x is copy-constructed or assigned from y, both read as the
    contents l of y, and whichever of the two is left alone by the later history
    still does at the end of it. *)
Theorem C07_copies_are_independent :
  forall (V : Type) (ops1 ops2 : list (op V)) cp x y z l outs1 s1 outs2 s2 i,
  spec_run spec0 ops1 = Some (outs1, s1) ->
  (cp = NewCopy x y /\ s1 x = None \/ cp = Assign x y /\ s1 x <> None) ->
  s1 y = Some l -> x <> y ->
  spec_run (sset s1 x (Some l)) ops2 = Some (outs2, s2) ->
  (z = x \/ z = y) ->
  forallb (fun o => negb (mentions o z)) ops2 = true -> 0 <= i < len l ->
  exists outs c w, run world0 (ops1 ++ cp :: ops2 ++ [Size z; Get z i]) =
      Ok (outs ++ [OZ (len l); OCell c], w) /\
    match nth (Z.to_nat i) l None with Some e => c = Some e | None => True end.
Proof. exact (fun V => @copy_independent V). Qed.
Print Assumptions C07_copies_are_independent.

Example C07_case :
  match spec_run (spec0 (V:=Z)) [New 0; PushBack 0 5; PushBack 0 6] with
  | Some (_, s1) =>
    s1 1%nat = None /\ s1 0%nat = Some [Some 5; Some 6] /\
    match spec_run (sset s1 1 (Some [Some 5; Some 6])) [Set_ 1 0 8; PushBack 1 9; Delete 1] with
    | Some (_, s2) => s2 1%nat = None
    | None => False
    end
  | None => False
  end /\
  forallb (fun o => negb (mentions o 0)) [Set_ 1 0 8; PushBack 1 9; Delete (V:=Z) 1] = true.
Proof. vm_compute. repeat split. Qed.

(** C07: self-assignment changes nothing. *)
Theorem C07_self_assignment : forall (V : Type) (w : world V) x v,
  vecs w x = Some v -> step w (Assign x x) = Ok (ONone, w).
Proof. intros V w x v H. cbn [step]. unfold find. rewrite H. cbn [bind]. rewrite Nat.eqb_refl. reflexivity. Qed.
Print Assumptions C07_self_assignment.
