(** Property theorems C22. *)
From Coq Require Import List Lia Bool PeanoNat.
From Verif Require Import Mem UptrModel UptrProofs.
Import ListNotations.
Open Scope nat_scope.

(** After every client-correct history, any further client-correct operation runs
    without undefined behaviour and has exactly its documented effect (see
    [effect]: pointer, deleter, deletions with the deleter used and the value of
    get() seen during the call, client's raw pointers, and all other variables
    unchanged). *)
Theorem C22_every_operation : forall ops outs w o, exec ops outs w -> client_ok w o ->
  exists r w', step w o = Ok (r, w') /\ exec (ops ++ [o]) (outs ++ [r]) w' /\ effect w o r w'.
Proof.
  intros ops outs w o E K. destruct (step_ok _ _ _ (exec_inv _ _ _ E) K) as (r & w' & S & _ & F).
  exists r, w'. repeat split; try assumption. econstructor; eassumption.
Qed.
Print Assumptions C22_every_operation.

(** Each object ever created is, at any moment, exactly one of: held by exactly one
    unique_ptr (and alive), the client's own (and alive), deleted by the client, or
    deleted through a unique_ptr, which happens at most once per object. *)
Theorem C22_exactly_once : forall ops outs w, exec ops outs w ->
  NoDup (map (fun e => fst (fst e)) (log w)) /\
  forall o, o < nobj w ->
    (exists! i : nat, i < 4 /\
      match i with
      | 0 => exists! x, exists d, get_ w x = Some (Some o, d)
      | 1 => In o (raws w)
      | 2 => In (Delete o) ops
      | _ => In o (map (fun e => fst (fst e)) (log w))
      end) /\
    (In o (live w) <-> In o (raws w) \/ exists x d, get_ w x = Some (Some o, d)).
Proof.
  intros ops outs w E. pose proof (exec_inv _ _ _ E) as [A1 A2 A3 A4 A5 A6 A7 A8 A9].
  assert (G : forall x o, holds w x o <-> exists d, get_ w x = Some (Some o, d)).
  { intros x o. unfold holds, get_. split.
    - intros (c & -> & <-). eexists. reflexivity.
    - intros (d & H). destruct (vars w x) as [c|]; [|discriminate]. exists c. split; congruence. }
  assert (U : forall o, (exists x, holds w x o) <-> exists! x, exists d, get_ w x = Some (Some o, d)).
  { intro o. split.
    - intros (x & H). exists x. split; [now apply G|]. intros y Hy. apply G in Hy. eauto.
    - intros (x & H & _). exists x. now apply G. }
  split; [exact A7|]. intros o Ho. split.
  - apply A6 in Ho. destruct Ho as [H|[H|H]].
    + destruct (A8 o H) as [B1 B2]. rewrite client_deleted_In in B2. destruct (A4 o H) as [R|R].
      * exists 1. split; [split; [lia|exact R]|]. intros i [Hi Hm]. destruct i as [|[|[|i]]]; auto; exfalso.
        -- apply U in Hm. destruct Hm as (x & Hm). eapply A3; eauto.
        -- auto.
        -- auto.
      * exists 0. split; [split; [lia|now apply U]|]. intros i [Hi Hm]. destruct i as [|[|[|i]]]; auto; exfalso; auto.
        destruct R as (x & Hx). eapply A3; eauto.
    + exists 3. split; [split; [lia|exact H]|].
      assert (NL : ~ In o (live w)) by (intro L; apply A8 in L; tauto).
      intros i [Hi Hm]. destruct i as [|[|[|i]]]; [exfalso..|lia].
      * apply U in Hm. destruct Hm as (x & Hm). eauto.
      * apply A3 in Hm. tauto.
      * apply A9 in H. rewrite client_deleted_In in H. auto.
    + exists 2. split; [split; [lia|now apply client_deleted_In]|].
      assert (NL : ~ In o (live w)) by (intro L; apply A8 in L; tauto).
      intros i [Hi Hm]. destruct i as [|[|[|i]]]; auto; exfalso.
      * apply U in Hm. destruct Hm as (x & Hm). eauto.
      * apply A3 in Hm. tauto.
      * apply (A9 o Hm H).
  - split.
    + intro H. destruct (A4 o H) as [?|(x & Hx)]; [auto|]. right. exists x. now apply G.
    + intros [H|(x & H)]; [now apply A3|]. apply (A1 x). now apply G.
Qed.
Print Assumptions C22_exactly_once.

(** Nothing leaks: once every unique_ptr is out of scope and the client holds no raw
    pointer, every object not deleted by the client was deleted by a unique_ptr
    exactly once. *)
Theorem C22_no_leak : forall ops outs w, exec ops outs w -> (forall x, vars w x = None) -> raws w = [] ->
  forall o, o < nobj w -> ~ In (Delete o) ops ->
  count_occ Nat.eq_dec (map (fun e => fst (fst e)) (log w)) o = 1.
Proof.
  intros ops outs w E V R o Ho D. pose proof (exec_inv _ _ _ E) as [A1 A2 A3 A4 A5 A6 A7 A8 A9].
  apply NoDup_count_occ'; [exact A7|].
  apply A6 in Ho. destruct Ho as [H|[H|H]]; [|exact H|].
  - destruct (A4 o H) as [H1|(x & c & H1 & _)]; [rewrite R in H1; destruct H1|rewrite V in H1; discriminate].
  - rewrite client_deleted_In in H. contradiction.
Qed.
Print Assumptions C22_no_leak.

Fixpoint run (w : world) (ops : list op) : res (list out * world) :=
  match ops with
  | [] => Ok ([], w)
  | o :: t => '(r, w1) <- step w o ;; '(rs, w2) <- run w1 t ;; Ok (r :: rs, w2)
  end.

(** p = new T (0), q = new T (1); a(p, d7); b(q, d8); a = move(b); c(move(a)); c = move(c);
    r = c.release(); b.reset(r); everything goes out of scope. *)
Example C22_case :
  match run init [Alloc; Alloc; NewPtr 0 7 0; NewPtr 1 8 1; MoveAssign 0 1; Get 1; MoveNew 2 0; MoveAssign 2 2;
                  Release 2; Reset 1 (Some 1); Deref 1; Swap 1 2; Destroy 0; Destroy 1; Destroy 2] with
  | Ok (outs, w) => log w = [(0, 7, Some 1); (1, 8, None)] /\ raws w = [] /\ live w = [] /\
      nth 5 outs Unit = Ptr None /\ nth 8 outs Unit = Ptr (Some 1) /\ nth 10 outs Unit = Ptr (Some 1)
  | _ => False
  end.
Proof. vm_compute. repeat split. Qed.

(** Such a history is an [exec]. *)
Example C22_case_exec : exists outs w, exec [Alloc; NewPtr 0 7 0; NewNull 1 9; MoveAssign 1 0; Destroy 0; Destroy 1] outs w /\ log w = [(0, 7, None)].
Proof.
  eexists _, _. split.
  - change [Alloc; NewPtr 0 7 0; NewNull 1 9; MoveAssign 1 0; Destroy 0; Destroy 1]
      with ((((((([] ++ [Alloc]) ++ [NewPtr 0 7 0]) ++ [NewNull 1 9]) ++ [MoveAssign 1 0]) ++ [Destroy 0]) ++ [Destroy 1])).
    eapply exec_snoc; [eapply exec_snoc; [eapply exec_snoc; [eapply exec_snoc; [eapply exec_snoc; [eapply exec_snoc; [apply exec_nil|..]|..]|..]|..]|..]|..];
      try reflexivity; cbn; unfold in_scope; cbn; try (repeat split; (discriminate || (intro H; apply H; reflexivity) || tauto)).
  - reflexivity.
Qed.
