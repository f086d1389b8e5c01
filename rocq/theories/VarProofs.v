From Coq Require Import List Bool PeanoNat Lia.
From Verif Require Import LifeModel VarModel VarSpec.
Import ListNotations.

Section P.
  Context {V : Type}.
  Context (promise : nat -> okind -> bool) (moved torn : V -> V) (thr : nat -> bool) (noexc : bool) (n : nat) (n16 : n <= 16).
  Notation W := (world V (option nat)).
  Notation exec := (exec promise moved torn thr noexc n).
  Notation all := (all promise n).

  (** The index says what the buffer holds; temporaries are gone; every object that was
      constructed has been destroyed once or is alive. *)
  Definition inv (w : W) : Prop :=
    (forall x, match disc w (Var x) with
               | Some (Some t) => t < n /\ exists v, objs w (Var x) = Some (t, v)
               | _ => objs w (Var x) = None
               end) /\
    (forall k, disc w (Tmp k) = None /\ objs w (Tmp k) = None) /\
    (forall l, made w l = gone w l + match objs w l with Some _ => 1 | None => 0 end).

  Lemma inv_init : inv init.
  Proof. repeat split. Qed.

  Lemma inv_var w x : inv w -> (disc w (Var x) = None /\ objs w (Var x) = None) \/ (disc w (Var x) = Some None /\ objs w (Var x) = None) \/
    (exists t v, t < n /\ Nat.ltb t 16 = true /\ disc w (Var x) = Some (Some t) /\ objs w (Var x) = Some (t, v)).
  Proof.
    intros (H & _). specialize (H x). destruct (disc w (Var x)) as [[t|]|]; [|auto|auto]. destruct H as (L & v & E). right. right. exists t, v.
    repeat split; auto. apply Nat.ltb_lt. lia.
  Qed.

  Lemma all_at k t : all k = true -> t < n -> promise t k = true.
  Proof. intros A L. unfold VarModel.all in A. rewrite forallb_forall in A. apply A. apply in_seq. lia. Qed.

  Ltac unf := cbv [exec VarModel.exec none switch h_destroy h_move_construct h_move_assign h_copy_construct h_copy_assign index valueless same
    ctor_default ctor_value ctor_copy ctor_move ctor_in dtor copy_assign move_assign_ move_assign assign_value emplace get get_if holds get_set swap_value swap
    ret seq bad assert_ throw_ noexcept finally on_exn get_disc put_disc enter step read write make copy_make move_make destroy assign copy_asg move_asg swap_objs
    set_obj tick count_made count_gone upd].
  Ltac simp := cbn [objs disc clk made gone loc_eqb Nat.eqb andb orb negb option_map snd alike on].
  Ltac facts := repeat (first [ rewrite Nat.eqb_refl in * | match goal with
    | H : Nat.eqb ?a ?b = _ |- context [Nat.eqb ?a ?b] => rewrite H
    | H : Nat.ltb ?a ?b = _ |- context [Nat.ltb ?a ?b] => rewrite H
    | H : disc ?w ?l = _ |- context [disc ?w ?l] => rewrite H
    | H : objs ?w ?l = _ |- context [objs ?w ?l] => rewrite H
    | H : promise ?a ?b = _ |- context [promise ?a ?b] => rewrite H
    | H : all ?b = _ |- context [all ?b] => rewrite H
    | H : thr ?a = _ |- context [thr ?a] => rewrite H
    | H : noexc = _ |- context [noexc] => rewrite H
    end ]; simp).
  Ltac branch := match goal with
    | |- context [if ?b then _ else _] =>
        match b with
        | context [promise ?a ?c] => destruct (promise a c) eqn:?
        | context [thr ?a] => destruct (thr a) eqn:?
        | context [all ?a] => destruct (all a) eqn:?
        | noexc => destruct noexc eqn:?
        end
    end.
  Ltac dead := try match goal with
    | A : all ?k = true, P : promise ?t ?k = false, L : ?t < n |- _ => exfalso; rewrite (all_at k t A L) in P; discriminate P
    end.
  Ltac sym := unf; simp; facts; repeat (branch; simp; facts); dead.

  (** An operation of an alternative threw, one that had not promised otherwise. *)
  Definition threw : Prop := (exists i, thr i = true) /\ exists t k, t < n /\ promise t k = false.

  (** The outcome of one call. *)
  Definition good (o : op V) (w : W) : Prop :=
    match exec o w with
    | Ret r w' => inv w' /\ (forall x, abs w' x = after moved o (abs w) x) /\ answer o (abs w) = Some r
    | Exn User w' => inv w' /\ Exists (fun s => forall x, abs w' x = s x) (after_throw torn o (abs w)) /\ threw
    | Exn BadAccess w' => w' = w /\ answer o (abs w) = None
    | Term => may_terminate promise n o (abs w) = true /\ threw
    | Bad _ => False
    end.

  Ltac split_eqb := repeat match goal with
    | |- context [Nat.eqb ?a ?b] => destruct (Nat.eqb_spec a b); [subst|]; facts
    end.
  Ltac lookups z := repeat match goal with
    | H : disc ?w (Var z) = _ |- _ => rewrite H in *
    | H : objs ?w (Var z) = _ |- _ => rewrite H in *
    end.
  Ltac p_inv I := destruct I as (I1 & I2 & I3); split; [|split];
    [ let z := fresh "z" in intros z; specialize (I1 z); simp; split_eqb; lookups z; simp; try congruence; try exact I1; eauto
    | let k := fresh "k" in intros k; simp; specialize (I2 k); split_eqb; try exact I2; try (split; congruence); auto
    | let l := fresh "l" in intros l; specialize (I3 l); destruct l as [z|k]; simp; split_eqb;
      repeat match goal with H : objs ?w ?l = _ |- _ => rewrite H in * end; simp; try lia ].
  Ltac p_abs := let z := fresh "z" in intros z; cbn [after]; cbv [abs put on tear]; simp; facts; split_eqb; facts; cbn [option_map snd]; try reflexivity; try congruence.
  Ltac p_thr := split; [match goal with H : thr ?n = true |- _ => exists n; exact H end
    |match goal with H : promise ?t ?k = false |- _ => exists t, k; split; [first [assumption|apply Nat.ltb_lt; assumption]|exact H] end].
  Ltac p_states := cbv [after_throw abs alike on]; facts;
    first [ apply Exists_cons_hd; solve [p_abs] | apply Exists_cons_tl, Exists_cons_hd; solve [p_abs] | apply Exists_cons_tl, Exists_cons_tl, Exists_cons_hd; solve [p_abs] ].
  Ltac fin I := lazymatch goal with
    | |- inv _ /\ _ /\ answer _ _ = _ => split; [p_inv I|split; [p_abs|cbn [answer]; cbv [abs full has]; facts; cbn [option_map snd]; try reflexivity]]
    | |- inv _ /\ Exists _ _ /\ _ => split; [p_inv I|split; [p_states|p_thr]]
    | |- may_terminate _ _ _ _ = _ /\ _ => split; [cbv [may_terminate]; facts; repeat match goal with |- context [all ?b] => destruct (all b) eqn:? end; dead; reflexivity|p_thr]
    | |- _ = _ /\ answer _ _ = _ => split; [reflexivity|cbn [answer]; cbv [abs has]; facts; cbn [option_map snd]; try reflexivity]
    end.
  Ltac case_var I w x := destruct (inv_var w x I) as [[?D ?O]|[[?D ?O]|(?t & ?v & ?T & ?T' & ?D & ?O)]].
  Ltac kill L := cbn [legal] in L; cbv [declared full has abs] in L;
    repeat match goal with
    | H : disc ?w ?l = _ |- _ => rewrite H in L
    | H : objs ?w ?l = _ |- _ => rewrite H in L
    end; cbn [option_map snd negb andb] in L; try discriminate L; rewrite ?Nat.eqb_refl in L; try discriminate L.
  Ltac tmps I w := destruct (proj1 (proj2 I) 1) as [?U ?U'].
  Ltac alt L := try match type of L with
    | Nat.ltb ?t n = true => let B := fresh "B" in pose proof (proj1 (Nat.ltb_lt _ _) L) as B; assert (Nat.ltb t 16 = true) by (apply Nat.ltb_lt; lia)
    end.
  Ltac idx := try match goal with
    | |- context [Nat.eqb ?a ?b] =>
        match goal with A : a < n, B : b < n |- _ => destruct (Nat.eqb_spec a b); [subst|]; [|match goal with N : a <> b |- _ => pose proof (proj2 (Nat.eqb_neq a b) N); pose proof (proj2 (Nat.eqb_neq b a) (not_eq_sym N)) end] end
    end.
  Ltac one I L w x := case_var I w x; kill L; alt L; tmps I w; unf; simp; facts; idx; simp; facts; sym; fin I.
  Ltac two I L w x y := destruct (Nat.eqb_spec x y) as [E|E];
    [subst y; case_var I w x; kill L; tmps I w; sym; fin I
    |pose proof (proj2 (Nat.eqb_neq x y) E); pose proof (proj2 (Nat.eqb_neq y x) (not_eq_sym E)); case_var I w x; case_var I w y; kill L; tmps I w; unf; simp; facts; idx; simp; facts; sym; fin I].

  Lemma exec_good o w : (forall xs, o <> OVisit xs) -> inv w -> legal noexc n o (abs w) = true -> good o w.
  Proof using n16.
    intros NV I L. unfold good.
    destruct o as [x v|x t r v|x t v|x y|x y|x|x y|x y|x t r v|x t v|x y|x|x|x t|x t|x t|x t v|xs].
    - one I L w x.
    - destruct r; one I L w x.
    - one I L w x.
    - two I L w x y.
    - two I L w x y.
    - one I L w x.
    - two I L w x y.
    - two I L w x y.
    - destruct r; one I L w x.
    - one I L w x.
    - two I L w x y.
    - one I L w x.
    - one I L w x.
    - one I L w x.
    - destruct noexc eqn:NE; [|one I L w x]. case_var I w x; kill L. apply Nat.eqb_eq in L. subst. tmps I w. sym. fin I.
    - one I L w x.
    - destruct noexc eqn:NE; [|one I L w x]. case_var I w x; kill L. apply Nat.eqb_eq in L. subst. tmps I w. sym; fin I.
    - now destruct (NV xs).
  Qed.
End P.
