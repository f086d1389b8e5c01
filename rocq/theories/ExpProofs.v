From Coq Require Import List Bool PeanoNat Lia.
From Verif Require Import LifeModel ExpModel ExpSpec.
Import ListNotations.

Section P.
  Context {V : Type}.
  Context (promise : nat -> okind -> bool) (moved torn : V -> V) (thr : nat -> bool) (noexc : bool).
  Notation W := (world V bool).
  Notation exec := (exec promise moved torn thr noexc).

  (** The flag says which alternative the union holds; temporaries are gone; every object
      that was constructed has been destroyed once or is alive. *)
  Definition inv (w : W) : Prop :=
    (forall x, match disc w (Var x) with
               | Some h => exists v, objs w (Var x) = Some (if h then 0 else 1, v)
               | None => objs w (Var x) = None
               end) /\
    (forall k, disc w (Tmp k) = None /\ objs w (Tmp k) = None) /\
    (forall l, made w l = gone w l + match objs w l with Some _ => 1 | None => 0 end).

  Lemma inv_init : inv init.
  Proof. repeat split. Qed.

  Lemma inv_var w x : inv w -> (disc w (Var x) = None /\ objs w (Var x) = None) \/ (exists v, disc w (Var x) = Some false /\ objs w (Var x) = Some (1, v)) \/
    (exists v, disc w (Var x) = Some true /\ objs w (Var x) = Some (0, v)).
  Proof. intros (H & _). specialize (H x). destruct (disc w (Var x)) as [[|]|]; [destruct H; eauto|destruct H; eauto|auto]. Qed.

  Ltac unf := cbv [exec ExpModel.exec none alt ctor_default ctor_copy ctor_move ctor_value ctor_error src_op src_noexcept dtor deref error swap_mixed swap_nothrow swap
    copy_assign move_assign assign_value assign_error rethrow value emplace set_value set_error get_unexpected has_value value_or value_or_move
    ret seq bad assert_ throw_ noexcept finally on_exn get_disc put_disc enter step read write make copy_make move_make destroy assign copy_asg move_asg swap_objs
    set_obj tick count_made count_gone upd].
  Ltac simp := cbn [objs disc clk made gone loc_eqb Nat.eqb andb orb negb option_map snd alike frail both].
  Ltac facts := repeat (first [ rewrite Nat.eqb_refl in * | rewrite andb_false_r | match goal with
    | H : Nat.eqb ?a ?b = _ |- context [Nat.eqb ?a ?b] => rewrite H
    | H : disc ?w ?l = _ |- context [disc ?w ?l] => rewrite H
    | H : objs ?w ?l = _ |- context [objs ?w ?l] => rewrite H
    | H : promise ?a ?b = _ |- context [promise ?a ?b] => rewrite H
    | H : thr ?a = _ |- context [thr ?a] => rewrite H
    | H : (forall n, thr n = false) |- context [thr ?a] => rewrite (H a)
    | H : noexc = _ |- context [noexc] => rewrite H
    end ]; simp).
  Ltac branch := match goal with
    | |- context [if ?b then _ else _] =>
        match b with
        | context [promise ?a ?c] => destruct (promise a c) eqn:?
        | context [thr ?a] => destruct (thr a) eqn:?
        | noexc => destruct noexc eqn:?
        end
    end.
  Ltac sym := unf; simp; facts; repeat (branch; simp; facts).

  (** An operation of T or of E threw, one that had not promised otherwise. *)
  Definition threw : Prop := (exists n, thr n = true) /\ exists k, promise 0 k = false \/ promise 1 k = false.

  (** The outcome of one call. *)
  Definition good (o : op V) (w : W) : Prop :=
    match exec o w with
    | Ret r w' => inv w' /\ (forall x, abs w' x = after moved o (abs w) x) /\ answer o (abs w) = Some r
    | Exn User w' => inv w' /\ Exists (fun s => forall x, abs w' x = s x) (after_throw promise moved torn o (abs w)) /\ threw
    | Exn BadAccess w' => (inv w' /\ forall x, abs w' x = abs w x) /\ answer o (abs w) = None
    | Term => may_terminate promise o = true /\ threw
    | Bad _ => False
    end.

  Ltac split_eqb := repeat match goal with
    | |- context [Nat.eqb ?a ?b] => destruct (Nat.eqb_spec a b); [subst|]; facts
    end.
  Ltac lookups z := repeat match goal with
    | H : disc ?w (Var z) = _ |- _ => rewrite H in *
    | H : objs ?w (Var z) = _ |- _ => rewrite H in *
    end.
  Ltac p_inv I := destruct I as (I1 & I2 & I3); split; [|split];
    [ let z := fresh "z" in intros z; specialize (I1 z); simp; split_eqb; lookups z; simp; try congruence; try exact I1; eauto
    | let k := fresh "k" in intros k; simp; specialize (I2 k); split_eqb; try exact I2; try (split; congruence); auto
    | let l := fresh "l" in intros l; specialize (I3 l); destruct l as [z|k]; simp; split_eqb;
      repeat match goal with H : objs ?w ?l = _ |- _ => rewrite H in * end; simp; try lia ].
  Ltac p_abs := let z := fresh "z" in intros z; cbn [after]; cbv [abs put both tear valued]; simp; facts; split_eqb; facts; cbn [option_map snd]; try reflexivity; try congruence.
  Ltac p_thr := split; [match goal with H : thr ?n = true |- _ => exists n; exact H end
    |match goal with H : promise 0 ?k = false |- _ => exists k; left; exact H | H : promise 1 ?k = false |- _ => exists k; right; exact H end].
  Ltac p_states := cbv [after_throw abs]; facts; repeat match goal with |- context [promise ?a ?b] => destruct (promise a b) eqn:?; simp end;
    first [ apply Exists_cons_hd; solve [p_abs] | apply Exists_cons_tl, Exists_cons_hd; solve [p_abs] ].
  Ltac fin I := lazymatch goal with
    | |- inv _ /\ _ /\ answer _ _ = _ => split; [p_inv I|split; [p_abs|cbn [answer]; cbv [abs valued]; facts; cbn [option_map snd]; try reflexivity]]
    | |- inv _ /\ Exists _ _ /\ _ => split; [p_inv I|split; [p_states|p_thr]]
    | |- may_terminate _ _ = _ /\ _ => split; [cbv [may_terminate]; facts; repeat match goal with |- context [promise ?a ?b] => destruct (promise a b) end; reflexivity|p_thr]
    | |- (inv _ /\ _) /\ _ => split; [split; [p_inv I|p_abs]|cbn [answer]; cbv [abs]; facts; reflexivity]
    end.
  Ltac case_var I w x := destruct (inv_var w x I) as [[?D ?O]|[(?v & ?D & ?O)|(?v & ?D & ?O)]].
  Ltac kill L := cbn [legal] in L; cbv [declared valued failed abs] in L;
    repeat match goal with
    | H : disc ?w ?l = _ |- _ => rewrite H in L
    | H : objs ?w ?l = _ |- _ => rewrite H in L
    end; cbn in L; try discriminate L; rewrite ?Nat.eqb_refl in L; try discriminate L.
  Ltac tmps I w := destruct (proj1 (proj2 I) 0) as [?T ?T']; destruct (proj1 (proj2 I) 1) as [?U ?U'];
    destruct (proj1 (proj2 I) 2) as [?T ?T']; destruct (proj1 (proj2 I) 3) as [?U ?U'].
  Ltac one I L w x := case_var I w x; kill L; tmps I w; sym; fin I.
  Ltac two I L w x y := destruct (Nat.eqb_spec x y) as [E|E];
    [subst y; case_var I w x; kill L; tmps I w; sym; fin I
    |pose proof (proj2 (Nat.eqb_neq x y) E); pose proof (proj2 (Nat.eqb_neq y x) (not_eq_sym E)); case_var I w x; case_var I w y; kill L; tmps I w; sym; fin I].

  Lemma exec_good o w : promise 0 KMove = true -> promise 1 KMove = true -> inv w -> legal noexc o (abs w) = true -> good o w.
  Proof.
    intros P0 P1 I L. unfold good.
    destruct o as [x v|x m v|x m v|x y|x y|x|x y|x y|x m v|x m v|x v|x y|x|x|x|x v|x v|x|x|x v|x v].
    - one I L w x.
    - destruct m; one I L w x.
    - destruct m; one I L w x.
    - two I L w x y.
    - two I L w x y.
    - one I L w x.
    - two I L w x y.
    - two I L w x y.
    - destruct m; one I L w x.
    - destruct m; one I L w x.
    - one I L w x.
    - two I L w x y.
    - one I L w x.
    - one I L w x.
    - one I L w x.
    - one I L w x.
    - one I L w x.
    - destruct noexc eqn:?; one I L w x.
    - one I L w x.
    - one I L w x.
    - one I L w x.
  Qed.

  (** Types that never throw, whatever they promise. *)
  Definition calm (o : op V) (w : W) : Prop :=
    match exec o w with
    | Ret r w' => inv w' /\ (forall x, abs w' x = after moved o (abs w) x) /\ answer o (abs w) = Some r
    | Exn BadAccess w' => (inv w' /\ forall x, abs w' x = abs w x) /\ answer o (abs w) = None
    | _ => False
    end.
  Lemma exec_calm o w : (forall n, thr n = false) -> inv w -> legal noexc o (abs w) = true -> calm o w.
  Proof.
    intros Hthr I L. unfold calm.
    destruct o as [x v|x m v|x m v|x y|x y|x|x y|x y|x m v|x m v|x v|x y|x|x|x|x v|x v|x|x|x v|x v].
    - one I L w x.
    - destruct m; one I L w x.
    - destruct m; one I L w x.
    - two I L w x y.
    - two I L w x y.
    - one I L w x.
    - two I L w x y.
    - two I L w x y.
    - destruct m; one I L w x.
    - destruct m; one I L w x.
    - one I L w x.
    - two I L w x y.
    - one I L w x.
    - one I L w x.
    - one I L w x.
    - one I L w x.
    - one I L w x.
    - destruct noexc eqn:?; one I L w x.
    - one I L w x.
    - one I L w x.
    - one I L w x.
  Qed.
End P.
