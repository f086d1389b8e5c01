From Coq Require Import List Bool PeanoNat Lia.
From Verif Require Import LifeModel ExpModel ExpSpec.
Import ListNotations.

Section P.
  Context {V : Type}.
  Context (promise : nat -> okind -> bool) (moved torn : V -> V) (thr : nat -> bool) (noexc : bool).
  Notation W := (world V bool).
  Notation exec := (vexec promise moved torn thr noexc).

  (** The error is there when the flag says so; temporaries are gone; every object
      that was constructed has been destroyed once or is alive. *)
  Definition vinv (w : W) : Prop :=
    (forall x, match disc w (Var x) with
               | Some false => exists v, objs w (Var x) = Some (1, v)
               | _ => objs w (Var x) = None
               end) /\
    (forall k, disc w (Tmp k) = None /\ objs w (Tmp k) = None) /\
    (forall l, made w l = gone w l + match objs w l with Some _ => 1 | None => 0 end).

  Lemma vinv_init : vinv init.
  Proof. repeat split. Qed.

  Lemma vinv_var w x : vinv w -> (disc w (Var x) = None /\ objs w (Var x) = None) \/ (exists v, disc w (Var x) = Some false /\ objs w (Var x) = Some (1, v)) \/
    (disc w (Var x) = Some true /\ objs w (Var x) = None).
  Proof. intros (H & _). specialize (H x). destruct (disc w (Var x)) as [[|]|]; [auto|destruct H; eauto|auto]. Qed.

  Ltac unf := cbv [exec vexec none alt vctor_default vctor_copy vctor_move vctor_error vdtor vswap_nothrow vswap_mixed vswap vvalue vcopy_assign vmove_assign vemplace ctor_default ctor_copy ctor_move ctor_value ctor_error src_op src_noexcept dtor deref error swap_mixed swap_nothrow swap
    copy_assign move_assign assign_value assign_error rethrow value emplace set_value set_error get_unexpected has_value value_or value_or_move
    ret seq bad assert_ throw_ noexcept finally on_exn get_disc put_disc enter step read write make copy_make move_make destroy assign copy_asg move_asg swap_objs
    set_obj tick count_made count_gone upd].
  Ltac simp := cbn [objs disc clk made gone loc_eqb Nat.eqb andb orb negb option_map snd alike frail both].
  Ltac facts := repeat (first [ rewrite Nat.eqb_refl in * | rewrite andb_false_r | match goal with
    | H : Nat.eqb ?a ?b = _ |- context [Nat.eqb ?a ?b] => rewrite H
    | H : disc ?w ?l = _ |- context [disc ?w ?l] => rewrite H
    | H : objs ?w ?l = _ |- context [objs ?w ?l] => rewrite H
    | H : promise ?a ?b = _ |- context [promise ?a ?b] => rewrite H
    | H : thr ?a = _ |- context [thr ?a] => rewrite H
    | H : noexc = _ |- context [noexc] => rewrite H
    end ]; simp).
  Ltac branch := match goal with
    | |- context [if ?b then _ else _] =>
        match b with
        | context [promise ?a ?c] => destruct (promise a c) eqn:?
        | context [thr ?a] => destruct (thr a) eqn:?
        | noexc => destruct noexc eqn:?
        end
    end.
  Ltac sym := unf; simp; facts; repeat (branch; simp; facts).

  (** The outcome of one call; what a thrown swap leaves is not specified. *)
  Definition vfine (o : vop V) (w : W) : Prop :=
    match exec o w with
    | Ret r w' => vinv w' /\ (forall x, vabs w' x = vafter moved o (vabs w) x) /\ vanswer o (vabs w) = Some r
    | Exn User w' => vinv w' /\ ((exists n, thr n = true) /\ exists k, promise 1 k = false) /\ (promise 1 KSwap = true -> forall x, vabs w' x = vabs w x)
    | Exn BadAccess w' => (vinv w' /\ forall x, vabs w' x = vabs w x) /\ vanswer o (vabs w) = None
    | Term => ((exists n, thr n = true) /\ exists k, promise 1 k = false) /\ vmay_terminate promise o = true
    | Bad _ => False
    end.

  Ltac split_eqb := repeat match goal with
    | |- context [Nat.eqb ?a ?b] => destruct (Nat.eqb_spec a b); [subst|]; facts
    end.
  Ltac lookups z := repeat match goal with
    | H : disc ?w (Var z) = _ |- _ => rewrite H in *
    | H : objs ?w (Var z) = _ |- _ => rewrite H in *
    end.
  Ltac p_inv I := destruct I as (I1 & I2 & I3); split; [|split];
    [ let z := fresh "z" in intros z; specialize (I1 z); simp; split_eqb; lookups z; simp; try congruence; try exact I1; eauto
    | let k := fresh "k" in intros k; simp; specialize (I2 k); split_eqb; try exact I2; try (split; congruence); auto
    | let l := fresh "l" in intros l; specialize (I3 l); destruct l as [z|k]; simp; split_eqb;
      repeat match goal with H : objs ?w ?l = _ |- _ => rewrite H in * end; simp; try lia ].
  Ltac p_abs := let z := fresh "z" in intros z; cbn [vafter]; cbv [vabs vput]; simp; facts; split_eqb; facts; cbn [option_map snd]; try reflexivity; try congruence.
  Ltac p_thr := split; [match goal with H : thr ?n = true |- _ => exists n; exact H end|match goal with H : promise 1 ?k = false |- _ => exists k; exact H end].
  Ltac fin I := lazymatch goal with
    | |- vinv _ /\ _ /\ vanswer _ _ = _ => split; [p_inv I|split; [p_abs|cbn [vanswer]; cbv [vabs vgood]; facts; cbn [option_map snd]; try reflexivity]]
    | |- vinv _ /\ _ => split; [p_inv I|split; [p_thr|first [intros ?P; congruence|intros _; p_abs]]]
    | |- ((exists _, _) /\ _) /\ _ => split; [p_thr|cbv [vmay_terminate]; facts; reflexivity]
    | |- (vinv _ /\ _) /\ _ => split; [split; [p_inv I|p_abs]|cbn [vanswer]; cbv [vabs vgood]; facts; reflexivity]
    end.
  Ltac case_var I w x := destruct (vinv_var w x I) as [[?D ?O]|[(?v & ?D & ?O)|[?D ?O]]].
  Ltac kill L := cbn [vlegal] in L; cbv [vdeclared vfailed vgood vabs] in L;
    repeat match goal with
    | H : disc ?w ?l = _ |- _ => rewrite H in L
    | H : objs ?w ?l = _ |- _ => rewrite H in L
    end; cbn in L; try discriminate L; rewrite ?Nat.eqb_refl in L; try discriminate L.
  Ltac tmps I w := destruct (proj1 (proj2 I) 0) as [?T ?T']; destruct (proj1 (proj2 I) 1) as [?U ?U'];
    destruct (proj1 (proj2 I) 2) as [?T ?T']; destruct (proj1 (proj2 I) 3) as [?U ?U'].
  Ltac one I L w x := case_var I w x; kill L; tmps I w; sym; fin I.
  Ltac two I L w x y := destruct (Nat.eqb_spec x y) as [E|E];
    [subst y; case_var I w x; kill L; tmps I w; sym; fin I
    |pose proof (proj2 (Nat.eqb_neq x y) E); pose proof (proj2 (Nat.eqb_neq y x) (not_eq_sym E)); case_var I w x; case_var I w y; kill L; tmps I w; sym; fin I].

  Lemma vexec_fine o w : vinv w -> vlegal noexc o (vabs w) = true -> vfine o w.
  Proof.
    intros I L. unfold vfine. destruct o as [x|x m v|x y|x y|x|x y|x y|x|x y|x|x|x].
    - one I L w x.
    - destruct m; one I L w x.
    - two I L w x y.
    - two I L w x y.
    - one I L w x.
    - two I L w x y.
    - two I L w x y.
    - one I L w x.
    - two I L w x y.
    - one I L w x.
    - one I L w x.
    - destruct noexc eqn:?; one I L w x.
  Qed.
End P.
