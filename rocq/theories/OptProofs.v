From Coq Require Import List Bool PeanoNat Lia.
From Verif Require Import LifeModel OptModel OptSpec.
Import ListNotations.

Section P.
  Context {V : Type}.
  Context (promise : nat -> okind -> bool) (moved torn : V -> V) (thr : nat -> bool) (noexc clang : bool).
  Notation W := (world V bool).
  Notation exec := (exec promise moved torn thr noexc clang).

  (** The flag says what the buffer holds; temporaries are gone; every object that was
      constructed has been destroyed once or is alive. *)
  Definition inv (w : W) : Prop :=
    (forall x, match disc w (Var x) with
               | Some true => exists v, objs w (Var x) = Some (0, v)
               | _ => objs w (Var x) = None
               end) /\
    (forall k, disc w (Tmp k) = None /\ objs w (Tmp k) = None) /\
    (forall l, made w l = gone w l + match objs w l with Some _ => 1 | None => 0 end).

  Lemma inv_init : inv init.
  Proof. repeat split. Qed.

  Lemma inv_var w x : inv w -> (disc w (Var x) = None /\ objs w (Var x) = None) \/ (disc w (Var x) = Some false /\ objs w (Var x) = None) \/
    (exists v, disc w (Var x) = Some true /\ objs w (Var x) = Some (0, v)).
  Proof. intros (H & _). specialize (H x). destruct (disc w (Var x)) as [[|]|]; [destruct H; eauto|auto|auto]. Qed.

  Lemma eqb_sym_f x y : Nat.eqb x y = false -> Nat.eqb y x = false.
  Proof. intros H. now rewrite Nat.eqb_sym. Qed.

  Ltac unf := cbv [exec OptModel.exec none ctor_empty ctor_value ctor_copy ctor_move dtor reset assign_null copy_assign move_assign assign_value assign_ref
    conv_copy_assign conv_move_assign emplace emplace_ref swap has_value deref value value_or value_or_move deref_assign initialize_copy initialize_move
    ret seq bad assert_ throw_ noexcept finally on_exn get_disc put_disc enter step read write make copy_make move_make destroy assign copy_asg move_asg swap_objs
    set_obj tick count_made count_gone upd].
  Ltac simp := cbn [objs disc clk made gone loc_eqb Nat.eqb andb negb option_map snd].
  (* every stuck match of the symbolic execution is on a lookup in the initial world, on a
     comparison of variables, on the oracle or on a promise *)
  Ltac facts := repeat (first [ rewrite Nat.eqb_refl in * | match goal with
    | H : Nat.eqb ?a ?b = _ |- context [Nat.eqb ?a ?b] => rewrite H
    | H : disc ?w ?l = _ |- context [disc ?w ?l] => rewrite H
    | H : objs ?w ?l = _ |- context [objs ?w ?l] => rewrite H
    | H : promise ?a ?b = _ |- context [promise ?a ?b] => rewrite H
    | H : thr ?a = _ |- context [thr ?a] => rewrite H
    | H : noexc = _ |- context [noexc] => rewrite H
    | H : clang = _ |- context [clang] => rewrite H
    end ]; simp).
  Ltac branch := match goal with
    | |- context [if ?b then _ else _] =>
        match b with
        | context [thr ?a] => destruct (thr a) eqn:?
        | context [promise ?a ?c] => destruct (promise a c) eqn:?
        | noexc => destruct noexc eqn:?
        | clang => destruct clang eqn:?
        end
    end.
  Ltac sym := unf; simp; facts; repeat (branch; simp; facts).

  (** An operation of the element type threw, one that had not promised otherwise. *)
  Definition threw : Prop := (exists n, thr n = true) /\ exists k, promise 0 k = false.

  (** The outcome of one call: a normal return does what the specification says, an
      exception leaves the state the specification says, there is no undefined behaviour. *)
  Definition good (o : op V) (w : W) : Prop :=
    match exec o w with
    | Ret r w' => inv w' /\ (forall x, abs w' x = after moved clang o (abs w) x) /\ answer o (abs w) = Some r
    | Exn User w' => inv w' /\ match after_throw torn o (abs w) with Some s => forall x, abs w' x = s x | None => False end /\ threw
    | Exn BadAccess w' => w' = w /\ answer o (abs w) = None
    | Term => may_terminate promise o = true /\ threw
    | Bad _ => False
    end.

  Ltac split_eqb := repeat match goal with
    | |- context [Nat.eqb ?a ?b] => destruct (Nat.eqb_spec a b); [subst|]; facts
    end.
  Ltac lookups z := repeat match goal with
    | H : disc ?w (Var z) = _ |- _ => rewrite H in *
    | H : objs ?w (Var z) = _ |- _ => rewrite H in *
    end.
  Ltac p_inv I := destruct I as (I1 & I2 & I3); split; [|split];
    [ let z := fresh "z" in intros z; specialize (I1 z); simp; split_eqb; lookups z; simp; try congruence; try exact I1; eauto
    | let k := fresh "k" in intros k; simp; specialize (I2 k); split_eqb; try exact I2; try (split; congruence); auto
    | let l := fresh "l" in intros l; specialize (I3 l); destruct l as [z|k]; simp; split_eqb;
      repeat match goal with H : objs ?w ?l = _ |- _ => rewrite H in * end; simp; try lia ].
  Ltac p_abs := let z := fresh "z" in intros z; cbn [after]; cbv [abs put mvd trn engaged]; simp; facts; split_eqb; facts; cbn [option_map snd]; try reflexivity; try congruence.
  Ltac p_thr := split; [match goal with H : thr ?n = true |- _ => exists n; exact H end|match goal with H : promise 0 ?k = false |- _ => exists k; exact H end].
  Ltac fin I := lazymatch goal with
    | |- inv _ /\ _ /\ answer _ _ = _ => split; [p_inv I|split; [p_abs|cbn [answer]; cbv [abs engaged]; facts; cbn [option_map snd]; try reflexivity]]
    | |- inv _ /\ _ /\ _ => split; [p_inv I|split; [cbv [after_throw]; p_abs|p_thr]]
    | |- may_terminate _ _ = _ /\ _ => split; [cbv [may_terminate]; facts; repeat match goal with |- context [promise ?a ?b] => destruct (promise a b) end; reflexivity|p_thr]
    | |- _ = _ /\ _ => split; [reflexivity|cbn [answer]; cbv [abs]; facts; reflexivity]
    end.
  Ltac case_var I w x := destruct (inv_var w x I) as [[?D ?O]|[[?D ?O]|(?v & ?D & ?O)]].
  Ltac kill L := cbn [legal] in L; cbv [declared engaged abs] in L;
    repeat match goal with
    | H : disc ?w ?l = _ |- _ => rewrite H in L
    | H : objs ?w ?l = _ |- _ => rewrite H in L
    end; cbn in L; try discriminate L; rewrite ?Nat.eqb_refl in L; try discriminate L.
  Ltac tmps I w := destruct (proj1 (proj2 I) 0) as [?T ?T']; destruct (proj1 (proj2 I) 1) as [?U ?U'].
  Ltac one I L w x := case_var I w x; kill L; tmps I w; sym; fin I.
  Ltac two I L w x y := destruct (Nat.eqb_spec x y) as [E|E];
    [subst y; case_var I w x; kill L; tmps I w; sym; fin I
    |pose proof (proj2 (Nat.eqb_neq x y) E); pose proof (proj2 (Nat.eqb_neq y x) (not_eq_sym E)); case_var I w x; case_var I w y; kill L; tmps I w; sym; fin I].

  Lemma exec_good o w : inv w -> legal noexc o (abs w) = true -> good o w.
  Proof.
    intros I L. unfold good.
    destruct o as [x|x v|x y|x y|x|x|x y|x y|x v mv|x y|x y|x y|x v|x y|x y|x|x|x v|x|x v|x v].
    - one I L w x.
    - one I L w x.
    - two I L w x y.
    - two I L w x y.
    - one I L w x.
    - one I L w x.
    - two I L w x y.
    - two I L w x y.
    - destruct mv; one I L w x.
    - two I L w x y.
    - two I L w x y.
    - two I L w x y.
    - one I L w x.
    - two I L w x y.
    - two I L w x y.
    - one I L w x.
    - one I L w x.
    - one I L w x.
    - destruct noexc eqn:?; one I L w x.
    - one I L w x.
    - destruct clang eqn:?; one I L w x.
  Qed.
End P.
