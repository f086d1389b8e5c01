(** nanostl::any keeps to its specification. *)
From Coq Require Import List Bool PeanoNat Lia.
From Verif Require Import LifeModel AnyModel AnySpec.
Import ListNotations.

Lemma loc_eqb_spec a b : loc_eqb a b = true <-> a = b.
Proof. destruct a, b; cbn; rewrite ?Nat.eqb_eq; split; congruence. Qed.
Lemma upd_eq {A} (m : loc -> A) l a : upd m l a l = a.
Proof. unfold upd. now rewrite (proj2 (loc_eqb_spec l l) eq_refl). Qed.
Lemma upd_neq {A} (m : loc -> A) l a k : k <> l -> upd m l a k = m k.
Proof. intros N. unfold upd. destruct (loc_eqb k l) eqn:E; [|reflexivity]. apply loc_eqb_spec in E. contradiction. Qed.
Lemma loc_dec (a b : loc) : a = b \/ a <> b.
Proof. destruct (loc_eqb a b) eqn:E; [left; now apply loc_eqb_spec|right; intros H; apply loc_eqb_spec in H; congruence]. Qed.

Section P.
  Context {V : Type}.
  Context (promise : nat -> okind -> bool) (torn : V -> V) (thr : nat -> bool) (noexc : bool).
  Notation W := (world V (option nat)).

  Definition live (o : option (nat * V)) : nat := match o with Some _ => 1 | None => 0 end.
  (** Every content pointer leads to a live object, no two to the same, every live object
      has its any; every object has been destroyed once or is alive. *)
  Record inv (w : W) : Prop := {
    iptr : forall l p, disc w l = Some (Some p) -> objs w (Tmp p) <> None;
    iinj : forall l l' p, disc w l = Some (Some p) -> disc w l' = Some (Some p) -> l = l';
    iown : forall p, objs w (Tmp p) <> None -> p < clk w /\ exists l, disc w l = Some (Some p);
    ivar : forall x, objs w (Var x) = None;
    icnt : forall l, made w l = gone w l + live (objs w l)
  }.
  Lemma inv_init : inv init.
  Proof. constructor; cbn; try discriminate; try reflexivity. intros p H. now destruct H. Qed.

  Lemma inv_tick w : inv w -> inv (tick w).
  Proof. intros [A B C D E]. constructor; cbn [tick disc objs clk made gone]; auto. intros p H. destruct (C p H). split; [lia|assumption]. Qed.

  Ltac dl k l := let N := fresh "NE" in destruct (loc_dec k l) as [->|N]; [rewrite ?upd_eq in *|rewrite ?(upd_neq _ l) in * by assumption].
  Definition threw : Prop := (exists n, thr n = true) /\ exists t k, promise t k = false.

  (** put a fresh object behind a new any *)
  Lemma fresh_ok w l t k v : inv w -> disc w l = None ->
    match (p <-- new_holder promise thr t k v ;; declare l (Some p)) w with
    | Ret _ w' => inv w' /\ forall j, look w' j = upd (look w) l (Some (Some (t, v))) j
    | Exn User w' => inv w' /\ (forall j, look w' j = look w j) /\ promise t k = false /\ threw
    | _ => False
    end.
  Proof.
    intros I L. pose proof I as [A B C D E].
    assert (F : objs w (Tmp (clk w)) = None) by (destruct (objs w (Tmp (clk w))) eqn:O; [|reflexivity]; assert (clk w < clk w) by (apply C; congruence); lia).
    cbv [seq new_holder make step ret]. rewrite F. cbn [tick clk].
    destruct (thr (clk w) && negb (promise t k)) eqn:T.
    - split; [now apply inv_tick|]. split; [reflexivity|]. apply andb_prop in T as [T1 T2]. apply negb_true_iff in T2. split; [exact T2|split; eauto].
    - unfold declare. cbn [count_made set_obj tick disc]. rewrite L. cbn [put_disc]. split.
      + constructor; cbn [count_made set_obj tick disc objs clk made gone].
        * intros j p. dl j l; [intros [= <-]; rewrite upd_eq; discriminate|]. intros H. pose proof (A _ _ H). destruct (loc_dec (Tmp p) (Tmp (clk w))) as [->|]; [rewrite upd_eq; discriminate|now rewrite upd_neq].
        * intros j j' p. dl j l; dl j' l; auto.
          -- intros [= <-] H. exfalso. exact (A _ _ H F).
          -- intros H [= <-]. exfalso. exact (A _ _ H F).
          -- apply B.
        * intros p. destruct (loc_dec (Tmp p) (Tmp (clk w))) as [Ep|Ep].
          -- injection Ep as ->. intros _. split; [lia|]. exists l. apply upd_eq.
          -- rewrite upd_neq by assumption. intros H. destruct (C p H) as (P1 & j & P2). split; [lia|]. exists j. rewrite upd_neq; [assumption|]. intros ->. congruence.
        * intros x. rewrite upd_neq by discriminate. apply D.
        * intros j. destruct (loc_dec j (Tmp (clk w))) as [->|]; [rewrite !upd_eq, (E (Tmp (clk w))), F; cbn [live]; lia|rewrite !upd_neq by assumption; apply E].
      + intros j. unfold look. cbn [count_made set_obj tick disc objs]. dl j l; [reflexivity|].
        destruct (disc w j) as [[p|]|] eqn:J; try reflexivity. rewrite upd_neq; [reflexivity|]. intros [= ->]. exact (A _ _ J F).
  Qed.

  (** a new empty any *)
  Lemma empty_ok w l : inv w -> disc w l = None -> exists w', declare l None w = Ret tt w' /\ inv w' /\ forall j, look w' j = upd (look w) l (Some None) j.
  Proof.
    intros [A B C D E] L. unfold declare. rewrite L. eexists. split; [reflexivity|]. split.
    - constructor; cbn [disc objs clk made gone]; auto.
      + intros j p. dl j l; [discriminate|apply A].
      + intros j j' p. dl j l; [discriminate|]. dl j' l; [discriminate|apply B].
      + intros p H. destruct (C p H) as (P1 & j & P2). split; [assumption|]. exists j. rewrite upd_neq; [assumption|]. intros ->. congruence.
    - intros j. unfold look. cbn [disc objs]. dl j l; reflexivity.
  Qed.

  Lemma copy_ok w l src : inv w -> disc w l = None -> disc w src <> None ->
    match ctor_copy promise thr l src w with
    | Ret _ w' => inv w' /\ forall j, look w' j = upd (look w) l (look w src) j
    | Exn User w' => inv w' /\ (forall j, look w' j = look w j) /\ threw
    | _ => False
    end.
  Proof.
    intros I L S0. unfold ctor_copy, get_disc. unfold seq at 1. destruct (disc w src) as [[p|]|] eqn:S1; [| |congruence].
    - unfold clone, held. pose proof (iptr w I _ _ S1) as P. destruct (objs w (Tmp p)) as [[t v]|] eqn:O; [|congruence].
      unfold seq at 1. unfold seq at 1. rewrite O. cbn [fst snd].
      pose proof (fresh_ok w l t KCopy v I L) as F. unfold seq at 1 in F.
      assert (K : look w src = Some (Some (t, v))) by (unfold look; now rewrite S1, O).
      destruct (new_holder promise thr t KCopy v w) as [q w1|[] w1| |]; try contradiction.
      + destruct (declare l (Some q) w1) as [q' w2|[] w2| |]; try contradiction; [now rewrite K|]. tauto.
      + tauto.
    - destruct (empty_ok w l I L) as (w' & -> & I' & K). split; [exact I'|]. intros j. rewrite K. unfold look at 3. now rewrite S1.
  Qed.

  Lemma move_ok w l src : inv w -> disc w l = None -> disc w src <> None ->
    exists w', ctor_move l src w = Ret tt w' /\ inv w' /\ forall j, look w' j = upd (upd (look w) src (Some None)) l (look w src) j.
  Proof.
    intros I L S0. unfold ctor_move, noexcept, seq, get_disc. destruct (disc w src) as [c|] eqn:S1; [|congruence].
    assert (N : src <> l) by congruence. unfold declare. rewrite L. cbn [put_disc]. eexists. split; [reflexivity|].
    pose proof I as [A B C D E]. split.
    - constructor; cbn [disc objs clk made gone]; auto.
      + intros j p. dl j src; [discriminate|]. dl j l; [intros [= ->]; eapply A; exact S1|apply A].
      + intros j j' p. dl j src; [discriminate|]. dl j' src; [discriminate|]. dl j l; dl j' l; auto.
        * intros [= ->] H. exfalso. pose proof (B _ _ _ S1 H). congruence.
        * intros H [= ->]. exfalso. pose proof (B _ _ _ S1 H). congruence.
        * apply B.
      + intros p H. destruct (C p H) as (P1 & j & P2). split; [assumption|]. destruct (loc_dec j src) as [->|].
        * exists l. rewrite upd_neq, upd_eq by congruence. congruence.
        * exists j. rewrite upd_neq by assumption. rewrite upd_neq; [assumption|]. intros ->. congruence.
    - intros j. unfold look. cbn [disc objs]. rewrite S1. dl j src.
      + rewrite (upd_neq _ l), upd_eq by assumption. reflexivity.
      + dl j l; [destruct c; reflexivity|]. now rewrite ?upd_neq by assumption.
  Qed.

  Lemma swap_ok w l src : inv w -> disc w l <> None -> disc w src <> None ->
    exists w', swap l src w = Ret tt w' /\ inv w' /\ forall j, look w' j = upd (upd (look w) l (look w src)) src (look w l) j.
  Proof.
    intros I L S0. unfold swap, seq, get_disc. destruct (disc w l) as [a|] eqn:L1; [|congruence]. destruct (disc w src) as [c|] eqn:S1; [|congruence].
    cbn [put_disc]. eexists. split; [reflexivity|]. pose proof I as [A B C D E]. split.
    - constructor; cbn [disc objs clk made gone]; auto.
      + intros j p. dl j src; [intros [= ->]; eapply A; exact L1|]. dl j l; [intros [= ->]; eapply A; exact S1|apply A].
      + intros j j' p. dl j src; dl j' src; auto.
        * intros [= ->]. dl j' l; [intros [= ->]; apply (B _ _ _ S1 L1)|intros H; pose proof (B _ _ _ L1 H); congruence].
        * intros H [= ->]. revert H. dl j l; [intros [= ->]; apply (B _ _ _ L1 S1)|intros H; pose proof (B _ _ _ L1 H); congruence].
        * dl j l; dl j' l; auto.
          -- intros [= ->] H. pose proof (B _ _ _ S1 H). congruence.
          -- intros H [= ->]. pose proof (B _ _ _ S1 H). congruence.
          -- apply B.
      + intros p H. destruct (C p H) as (P1 & j & P2). split; [assumption|]. destruct (loc_dec j l) as [->|].
        * exists src. rewrite upd_eq. congruence.
        * destruct (loc_dec j src) as [->|].
          -- exists l. rewrite upd_neq by congruence. rewrite upd_eq. congruence.
          -- exists j. now rewrite ?upd_neq by assumption.
    - intros j. unfold look. cbn [disc objs]. rewrite S1, L1. dl j src; [destruct a; reflexivity|]. dl j l; [destruct c; reflexivity|reflexivity].
  Qed.

  (** delete, then forget: [d] is what the variable becomes, empty or out of scope *)
  Lemma drop_ok w l (d : option (option nat)) : inv w -> disc w l <> None -> match d with Some (Some _) => False | _ => True end ->
    exists w', (c <-- get_disc l ;; delete c ;;; put_disc l d) w = Ret tt w' /\ inv w'
      /\ forall j, look w' j = upd (look w) l (match d with None => None | _ => Some None end) j.
  Proof.
    intros I L Hd. unfold seq at 1, get_disc. destruct (disc w l) as [[p|]|] eqn:L1; [| |congruence]; pose proof I as [A B C D E].
    - unfold delete, held, seq. pose proof (A _ _ L1) as P. destruct (objs w (Tmp p)) as [[t v]|] eqn:O; [|congruence].
      unfold destroy, read, seq. rewrite O. cbn [fst]. rewrite Nat.eqb_refl. cbn [put_disc]. eexists. split; [reflexivity|].
      assert (K : forall j, j <> l -> disc w j <> Some (Some p)) by (intros j N H; apply N; apply (B _ _ _ H L1)). split.
      + constructor; cbn [count_gone set_obj disc objs clk made gone].
        * intros j q. dl j l; [now destruct d as [[|]|]|]. intros H. rewrite upd_neq; [apply (A _ _ H)|]. intros [= ->]. eapply K; eauto.
        * intros j j' q. dl j l; [now destruct d as [[|]|]|]. dl j' l; [now destruct d as [[|]|]|apply B].
        * intros q. destruct (loc_dec (Tmp q) (Tmp p)) as [Eq|Eq]; [rewrite Eq, upd_eq; congruence|]. rewrite upd_neq by assumption. intros H. destruct (C q H) as (P1 & j & P2).
          split; [assumption|]. exists j. rewrite upd_neq; [assumption|]. intros ->. congruence.
        * intros x. rewrite upd_neq by discriminate. apply D.
        * intros j. destruct (loc_dec j (Tmp p)) as [->|]; [rewrite !upd_eq, (E (Tmp p)), O; cbn [live]; lia|rewrite !upd_neq by assumption; apply E].
      + intros j. unfold look. cbn [count_gone set_obj disc objs]. dl j l; [now destruct d as [[|]|]|].
        destruct (disc w j) as [[q|]|] eqn:J; try reflexivity. rewrite upd_neq; [reflexivity|]. intros [= ->]. eapply K; eauto.
    - cbv [delete seq ret put_disc]. eexists. split; [reflexivity|]. split.
      + constructor; cbn [disc objs clk made gone]; auto.
        * intros j q. dl j l; [now destruct d as [[|]|]|apply A].
        * intros j j' q. dl j l; [now destruct d as [[|]|]|]. dl j' l; [now destruct d as [[|]|]|apply B].
        * intros q H. destruct (C q H) as (P1 & j & P2). split; [assumption|]. exists j. rewrite upd_neq; [assumption|]. intros ->. congruence.
      + intros j. unfold look. cbn [disc objs]. dl j l; [now destruct d as [[|]|]|reflexivity].
  Qed.
  Lemma reset_ok w l : inv w -> disc w l <> None -> exists w', reset l w = Ret tt w' /\ inv w' /\ forall j, look w' j = upd (look w) l (Some None) j.
  Proof. intros I L. apply (drop_ok w l (Some None) I L Logic.I). Qed.

  Lemma look_disc (w : W) l : look w l = None <-> disc w l = None.
  Proof. unfold look. destruct (disc w l) as [[|]|]; split; congruence. Qed.
  Lemma look_disc' (w : W) l : look w l <> None <-> disc w l <> None.
  Proof. now rewrite look_disc. Qed.

  Lemma dtor_ok w l : inv w -> look w l <> None -> exists w', dtor l w = Ret tt w' /\ inv w' /\ forall j, look w' j = upd (look w) l None j.
  Proof.
    intros I L. unfold dtor, seq. destruct (reset_ok w l I (proj1 (look_disc' w l) L)) as (w1 & -> & I1 & K1). cbn [put_disc].
    eexists. split; [reflexivity|]. pose proof (K1 l) as K. rewrite upd_eq in K.
    assert (D1 : disc w1 l = Some None).
    { unfold look in K. destruct (disc w1 l) as [[p|]|] eqn:Q; try congruence. exfalso. apply (iptr w1 I1 _ _ Q). congruence. }
    destruct I1 as [A B C D E]. split.
    - constructor; cbn [disc objs clk made gone]; auto.
      + intros j q. dl j l; [discriminate|apply A].
      + intros j j' q. dl j l; [discriminate|]. dl j' l; [discriminate|apply B].
      + intros q H. destruct (C q H) as (P1 & j & P2). split; [assumption|]. exists j. rewrite upd_neq; [assumption|]. intros ->. congruence.
    - intros j. destruct (loc_dec j l) as [->|N]; [unfold look; cbn [disc]; now rewrite !upd_eq|].
      rewrite upd_neq by assumption. specialize (K1 j). rewrite upd_neq in K1 by assumption. rewrite <- K1. unfold look. cbn [disc objs]. now rewrite ?upd_neq by assumption.
  Qed.

  (** [any(...)].swap( *this ), once the temporary is there *)
  Lemma swap_tmp w k l : inv w -> look w (Tmp k) <> None -> look w l <> None -> l <> Tmp k ->
    exists w', finally (swap (Tmp k) l) (dtor (Tmp k)) w = Ret tt w' /\ inv w'
      /\ forall j, look w' j = upd (upd (look w) l (look w (Tmp k))) (Tmp k) None j.
  Proof.
    intros I T L N. unfold finally. destruct (swap_ok w (Tmp k) l I (proj1 (look_disc' _ _) T) (proj1 (look_disc' _ _) L)) as (w1 & -> & I1 & K1).
    destruct (dtor_ok w1 (Tmp k) I1) as (w2 & -> & I2 & K2).
    { rewrite K1. rewrite upd_neq, upd_eq by congruence. exact L. }
    eexists. split; [reflexivity|]. split; [exact I2|]. intros j. rewrite K2. dl j (Tmp k); [reflexivity|]. rewrite K1. dl j l; [now rewrite ?upd_eq|]. now rewrite ?upd_neq by assumption.
  Qed.

  Lemma move_assign_ok w l src k : k = 0 -> inv w -> look w (Tmp k) = None -> look w l <> None -> look w src <> None -> l <> Tmp k ->
    exists w', move_assign l src w = Ret tt w' /\ inv w' /\ forall j, look w' j = upd (upd (upd (look w) src (Some None)) l (look w src)) (Tmp k) None j.
  Proof.
    intros -> I T L S0 N. unfold move_assign. unfold noexcept. unfold seq at 1.
    destruct (move_ok w (Tmp 0) src I (proj1 (look_disc _ _) T) (proj1 (look_disc' _ _) S0)) as (w1 & -> & I1 & K1).
    destruct (swap_tmp w1 0 l I1) as (w2 & -> & I2 & K2).
    - rewrite K1, upd_eq. exact S0.
    - rewrite K1, upd_neq by assumption. dl l src; [discriminate|exact L].
    - assumption.
    - eexists. split; [reflexivity|]. split; [exact I2|]. intros j. rewrite K2. dl j (Tmp 0); [reflexivity|]. dl j l; [now rewrite K1, ?upd_eq|].
      rewrite K1. now rewrite ?upd_neq by assumption.
  Qed.

  Definition clear (w : W) : Prop := forall k, look w (Tmp k) = None.
  Definition good (o : op V) (w : W) : Prop :=
    match exec promise torn thr noexc o w with
    | Ret r w' => inv w' /\ clear w' /\ answer o (abs w) = Some r /\ forall x, abs w' x = after o (abs w) x
    | Exn User w' => inv w' /\ clear w' /\ match after_throw torn o (abs w) with Some s => forall x, abs w' x = s x | None => False end /\ threw
    | Exn BadAccess w' => w' = w /\ answer o (abs w) = None
    | Term => may_terminate promise o = true /\ threw
    | Bad _ => False
    end.

  Lemma upd_put (f : loc -> option (option (nat * V))) x o y : upd f (Var x) o (Var y) = put (fun z => f (Var z)) x o y.
  Proof. unfold upd, put. reflexivity. Qed.
  Lemma declared_look (w : W) x : declared (abs w) x = true <-> look w (Var x) <> None.
  Proof. unfold declared, abs. destruct (look w (Var x)); split; congruence. Qed.
  Lemma undeclared_look (w : W) x : negb (declared (abs w) x) = true <-> look w (Var x) = None.
  Proof. unfold declared, abs. destruct (look w (Var x)); split; cbn; congruence. Qed.

  (* finish: a world whose look is known *)
  Ltac shape K := split; [intros k; rewrite K; repeat (rewrite upd_eq || rewrite upd_neq by discriminate); auto|];
    split; [reflexivity|]; let y := fresh "z" in intros y; unfold abs; cbn [after]; rewrite K; unfold upd, put, loc_eqb; repeat destruct (Nat.eqb y _); try reflexivity.
  Lemma exec_good o w : inv w -> clear w -> legal noexc o (abs w) = true -> good o w.
  Proof.
    intros I Cl Lg. unfold good. destruct o as [x|x y|x y|x t mv v|x t v|x|x y|x y|x t mv v|x t v|x|x y|x|x|x t|x t|x t v]; cbn [legal] in Lg;
      try (apply andb_prop in Lg as [Lg Lg2]); try apply declared_look in Lg; try apply undeclared_look in Lg; try apply declared_look in Lg2;
      cbn [exec]; unfold none; unfold seq at 1.
    - destruct (empty_ok w (Var x) I (proj1 (look_disc _ _) Lg)) as (w' & E & I' & K). unfold ctor_empty. rewrite E. split; [exact I'|]. shape K.
    - pose proof (copy_ok w (Var x) (Var y) I (proj1 (look_disc _ _) Lg) (proj1 (look_disc' _ _) Lg2)) as H.
      destruct (ctor_copy promise thr (Var x) (Var y) w) as [u w'|[] w'| |]; try contradiction.
      + destruct H as [I' K]. split; [exact I'|]. shape K.
      + destruct H as (I' & K & T). split; [exact I'|]. split; [intros k; rewrite K; auto|]. cbn [after_throw]. split; [intros z; unfold abs; apply K|exact T].
    - destruct (move_ok w (Var x) (Var y) I (proj1 (look_disc _ _) Lg) (proj1 (look_disc' _ _) Lg2)) as (w' & E & I' & K). rewrite E. split; [exact I'|]. shape K.
    - pose proof (fresh_ok w (Var x) t (kind mv) v I (proj1 (look_disc _ _) Lg)) as H. unfold ctor_value, noexcept.
      destruct ((_ <-- _ ;; _) w) as [u w'|[] w'| |]; try contradiction.
      + destruct H as [I' K]. split; [exact I'|]. shape K.
      + destruct H as (I' & K & P & T). split; [cbn [may_terminate]; unfold kind in P; now rewrite P|exact T].
    - unfold ctor_in_place. unfold temporary, step. unfold seq at 1. unfold seq at 1. destruct (thr (clk w) && negb (promise t KNew)) eqn:Th.
      + split; [now apply inv_tick|]. split; [exact Cl|]. cbn [after_throw]. split; [reflexivity|]. apply andb_prop in Th as [Th Pr]. apply negb_true_iff in Pr. split; eauto.
      + unfold ret at 1. pose proof (fresh_ok (tick w) (Var x) t KMove v (inv_tick w I) (proj1 (look_disc _ _) Lg)) as H.
        change (look (tick w)) with (look w) in H.
        destruct ((_ <-- _ ;; _) (tick w)) as [u w'|[] w'| |]; try contradiction.
        * destruct H as [I' K]. split; [exact I'|]. shape K.
        * destruct H as (I' & K & P & T). split; [exact I'|]. split; [intros k; rewrite K; exact (Cl k)|]. cbn [after_throw]. split; [intros z; exact (K (Var z))|exact T].
    - destruct (dtor_ok w (Var x) I Lg) as (w' & E & I' & K). rewrite E. split; [exact I'|]. shape K.
    - unfold copy_assign. unfold seq at 1. pose proof (copy_ok w (Tmp 0) (Var y) I (proj1 (look_disc _ _) (Cl 0)) (proj1 (look_disc' _ _) Lg2)) as H.
      destruct (ctor_copy promise thr (Tmp 0) (Var y) w) as [u w1|[] w1| |]; try contradiction.
      + destruct H as [I1 K1]. destruct (swap_tmp w1 0 (Var x) I1) as (w2 & -> & I2 & K2); [rewrite K1, upd_eq; exact Lg2|rewrite K1, upd_neq by discriminate; exact Lg|discriminate|].
        split; [exact I2|]. assert (K : forall j, look w2 j = upd (upd (look w) (Var x) (look w (Var y))) (Tmp 0) None j).
        { intros j. rewrite K2. dl j (Tmp 0); [reflexivity|]. dl j (Var x); [now rewrite K1, ?upd_eq|]. now rewrite K1, ?upd_neq by assumption. }
        split; [intros k; rewrite K; dl (Tmp k) (Tmp 0); [reflexivity|]; rewrite upd_neq by discriminate; auto|]. split; [reflexivity|].
        intros z. unfold abs at 1. rewrite K, upd_neq by discriminate. apply upd_put.
      + destruct H as (I' & K & T). split; [exact I'|]. split; [intros k; rewrite K; auto|]. cbn [after_throw]. split; [intros z; unfold abs; apply K|exact T].
    - destruct (move_assign_ok w (Var x) (Var y) 0 eq_refl I (Cl 0) Lg Lg2 ltac:(discriminate)) as (w2 & -> & I2 & K). split; [exact I2|].
      split; [intros k; rewrite K; dl (Tmp k) (Tmp 0); [reflexivity|]; rewrite !upd_neq by discriminate; auto|]. split; [reflexivity|].
      intros z. unfold abs at 1. rewrite K, upd_neq by discriminate. reflexivity.
    - unfold assign_value, ctor_value, noexcept. pose proof (fresh_ok w (Tmp 1) t (kind mv) v I (proj1 (look_disc _ _) (Cl 1))) as H. unfold seq at 1.
      destruct ((_ <-- _ ;; _) w) as [u w1|[] w1| |]; try contradiction.
      + destruct H as [I1 K1]. unfold finally.
        destruct (move_assign_ok w1 (Var x) (Tmp 1) 0 eq_refl I1) as (w2 & -> & I2 & K2); try discriminate.
        { rewrite K1, upd_neq by discriminate. apply Cl. } { rewrite K1, upd_neq by discriminate. exact Lg. } { rewrite K1, upd_eq. discriminate. }
        destruct (dtor_ok w2 (Tmp 1) I2) as (w3 & -> & I3 & K3).
        { rewrite K2. rewrite !upd_neq by discriminate. now rewrite ?upd_eq. }
        split; [exact I3|].
        assert (K : forall j, look w3 j = upd (upd (upd (look w) (Var x) (Some (Some (t, v)))) (Tmp 0) None) (Tmp 1) None j).
        { intros j. rewrite K3. dl j (Tmp 1); [reflexivity|]. rewrite K2. dl j (Tmp 0); [reflexivity|]. dl j (Var x); [now rewrite K1, ?upd_eq|]. rewrite upd_neq by assumption. rewrite K1. now rewrite ?upd_neq by assumption. }
        split; [intros k; rewrite K; dl (Tmp k) (Tmp 1); [reflexivity|]; dl (Tmp k) (Tmp 0); [reflexivity|]; rewrite upd_neq by discriminate; auto|]. split; [reflexivity|].
        intros z. unfold abs at 1. rewrite K, !upd_neq with (l := Tmp _) by discriminate. apply upd_put.
      + destruct H as (I' & K & P & T). split; [cbn [may_terminate]; unfold kind in P; now rewrite P|exact T].
    - unfold emplace. unfold temporary, step. unfold seq at 1. unfold seq at 1. destruct (thr (clk w) && negb (promise t KNew)) eqn:Th.
      + split; [now apply inv_tick|]. split; [exact Cl|]. cbn [after_throw]. split; [reflexivity|]. apply andb_prop in Th as [Th Pr]. apply negb_true_iff in Pr. split; eauto.
      + unfold ret at 1. unfold ctor_value, noexcept. pose proof (fresh_ok (tick w) (Tmp 0) t KMove v (inv_tick w I) (proj1 (look_disc _ _) (Cl 0))) as H. unfold seq at 1.
        change (look (tick w)) with (look w) in H.
        destruct ((_ <-- _ ;; _) (tick w)) as [u w1|[] w1| |]; try contradiction.
        * destruct H as [I1 K1]. destruct (swap_tmp w1 0 (Var x) I1) as (w2 & -> & I2 & K2); [rewrite K1, upd_eq; discriminate|rewrite K1, upd_neq by discriminate; exact Lg|discriminate|].
          split; [exact I2|]. assert (K : forall j, look w2 j = upd (upd (look w) (Var x) (Some (Some (t, v)))) (Tmp 0) None j).
          { intros j. rewrite K2. dl j (Tmp 0); [reflexivity|]. dl j (Var x); [now rewrite K1, ?upd_eq|]. now rewrite K1, ?upd_neq by assumption. }
          split; [intros k; rewrite K; dl (Tmp k) (Tmp 0); [reflexivity|]; rewrite upd_neq by discriminate; auto|]. split; [reflexivity|].
          intros z. unfold abs at 1. rewrite K, upd_neq by discriminate. apply upd_put.
        * destruct H as (I' & K & P & T). split; [cbn [may_terminate]; unfold kind in P; now rewrite P|exact T].
    - destruct (reset_ok w (Var x) I (proj1 (look_disc' _ _) Lg)) as (w' & E & I' & K). rewrite E. split; [exact I'|]. shape K.
    - destruct (swap_ok w (Var x) (Var y) I (proj1 (look_disc' _ _) Lg) (proj1 (look_disc' _ _) Lg2)) as (w' & E & I' & K). rewrite E. split; [exact I'|]. shape K.
    - unfold has_value, seq, get_disc, ret. cbn [answer after]. unfold abs, look in *. destruct (disc w (Var x)) as [[p|]|] eqn:Dx; [| |congruence].
      + pose proof (iptr w I _ _ Dx). destruct (objs w (Tmp p)); [|congruence]. exact (conj I (conj Cl (conj eq_refl (fun _ => eq_refl)))).
      + exact (conj I (conj Cl (conj eq_refl (fun _ => eq_refl)))).
    - unfold type, seq, get_disc, held, ret. cbn [answer after]. unfold abs, look in *. destruct (disc w (Var x)) as [[p|]|] eqn:Dx; [| |congruence].
      + pose proof (iptr w I _ _ Dx). destruct (objs w (Tmp p)) as [[t v]|]; [|congruence]. cbn [fst]. exact (conj I (conj Cl (conj eq_refl (fun _ => eq_refl)))).
      + exact (conj I (conj Cl (conj eq_refl (fun _ => eq_refl)))).
    - cbv [cast cast_ptr type to_ptr seq get_disc held ret]. cbn [answer after after_throw]. unfold holds, abs, look in *. destruct (disc w (Var x)) as [[p|]|] eqn:Dx; [| |congruence].
      + pose proof (iptr w I _ _ Dx). destruct (objs w (Tmp p)) as [[t' v]|] eqn:O; [|congruence]. cbn [fst]. destruct (Nat.eqb t' t) eqn:Et.
        * rewrite Dx. unfold read. rewrite O. rewrite (Nat.eqb_sym t t'), Et. cbv [temporary step seq ret]. destruct (thr (clk w) && negb (promise t KCopy)) eqn:Th.
          -- split; [now apply inv_tick|]. split; [exact Cl|]. split; [reflexivity|]. apply andb_prop in Th as [Th Pr]. apply negb_true_iff in Pr. split; eauto.
          -- split; [now apply inv_tick|]. split; [exact Cl|]. split; reflexivity.
        * cbn [option_map]. destruct noexc; [discriminate|]. cbn. split; reflexivity.
      + cbn [option_map]. destruct noexc; [discriminate|]. cbn. split; reflexivity.
    - cbv [peek cast_ptr type to_ptr seq get_disc held ret]. cbn [answer after after_throw]. unfold holds, abs, look in *. destruct (disc w (Var x)) as [[p|]|] eqn:Dx; [| |congruence].
      + pose proof (iptr w I _ _ Dx). destruct (objs w (Tmp p)) as [[t' v]|] eqn:O; [|congruence]. cbn [fst]. destruct (Nat.eqb t' t) eqn:Et.
        * rewrite Dx. unfold read. rewrite O. rewrite (Nat.eqb_sym t t'), Et. exact (conj I (conj Cl (conj eq_refl (fun _ => eq_refl)))).
        * exact (conj I (conj Cl (conj eq_refl (fun _ => eq_refl)))).
      + exact (conj I (conj Cl (conj eq_refl (fun _ => eq_refl)))).
    - cbv [poke cast_ptr type to_ptr seq get_disc held ret]. cbn [answer after after_throw]. unfold holds, abs, look in *. destruct (disc w (Var x)) as [[p|]|] eqn:Dx; [| |congruence].
      + pose proof (iptr w I _ _ Dx) as P. destruct (objs w (Tmp p)) as [[t' v']|] eqn:O; [|congruence]. cbn [fst]. destruct (Nat.eqb t' t) eqn:Et; [|exact (conj I (conj Cl (conj eq_refl (fun _ => eq_refl))))].
        rewrite Dx. apply Nat.eqb_eq in Et as ->.
        assert (G : forall nv, let w' := set_obj (Tmp p) (Some (t, nv)) (tick w) in inv w' /\ clear w' /\
          forall z, match disc w' (Var z) with None => None | Some None => Some None | Some (Some p) => Some (objs w' (Tmp p)) end = put (fun x => match disc w (Var x) with None => None | Some None => Some None | Some (Some p) => Some (objs w (Tmp p)) end) x (Some (Some (t, nv))) z).
        { intros nv w'. pose proof I as [A B C D E].
          assert (Sh : forall q, (objs w' (Tmp q) <> None <-> objs w (Tmp q) <> None) /\ live (objs w' (Tmp q)) = live (objs w (Tmp q))).
          { intros q. subst w'. cbn [set_obj tick objs]. destruct (loc_dec (Tmp q) (Tmp p)) as [Eq|Eq]; [injection Eq as ->; rewrite upd_eq, O; cbn; split; [split; discriminate|reflexivity]|rewrite upd_neq by assumption; tauto]. }
          split; [|split].
          - constructor; subst w'; cbn [set_obj tick disc objs clk made gone] in *; auto.
            + intros l q H. apply Sh. eapply A; eauto.
            + intros q H. apply Sh in H. destruct (C q H). split; [lia|assumption].
            + intros [z|q]; [rewrite upd_neq by discriminate; apply E|]. rewrite E. f_equal. symmetry. apply Sh.
          - intros k. specialize (Cl k). unfold look in *. subst w'. cbn [set_obj tick disc objs]. destruct (disc w (Tmp k)) as [[q|]|]; congruence.
          - intros z. subst w'. cbn [set_obj tick disc objs]. unfold put. destruct (Nat.eqb_spec z x) as [->|Nz]; [now rewrite Dx, upd_eq|].
            destruct (disc w (Var z)) as [[q|]|] eqn:Dz; try reflexivity. rewrite upd_neq; [reflexivity|]. intros [= ->]. pose proof (B _ _ _ Dx Dz). congruence. }
        unfold assign, read, step, write, read, seq. rewrite O, Nat.eqb_refl. cbn [tick objs]. destruct (thr (clk w) && negb (promise t KCopyAsg)) eqn:Th; cbn [objs set_obj tick]; rewrite O, Nat.eqb_refl.
        * destruct (G (torn v')) as (G1 & G2 & G3). split; [exact G1|]. split; [exact G2|]. split; [exact G3|]. apply andb_prop in Th as [Th Pr]. apply negb_true_iff in Pr. split; eauto.
        * destruct (G v) as (G1 & G2 & G3). split; [exact G1|]. split; [exact G2|]. split; [reflexivity|]. exact G3.
      + exact (conj I (conj Cl (conj eq_refl (fun _ => eq_refl)))).
  Qed.
End P.
