(** C91: with which deleter an object owned by unique_ptr<T, D> or unique_ptr<T, D&> is deleted. *)
From Coq Require Import List Arith Bool Lia.
From Verif Require Import Mem UrModel.
Import ListNotations.

(** [o] is owned by [x] and would now be deleted with [v]. *)
Definition owned (w : world) (x o v : nat) : Prop := exists c, vars w x = Some c /\ ptr c = Some o /\ get_deleter w x = Ok v.
(** [x] refers to the deleter object [d]. *)
Definition refers (w : world) (x d : nat) : Prop := exists c, vars w x = Some c /\ del c = Ref d.
(** The operation changes a deleter object that the owner [z] of another object refers to. *)
Definition disturbs (w : world) (i : op) (z : nat) : Prop :=
  exists d, refers w z d /\
  match i with
  | SetDel e _ | EndDel e => e = d
  | Assign x y => z <> x /\ z <> y /\ refers w x d
  | Swap x y => z <> x /\ z <> y /\ (refers w x d \/ refers w y d)
  | _ => False
  end.

Lemma upd_eq {A} (f : nat -> A) x v : upd f x v x = v.
Proof. unfold upd. now rewrite Nat.eqb_refl. Qed.
Lemma upd_neq {A} (f : nat -> A) x v y : y <> x -> upd f x v y = f y.
Proof. intro H. unfold upd. destruct (Nat.eqb_spec y x); [contradiction|reflexivity]. Qed.

Record Inv (w : world) : Prop := {
  i_own : forall x y c e o, vars w x = Some c -> vars w y = Some e -> ptr c = Some o -> ptr e = Some o -> x = y;
  i_old : forall x c o, vars w x = Some c -> ptr c = Some o -> o < nobj w;
  i_log : forall o v, In (o, v) (log w) -> o < nobj w;
  i_gone : forall x c o v, vars w x = Some c -> ptr c = Some o -> ~ In (o, v) (log w);
  i_once : NoDup (map fst (log w)) }.

(** What [reset] does, spelled out. *)
Lemma reset_spec w x p w' : reset w x p = Ok w' -> exists c, vars w x = Some c /\ nobj w' = nobj w /\ dels w' = dels w /\ vars w' = upd (vars w) x (Some (Cell p (del c))) /\
  match ptr c with Some o => exists v, get_deleter w x = Ok v /\ log w' = log w ++ [(o, v)] | None => log w' = log w end.
Proof.
  unfold reset, var. destruct (vars w x) as [c|] eqn:E; [|discriminate]. cbn [bind]. intro H. exists c. split; [reflexivity|]. destruct (ptr c) as [o|].
  - unfold get_deleter, var, deleter_object in *. cbn [vars set_var dels] in H. rewrite upd_eq in H. rewrite E. cbn [bind del] in *. destruct (del c) as [v|d]; cbn [bind] in *.
    + injection H as <-. cbn. repeat split; eauto.
    + destruct (dels w d) as [v|]; [|discriminate]. cbn [bind] in *. injection H as <-. cbn. repeat split; eauto.
  - injection H as <-. cbn. repeat split.
Qed.

Ltac res_step H :=
  match type of H with
  | bind ?m _ = Ok _ => let E := fresh "E" in destruct m eqn:E; cbn [bind] in H; try discriminate H
  end.
Lemma var_ok w x c : var w x = Ok c -> vars w x = Some c.
Proof. unfold var. destruct (vars w x); congruence. Qed.
Lemma fresh_ok w x u : UrModel.fresh w x = Ok u -> vars w x = None.
Proof. unfold UrModel.fresh. destruct (vars w x); congruence. Qed.
Lemma release_ok w x p w1 : release w x = Ok (p, w1) -> exists c, vars w x = Some c /\ p = ptr c /\ w1 = set_var w x (Some (Cell None (del c))).
Proof. unfold release. intro H. res_step H. injection H as <- <-. apply var_ok in E. eauto. Qed.
(** get_deleter depends on what the variable stores and, for references, on the deleter objects *)
Definition value (dels : nat -> option nat) (d : dref) : res nat := match d with Own v => Ok v | Ref d => match dels d with Some v => Ok v | None => UB UseAfterFree end end.
Lemma get_value w x c : vars w x = Some c -> get_deleter w x = value (dels w) (del c).
Proof. unfold get_deleter, var, value, deleter_object. intros ->. reflexivity. Qed.
Lemma get_ok w x v : get_deleter w x = Ok v -> exists c, vars w x = Some c /\ value (dels w) (del c) = Ok v.
Proof. intro H. destruct (vars w x) as [c|] eqn:E; [|unfold get_deleter, var in H; rewrite E in H; discriminate]. exists c. split; [reflexivity|]. now rewrite <- (get_value w x c E). Qed.
Lemma assign_ok w x v w' : assign_deleter w x v = Ok w' -> exists c, vars w x = Some c /\ nobj w' = nobj w /\ log w' = log w /\
  match del c with
  | Own _ => vars w' = upd (vars w) x (Some (Cell (ptr c) (Own v))) /\ dels w' = dels w
  | Ref d => dels w d <> None /\ vars w' = vars w /\ dels w' = upd (dels w) d (Some v)
  end.
Proof.
  unfold assign_deleter. intro H. res_step H. apply var_ok in E. rename a into c. exists c. split; [exact E|]. destruct (del c) as [u|d].
  - injection H as <-. cbn. auto.
  - unfold deleter_object in H. destruct (dels w d) eqn:D; [|discriminate]. cbn in H. injection H as <-. cbn. repeat split. congruence.
Qed.

(** One operation, as a transition of the four components. *)
Lemma reset_inv w x p w' : Inv w -> reset w x p = Ok w' ->
  match p with None => True | Some o => (forall y c, vars w y = Some c -> ptr c <> Some o) /\ o < nobj w /\ (forall v, ~ In (o, v) (log w)) end -> Inv w'.
Proof.
  intros [I1 I2 I3 I4 I5] H Hp. destruct (reset_spec w x p w' H) as (c & Ec & En & Ed & Ev & El).
  assert (L : forall o v, In (o, v) (log w') -> In (o, v) (log w) \/ ptr c = Some o).
  { intros o v Hi. destruct (ptr c) as [o1|]; [destruct El as (v1 & _ & El)|]; rewrite El in Hi; [|auto]. apply in_app_or in Hi. destruct Hi as [Hi|[Hi|[]]]; [auto|]. injection Hi as -> ->. auto. }
  assert (P : forall y e o, vars w' y = Some e -> ptr e = Some o -> (y = x /\ p = Some o) \/ (y <> x /\ vars w y = Some e)).
  { intros y e o Hy Ho. rewrite Ev in Hy. destruct (Nat.eq_dec y x) as [->|N]; [rewrite upd_eq in Hy; injection Hy as <-; auto|rewrite upd_neq in Hy by exact N; auto]. }
  constructor.
  - intros y z e f o Hy Hz Ho Ho'. destruct (P y e o Hy Ho) as [(-> & Py)|(Ny & Py)], (P z f o Hz Ho') as [(-> & Pz)|(Nz & Pz)]; auto.
    + rewrite Py in Hp. destruct Hp as (Hp & _). now destruct (Hp _ _ Pz).
    + rewrite Pz in Hp. destruct Hp as (Hp & _). now destruct (Hp _ _ Py).
    + exact (I1 y z e f o Py Pz Ho Ho').
  - intros y e o Hy Ho. rewrite En. destruct (P y e o Hy Ho) as [(-> & Py)|(Ny & Py)]; [rewrite Py in Hp; apply Hp|exact (I2 y e o Py Ho)].
  - intros o v Hi. rewrite En. destruct (L o v Hi) as [Hi'|Hi']; [exact (I3 o v Hi')|exact (I2 x c o Ec Hi')].
  - intros y e o v Hy Ho Hi. destruct (P y e o Hy Ho) as [(-> & Py)|(Ny & Py)].
    + rewrite Py in Hp. destruct Hp as (Hp1 & _ & Hp). destruct (L o v Hi) as [Hi'|Hi']; [now apply Hp in Hi'|now apply (Hp1 x c Ec)].
    + destruct (L o v Hi) as [Hi'|Hi']; [exact (I4 y e o v Py Ho Hi')|]. apply Ny. exact (I1 y x e c o Py Ec Ho Hi').
  - destruct (ptr c) as [o|] eqn:Pc; [destruct El as (v & _ & El)|]; rewrite El; [|exact I5]. rewrite map_app. cbn. apply NoDup_rev in I5. rewrite <- (rev_involutive (map fst (log w) ++ [o])). apply NoDup_rev. rewrite rev_app_distr. cbn. constructor; [|exact I5].
    rewrite <- in_rev. intros Hi. apply in_map_iff in Hi. destruct Hi as ([o' v'] & Eo & Hi). cbn in Eo. subst o'. exact (I4 x c o v' Ec Pc Hi).
Qed.

Lemma inv_map w w' (f : nat -> nat) x0 : Inv w -> log w' = log w -> nobj w <= nobj w' -> (forall a b, f a = f b -> a = b) ->
  (forall y e o, vars w' y = Some e -> ptr e = Some o -> (exists c, vars w (f y) = Some c /\ ptr c = Some o) \/ (o = nobj w /\ y = x0 /\ nobj w < nobj w')) -> Inv w'.
Proof.
  intros [I1 I2 I3 I4 I5] L N F P. constructor.
  - intros x y c e o Hx Hy Ho Ho'. destruct (P x c o Hx Ho) as [(c1 & Hc & Pc)|(X0 & Y0 & _)], (P y e o Hy Ho') as [(c2 & He & Pe)|(X & Y & _)]; try congruence.
    + apply F. exact (I1 _ _ _ _ o Hc He Pc Pe).
    + pose proof (I2 _ _ _ Hc Pc). lia.
    + pose proof (I2 _ _ _ He Pe). lia.
  - intros x c o Hx Ho. destruct (P x c o Hx Ho) as [(c1 & Hc & Pc)|(-> & -> & ?)]; [pose proof (I2 _ _ _ Hc Pc)|]; lia.
  - intros o v Hi. rewrite L in Hi. specialize (I3 o v Hi). lia.
  - intros x c o v Hx Ho Hi. rewrite L in Hi. destruct (P x c o Hx Ho) as [(c1 & Hc & Pc)|(-> & -> & ?)]; [exact (I4 _ _ _ _ Hc Pc Hi)|]. specialize (I3 _ _ Hi). lia.
  - now rewrite L.
Qed.
Definition swp (x y a : nat) : nat := if a =? x then y else if a =? y then x else a.
Lemma swp_inj x y a b : swp x y a = swp x y b -> a = b.
Proof. unfold swp. destruct (Nat.eqb_spec a x), (Nat.eqb_spec a y), (Nat.eqb_spec b x), (Nat.eqb_spec b y); congruence. Qed.
Lemma inv_same w w' : Inv w -> log w' = log w -> nobj w' = nobj w -> (forall y e o, vars w' y = Some e -> ptr e = Some o -> exists c, vars w y = Some c /\ ptr c = Some o) -> Inv w'.
Proof. intros I L N P. apply (inv_map w w' (fun a => a) 0); auto; [lia|]. intros y e o Hy Ho. left. eauto. Qed.
Lemma assign_inv w x v w' : Inv w -> assign_deleter w x v = Ok w' -> Inv w'.
Proof.
  intros I H. destruct (assign_ok _ _ _ _ H) as (c & Ec & En & El & E). apply (inv_same w w'); auto. intros y e o Hy Ho. destruct (del c) as [u|d].
  - destruct E as (Ev & _). rewrite Ev in Hy. destruct (Nat.eq_dec y x) as [->|N]; [rewrite upd_eq in Hy; injection Hy as <-; eauto|rewrite upd_neq in Hy by exact N; eauto].
  - destruct E as (_ & Ev & _). rewrite Ev in Hy. eauto.
Qed.
Lemma swap_inv w x y c e : Inv w -> vars w x = Some c -> vars w y = Some e -> Inv (set_var (set_var w x (Some (Cell (ptr e) (del c)))) y (Some (Cell (ptr c) (del e)))).
Proof.
  intros I Ec Ee. apply (inv_map w _ (swp x y) 0 I); [reflexivity|apply Nat.le_refl|apply swp_inj|]. cbn [vars set_var]. intros z f o Hz Ho. left. unfold swp.
  destruct (Nat.eqb_spec z x) as [->|Nx].
  - destruct (Nat.eq_dec x y) as [->|N]; [rewrite upd_eq in Hz; injection Hz as <-; cbn in Ho; rewrite Ec in Ee; injection Ee as <-; eauto|]. rewrite upd_neq, upd_eq in Hz by exact N. injection Hz as <-. eauto.
  - destruct (Nat.eqb_spec z y) as [->|Ny]; [rewrite upd_eq in Hz; injection Hz as <-; eauto|]. rewrite !upd_neq in Hz by assumption. eauto.
Qed.
(** new T, release *)
Lemma new_inv w : Inv w -> Inv (snd (new w)).
Proof. intro I. apply (inv_map w _ (fun a => a) 0 I); [reflexivity|cbn; lia|auto|]. cbn. intros y e o Hy Ho. left. eauto. Qed.
Lemma release_inv w x c : Inv w -> vars w x = Some c -> Inv (set_var w x (Some (Cell None (del c)))).
Proof.
  intros I Ec. apply (inv_same w _ I); [reflexivity|reflexivity|]. cbn. intros y e o Hy Ho. destruct (Nat.eq_dec y x) as [->|N]; [rewrite upd_eq in Hy; injection Hy as <-; discriminate Ho|rewrite upd_neq in Hy by exact N; eauto].
Qed.

Lemma step_inv w i w' : Inv w -> step w i = Ok w' -> Inv w'.
Proof.
  intros I H. destruct i as [x v|x d|x y|x y|x y|x y|x|x|x|x|d v|d v|d]; cbn [step] in H; unfold new in H; cbn iota in H; repeat res_step H.
  - injection H as <-. apply fresh_ok in E. apply (inv_map w _ (fun a => a) x I); [reflexivity|cbn; lia|auto|]. cbn. intros y e o Hy Ho. destruct (Nat.eq_dec y x) as [->|N]; [rewrite upd_eq in Hy; injection Hy as <-; injection Ho as <-; right; repeat split; lia|rewrite upd_neq in Hy by exact N; left; eauto].
  - injection H as <-. apply fresh_ok in E. apply (inv_map w _ (fun a => a) x I); [reflexivity|cbn; lia|auto|]. cbn. intros y e o Hy Ho. destruct (Nat.eq_dec y x) as [->|N]; [rewrite upd_eq in Hy; injection Hy as <-; injection Ho as <-; right; repeat split; lia|rewrite upd_neq in Hy by exact N; left; eauto].
  - destruct a0 as [p w1]. res_step H. injection H as <-. apply fresh_ok in E. destruct (release_ok _ _ _ _ E0) as (c & Ec & -> & ->). apply (inv_map w _ (swp x y) 0 I); [reflexivity|apply Nat.le_refl|apply swp_inj|]. cbn [vars set_var]. intros z e o Hz Ho. left. unfold swp.
    destruct (Nat.eqb_spec z x) as [->|Nx]; [rewrite upd_eq in Hz; injection Hz as <-; cbn in Ho; eauto|]. rewrite upd_neq in Hz by exact Nx. destruct (Nat.eqb_spec z y) as [->|Ny]; [rewrite upd_eq in Hz; injection Hz as <-; discriminate Ho|]. rewrite upd_neq in Hz by exact Ny. eauto.
  - destruct a0 as [p w1]. res_step H. injection H as <-. apply fresh_ok in E. destruct (release_ok _ _ _ _ E0) as (c & Ec & -> & ->). apply (inv_map w _ (swp x y) 0 I); [reflexivity|apply Nat.le_refl|apply swp_inj|]. cbn [vars set_var]. intros z e o Hz Ho. left. unfold swp.
    destruct (Nat.eqb_spec z x) as [->|Nx]; [rewrite upd_eq in Hz; injection Hz as <-; cbn in Ho; eauto|]. rewrite upd_neq in Hz by exact Nx. destruct (Nat.eqb_spec z y) as [->|Ny]; [rewrite upd_eq in Hz; injection Hz as <-; discriminate Ho|]. rewrite upd_neq in Hz by exact Ny. eauto.
  - destruct a as [p w1]. repeat res_step H. eapply assign_inv; [|exact H]. destruct (release_ok _ _ _ _ E) as (c & Ec & -> & ->). eapply reset_inv; [apply release_inv; eassumption|exact E0|]. destruct (ptr c) as [o|] eqn:Pc; [|exact Logic.I].
    split; [|split; [cbn; exact (i_old _ I _ _ _ Ec Pc)|intro v; cbn; exact (i_gone _ I _ _ _ v Ec Pc)]]. cbn. intros z e Hz Ho. destruct (Nat.eq_dec z y) as [->|N]; [rewrite upd_eq in Hz; injection Hz as <-; discriminate Ho|]. rewrite upd_neq in Hz by exact N. apply N. exact (i_own _ I _ _ _ _ o Hz Ec Ho Pc).
  - apply var_ok in E. apply var_ok in E0. destruct (del a) eqn:Da, (del a0) eqn:Db; try discriminate H; repeat res_step H; (eapply assign_inv; [|exact H]; eapply assign_inv; [|eassumption]; rewrite <- Da, <- Db; now apply swap_inv).
  - destruct (reset_spec _ _ _ _ H) as (c & Ec & _). eapply reset_inv; [exact (new_inv w I)|exact H|]. cbn. split; [|split; [lia|]]; [intros y e Hy Ho; pose proof (i_old _ I _ _ _ Hy Ho); lia|intros v Hi; pose proof (i_log _ I _ _ Hi); lia].
  - eapply reset_inv; [exact I|exact H|exact Logic.I].
  - destruct a as [p w1]. injection H as <-. destruct (release_ok _ _ _ _ E) as (c & Ec & -> & ->). now apply release_inv.
  - injection H as <-. assert (I1 : Inv a) by (eapply reset_inv; [exact I|exact E|exact Logic.I]). apply (inv_same a _ I1); [reflexivity|reflexivity|]. cbn. intros y e o Hy Ho. destruct (Nat.eq_dec y x) as [->|N]; [rewrite upd_eq in Hy; discriminate Hy|rewrite upd_neq in Hy by exact N; eauto].
  - destruct (dels w d); [discriminate H|]. injection H as <-. apply (inv_same w _ I); [reflexivity|reflexivity|eauto].
  - injection H as <-. apply (inv_same w _ I); [reflexivity|reflexivity|eauto].
  - injection H as <-. apply (inv_same w _ I); [reflexivity|reflexivity|eauto].
Qed.

(** What is deleted in a step, and by which deleter. *)
Lemma step_log w i w' : step w i = Ok w' -> log w' = log w \/ exists z o v, owned w z o v /\ log w' = log w ++ [(o, v)].
Proof.
  assert (R : forall w0 x p w1, reset w0 x p = Ok w1 -> log w1 = log w0 \/ exists o v, owned w0 x o v /\ log w1 = log w0 ++ [(o, v)]).
  { intros w0 x p w1 H. destruct (reset_spec _ _ _ _ H) as (c & Ec & _ & _ & _ & El). destruct (ptr c) as [o|] eqn:Pc; [|auto]. destruct El as (v & G & El). right. exists o, v. split; [exists c; auto|exact El]. }
  intros H. destruct i as [x v|x d|x y|x y|x y|x y|x|x|x|x|d v|d v|d]; cbn [step] in H; unfold new in H; cbn iota in H; repeat res_step H.
  - injection H as <-. auto.
  - injection H as <-. auto.
  - destruct a0 as [p w1]. res_step H. injection H as <-. destruct (release_ok _ _ _ _ E0) as (c & Ec & -> & ->). auto.
  - destruct a0 as [p w1]. res_step H. injection H as <-. destruct (release_ok _ _ _ _ E0) as (c & Ec & -> & ->). auto.
  - destruct a as [p w1]. repeat res_step H. destruct (assign_ok _ _ _ _ H) as (_ & _ & _ & -> & _). destruct (release_ok _ _ _ _ E) as (c & Ec & -> & ->). destruct (R _ _ _ _ E0) as [L|(o & v & (e & Hx & Po & G) & L)]; [auto|]. right. exists x, o, v. split; [|exact L].
    cbn [vars set_var] in Hx. destruct (Nat.eq_dec x y) as [->|N]; [rewrite upd_eq in Hx; injection Hx as <-; discriminate Po|]. rewrite upd_neq in Hx by exact N. exists e. split; [exact Hx|]. split; [exact Po|]. rewrite (get_value _ _ e) in G by (cbn; now rewrite upd_neq). rewrite (get_value _ _ e Hx). exact G.
  - destruct (del a), (del a0); try discriminate H; repeat res_step H; destruct (assign_ok _ _ _ _ H) as (_ & _ & _ & -> & _); destruct (assign_ok _ _ _ _ E3) as (_ & _ & _ & -> & _); auto.
  - destruct (R _ _ _ _ H) as [L|(o & v & O & L)]; [auto|]. right. exists x, o, v. split; [|exact L]. destruct O as (e & Hx & Po & G). exists e. auto.
  - destruct (R _ _ _ _ H) as [L|(o & v & O & L)]; [auto|]. right. exists x, o, v. split; [|exact L]. exact O.
  - destruct a as [p w1]. injection H as <-. destruct (release_ok _ _ _ _ E) as (c & Ec & -> & ->). auto.
  - injection H as <-. cbn. destruct (R _ _ _ _ E) as [L|(o & v & O & L)]; [auto|]. right. exists x, o, v. auto.
  - destruct (dels w d); [discriminate H|]. injection H as <-. auto.
  - injection H as <-. auto.
  - injection H as <-. auto.
Qed.

Lemma owned_intro w z c o v : vars w z = Some c -> ptr c = Some o -> value (dels w) (del c) = Ok v -> owned w z o v.
Proof. intros E P V. exists c. rewrite (get_value _ _ _ E). auto. Qed.
Lemma owned_elim w z o v : owned w z o v -> exists c, vars w z = Some c /\ ptr c = Some o /\ value (dels w) (del c) = Ok v.
Proof. intros (c & E & P & V). exists c. rewrite (get_value _ _ _ E) in V. auto. Qed.
Lemma value_same f g d v : value f d = Ok v -> (forall k, d = Ref k -> g k = f k) -> value g d = Ok v.
Proof. destruct d as [u|k]; cbn; [auto|]. intros H E. now rewrite (E k eq_refl). Qed.

(** After the deleter of [x] has been assigned, it is the new one; other deleters are kept unless they are the same deleter object. *)
Lemma assign_after w x u w' : assign_deleter w x u = Ok w' -> forall c, vars w x = Some c ->
  (exists c', vars w' x = Some c' /\ ptr c' = ptr c /\ value (dels w') (del c') = Ok u /\ (forall d, del c' = Ref d <-> del c = Ref d)) /\
  (forall z e, z <> x -> vars w z = Some e -> vars w' z = Some e) /\
  (forall k, (forall d, del c = Ref d -> k <> d) -> dels w' k = dels w k) /\ (forall d, del c = Ref d -> dels w' d = Some u) /\ (forall z, vars w z = None -> vars w' z = None).
Proof.
  intros H c Ec. destruct (assign_ok _ _ _ _ H) as (c0 & E0 & _ & _ & R). rewrite Ec in E0. injection E0 as <-. destruct (del c) as [v|d] eqn:D.
  - destruct R as (Rv & Rd). split; [|split; [|split; [|split]]].
    + exists (Cell (ptr c) (Own u)). rewrite Rv, upd_eq. repeat split; discriminate.
    + intros z e N Ez. now rewrite Rv, upd_neq.
    + intros k _. now rewrite Rd.
    + discriminate.
    + intros z Ez. rewrite Rv, upd_neq; [exact Ez|congruence].
  - destruct R as (_ & Rv & Rd). split; [|split; [|split; [|split]]].
    + exists c. rewrite Rv, Rd, D. cbn. rewrite upd_eq. repeat split; auto.
    + intros z e _ Ez. now rewrite Rv.
    + intros k N. rewrite Rd, upd_neq; [reflexivity|]. now apply N.
    + intros d0 [= <-]. now rewrite Rd, upd_eq.
    + intros z Ez. now rewrite Rv.
Qed.
Lemma reset_keeps w x p w' z o v : reset w x p = Ok w' -> owned w z o v -> (z <> x /\ owned w' z o v) \/ (z = x /\ log w' = log w ++ [(o, v)]).
Proof.
  intros H O. destruct (owned_elim _ _ _ _ O) as (c & Ez & Po & V). destruct (reset_spec _ _ _ _ H) as (e & Ex & _ & Ed & Ev & El). destruct (Nat.eq_dec z x) as [->|N].
  - right. split; [reflexivity|]. rewrite Ez in Ex. injection Ex as <-. rewrite Po in El. destruct El as (v' & G & El). rewrite (get_value _ _ _ Ez), V in G. injection G as <-. exact El.
  - left. split; [exact N|]. apply (owned_intro _ _ c); [now rewrite Ev, upd_neq|exact Po|now rewrite Ed].
Qed.

Lemma step_keeps w i w' z o v : step w i = Ok w' -> owned w z o v -> ~ disturbs w i z -> (exists z', owned w' z' o v) \/ log w' = log w ++ [(o, v)] \/ i = Release z.
Proof.
  intros H O ND. destruct (owned_elim _ _ _ _ O) as (cz & Ez & Po & V). destruct i as [x u|x d|x y|x y|x y|x y|x|x|x|x|d u|d u|d]; cbn [step] in H; unfold new in H; cbn iota in H; repeat res_step H.
  - injection H as <-. apply fresh_ok in E. left. exists z. apply (owned_intro _ _ cz); [|exact Po|exact V]. cbn. rewrite upd_neq; [exact Ez|congruence].
  - injection H as <-. apply fresh_ok in E. left. exists z. apply (owned_intro _ _ cz); [|exact Po|exact V]. cbn. rewrite upd_neq; [exact Ez|congruence].
  - destruct a0 as [p w1]. res_step H. injection H as <-. apply fresh_ok in E. destruct (release_ok _ _ _ _ E0) as (c & Ec & -> & ->). apply var_ok in E1. cbn [vars set_var] in E1. rewrite upd_eq in E1. injection E1 as <-. left. destruct (Nat.eq_dec z y) as [->|N].
    + exists x. rewrite Ez in Ec. injection Ec as <-. apply (owned_intro _ _ (Cell (ptr cz) (del cz))); [cbn; now rewrite upd_eq|exact Po|exact V].
    + exists z. apply (owned_intro _ _ cz); [|exact Po|exact V]. cbn. rewrite !upd_neq; [exact Ez|exact N|congruence].
  - destruct a0 as [p w1]. res_step H. injection H as <-. apply fresh_ok in E. destruct (release_ok _ _ _ _ E0) as (c & Ec & -> & ->). rewrite (get_value _ _ (Cell None (del c))) in E1 by (cbn; now rewrite upd_eq). cbn in E1. left. destruct (Nat.eq_dec z y) as [->|N].
    + exists x. rewrite Ez in Ec. injection Ec as <-. unfold value in V, E1. apply (owned_intro _ _ (Cell (ptr cz) (Own a0))); [cbn; now rewrite upd_eq|exact Po|]. cbn. cbn in E1. rewrite <- E1. exact V.
    + exists z. apply (owned_intro _ _ cz); [|exact Po|exact V]. cbn. rewrite !upd_neq; [exact Ez|exact N|congruence].
  - destruct a as [p w1]. repeat res_step H. rename a into w2, a0 into u. destruct (release_ok _ _ _ _ E) as (c & Ec & -> & ->). destruct (reset_spec _ _ _ _ E0) as (e & Ex & _ & Ed & Ev & El). cbn [vars set_var dels log] in *.
    assert (Ex2 : vars w2 x = Some (Cell (ptr c) (del e))) by (rewrite Ev; apply upd_eq). destruct (assign_after _ _ _ _ H _ Ex2) as ((c' & Ec' & Pc' & Vc' & _) & Ko & Kd & _ & _). cbn in Pc'.
    assert (Vy : vars w2 y = Some (if y =? x then Cell (ptr c) (del e) else Cell None (del c))). { rewrite Ev. destruct (Nat.eqb_spec y x) as [->|N]; [apply upd_eq|rewrite upd_neq by exact N; apply upd_eq]. }
    assert (U : value (dels w) (del c) = Ok u).
    { rewrite (get_value _ _ _ Vy) in E1. rewrite Ed in E1. destruct (Nat.eqb_spec y x) as [->|N]; [|exact E1]. rewrite upd_eq in Ex. injection Ex as <-. exact E1. }
    destruct (Nat.eq_dec z y) as [->|Ny].
    + rewrite Ez in Ec. injection Ec as <-. left. exists x. apply (owned_intro _ _ c'); [exact Ec'|congruence|congruence].
    + destruct (Nat.eq_dec z x) as [->|Nx].
      * right. left. destruct (assign_ok _ _ _ _ H) as (_ & _ & _ & -> & _). rewrite upd_neq in Ex by exact Ny. rewrite Ez in Ex. injection Ex as <-. rewrite Po in El. destruct El as (v' & G & El). rewrite El. f_equal. f_equal. f_equal.
        rewrite (get_value _ _ cz) in G by (cbn; now rewrite upd_neq). cbn in G. rewrite V in G. now injection G.
      * left. exists z. apply (owned_intro _ _ cz); [apply Ko; [exact Nx|]; rewrite Ev, upd_neq by exact Nx; now rewrite upd_neq|exact Po|]. apply (value_same (dels w)); [exact V|]. intros k Hk. rewrite Kd; [now rewrite Ed|]. cbn. intros d Hd ->.
        apply ND. exists d. split; [exists cz; auto|]. repeat split; auto. destruct (Nat.eq_dec x y) as [->|Nxy]; [rewrite upd_eq in Ex; injection Ex as <-; exists c; auto|rewrite upd_neq in Ex by exact Nxy; exists e; auto].
  - apply var_ok in E. apply var_ok in E0. rename a into c, a0 into e.
    assert (G : exists v1 u1 w2, get_deleter (set_var (set_var w x (Some (Cell (ptr e) (del c)))) y (Some (Cell (ptr c) (del e)))) x = Ok v1 /\ get_deleter (set_var (set_var w x (Some (Cell (ptr e) (del c)))) y (Some (Cell (ptr c) (del e)))) y = Ok u1 /\
       assign_deleter (set_var (set_var w x (Some (Cell (ptr e) (del c)))) y (Some (Cell (ptr c) (del e)))) x u1 = Ok w2 /\ assign_deleter w2 y v1 = Ok w' /\ ((exists a b, del c = Own a /\ del e = Own b) \/ (exists a b, del c = Ref a /\ del e = Ref b))).
    { destruct (del c) eqn:Dc, (del e) eqn:De; try discriminate H; repeat res_step H; do 3 eexists; repeat (split; [first [reflexivity|eassumption]|]); first [left; do 2 eexists; split; reflexivity|right; do 2 eexists; split; reflexivity]. }
    clear H. destruct G as (v1 & u1 & w2 & G1 & G2 & A1 & A2 & K). set (w1 := set_var (set_var w x (Some (Cell (ptr e) (del c)))) y (Some (Cell (ptr c) (del e)))) in *.
    assert (Vy : vars w1 y = Some (Cell (ptr c) (del e))) by apply upd_eq.
    assert (Vx : vars w1 x = Some (Cell (ptr e) (del c))). { cbn. destruct (Nat.eq_dec x y) as [->|N]; [rewrite upd_eq; rewrite E in E0; injection E0 as <-; reflexivity|rewrite upd_neq by exact N; apply upd_eq]. }
    rewrite (get_value _ _ _ Vx) in G1. rewrite (get_value _ _ _ Vy) in G2. cbn [del dels set_var w1] in G1, G2.
    destruct (assign_after _ _ _ _ A1 _ Vx) as ((cx & Ex & Px & Vlx & Rx) & K1o & K1d & K1r & _). cbn [ptr del] in *.
    assert (Y2 : exists cy, vars w2 y = Some cy /\ ptr cy = ptr c /\ (forall d, del cy = Ref d <-> del e = Ref d)).
    { destruct (Nat.eq_dec y x) as [->|N]; [|eexists; split; [exact (K1o y _ N Vy)|split; [reflexivity|tauto]]]. rewrite E in E0. injection E0 as <-. exists cx. auto. }
    destruct Y2 as (cy & Ey2 & Py2 & Ry2). destruct (assign_after _ _ _ _ A2 _ Ey2) as ((cy' & Ey & Py & Vly & Ry) & K2o & K2d & K2r & _).
    left. destruct (Nat.eq_dec z x) as [->|Nx].
    + rewrite Ez in E. injection E as <-. rewrite G1 in V. injection V as ->. exists y. apply (owned_intro _ _ cy'); congruence.
    + destruct (Nat.eq_dec z y) as [->|Ny].
      * rewrite Ez in E0. injection E0 as <-. rewrite G2 in V. injection V as ->. exists x. apply (owned_intro _ _ cx); [apply K2o; [congruence|exact Ex]|congruence|].
        destruct K as [(a & b & Ka & Kb)|(a & b & Ka & Kb)].
        -- apply (value_same (dels w2)); [exact Vlx|]. intros k Hk. apply Rx in Hk. congruence.
        -- assert (Hcx : del cx = Ref a) by now apply Rx. rewrite Hcx. cbn. destruct (Nat.eq_dec a b) as [->|Nab].
           ++ rewrite (K2r b) by now apply Ry2. rewrite Ka, Kb in *. cbn in G1, G2. congruence.
           ++ rewrite K2d; [now rewrite (K1r a Ka)|]. intros d Hd. apply Ry2 in Hd. congruence.
      * exists z. apply (owned_intro _ _ cz); [apply K2o; [exact Ny|]; apply K1o; [exact Nx|]; cbn; now rewrite !upd_neq|exact Po|]. apply (value_same (dels w)); [exact V|]. intros k Hk.
        rewrite K2d; [rewrite K1d; [reflexivity|]|]; intros d Hd ->; [|apply Ry2 in Hd]; apply ND; exists d; (split; [exists cz; auto|]); repeat split; auto; [left; exists c|right; exists e]; auto.
  - assert (O' : owned (snd (new w)) z o v) by (apply (owned_intro _ _ cz); [exact Ez|exact Po|exact V]). destruct (reset_keeps _ _ _ _ _ _ _ H O') as [(_ & K)|(_ & K)]; [left; eauto|right; left; exact K].
  - destruct (reset_keeps _ _ _ _ _ _ _ H O) as [(_ & K)|(_ & K)]; [left; eauto|right; left; exact K].
  - destruct a as [p w1]. injection H as <-. destruct (release_ok _ _ _ _ E) as (c & Ec & -> & ->). destruct (Nat.eq_dec z x) as [->|N]; [auto|]. left. exists z. apply (owned_intro _ _ cz); [cbn; now rewrite upd_neq|exact Po|exact V].
  - injection H as <-. destruct (reset_keeps _ _ _ _ _ _ _ E O) as [(N & K)|(_ & K)]; [|right; left; exact K]. left. exists z. destruct (owned_elim _ _ _ _ K) as (c1 & A & B & C). apply (owned_intro _ _ c1); [cbn; now rewrite upd_neq|exact B|exact C].
  - destruct (dels w d) eqn:D; [discriminate H|]. injection H as <-. left. exists z. apply (owned_intro _ _ cz); [exact Ez|exact Po|]. apply (value_same (dels w)); [exact V|]. intros k Hk. cbn. rewrite upd_neq; [reflexivity|]. intros ->. rewrite Hk in V. cbn in V. rewrite D in V. discriminate V.
  - injection H as <-. left. exists z. apply (owned_intro _ _ cz); [exact Ez|exact Po|]. apply (value_same (dels w)); [exact V|]. intros k Hk. cbn. rewrite upd_neq; [reflexivity|]. intros ->. apply ND. exists d. split; [exists cz; auto|reflexivity].
  - injection H as <-. left. exists z. apply (owned_intro _ _ cz); [exact Ez|exact Po|]. apply (value_same (dels w)); [exact V|]. intros k Hk. cbn. rewrite upd_neq; [reflexivity|]. intros ->. apply ND. exists d. split; [exists cz; auto|reflexivity].
Qed.

(** Where the pointers after a step come from. *)
Definition target (i : op) : nat := match i with NewVal x _ | NewRef x _ | ResetNew x => x | _ => 0 end.
Lemma step_new w i w' : step w i = Ok w' ->
  (forall x c o, vars w' x = Some c -> ptr c = Some o -> (exists z e, vars w z = Some e /\ ptr e = Some o /\ i <> Release z) \/ (o = nobj w /\ x = target i /\ nobj w' = S (nobj w))) /\
  (nobj w' = nobj w \/ (nobj w' = S (nobj w) /\ exists c, vars w' (target i) = Some c /\ ptr c = Some (nobj w))).
Proof.
  assert (U : forall f x c y (e : cell), upd f x (Some c) y = Some e -> (y = x /\ e = c) \/ (y <> x /\ f y = Some e)).
  { intros f x c y e H. destruct (Nat.eq_dec y x) as [->|N]; [rewrite upd_eq in H; injection H as <-; auto|rewrite upd_neq in H by exact N; auto]. }
  assert (A : forall w x v w' z c, assign_deleter w x v = Ok w' -> vars w' z = Some c -> exists e, vars w z = Some e /\ ptr e = ptr c).
  { intros w0 x v w1 z c H Hz. destruct (assign_ok _ _ _ _ H) as (c0 & Ec & _ & _ & R). destruct (del c0); [destruct R as (Rv & _)|destruct R as (_ & Rv & _)]; rewrite Rv in Hz; [|eauto]. apply U in Hz. destruct Hz as [(-> & ->)|(_ & Hz)]; eauto. }
  assert (An : forall w x v w', assign_deleter w x v = Ok w' -> nobj w' = nobj w).
  { intros w0 x v w1 H. destruct (assign_ok _ _ _ _ H) as (c0 & _ & En & _). exact En. }
  intros H. destruct i as [x v|x d|x y|x y|x y|x y|x|x|x|x|d v|d v|d]; cbn [step target] in *; unfold new in H; cbn iota in H; repeat res_step H.
  - injection H as <-. cbn. split; [|right; split; [reflexivity|]; rewrite upd_eq; eauto]. intros z c o Hz Ho. apply U in Hz. destruct Hz as [(-> & ->)|(_ & Hz)]; [right; injection Ho as <-; auto|left; exists z, c; repeat split; auto; discriminate].
  - injection H as <-. cbn. split; [|right; split; [reflexivity|]; rewrite upd_eq; eauto]. intros z c o Hz Ho. apply U in Hz. destruct Hz as [(-> & ->)|(_ & Hz)]; [right; injection Ho as <-; auto|left; exists z, c; repeat split; auto; discriminate].
  - destruct a0 as [p w1]. res_step H. injection H as <-. destruct (release_ok _ _ _ _ E0) as (c & Ec & -> & ->). split; [|left; reflexivity]. intros z e o Hz Ho. left. cbn in Hz. apply U in Hz. destruct Hz as [(-> & ->)|(_ & Hz)]; [exists y, c; repeat split; auto; discriminate|]. apply U in Hz. destruct Hz as [(-> & ->)|(_ & Hz)]; [discriminate Ho|exists z, e; repeat split; auto; discriminate].
  - destruct a0 as [p w1]. res_step H. injection H as <-. destruct (release_ok _ _ _ _ E0) as (c & Ec & -> & ->). split; [|left; reflexivity]. intros z e o Hz Ho. left. cbn in Hz. apply U in Hz. destruct Hz as [(-> & ->)|(_ & Hz)]; [exists y, c; repeat split; auto; discriminate|]. apply U in Hz. destruct Hz as [(-> & ->)|(_ & Hz)]; [discriminate Ho|exists z, e; repeat split; auto; discriminate].
  - destruct a as [p w1]. repeat res_step H. destruct (release_ok _ _ _ _ E) as (c & Ec & -> & ->). destruct (reset_spec _ _ _ _ E0) as (e & Ex & En & _ & Ev & _). split; [|left; rewrite (An _ _ _ _ H); exact En]. intros z f o Hz Ho. left. destruct (A _ _ _ _ _ _ H Hz) as (f1 & Hz1 & Pf). rewrite Ev in Hz1. cbn in Hz1. apply U in Hz1. destruct Hz1 as [(-> & ->)|(_ & Hz1)]; [exists y, c; cbn in Pf; repeat split; auto; [congruence|discriminate]|].
    apply U in Hz1. destruct Hz1 as [(-> & ->)|(_ & Hz1)]; [cbn in Pf; congruence|]. exists z, f1. repeat split; auto; [congruence|discriminate].
  - apply var_ok in E. apply var_ok in E0. assert (G : exists w1 v u, assign_deleter (set_var (set_var w x (Some (Cell (ptr a0) (del a)))) y (Some (Cell (ptr a) (del a0)))) x u = Ok w1 /\ assign_deleter w1 y v = Ok w').
    { destruct (del a), (del a0); try discriminate H; repeat res_step H; do 3 eexists; split; eassumption. }
    destruct G as (w1 & v & u & A1 & A2). split; [|left; rewrite (An _ _ _ _ A2), (An _ _ _ _ A1); reflexivity]. intros z f o Hz Ho. left. destruct (A _ _ _ _ _ _ A2 Hz) as (f1 & Hz1 & Pf). destruct (A _ _ _ _ _ _ A1 Hz1) as (f2 & Hz2 & Pf2). cbn in Hz2.
    apply U in Hz2. destruct Hz2 as [(-> & ->)|(_ & Hz2)]; [exists x, a; cbn in Pf2; repeat split; auto; [congruence|discriminate]|]. apply U in Hz2. destruct Hz2 as [(-> & ->)|(_ & Hz2)]; [exists y, a0; cbn in Pf2; repeat split; auto; [congruence|discriminate]|]. exists z, f2. repeat split; auto; [congruence|discriminate].
  - destruct (reset_spec _ _ _ _ H) as (e & Ex & En & _ & Ev & _). cbn in En, Ev. split; [|right; split; [exact En|]; rewrite Ev, upd_eq; eauto]. intros z f o Hz Ho. rewrite Ev in Hz. apply U in Hz. destruct Hz as [(-> & ->)|(_ & Hz)]; [right; injection Ho as <-; auto|left; exists z, f; repeat split; auto; discriminate].
  - destruct (reset_spec _ _ _ _ H) as (e & Ex & En & _ & Ev & _). split; [|left; exact En]. intros z f o Hz Ho. rewrite Ev in Hz. apply U in Hz. destruct Hz as [(-> & ->)|(_ & Hz)]; [discriminate Ho|left; exists z, f; repeat split; auto; discriminate].
  - destruct a as [p w1]. injection H as <-. destruct (release_ok _ _ _ _ E) as (c & Ec & -> & ->). split; [|left; reflexivity]. intros z f o Hz Ho. cbn in Hz. apply U in Hz. destruct Hz as [(-> & ->)|(N & Hz)]; [discriminate Ho|left; exists z, f; repeat split; auto; congruence].
  - injection H as <-. destruct (reset_spec _ _ _ _ E) as (e & Ex & En & _ & Ev & _). split; [|left; exact En]. cbn. intros z f o Hz Ho. destruct (Nat.eq_dec z x) as [->|N]; [rewrite upd_eq in Hz; discriminate Hz|]. rewrite upd_neq, Ev, upd_neq in Hz by exact N. left; exists z, f; repeat split; auto; discriminate.
  - destruct (dels w d); [discriminate H|]. injection H as <-. split; [|left; reflexivity]. intros z f o Hz Ho. left; exists z, f; repeat split; auto; discriminate.
  - injection H as <-. split; [|left; reflexivity]. intros z f o Hz Ho. left; exists z, f; repeat split; auto; discriminate.
  - injection H as <-. split; [|left; reflexivity]. intros z f o Hz Ho. left; exists z, f; repeat split; auto; discriminate.
Qed.

Lemma inv_init : Inv init.
Proof. constructor; cbn; try discriminate; try contradiction. constructor. Qed.
Lemma run_inv l : forall w w', Inv w -> run w l = Ok w' -> Inv w'.
Proof. induction l as [|i l IH]; intros w w' I H; [now injection H as <-|]. cbn in H. res_step H. eapply IH; [eapply step_inv; eassumption|exact H]. Qed.

(** Any program with both kinds of deleters: no object is deleted twice or while owned, no object has two owners; an operation deletes at most one object, which was owned, with
    the deleter its owner had at that moment; every other owned object stays owned and keeps its deleter, unless it is released or the operation changes a deleter object that its
    owner refers to and that belongs to another owner, or is changed by the client. *)
Theorem C91_step : forall l i w w', run init l = Ok w -> step w i = Ok w' ->
  NoDup (map fst (log w')) /\
  (forall x y o v u, owned w' x o v -> owned w' y o u -> x = y /\ v = u) /\
  (forall x o v u, owned w' x o v -> ~ In (o, u) (log w')) /\
  (log w' = log w \/ exists z o v, owned w z o v /\ log w' = log w ++ [(o, v)]) /\
  (forall z o v, owned w z o v -> ~ disturbs w i z -> (exists z', owned w' z' o v) \/ log w' = log w ++ [(o, v)] \/ i = Release z).
Proof.
  intros l i w w' R H. assert (I' : Inv w') by (eapply step_inv; [eapply run_inv; [exact inv_init|exact R]|exact H]).
  split; [apply (i_once _ I')|]. split; [|split; [|split; [eapply step_log; exact H|intros; eapply step_keeps; eassumption]]].
  - intros x y o v u Ox Oy. destruct Ox as (c & Ec & Pc & G), Oy as (e & Ee & Pe & G2). assert (x = y) as <- by exact (i_own _ I' _ _ _ _ o Ec Ee Pc Pe). split; [reflexivity|congruence].
  - intros x o v u (c & Ec & Pc & _). exact (i_gone _ I' _ _ _ u Ec Pc).
Qed.
Print Assumptions C91_step.

(** The client keeps to this: deleter objects outlive the unique_ptrs that refer to them, and no deleter object of an owner is changed behind its back. *)
Fixpoint careful (w : world) (l : list op) : Prop :=
  (forall x c, vars w x = Some c -> exists v, get_deleter w x = Ok v) /\
  match l with [] => True | i :: l => (forall z o v, owned w z o v -> ~ disturbs w i z) /\ forall w1, step w i = Ok w1 -> careful w1 l end.
Lemma careful_alive w l : careful w l -> forall x c, vars w x = Some c -> exists v, get_deleter w x = Ok v.
Proof. destruct l; intros (A & _); exact A. Qed.
Definition faithful (hand : nat -> nat) (w : world) : Prop := (forall x o v, owned w x o v -> v = hand o) /\ forall o v, In (o, v) (log w) -> v = hand o.

Lemma promise l : forall w w' hand, Inv w -> careful w l -> faithful hand w -> run w l = Ok w' -> exists hand', (forall o, o < nobj w -> hand' o = hand o) /\ faithful hand' w' /\
  forall l1 i l2 w1 w2, l = l1 ++ i :: l2 -> run w l1 = Ok w1 -> step w1 i = Ok w2 -> nobj w2 = S (nobj w1) -> owned w2 (target i) (nobj w1) (hand' (nobj w1)).
Proof.
  induction l as [|i l IH]; intros w w' hand I C F R.
  - injection R as <-. exists hand. split; [auto|]. split; [exact F|]. intros [|] ? ? ? ? E; discriminate E.
  - cbn in R. res_step R. rename a into w1. destruct C as (Al & C1 & C2). specialize (C2 w1 E). assert (I1 : Inv w1) by (eapply step_inv; eassumption). destruct (step_new w i w1 E) as (S1 & S2).
    set (h := upd hand (nobj w) (match get_deleter w1 (target i) with Ok v => v | _ => 0 end)).
    assert (Hh : forall o, o < nobj w -> h o = hand o) by (intros o Ho; unfold h; apply upd_neq; lia).
    assert (Fh : faithful h w1).
    { assert (F1 : forall x o v, owned w1 x o v -> v = h o).
      { intros x o v (c & Ec & Pc & G). destruct (S1 x c o Ec Pc) as [(z & e & Ez & Pz & NR)|(-> & -> & _)].
        - rewrite Hh by exact (i_old _ I _ _ _ Ez Pz). destruct (Al z e Ez) as (v0 & G0). assert (O0 : owned w z o v0) by (exists e; auto). pose proof (proj1 F _ _ _ O0) as ->.
          destruct (step_keeps w i w1 z o (hand o) E O0 (C1 _ _ _ O0)) as [(z' & O')|[L|Rl]]; [| |contradiction].
          + destruct O' as (e' & E' & P' & G'). assert (x = z') as <- by exact (i_own _ I1 _ _ _ _ o Ec E' Pc P'). congruence.
          + exfalso. eapply (i_gone _ I1 _ _ _ (hand o) Ec Pc). rewrite L. apply in_or_app. right. now left.
        - unfold h. rewrite upd_eq, G. reflexivity. }
      split; [exact F1|]. intros o v Hi. destruct (step_log w i w1 E) as [L|(z & o1 & v1 & O & L)]; rewrite L in Hi.
      - rewrite Hh by exact (i_log _ I _ _ Hi). exact (proj2 F _ _ Hi).
      - apply in_app_or in Hi. destruct Hi as [Hi|[Hi|[]]]; [rewrite Hh by exact (i_log _ I _ _ Hi); exact (proj2 F _ _ Hi)|]. injection Hi as <- <-. pose proof (proj1 F _ _ _ O) as Hv. destruct O as (c & Ec & Pc & _). rewrite Hh by exact (i_old _ I _ _ _ Ec Pc). exact Hv. }
    destruct (IH w1 w' h I1 C2 Fh R) as (h' & A & B & D). exists h'. assert (Nn : nobj w <= nobj w1) by (destruct S2 as [?|(? & _)]; lia). split; [intros o Ho; rewrite A by lia; now apply Hh|]. split; [exact B|].
    intros l1 j l2 wa wb El Ra Sb Nb. destruct l1 as [|k l1]; cbn in El; injection El as -> ->.
    + injection Ra as <-. rewrite E in Sb. injection Sb as <-. destruct S2 as [?|(_ & c & Ec & Pc)]; [lia|]. exists c. split; [exact Ec|]. split; [exact Pc|]. rewrite A by lia. unfold h. rewrite upd_eq. destruct (careful_alive _ _ C2 _ _ Ec) as (v & ->). reflexivity.
    + cbn in Ra. rewrite E in Ra. cbn in Ra. eapply D; eauto.
Qed.
(** Then every object is deleted with the deleter that its unique_ptr had when the object was handed over, however often it was moved or swapped since. *)
Theorem C91_promise : forall l w, run init l = Ok w -> careful init l -> exists hand,
  (forall l1 i l2 w1 w2, l = l1 ++ i :: l2 -> run init l1 = Ok w1 -> step w1 i = Ok w2 -> nobj w2 = S (nobj w1) -> owned w2 (target i) (nobj w1) (hand (nobj w1))) /\
  (forall o v, In (o, v) (log w) -> v = hand o) /\ (forall x o v, owned w x o v -> v = hand o).
Proof.
  intros l w R C. destruct (promise l init w (fun _ => 0) inv_init C) as (h & _ & (F1 & F2) & D); [|exact R|exists h; auto].
  split; [intros x o v (c & Ec & _); discriminate Ec|intros o v []].
Qed.
Print Assumptions C91_promise.

(** Each operation does what it is documented to do: which pointer every unique_ptr holds afterwards (None: out of scope), which deleter, and what is deleted. *)
Definition holds (w : world) (x : nat) : option (option nat) := option_map ptr (vars w x).
Definition only (w w' : world) (l : list nat) : Prop := forall z, ~ In z l -> holds w' z = holds w z.
Definition deletes (w w' : world) (x : nat) : Prop := (forall o v, owned w x o v -> log w' = log w ++ [(o, v)]) /\ (holds w x = Some None -> log w' = log w).
Lemma reset_effect w x p w' : reset w x p = Ok w' -> holds w' x = Some p /\ get_deleter w' x = get_deleter w x /\ deletes w w' x /\ only w w' [x] /\ dels w' = dels w.
Proof.
  intro H. destruct (reset_spec _ _ _ _ H) as (c & Ec & _ & Ed & Ev & El).
  assert (E' : vars w' x = Some (Cell p (del c))) by (rewrite Ev; apply upd_eq). unfold holds, only. rewrite E'. split; [reflexivity|]. rewrite (get_value _ _ _ E'), (get_value _ _ _ Ec), Ed. split; [reflexivity|]. split; [|split; [|reflexivity]].
  - split.
    + intros o v (e & Ee & Pe & G). rewrite Ec in Ee. injection Ee as <-. rewrite Pe in El. destruct El as (v' & G' & ->). congruence.
    + unfold holds. rewrite Ec. cbn. intro P. injection P as P. now rewrite P in El.
  - intros z N. cbn in N. unfold holds. rewrite Ev, upd_neq; [reflexivity|intros ->; tauto].
Qed.
Lemma assign_effect w x u w' c : vars w x = Some c -> assign_deleter w x u = Ok w' -> (forall z, holds w' z = holds w z) /\ get_deleter w' x = Ok u /\ log w' = log w.
Proof.
  intros Ec H. destruct (assign_after _ _ _ _ H _ Ec) as ((c' & E' & P' & V' & _) & K & _ & _ & Kn). destruct (assign_ok _ _ _ _ H) as (_ & _ & _ & L & _). split; [|split; [|exact L]].
  - intros z. unfold holds. destruct (Nat.eq_dec z x) as [->|N]; [rewrite E', Ec; cbn; now rewrite P'|]. destruct (vars w z) as [e|] eqn:Ez; [now rewrite (K z e N Ez)|now rewrite (Kn z Ez)].
  - now rewrite (get_value _ _ _ E').
Qed.
Theorem C91_effect : forall w i w', step w i = Ok w' ->
  match i with
  | NewVal x v => holds w' x = Some (Some (nobj w)) /\ get_deleter w' x = Ok v /\ log w' = log w /\ only w w' [x]
  | NewRef x d => holds w' x = Some (Some (nobj w)) /\ refers w' x d /\ log w' = log w /\ only w w' [x]
  | MoveNew x y => holds w' x = holds w y /\ holds w' y = Some None /\ get_deleter w' x = get_deleter w y /\ (forall d, refers w' x d <-> refers w y d) /\ log w' = log w /\ only w w' [x; y]
  | MoveNewVal x y => holds w' x = holds w y /\ holds w' y = Some None /\ get_deleter w' x = get_deleter w y /\ (forall d, ~ refers w' x d) /\ log w' = log w /\ only w w' [x; y]
  | Assign x y => holds w' x = holds w y /\ get_deleter w' x = get_deleter w y /\ (x <> y -> holds w' y = Some None /\ deletes w w' x) /\ (x = y -> log w' = log w) /\ only w w' [x; y]
  | Swap x y => holds w' x = holds w y /\ holds w' y = holds w x /\ get_deleter w' x = get_deleter w y /\ get_deleter w' y = get_deleter w x /\ log w' = log w /\ only w w' [x; y]
  | ResetNew x => holds w' x = Some (Some (nobj w)) /\ get_deleter w' x = get_deleter w x /\ deletes w w' x /\ only w w' [x]
  | ResetNull x => holds w' x = Some None /\ get_deleter w' x = get_deleter w x /\ deletes w w' x /\ only w w' [x]
  | Release x => holds w' x = Some None /\ get_deleter w' x = get_deleter w x /\ log w' = log w /\ only w w' [x]
  | Destroy x => holds w' x = None /\ deletes w w' x /\ only w w' [x]
  | MakeDel d v | SetDel d v => dels w' d = Some v /\ log w' = log w /\ only w w' []
  | EndDel d => dels w' d = None /\ log w' = log w /\ only w w' []
  end.
Proof.
  intros w i w' H. destruct i as [x u|x d|x y|x y|x y|x y|x|x|x|x|d u|d u|d]; cbn [step] in H; unfold new in H; cbn iota in H; repeat res_step H.
  - injection H as <-. unfold holds, only, get_deleter, var. cbn. rewrite upd_eq. repeat split. intros z N. unfold holds. cbn in *. rewrite upd_neq; [reflexivity|intros ->; tauto].
  - injection H as <-. unfold holds, only, refers. cbn. rewrite upd_eq. split; [reflexivity|]. split; [eexists; split; reflexivity|]. split; [reflexivity|]. intros z N. unfold holds. cbn in *. rewrite upd_neq; [reflexivity|intros ->; tauto].
  - destruct a0 as [p w1]. res_step H. injection H as <-. apply fresh_ok in E. destruct (release_ok _ _ _ _ E0) as (c & Ec & -> & ->). apply var_ok in E1. cbn [vars set_var] in E1. rewrite upd_eq in E1. injection E1 as <-.
    assert (N : x <> y) by congruence. assert (N' : y <> x) by congruence. unfold holds, only, refers. cbn [vars set_var del ptr]. rewrite upd_eq, (upd_neq _ x _ y N'), upd_eq, Ec. split; [reflexivity|]. split; [reflexivity|].
    split; [rewrite (get_value _ _ (Cell (ptr c) (del c))), (get_value _ _ _ Ec) by (cbn; apply upd_eq); reflexivity|]. split; [|split; [reflexivity|]].
    + intros d. split; intros (e & Ee & De); injection Ee as <-; eexists; (split; [reflexivity|exact De]).
    + intros z Nz. unfold holds. cbn in *. rewrite !upd_neq; [reflexivity|intros ->; tauto|intros ->; tauto].
  - destruct a0 as [p w1]. res_step H. injection H as <-. apply fresh_ok in E. destruct (release_ok _ _ _ _ E0) as (c & Ec & -> & ->).
    assert (N : x <> y) by congruence. assert (N' : y <> x) by congruence. rewrite (get_value _ _ (Cell None (del c))) in E1 by (cbn; apply upd_eq). cbn in E1. unfold holds, only, refers. cbn [vars set_var del ptr]. rewrite upd_eq, (upd_neq _ x _ y N'), upd_eq, Ec. split; [reflexivity|]. split; [reflexivity|].
    split; [rewrite (get_value _ _ (Cell (ptr c) (Own a0))), (get_value _ _ _ Ec) by (cbn; apply upd_eq); cbn; now rewrite E1|]. split; [|split; [reflexivity|]].
    + intros d (e & Ee & De). injection Ee as <-. discriminate De.
    + intros z Nz. unfold holds. cbn in *. rewrite !upd_neq; [reflexivity|intros ->; tauto|intros ->; tauto].
  - destruct a as [p w1]. repeat res_step H. destruct (release_ok _ _ _ _ E) as (c & Ec & -> & ->). destruct (reset_effect _ _ _ _ E0) as (R1 & R2 & (R3 & R3') & R4 & R5). destruct (reset_spec _ _ _ _ E0) as (cx & Ecx & _ & _ & Ev & _).
    assert (Va : exists e, vars a x = Some e) by (rewrite Ev, upd_eq; eauto). destruct Va as (ex & Eax). destruct (assign_effect _ _ _ _ _ Eax H) as (A1 & A2 & A3).
    assert (Gy : get_deleter w y = Ok a0).
    { destruct (get_ok _ _ _ E1) as (e & Ee & Ve). rewrite (get_value _ _ _ Ec). rewrite R5 in Ve. cbn in Ve. rewrite <- Ve. f_equal. rewrite Ev in Ee. destruct (Nat.eq_dec y x) as [->|N]; [rewrite upd_eq in Ee; injection Ee as <-; cbn in *; rewrite upd_eq in Ecx; now injection Ecx as <-|rewrite upd_neq in Ee by exact N; cbn in Ee; rewrite upd_eq in Ee; now injection Ee as <-]. }
    split; [rewrite A1, R1; unfold holds; now rewrite Ec|]. split; [rewrite A2; now rewrite Gy|]. split; [|split].
    + intros N. assert (N' : y <> x) by congruence. rewrite A1. split.
      * rewrite R4 by (cbn; intros [K|[]]; congruence). unfold holds. cbn. now rewrite upd_eq.
      * unfold deletes. rewrite A3. split.
        -- intros o v (e & Ee & Pe & G). apply R3. exists e. split; [cbn; now rewrite upd_neq|]. split; [exact Pe|]. rewrite <- G, (get_value _ _ _ Ee), (get_value (set_var w y _) x e) by (cbn; now rewrite upd_neq). reflexivity.
        -- intros Hn. apply R3'. unfold holds in *. cbn. now rewrite upd_neq.
    + intros ->. rewrite A3. apply R3'. unfold holds. cbn. now rewrite upd_eq.
    + intros z Nz. rewrite A1, R4 by (cbn in *; tauto). unfold holds. cbn. rewrite upd_neq; [reflexivity|cbn in Nz; intros ->; tauto].
  - rename a into c, a0 into e. apply var_ok in E, E0. destruct (del c) as [dc|dc] eqn:Dc, (del e) as [de|de] eqn:De; try discriminate H; repeat res_step H;
    (set (w1 := set_var (set_var w x (Some (Cell (ptr e) _))) y (Some (Cell (ptr c) _))) in * ).
    + assert (Hy : vars w1 y = Some (Cell (ptr c) (Own de))) by apply upd_eq.
      assert (Hx : vars w1 x = Some (Cell (ptr e) (Own dc))). { cbn. destruct (Nat.eq_dec x y) as [->|N]; [rewrite upd_eq; rewrite E in E0; injection E0 as <-; congruence|rewrite upd_neq by exact N; apply upd_eq]. }
      rewrite (get_value _ _ _ Hx) in E1. rewrite (get_value _ _ _ Hy) in E2. cbn in E1, E2. injection E1 as <-. injection E2 as <-.
      destruct (assign_effect _ _ _ _ _ Hx E3) as (A1 & A2 & A3). destruct (assign_after _ _ _ _ E3 _ Hx) as ((c' & Ec' & _ & Vc' & Rc') & Ko & Kd & Kr & _).
      assert (Gy : exists ey, vars a1 y = Some ey) by (destruct (Nat.eq_dec y x) as [->|N]; [eauto|rewrite (Ko y _ N Hy); eauto]). destruct Gy as (ey & Eey). destruct (assign_effect _ _ _ _ _ Eey H) as (B1 & B2 & B3). destruct (assign_after _ _ _ _ H _ Eey) as (_ & Lo & Ld & _ & _).
      assert (Ow : forall z, holds w' z = holds w1 z) by (intros; rewrite B1, A1; reflexivity).
      split; [rewrite Ow; unfold holds; rewrite Hx, E0; reflexivity|]. split; [rewrite Ow; unfold holds; rewrite Hy, E; reflexivity|]. rewrite (get_value _ _ _ E0), (get_value _ _ _ E), De, Dc. cbn [value].
      split; [|split; [exact B2|split; [rewrite B3, A3; reflexivity|]]].
      * destruct (Nat.eq_dec x y) as [->|N]; [rewrite B2; rewrite E in E0; injection E0 as <-; congruence|]. rewrite (get_value _ _ _ (Lo x c' N Ec')). destruct (del c') as [v'|k] eqn:Dk; [exact Vc'|]. discriminate (proj1 (Rc' k) eq_refl).
      * intros z Nz. rewrite Ow. unfold holds. cbn in *. rewrite !upd_neq; [reflexivity|intros ->; tauto|intros ->; tauto].
    + assert (Hy : vars w1 y = Some (Cell (ptr c) (Ref de))) by apply upd_eq.
      assert (Hx : vars w1 x = Some (Cell (ptr e) (Ref dc))). { cbn. destruct (Nat.eq_dec x y) as [->|N]; [rewrite upd_eq; rewrite E in E0; injection E0 as <-; congruence|rewrite upd_neq by exact N; apply upd_eq]. }
      rewrite (get_value _ _ _ Hx) in E1. rewrite (get_value _ _ _ Hy) in E2. cbn [del] in E1, E2. replace (dels w1) with (dels w) in E1, E2 by reflexivity.
      destruct (assign_effect _ _ _ _ _ Hx E3) as (A1 & A2 & A3). destruct (assign_ok _ _ _ _ E3) as (c0 & Ec0 & _ & _ & Q). rewrite Hx in Ec0. injection Ec0 as <-. cbn [del] in Q. destruct Q as (_ & Qv & Qd).
      assert (Hy1 : vars a1 y = Some (Cell (ptr c) (Ref de))) by (rewrite Qv; exact Hy). destruct (assign_effect _ _ _ _ _ Hy1 H) as (B1 & B2 & B3). destruct (assign_ok _ _ _ _ H) as (c0 & Ec0 & _ & _ & Q). rewrite Hy1 in Ec0. injection Ec0 as <-. cbn [del] in Q. destruct Q as (_ & Pv & Pd).
      assert (Ow : forall z, holds w' z = holds w1 z) by (intros; rewrite B1, A1; reflexivity).
      split; [rewrite Ow; unfold holds; rewrite Hx, E0; reflexivity|]. split; [rewrite Ow; unfold holds; rewrite Hy, E; reflexivity|]. rewrite (get_value _ _ _ E0), (get_value _ _ _ E), De, Dc, E1, E2.
      split; [|split; [exact B2|split; [rewrite B3, A3; reflexivity|]]].
      * rewrite (get_value w' x (Cell (ptr e) (Ref dc))) by (rewrite Pv, Qv; exact Hx). cbn. rewrite Pd, Qd. destruct (Nat.eq_dec dc de) as [->|N]; [rewrite upd_eq; congruence|rewrite upd_neq by exact N; now rewrite upd_eq].
      * intros z Nz. rewrite Ow. unfold holds. cbn in *. rewrite !upd_neq; [reflexivity|intros ->; tauto|intros ->; tauto].
  - destruct (reset_effect _ _ _ _ H) as (R1 & R2 & R3 & R4 & _). repeat split; [exact R1|exact R2|apply R3|apply R3|exact R4].
  - destruct (reset_effect _ _ _ _ H) as (R1 & R2 & R3 & R4 & _). repeat split; [exact R1|exact R2|apply R3|apply R3|exact R4].
  - destruct a as [p w1]. injection H as <-. destruct (release_ok _ _ _ _ E) as (c & Ec & _ & ->). unfold holds, only. cbn. rewrite upd_eq. split; [reflexivity|]. split; [rewrite (get_value _ _ (Cell None (del c))), (get_value _ _ _ Ec) by (cbn; apply upd_eq); reflexivity|]. split; [reflexivity|]. intros z N. unfold holds. cbn in *. rewrite upd_neq; [reflexivity|intros ->; tauto].
  - injection H as <-. destruct (reset_effect _ _ _ _ E) as (R1 & R2 & R3 & R4 & _). unfold holds. cbn. rewrite upd_eq. split; [reflexivity|]. split; [exact R3|]. intros z N. unfold holds. cbn. rewrite upd_neq by (cbn in N; intros ->; tauto). apply R4, N.
  - destruct (dels w d); [discriminate H|]. injection H as <-. cbn. rewrite upd_eq. repeat split.
  - injection H as <-. cbn. rewrite upd_eq. repeat split.
  - injection H as <-. cbn. rewrite upd_eq. repeat split.
Qed.
Print Assumptions C91_effect.

(** With names used as the language lets them be used, an operation is undefined only if the deleter of a unique_ptr in scope is gone. *)
Definition well_named (w : world) (i : op) : Prop :=
  let in_scope x := vars w x <> None in let unused x := vars w x = None in
  match i with
  | NewVal x _ => unused x | NewRef x d => unused x /\ dels w d <> None | MoveNew x y | MoveNewVal x y => unused x /\ in_scope y
  | Assign x y => in_scope x /\ in_scope y
  | Swap x y => exists c e, vars w x = Some c /\ vars w y = Some e /\ match del c, del e with Own _, Own _ | Ref _, Ref _ => True | _, _ => False end
  | ResetNew x | ResetNull x | Release x | Destroy x => in_scope x
  | MakeDel d _ => dels w d = None | SetDel d _ | EndDel d => dels w d <> None
  end.
Lemma reset_total w x p c v : vars w x = Some c -> value (dels w) (del c) = Ok v -> exists w', reset w x p = Ok w'.
Proof.
  intros E V. unfold reset, var. rewrite E. cbn [bind]. destruct (ptr c); [|eauto]. rewrite (get_value _ _ (Cell p (del c))) by (cbn; apply upd_eq). cbn [del dels set_var]. rewrite V. cbn. eauto.
Qed.
Lemma assign_total w x u c v : vars w x = Some c -> value (dels w) (del c) = Ok v -> exists w', assign_deleter w x u = Ok w'.
Proof.
  intros E V. unfold assign_deleter, var, deleter_object. rewrite E. cbn [bind]. destruct (del c) as [|d]; [eauto|]. cbn in V. destruct (dels w d); [cbn; eauto|discriminate V].
Qed.
Theorem C91_defined : forall w i, (forall x c, vars w x = Some c -> exists v, get_deleter w x = Ok v) -> well_named w i -> exists w', step w i = Ok w'.
Proof.
  intros w i A W.
  assert (A' : forall x c, vars w x = Some c -> exists v, value (dels w) (del c) = Ok v) by (intros x c E; destruct (A x c E) as (v & G); rewrite (get_value _ _ _ E) in G; eauto).
  assert (S : forall x, vars w x <> None -> exists c, vars w x = Some c) by (intros x N; destruct (vars w x); [eauto|contradiction]).
  destruct i as [x u|x d|x y|x y|x y|x y|x|x|x|x|d u|d u|d]; cbn [well_named step] in *; unfold new, UrModel.fresh, deleter_object.
  - rewrite W. cbn. eauto.
  - destruct W as (-> & W). cbn. destruct (dels w d); [cbn; eauto|contradiction].
  - destruct W as (-> & W). destruct (S y W) as (c & E). unfold release, var. rewrite E. cbn. rewrite upd_eq. cbn. eauto.
  - destruct W as (-> & W). destruct (S y W) as (c & E). destruct (A' y c E) as (v & V). unfold release, var. rewrite E. cbn [bind]. rewrite (get_value _ _ (Cell None (del c))) by (cbn; apply upd_eq). cbn [del dels set_var]. rewrite V. cbn. eauto.
  - destruct W as (Wx & Wy). destruct (S x Wx) as (cx & Ex), (S y Wy) as (c & E). destruct (A' y c E) as (v & V), (A' x cx Ex) as (vx & Vx). unfold release, var. rewrite E. cbn [bind].
    set (w1 := set_var w y (Some (Cell None (del c)))).
    assert (X : exists c1, vars w1 x = Some c1 /\ del c1 = del cx). { cbn. destruct (Nat.eq_dec x y) as [->|N]; [rewrite upd_eq; eexists; split; [reflexivity|]; rewrite E in Ex; now injection Ex as <-|rewrite upd_neq by exact N; eauto]. }
    destruct X as (c1 & E1 & D1). destruct (reset_total w1 x (ptr c) c1 vx E1) as (w2 & R); [cbn; now rewrite D1|]. rewrite R. cbn [bind]. destruct (reset_spec _ _ _ _ R) as (c2 & E2 & _ & Ed & Ev & _). rewrite E1 in E2. injection E2 as <-. cbn in Ed.
    assert (Y : exists cy, vars w2 y = Some cy /\ del cy = del c). { rewrite Ev. destruct (Nat.eq_dec y x) as [->|N]; [rewrite upd_eq; eexists; split; [reflexivity|]; cbn; rewrite D1; rewrite E in Ex; now injection Ex as <-|rewrite upd_neq by exact N; cbn; rewrite upd_eq; eauto]. }
    destruct Y as (cy & Ey & Dy). rewrite (get_value _ _ _ Ey), Dy, Ed, V. cbn [bind]. apply (assign_total w2 x v (Cell (ptr c) (del c1)) vx); [rewrite Ev; apply upd_eq|]. cbn. now rewrite D1, Ed.
  - destruct W as (c & e & Ex & Ey & K). destruct (A' x c Ex) as (vx & Vx), (A' y e Ey) as (vy & Vy). unfold var at 1 2. rewrite Ex, Ey. cbn [bind].
    set (w1 := set_var (set_var w x (Some (Cell (ptr e) (del c)))) y (Some (Cell (ptr c) (del e)))).
    assert (Hx : vars w1 x = Some (Cell (ptr e) (del c))). { cbn. destruct (Nat.eq_dec x y) as [->|N]; [rewrite upd_eq; rewrite Ex in Ey; injection Ey as <-; reflexivity|rewrite upd_neq by exact N; apply upd_eq]. }
    assert (Hy : vars w1 y = Some (Cell (ptr c) (del e))) by apply upd_eq.
    assert (G : exists w', (v <- get_deleter w1 x ;; u <- get_deleter w1 y ;; w2 <- assign_deleter w1 x u ;; assign_deleter w2 y v) = Ok w').
    { rewrite (get_value _ _ _ Hx), (get_value _ _ _ Hy). cbn [del]. replace (dels w1) with (dels w) by reflexivity. rewrite Vx, Vy. cbn [bind]. destruct (assign_total w1 x vy _ vx Hx) as (w2 & R); [exact Vx|]. rewrite R. cbn [bind]. destruct (assign_after _ _ _ _ R _ Hx) as ((c' & Ec' & _ & Vc' & Rc') & Ko & Kd & Kr & _).
      destruct (Nat.eq_dec y x) as [->|N]; [exact (assign_total w2 x vx c' vy Ec' Vc')|]. pose proof (Ko y _ N Hy) as Hy2. cbn [del] in *. destruct (del e) as [b|b] eqn:De; [exact (assign_total w2 y vx _ b Hy2 eq_refl)|]. destruct (del c) as [a|a]; [contradiction|].
      destruct (Nat.eq_dec a b) as [->|Nab]; [apply (assign_total w2 y vx _ vy Hy2); cbn; now rewrite (Kr b eq_refl)|apply (assign_total w2 y vx _ vy Hy2); cbn; rewrite Kd; [exact Vy|congruence]]. }
    unfold w1 in G. destruct (del c), (del e); try contradiction; exact G.
  - destruct (S x W) as (c & E). destruct (A' x c E) as (v & V). apply (reset_total _ x _ c v); assumption.
  - destruct (S x W) as (c & E). destruct (A' x c E) as (v & V). apply (reset_total _ x _ c v); assumption.
  - destruct (S x W) as (c & E). unfold release, var. rewrite E. cbn. eauto.
  - destruct (S x W) as (c & E). destruct (A' x c E) as (v & V). destruct (reset_total _ x None c v E V) as (w' & ->). cbn. eauto.
  - rewrite W. eauto.
  - destruct (dels w d); [cbn; eauto|contradiction].
  - destruct (dels w d); [cbn; eauto|contradiction].
Qed.
Print Assumptions C91_defined.

(** Two unique_ptr<T, D&> that share a deleter object: a move assignment to one of them, and a swap with a third, change the deleter of the other's object. *)
Theorem C91_shared_refuted : exists l w w' w'', run init l = Ok w /\ owned w 1 1 5 /\ step w (Assign 0 2) = Ok w' /\ owned w' 1 1 6 /\ step w (Swap 0 2) = Ok w'' /\ owned w'' 1 1 6.
Proof.
  exists [MakeDel 0 5; MakeDel 1 6; NewRef 0 0; NewRef 1 0; NewRef 2 1]. do 3 eexists. split; [reflexivity|]. split; [eexists; repeat split|]. split; [reflexivity|]. split; [eexists; repeat split|]. split; [reflexivity|]. eexists; repeat split.
Qed.
Print Assumptions C91_shared_refuted.
Example C91_case : let l := [MakeDel 0 5; NewRef 0 0; NewVal 1 7; MoveNewVal 2 0; Assign 1 2; Destroy 1; Destroy 0; Destroy 2] in
  careful init l /\ match run init l with Ok w => log w = [(1, 7); (0, 5)] | _ => False end.
Proof.
  split; [|reflexivity]. cbn.
  repeat match goal with
  | |- _ /\ _ => split
  | |- forall w1, Ok _ = Ok w1 -> _ => intros ? H; injection H as <-; cbn
  | |- True => exact I
  | |- forall x c, _ -> exists v, _ => intros x c H; unfold get_deleter, var, upd in *; cbn in *; repeat (destruct x as [|x]; cbn in *; try discriminate H; try (eexists; reflexivity))
  | |- forall z o v, _ -> ~ _ => intros z o v _ (d & _ & H); try contradiction H
  end.
  destruct H as (_ & _ & c & H & D). cbn in H. injection H as <-. discriminate D.
Qed.
