(** Proofs for C95 (TcProps.v): what a tuple can be constructed from, and what its elements are then initialised with. *)
From Coq Require Import List Bool Arith Lia.
From Verif Require Import TyModel TraitModel TraitSpec TraitProofs TraitCommon TraitMore TraitProps FwdModel FwdProps TcModel TcSpec.
Import ListNotations.

(** The arguments [es] construct elements of types [Ts], one each_m. *)
Definition each_m (ctor : ty -> list expr -> bool) (Ts : list ty) (es : list expr) : Prop := Forall2 (fun T e => ctor T [fwd e] = true) Ts es.

Lemma all2_iff {A B} (f : A -> B -> bool) : forall xs ys, (length ys =? length xs) && all2 f xs ys = true <-> Forall2 (fun x y => f x y = true) xs ys.
Proof.
  induction xs as [|x xs IH]; intros [|y ys]; cbn [length all2].
  - split; [constructor|reflexivity].
  - split; [discriminate|inversion 1].
  - split; [discriminate|inversion 1].
  - cbn [Nat.eqb]. rewrite andb_assoc, (andb_comm _ (f x y)), <- andb_assoc, andb_true_iff, IH. split; [intros [A1 A2]; now constructor|inversion 1; auto].
Qed.
Lemma tys_eq : forall xs ys, tys_eqb xs ys = true <-> xs = ys.
Proof. induction xs as [|x xs IH]; intros [|y ys]; cbn; try (split; congruence). rewrite andb_true_iff, ty_eqb_eq, IH. split; [intros [-> ->]; reflexivity|intro H; injection H; auto]. Qed.
Lemma tys_ne xs ys : xs <> ys -> tys_eqb xs ys = false.
Proof. intro N. apply not_true_iff_false. now rewrite tys_eq. Qed.
Lemma base_made ctor Ts es l : base ctor Ts es = Made l <-> each_m ctor Ts es /\ l = map (fun e => [fwd e]) es.
Proof.
  unfold base, each_m. destruct (_ && _) eqn:E; split.
  - intro H. injection H as <-. apply all2_iff in E. auto.
  - intros (_ & ->). reflexivity.
  - discriminate.
  - intros (H & _). apply all2_iff in H. congruence.
Qed.
Lemma base_hard ctor Ts es : ~ each_m ctor Ts es -> base ctor Ts es = HardError.
Proof. intro N. unfold base. destruct (_ && _) eqn:E; [|reflexivity]. apply all2_iff in E. contradiction. Qed.
Lemma base_yes ctor Ts es : each_m ctor Ts es -> base ctor Ts es = Made (map (fun e => [fwd e]) es).
Proof. intro H. apply base_made. auto. Qed.

(** Arguments that are not a tuple: the tuple is constructed exactly when there is one argument per element and each_m element can be initialised from its argument, and then it is,
    with the argument's category; and nothing is chosen that does not compile. *)
Lemma k_values : forall ctor untup Ts es l, Ts <> [] -> es <> [] -> (forall e, es = [e] -> untuple untup (e_ty e) = None) ->
  (construct ctor untup Ts es = Made l <-> each_m ctor Ts es /\ l = map (fun e => [fwd e]) es) /\ construct ctor untup Ts es <> HardError.
Proof.
  intros ctor untup Ts es l NT NE NU.
  assert (K : construct ctor untup Ts es = if (length es =? length Ts) && all2 (fun T e => ctor T [fwd e]) Ts es then base ctor Ts es else Rejected).
  { destruct Ts as [|T Ts]; [contradiction|]. destruct es as [|e [|e' es]]; [contradiction| |reflexivity]. unfold construct. rewrite (NU e eq_refl).
    cbn [length]. rewrite (Nat.eqb_sym 1). reflexivity. }
  rewrite K. unfold base. fold (each_m ctor Ts es). destruct ((length es =? length Ts) && _) eqn:E.
  - split; [|discriminate]. apply all2_iff in E. split; [intro H; injection H as <-; auto|now intros (_ & ->)].
  - split; [|discriminate]. split; [discriminate|]. intros (H & _). apply all2_iff in H. congruence.
Qed.
(** No arguments: exactly when all elements are objects with a default constructor, which then are value-initialised. *)
Lemma k_default : forall ctor untup Ts l, construct ctor untup Ts [] = Made l <->
  (forall T, In T Ts -> (forall u, T <> TLref u /\ T <> TRref u) /\ ctor T [] = true) /\ l = map (fun _ => []) Ts.
Proof.
  intros ctor untup Ts l.
  assert (D : forallb (default_constructible ctor) Ts = true <-> forall T, In T Ts -> (forall u, T <> TLref u /\ T <> TRref u) /\ ctor T [] = true).
  { rewrite forallb_forall. split; intros H T HT; specialize (H T HT).
    - unfold default_constructible in H. apply andb_prop in H. destruct H as [H1 H2]. split; [|exact H2]. intro u. split; intros ->; discriminate H1.
    - destruct H as [H1 H2]. unfold default_constructible. rewrite H2, andb_true_r. destruct T; try reflexivity; destruct (H1 T) as [N1 N2]; congruence. }
  destruct Ts as [|T Ts]; [cbn; split; [intro H; injection H as <-; split; [intros T []|reflexivity]|now intros (_ & ->)]|]. cbn [construct]. rewrite <- D. destruct (forallb _ _).
  - split; [intro H; injection H as <-; auto|now intros (_ & ->)].
  - split; [discriminate|]. intros (H & _). discriminate H.
Qed.
(** A tuple of the same type is copied, or moved if it is an rvalue that is not const, element by element, unless the only element can be initialised from the tuple. *)
Lemma k_copy : forall ctor untup Ts e, Ts <> [] -> untuple untup (e_ty e) = Some Ts -> qv (top (e_ty e)) = false -> (forall T, Ts = [T] -> ctor T [fwd e] = false) ->
  (is_lvalue e = true \/ qc (top (e_ty e)) = true ->
     construct ctor untup Ts [e] = if forallb (copyable ctor) Ts then Made (map (fun T => [cref T]) Ts) else Rejected) /\
  (is_lvalue e = false -> qc (top (e_ty e)) = false -> forallb (movable ctor) Ts = true -> construct ctor untup Ts [e] = Made (map (fun T => [xref T]) Ts)).
Proof.
  intros ctor untup Ts e NT U V G.
  assert (S : tys_eqb Ts Ts = true) by now apply tys_eq.
  assert (F : (length Ts =? 1) && all2 (fun T e => ctor T [fwd e]) Ts [e] = false).
  { destruct Ts as [|T [|T' Ts]]; [reflexivity| |reflexivity]. cbn. now rewrite G. }
  assert (C : construct ctor untup Ts [e] = from_tuple ctor Ts Ts e) by (destruct Ts; [contradiction|]; unfold construct; now rewrite U). rewrite C. unfold from_tuple. rewrite F, S, V, Nat.eqb_refl.
  unfold is_lvalue. cbn [negb andb]. rewrite !andb_true_r.
  generalize (base ctor Ts [e]) (base ctor Ts [Expr (const_of (e_ty e)) Lvalue]) (base ctor Ts [Expr (e_ty e) Xvalue]). intros b0 b3 b4.
  split.
  - intros L. assert (R : match e_cat e with Lvalue => false | _ => true end && negb (qc (top (e_ty e))) = false) by (destruct L as [L|L]; [destruct (e_cat e); [reflexivity|discriminate..]|rewrite L; apply andb_false_r]).
    rewrite R. rewrite <- andb_assoc, R, andb_false_r. unfold resolve. cbn [filter c_ok andb].
    destruct (all2 (fun T U => ctor T [cref U]) Ts Ts); reflexivity.
  - intros L Q M. rewrite Q, M. destruct (e_cat e); [discriminate L|..]; cbn [negb andb]; unfold resolve; cbn [filter c_ok]; rewrite ?andb_true_r;
      destruct (all2 (fun T U => ctor T [cref U]) Ts Ts), (all2 (fun T U => ctor T [xref U]) Ts Ts); reflexivity.
Qed.

Lemma F2_len {A B} (R : A -> B -> Prop) xs ys : Forall2 R xs ys -> length xs = length ys.
Proof. induction 1; cbn; congruence. Qed.
Lemma find_in (cs : list cand) f c : find f cs = Some c -> In c cs.
Proof. intro H. apply find_some in H. tauto. Qed.
(** What a chosen candidate did. *)
Lemma resolve_made cs l : resolve cs = Made l -> exists c, In c cs /\ c_ok c = true /\ c_do c = Made l.
Proof.
  unfold resolve. destruct (find _ _) as [c|] eqn:E; [|discriminate]. intro H. apply find_in, filter_In in E. exists c. tauto.
Qed.
(** A tuple of other types is never taken element by element: with two or more elements it does not compile ... *)
Lemma k_convert_never : forall ctor untup Ts us e l, 2 <= length Ts -> untuple untup (e_ty e) = Some us -> us <> Ts -> construct ctor untup Ts [e] <> Made l.
Proof.
  intros ctor untup Ts us e l L U N H.
  assert (C : construct ctor untup Ts [e] = from_tuple ctor Ts us e) by (destruct Ts; [cbn in L; lia|]; unfold construct; now rewrite U). rewrite C in H.
  unfold from_tuple in H. rewrite (tys_ne _ _ N) in H. cbn [andb] in H.
  assert (B : forall e l, base ctor Ts [e] <> Made l).
  { intros e' l' Hb. apply base_made in Hb. destruct Hb as [Hb _]. apply F2_len in Hb. cbn in Hb. lia. }
  apply resolve_made in H. destruct H as (c & I & K & D). cbn [In] in I. destruct I as [<-|[<-|[<-|[<-|[<-|[]]]]]]; cbn in K, D; try discriminate K; eapply B; exact D.
Qed.
(** ... although the constructor is there exactly when std::tuple's is. *)
Lemma k_convert_enabled : forall ctor untup Ts us e, 2 <= length Ts -> untuple untup (e_ty e) = Some us -> us <> Ts -> qv (top (e_ty e)) = false ->
  let cat := if is_lvalue e || qc (top (e_ty e)) then cref else xref in
  Forall2 (fun T U => ctor T [cat U] = true) Ts us -> construct ctor untup Ts [e] = HardError.
Proof.
  intros ctor untup Ts us e L U N V cat F.
  assert (C : construct ctor untup Ts [e] = from_tuple ctor Ts us e) by (destruct Ts; [cbn in L; lia|]; unfold construct; now rewrite U). rewrite C.
  assert (B : forall e, base ctor Ts [e] = HardError).
  { intro e'. apply base_hard. intro Hb. apply F2_len in Hb. cbn in Hb. lia. }
  unfold from_tuple. rewrite (tys_ne _ _ N), V, !B. replace (length Ts =? 1) with false by (symmetry; apply Nat.eqb_neq; lia). cbn [negb andb]. rewrite !andb_true_r.
  apply all2_iff in F. subst cat. unfold is_lvalue in F.
  destruct (e_cat e), (qc (top (e_ty e))); cbn [orb] in F; rewrite ?F; cbn [negb andb]; rewrite ?andb_true_r, ?andb_false_r;
    unfold resolve; cbn [filter c_ok]; try reflexivity.
  all: destruct ((length us =? length Ts) && all2 (fun T U => ctor T [cref U]) Ts us); reflexivity.
Qed.
(** With one element, it is initialised from the whole tuple. *)
Lemma k_whole : forall ctor untup T us e, untuple untup (e_ty e) = Some us -> us <> [T] ->
  (ctor T [fwd e] = true -> construct ctor untup [T] [e] = Made [[fwd e]]) /\
  (forall l, construct ctor untup [T] [e] = Made l -> exists x, l = [[x]] /\ (x = fwd e \/ x = Expr (const_of (e_ty e)) Lvalue) /\ ctor T [x] = true).
Proof.
  intros ctor untup T us e U N.
  assert (C : construct ctor untup [T] [e] = from_tuple ctor [T] us e) by (unfold construct; now rewrite U). rewrite C. unfold from_tuple. rewrite (tys_ne _ _ N). cbn [andb length Nat.eqb].
  split.
  - intro F. set (k3 := all2 _ _ us). set (k4 := all2 (fun T U => ctor T [xref U]) _ us). cbn [all2]. rewrite F. cbn [andb].
    assert (B0 : forall e', fwd e' = fwd e -> base ctor [T] [e'] = Made [[fwd e]]).
    { intros e' E'. rewrite base_yes; [cbn; now rewrite E'|]. constructor; [now rewrite E'|constructor]. }
    rewrite (B0 e eq_refl).
    assert (B4 : match e_cat e with Lvalue => false | _ => true end = true -> base ctor [T] [Expr (e_ty e) Xvalue] = Made [[fwd e]]).
    { intro R. apply B0. unfold fwd. cbn [e_cat]. destruct e as [t [ | | ]]; [discriminate R|reflexivity..]. }
    assert (B3 : e_cat e = Lvalue -> qc (top (e_ty e)) = true -> base ctor [T] [Expr (const_of (e_ty e)) Lvalue] = Made [[fwd e]]).
    { intros R Q. apply B0. unfold fwd. cbn [e_cat]. rewrite R. destruct e as [t c]. cbn [e_cat e_ty] in *. subst c.
      destruct t; cbn in U; try discriminate U.
      match type of Q with qc (top (TClass ?q _)) = true => destruct q as [a b] end. cbn in Q. subst a. reflexivity. }
    destruct (e_cat e) eqn:Ec, (qc (top (e_ty e))) eqn:Eq, (qv (top (e_ty e))), (length us =? 1), k3, k4; cbn [andb negb]; unfold resolve; cbn [filter c_ok]; rewrite ?B4, ?B3 by reflexivity; reflexivity.
  - intros l H. apply resolve_made in H. destruct H as (c & I & K & D). cbn [In] in I.
    assert (B : forall e', base ctor [T] [e'] = Made l -> l = [[fwd e']] /\ ctor T [fwd e'] = true).
    { intros e' Hb. apply base_made in Hb. destruct Hb as [Hb ->]. inversion Hb; subst. auto. }
    destruct I as [<-|[<-|[<-|[<-|[<-|[]]]]]]; cbn [c_ok c_do] in K, D; try discriminate K; apply B in D; destruct D as [-> D].
    + exists (fwd e). auto.
    + exists (Expr (const_of (e_ty e)) Lvalue). cbn in D. auto.
    + exists (Expr (e_ty e) Xvalue). split; [reflexivity|]. split; [|exact D]. left.
      unfold fwd. destruct e as [t [ | | ]]; cbn [e_cat e_ty] in *; try reflexivity. rewrite andb_false_r in K. discriminate K.
Qed.

(** The arguments an element of type T gets for the argument e and an allocator of type A, as [allocator.uses.construction] says; [asked] is the allocator as the trait asks for it. *)
Definition rule_m (ctor : ty -> list expr -> bool) (uses : bool) (T : ty) (asked a : expr) (es : list expr) (i : init) : Prop :=
  ctor T i = true /\
  match uses with
  | false => i = map fwd es
  | true => (ctor T (alloc_arg :: asked :: map fwd es) = true /\ i = alloc_arg :: a :: map fwd es) \/ (ctor T (alloc_arg :: asked :: map fwd es) = false /\ i = map fwd es ++ [a])
  end.

Lemma alloc_value_rule ctor untup at_ conv T A e i :
  alloc_value ctor untup at_ conv T A e = Some i <-> rule_m ctor (uses_allocator untup at_ conv T A) T (xref A) (cref A) [e] i.
Proof.
  unfold alloc_value, rule_m, init in *. cbn [map app]. destruct (uses_allocator untup at_ conv T A).
  - destruct (ctor T [alloc_arg; xref A; fwd e]).
    + destruct (ctor T [alloc_arg; cref A; fwd e]) eqn:E; (split; [|intros (H1 & [[H2 H3]|[H2 H3]]); congruence]); [|discriminate]. intro H. injection H as <-. auto.
    + destruct (ctor T [fwd e; cref A]) eqn:E; (split; [|intros (H1 & [[H2 H3]|[H2 H3]]); congruence]); [|discriminate]. intro H. injection H as <-. auto.
  - destruct (ctor T [fwd e]) eqn:E; split; [intro H; injection H as <-; auto|intros (_ & ->); reflexivity|discriminate|intros (H & ->); congruence].
Qed.
Lemma alloc_base_made ctor untup at_ conv A : forall Ts es l,
  alloc_base ctor untup at_ conv Ts A es = Made l <-> elements (fun T e => rule_m ctor (uses_allocator untup at_ conv T A) T (xref A) (cref A) [e]) Ts es l.
Proof.
  induction Ts as [|T Ts IH]; intros [|e es] l; cbn [alloc_base].
  - split; [intro H; injection H as <-; constructor|inversion 1; reflexivity].
  - split; [discriminate|inversion 1].
  - split; [discriminate|inversion 1].
  - destruct (alloc_value ctor untup at_ conv T A e) as [i|] eqn:E.
    + apply alloc_value_rule in E. destruct (alloc_base ctor untup at_ conv Ts A es) as [| |l'] eqn:E2.
      * split; [discriminate|]. inversion 1 as [|? ? ? ? ? l2 H1 H2]; subst. apply IH in H2. congruence.
      * split; [discriminate|]. inversion 1 as [|? ? ? ? ? l2 H1 H2]; subst. apply IH in H2. congruence.
      * split; [intro H; injection H as <-; constructor; [exact E|now apply IH]|]. inversion 1 as [|? ? i2 ? ? l2 H1 H2]; subst. apply IH in H2.
        apply alloc_value_rule in E, H1. congruence.
    + split; [discriminate|]. inversion 1 as [|? ? ? ? ? l2 H1 H2]; subst. apply alloc_value_rule in H1. congruence.
Qed.
(** With an allocator: where the values are not a tuple, every element is initialised by the rule; it compiles exactly when every element can be. *)
Lemma k_alloc_values : forall ctor untup at_ conv Ts A es l, Ts <> [] -> es <> [] -> (forall e, es = [e] -> untuple untup (e_ty e) = None) ->
  (construct_alloc ctor untup at_ conv Ts A es = Made l <-> each_m ctor Ts es /\ elements (fun T e => rule_m ctor (uses_allocator untup at_ conv T A) T (xref A) (cref A) [e]) Ts es l).
Proof.
  intros ctor untup at_ conv Ts A es l NT NE NU.
  assert (K : construct_alloc ctor untup at_ conv Ts A es = if (length es =? length Ts) && all2 (fun T e => ctor T [fwd e]) Ts es then alloc_base ctor untup at_ conv Ts A es else Rejected).
  { destruct Ts as [|T Ts]; [contradiction|]. destruct es as [|e [|e' es]]; [contradiction| |reflexivity]. unfold construct_alloc. rewrite (NU e eq_refl).
    cbn [length]. rewrite (Nat.eqb_sym 1). reflexivity. }
  rewrite K. unfold each_m. destruct ((length es =? length Ts) && _) eqn:E.
  - rewrite alloc_base_made. apply all2_iff in E. tauto.
  - split; [discriminate|]. intros (H & _). apply all2_iff in H. congruence.
Qed.
(** With an allocator and no values, or one value (such as a tuple) for two or more elements, nothing compiles. *)
Lemma k_alloc_never : forall ctor untup at_ conv Ts A l, Ts <> [] ->
  construct_alloc ctor untup at_ conv Ts A [] <> Made l /\
  (forall e, 2 <= length Ts -> construct_alloc ctor untup at_ conv Ts A [e] <> Made l).
Proof.
  intros ctor untup at_ conv Ts A l NT.
  assert (B : forall es l, length es <> length Ts -> alloc_base ctor untup at_ conv Ts A es <> Made l).
  { intros es l' L H. apply alloc_base_made in H. apply L. clear - H. induction H; cbn; congruence. }
  split.
  - intro H. destruct Ts as [|T Ts]; [contradiction|]. cbn [construct_alloc] in H. destruct (forallb _ _); [|discriminate]. eapply B; [|exact H]. discriminate.
  - intros e L H. assert (B1 : forall e l, alloc_base ctor untup at_ conv Ts A [e] <> Made l) by (intros; apply B; cbn; lia). clear B.
    destruct Ts as [|T Ts]; [contradiction|]. unfold construct_alloc in H. destruct (untuple untup (e_ty e)) as [us|].
    + apply resolve_made in H. destruct H as (c & I & K & D). cbn [In] in I. destruct I as [<-|[<-|[<-|[<-|[<-|[]]]]]]; cbn [c_do] in D; eapply B1; exact D.
    + destruct (_ && _); [|discriminate]. eapply B1; exact H.
Qed.
(** nanomemory.h's own dispatch (used with __uses_alloc_ctor<T, const A&, Args...>) does what [allocator.uses.construction] says: the tag it picks names a function that does it. *)
Lemma k_dispatch : forall ctor untup at_ conv T a es i, category_of a = KClass -> qc (top a) = false -> qv (top a) = false ->
  let A := TLref (const_of a) in
  (alloc_construct ctor (uses_alloc_ctor ctor untup at_ conv T A es) T A es = Some i <->
   rule_m ctor (uses_allocator untup at_ conv T a) T (cref a) (cref a) es i).
Proof.
  intros ctor untup at_ conv T a es i Ka Qc Qv A. destruct a as [| q0 [] | | |q n| | |q0 n0 []| | | | |]; cbn in Ka; try discriminate Ka. cbn in Qc, Qv. destruct q as [c v]. cbn in Qc, Qv. subst c v. subst A.
  unfold uses_alloc_ctor, alloc_construct, rule_m, init in *.
  change (remove_cv (remove_reference (TLref (const_of (TClass (Cv false false) n))))) with (TClass (Cv false false) n). change (xref (TLref (const_of (TClass (Cv false false) n)))) with (cref (TClass (Cv false false) n)).
  set (a := TClass _ n). destruct (uses_allocator untup at_ conv T a).
  - destruct (ctor T (alloc_arg :: cref a :: map fwd es)) eqn:E; cbn [Nat.sub].
    + rewrite E. split; [intro H; injection H as <-; auto|intros (H1 & [[H2 H3]|[H2 H3]]); congruence].
    + destruct (ctor T (map fwd es ++ [cref a])) eqn:E2; split; [intro H; injection H as <-; auto|intros (H1 & [[H2 H3]|[H2 H3]]); congruence|discriminate|intros (H1 & [[H2 H3]|[H2 H3]]); congruence].
  - destruct (ctor T (map fwd es)) eqn:E; split; [intro H; injection H as <-; auto|intros (_ & ->); reflexivity|discriminate|intros (H & ->); congruence].
Qed.

(** make_tuple, forward_as_tuple and tie.  No tuple has only itself, or a reference to itself, as its element, and no tuple is a reference_wrapper. *)
Lemma construct_each ctor untup Ts es : each_m ctor Ts es -> (forall e T, es = [e] -> Ts = [T] -> untuple untup (e_ty e) <> Some [T]) -> construct ctor untup Ts es = Made (map (fun e => [fwd e]) es).
Proof.
  intros F N. pose proof (F2_len _ _ _ F) as L. destruct Ts as [|T Ts].
  - destruct es; [reflexivity|discriminate L].
  - destruct es as [|e es]; [discriminate L|].
    destruct es as [|e2 es].
    + destruct Ts; [|discriminate L]. specialize (N e T eq_refl eq_refl). destruct (untuple untup (e_ty e)) as [us|] eqn:U.
      * inversion F as [|? ? ? ? F1 F2]; subst. apply (proj1 (k_whole ctor untup T us e U ltac:(congruence))). exact F1.
      * apply k_values; [discriminate..| |]; [|auto]. intros e' E'. injection E' as <-. exact U.
    + apply k_values; [discriminate..| |]; [|auto]. intros e' E'. discriminate E'.
Qed.
Lemma fwd_idem e : fwd (fwd e) = fwd e.
Proof. destruct e as [t []]; reflexivity. Qed.
Lemma fwd_ty e : e_ty (fwd e) = e_ty e.
Proof. destruct e as [t []]; reflexivity. Qed.
Lemma each_fwd ctor Ts es : each_m ctor Ts es -> each_m ctor Ts (map fwd es).
Proof. unfold each_m. induction 1; cbn [map]; constructor; [now rewrite fwd_idem|assumption]. Qed.
Lemma map_fwd es : map (fun e => [fwd e]) (map fwd es) = map (fun e => [fwd e]) es.
Proof. rewrite map_map. apply map_ext. intro e. now rewrite fwd_idem. Qed.
Lemma types_all f : forall es, (forall e, In e es -> f e <> None) -> exists Ts, types f es = Some Ts /\ Forall2 (fun e T => f e = Some T) es Ts.
Proof.
  induction es as [|e es IH]; intro H; [exists []; split; [reflexivity|constructor]|]. destruct IH as (Ts & E & F); [intros x I; apply H; now right|].
  destruct (f e) as [t|] eqn:Ef; [|exfalso; eapply H; [now left|exact Ef]]. exists (t :: Ts). cbn [types]. rewrite Ef, E. cbn. split; [reflexivity|]. now constructor.
Qed.
(** The type make_tuple gives an element. *)
Lemma make_type_ok unwrap e : passable (e_ty e) -> exists T, make_type unwrap e = Some T /\ made_type unwrap e T.
Proof.
  intro P. destruct (decay_by_value (e_ty e) (proj1 P)) as (d & E & B & _). unfold make_type.
  assert (K : exists Tp, deduce e = Some Tp /\ decay Tp = Some d).
  { destruct (passable_refs _ P) as (E1 & _ & Er). unfold deduce. destruct (e_cat e); [rewrite E1|exists (e_ty e); auto..]. eexists. split; [reflexivity|]. unfold decay in *. cbn [remove_reference]. rewrite Er in E. exact E. }
  destruct K as (Tp & -> & Hd). cbn. rewrite Hd. eexists. split; [reflexivity|]. exists d. split; [exact B|].
  destruct d as [| | | |[[] []] n| | | | | | | |]; try (right; split; [intros m t H; discriminate H|reflexivity]).
  destruct (unwrap n) as [t|] eqn:Eu; [left; exists n, t; auto|right]. split; [|reflexivity]. intros m t H. injection H as <-. congruence.
Qed.
Lemma by_value_class q n d : by_value (TClass q n) d -> d = TClass nocv n.
Proof.
  intro B. destruct (decay_by_value (TClass q n)) as (d' & E & B' & _); [exact I|]. cbn in E. injection E as <-. rewrite (by_value_fun _ _ _ B B'). destruct q as [[] []]; reflexivity.
Qed.
(** make_tuple(es...) has the by-value type of each_m argument (the reference a reference_wrapper holds for that) and initialises each_m element from its own argument, copying lvalues and
    moving rvalues - also where the only argument is a tuple. *)
Lemma k_make_tuple : forall ctor untup unwrap es, acyclic untup -> (forall n t, unwrap n = Some t -> untup n = None) -> (forall e, In e es -> passable (e_ty e)) ->
  exists Ts r, make_tuple ctor untup unwrap es = Some (Ts, r) /\ Forall2 (made_type unwrap) es Ts /\ (each_m ctor Ts es -> r = Made (map (fun e => [fwd e]) es)).
Proof.
  intros ctor untup unwrap es AC WT P.
  destruct (types_all (make_type unwrap) es) as (Ts & E & F). { intros e I. destruct (make_type_ok unwrap e (P e I)) as (T & -> & _). discriminate. }
  exists Ts, (construct ctor untup Ts (map fwd es)). unfold make_tuple. rewrite E. split; [reflexivity|].
  assert (F' : Forall2 (made_type unwrap) es Ts).
  { clear - F P. induction F as [|e T es Ts H F IH]; [constructor|]. constructor; [|apply IH; intros x I; apply P; now right].
    destruct (make_type_ok unwrap e (P e (or_introl eq_refl))) as (T' & E' & M). congruence. }
  split; [exact F'|]. intro C. rewrite <- map_fwd. apply construct_each; [now apply each_fwd|].
  intros e T He ->. destruct es as [|e0 [|]]; try discriminate He. injection He as <-. rewrite fwd_ty. inversion F' as [|? ? ? ? M _]; subst. destruct M as (d & B & M).
  destruct (e_ty e0) as [| | | |q n| | | | | | | |]; try discriminate. cbn [untuple]. apply by_value_class in B. subst d. intro U.
  destruct M as [(m & t & H1 & H2 & H3)|(_ & ->)].
  - injection H1 as <-. rewrite (WT _ _ H2) in U. discriminate.
  - destruct (AC _ _ nocv U) as (K & _). now apply K.
Qed.
(** forward_as_tuple(es...): references to the arguments, rvalue references exactly for rvalues; each_m bound to its own argument. *)
Lemma k_forward_as_tuple : forall ctor untup es, acyclic untup -> (forall e, In e es -> passable (e_ty e)) ->
  (forall t, ctor (TLref t) [Expr t Lvalue] = true /\ ctor (TRref t) [Expr t Xvalue] = true) ->
  forward_as_tuple ctor untup es = Some (map (fun e => if is_lvalue e then TLref (e_ty e) else TRref (e_ty e)) es, Made (map (fun e => [fwd e]) es)).
Proof.
  intros ctor untup es AC P B. unfold forward_as_tuple. set (ref := fun e => if is_lvalue e then TLref (e_ty e) else TRref (e_ty e)).
  assert (E : types (fun e => Tp <- deduce e ; rref Tp) es = Some (map ref es)).
  { clear - P. induction es as [|e es IH]; [reflexivity|]. cbn [types map]. rewrite IH by (intros x I; apply P; now right). destruct (passable_refs _ (P e (or_introl eq_refl))) as (E1 & E2 & _).
    unfold deduce, ref, is_lvalue. destruct (e_cat e); rewrite ?E1; cbn; rewrite ?E2; reflexivity. }
  rewrite E. cbn. f_equal. f_equal. rewrite <- map_fwd. apply construct_each.
  - apply each_fwd. clear - B. unfold each_m. induction es as [|e es IH]; cbn [map]; constructor; [|exact IH]. unfold ref, is_lvalue, fwd. destruct e as [t []]; cbn; apply B.
  - intros e T He HT. destruct es as [|e0 [|]]; try discriminate He. injection He as <-. injection HT as <-. rewrite fwd_ty. unfold ref. destruct (e_ty e0) as [| | | |q n| | | | | | | |]; try discriminate.
    cbn [untuple]. intro U. destruct (AC _ _ q U) as (_ & K1 & K2). destruct (is_lvalue e0); [now apply K1|now apply K2].
Qed.
(** tie(es...): lvalue references, each_m bound to its own argument; only lvalues are accepted. *)
Lemma k_tie : forall ctor untup es, acyclic untup -> (forall e, In e es -> passable (e_ty e)) -> (forall t, ctor (TLref t) [Expr t Lvalue] = true) ->
  tie ctor untup es = if forallb is_lvalue es then Some (map (fun e => TLref (e_ty e)) es, Made (map (fun e => [e]) es)) else None.
Proof.
  intros ctor untup es AC P B. unfold tie.
  assert (E : types (fun e => match e_cat e with Lvalue => lref (e_ty e) | _ => None end) es = if forallb is_lvalue es then Some (map (fun e => TLref (e_ty e)) es) else None).
  { clear - P. induction es as [|e es IH]; [reflexivity|]. cbn [types map forallb]. rewrite IH by (intros x I; apply P; now right). destruct (passable_refs _ (P e (or_introl eq_refl))) as (E1 & E2 & _).
    unfold is_lvalue at 2. destruct (e_cat e); cbn; [|reflexivity..]. rewrite E1. cbn. destruct (forallb is_lvalue es); reflexivity. }
  rewrite E. destruct (forallb is_lvalue es) eqn:L; [|reflexivity]. cbn. f_equal. f_equal. rewrite forallb_forall in L.
  rewrite construct_each.
  - f_equal. apply map_ext_in. intros e I. specialize (L e I). unfold is_lvalue in L. unfold fwd. destruct (e_cat e); [reflexivity|discriminate..].
  - clear - B L. unfold each_m. induction es as [|e es IH]; cbn [map]; constructor; [|apply IH; intros x I; apply L; now right]. specialize (L e (or_introl eq_refl)). destruct e as [t []]; cbn in *; [apply B|discriminate..].
  - intros e T -> HT. injection HT as <-. destruct (e_ty e) as [| | | |q n| | | | | | | |]; try discriminate. cbn [untuple]. intro U. destruct (AC _ _ q U) as (_ & K1 & _). now apply K1.
Qed.


Lemma k_copy_spec : forall ctor untup Ts e, Ts <> [] -> untuple untup (e_ty e) = Some Ts -> qv (top (e_ty e)) = false -> (forall T, Ts = [T] -> ctor T [fwd e] = false) ->
  (is_lvalue e = true \/ qc (top (e_ty e)) = true ->
     (forall l, construct ctor untup Ts [e] = Made l <-> (forall T, In T Ts -> ctor T [cref T] = true /\ forall u, T <> TRref u) /\ l = map (fun T => [cref T]) Ts) /\
     construct ctor untup Ts [e] <> HardError) /\
  (is_lvalue e = false -> qc (top (e_ty e)) = false -> (forall T, In T Ts -> ctor T [xref T] = true) -> construct ctor untup Ts [e] = Made (map (fun T => [xref T]) Ts)).
Proof.
  intros ctor untup Ts e N U V G. destruct (k_copy ctor untup Ts e N U V G) as [K1 K2]. split.
  - intro L. rewrite (K1 L). clear K1 K2.
    assert (D : forallb (copyable ctor) Ts = true <-> forall T, In T Ts -> ctor T [cref T] = true /\ forall u, T <> TRref u).
    { rewrite forallb_forall. split; intros H T I; specialize (H T I); unfold copyable in *.
      - destruct T; try discriminate H; (split; [exact H|intros u; discriminate]).
      - destruct H as [H1 H2]. destruct T; try exact H1. exfalso. eapply H2. reflexivity. }
    destruct (forallb (copyable ctor) Ts) eqn:E; (split; [|discriminate]).
    + intro l. split; [intro H; injection H as <-; split; [apply D|]; reflexivity|now intros (_ & ->)].
    + intro l. split; [discriminate|]. intros (H & _). apply D in H. congruence.
  - intros L Q M. apply K2; [exact L|exact Q|]. apply forallb_forall. exact M.
Qed.
Lemma k_uses_allocator : forall untup at_ conv T A, uses_allocator untup at_ conv T A = true <->
  (exists n l, T = TClass nocv n /\ untup n = Some l) \/
  ((forall n l, T = TClass nocv n -> untup n <> Some l) /\ exists r, at_ T = Some r /\ (forall u, r <> TLref u /\ r <> TRref u) /\ qualified_fun r = false /\ conv A r = true).
Proof.
  intros untup at_ conv T A.
  assert (K : match at_ T with Some r => match ptr r with Some _ => conv A r | None => false end | None => false end = true <->
    exists r, at_ T = Some r /\ (forall u, r <> TLref u /\ r <> TRref u) /\ qualified_fun r = false /\ conv A r = true).
  { destruct (at_ T) as [r|]; [|split; [discriminate|intros (r & H & _); discriminate H]].
    assert (B : ptr r <> None <-> (forall u, r <> TLref u /\ r <> TRref u) /\ qualified_fun r = false).
    { unfold ptr. destruct r; try (cbn [qualified_fun]; split; [intros _; split; [intro u; split; discriminate|reflexivity]|discriminate]);
        try (split; [congruence|intros (H & _); exfalso; edestruct H as [N1 N2]; solve [now apply N1|now apply N2]]).
      destruct (qualified_fun _); split; intro H; [congruence|destruct H; discriminate|split; [intro u; split; discriminate|reflexivity]|discriminate]. }
    destruct (ptr r).
    - split; [intro H; exists r; destruct (proj1 B ltac:(discriminate)); auto|intros (r' & H & _ & _ & H'); injection H as <-; exact H'].
    - split; [discriminate|]. intros (r' & H & H1 & H2 & _). injection H as <-. exfalso. now apply (proj2 B (conj H1 H2)). }
  assert (C : (exists n, T = TClass nocv n) \/ (forall n, T <> TClass nocv n)).
  { destruct T as [| | | |[[] []] n| | | | | | | |]; try (right; intro; discriminate). left. now exists n. }
  destruct C as [(n & ->)|C].
  - cbn [uses_allocator nocv]. change (TClass (Cv false false) n) with (TClass nocv n) in *. destruct (untup n) as [l|] eqn:E.
    + split; [intros _; left; eauto|reflexivity].
    + rewrite K. split; [intro H; right; split; [intros m l H2; injection H2 as <-; congruence|exact H]|]. intros [(m & l & H & H2)|(_ & H)]; [injection H as <-; congruence|exact H].
  - assert (R : uses_allocator untup at_ conv T A = match at_ T with Some r => match ptr r with Some _ => conv A r | None => false end | None => false end).
    { destruct T as [| | | |[[] []] n| | | | | | | |]; try reflexivity. exfalso. now apply (C n). }
    rewrite R, K. split; [intro H; right; split; [intros n l H2; exfalso; now apply (C n)|exact H]|]. intros [(m & l & H & H2)|(_ & H)]; [exfalso; now apply (C m)|exact H].
Qed.
