(** Theorems about iterator_traits, distance and initializer_list. *)
From Coq Require Import ZArith List Bool Lia.
From Verif Require Import Mem TyModel IlModel.
Import ListNotations.
Open Scope Z_scope.

Lemma const_back t : qc (top t) = true -> const_of (requal (fun q => Cv false (qv q)) t) = t.
Proof.
  unfold const_of. induction t; cbn; intros E; try discriminate E; try (destruct q as [c v]; cbn in *; now subst c); f_equal; auto.
Qed.
Lemma top_unconst t : qc (top (requal (fun q => Cv false (qv q)) t)) = false.
Proof. induction t; cbn; auto. Qed.
(** For every pointer whose target can be referred to: dereferencing and the pointer itself have the types that are promised, values are the targets without const. *)
Theorem C93_traits : forall t r, lref t = Some r -> match t with TLref _ | TRref _ => False | _ => True end -> exists i, iterator_traits (TPtr nocv t) = Some i /\
  pointer i = TPtr nocv t /\ reference i = TLref t /\ difference_type i = TArith nocv LLong /\ qc (top (value_type i)) = false /\ (value_type i = t \/ const_of (value_type i) = t).
Proof.
  intros t r L N. assert (r = TLref t) as -> by (destruct t; try contradiction; cbn in L; try discriminate L; try (injection L as <-; reflexivity); match type of L with (if ?b then _ else _) = _ => destruct b end; [discriminate L|now injection L as <-]).
  unfold iterator_traits, match_const. cbn [nocv]. destruct (qc (top t)) eqn:Q.
  - rewrite (const_back t Q), L. cbn. eexists. split; [reflexivity|]. repeat split; [apply top_unconst|right; apply const_back, Q].
  - rewrite L. cbn. eexists. split; [reflexivity|]. repeat split; [exact Q|now left].
Qed.
Print Assumptions C93_traits.

(** Within one array distance counts the steps from one pointer to the other; between two arrays it is undefined. *)
Theorem C93_distance : forall A (m : @arrays A) b xs i j, m b = Some xs -> 0 <= i <= Z.of_nat (length xs) -> 0 <= j <= Z.of_nat (length xs) ->
  (exists n, distance m (At b i) (At b j) = Ok n /\ padd m (At b i) n = Ok (At b j) /\ distance m (At b j) (At b i) = Ok (- n)) /\
  (forall n, padd m (At b i) n = Ok (At b j) -> distance m (At b i) (At b j) = Ok n) /\ distance m Null Null = Ok 0 /\
  (forall c k, c <> b -> distance m (At b i) (At c k) = UB OutOfBounds) /\ distance m Null (At b i) = UB OutOfBounds.
Proof.
  intros A m b xs i j E Hi Hj. unfold distance, psub, padd, len. rewrite E, Nat.eqb_refl. cbn [bind].
  assert (R : forall x y, 0 <= x <= Z.of_nat (length xs) -> 0 <= y <= Z.of_nat (length xs) -> (0 <=? x) && (x <=? Z.of_nat (length xs)) && (0 <=? y) && (y <=? Z.of_nat (length xs)) = true) by (intros; rewrite !andb_true_iff, !Z.leb_le; lia).
  rewrite (R j i Hj Hi), (R i j Hi Hj). split; [|split; [|split; [reflexivity|split; [|reflexivity]]]].
  - exists (j - i). replace (i + (j - i)) with j by lia. replace ((0 <=? j) && (j <=? Z.of_nat (length xs))) with true by (symmetry; rewrite andb_true_iff, !Z.leb_le; lia). repeat split. f_equal; lia.
  - intros n H. destruct ((0 <=? i + n) && (i + n <=? Z.of_nat (length xs))); [|discriminate H]. injection H as H. f_equal; lia.
  - intros c k N. destruct (Nat.eqb_spec c b); [contradiction|reflexivity].
Qed.
Print Assumptions C93_distance.

(** for (auto& x : il): the elements seen *)
Inductive visits {A} (m : @arrays A) : pointer_value -> pointer_value -> list A -> Prop :=
| visits_end p : visits m p p []
| visits_next p q x p' l : p <> q -> deref m p = Ok x -> padd m p 1 = Ok p' -> visits m p' q l -> visits m p q (x :: l).
Lemma visits_from {A} (m : @arrays A) b xs : m b = Some xs -> forall n, (n <= length xs)%nat -> visits m (At b (Z.of_nat (length xs - n))) (At b (Z.of_nat (length xs))) (skipn (length xs - n) xs).
Proof.
  intros E. induction n as [|n IH]; intros H.
  - rewrite Nat.sub_0_r, skipn_all. constructor.
  - set (k := (length xs - S n)%nat) in *. destruct (nth_error xs k) as [x|] eqn:X; [|apply nth_error_None in X; lia].
    assert (Sk : skipn k xs = x :: skipn (S k) xs) by (clearbody k; clear - X; revert k X; induction xs as [|y xs IH]; intros [|k] X; try discriminate X; [now injection X as <-|exact (IH k X)]).
    rewrite Sk. replace (S k) with (length xs - n)%nat by (unfold k; lia). apply visits_next with (p' := At b (Z.of_nat (length xs - n))).
    + intros P. injection P as P. lia.
    + unfold deref. rewrite E, Nat2Z.id, X. destruct (Z.leb_spec 0 (Z.of_nat k)); [reflexivity|lia].
    + unfold padd, len. rewrite E. cbn [bind]. replace (Z.of_nat k + 1) with (Z.of_nat (length xs - n)) by lia. replace (_ && _) with true by (symmetry; rewrite andb_true_iff, !Z.leb_le; lia). reflexivity.
    + apply IH. lia.
Qed.
Lemma visits_det {A} (m : @arrays A) p q l : visits m p q l -> forall l', visits m p q l' -> l = l'.
Proof.
  induction 1 as [p|p q x p' l N D P V IH]; intros l' V'; inversion V'; subst; try contradiction; [reflexivity|]. f_equal; [congruence|]. apply IH. congruence.
Qed.
(** A list over an array [xs], as the private constructor makes it, holds exactly the elements of [xs] in order. *)
Theorem C93_list_partial : forall A (m : @arrays A) b xs, m b = Some xs -> let il := il_private (At b 0) (Z.of_nat (length xs)) in
  exists e, end_of m il = Ok e /\ free_end m il = Ok e /\ free_begin il = begin il /\ distance m (begin il) e = Ok (size il) /\ size il = Z.of_nat (length xs) /\
  (forall l, visits m (begin il) e l <-> l = xs).
Proof.
  intros A m b xs E il. exists (At b (Z.of_nat (length xs))).
  assert (X : end_of m il = Ok (At b (Z.of_nat (length xs)))). { unfold end_of, padd, len, il, il_private. cbn [begin_ size_]. rewrite E. cbn [bind]. rewrite Z.add_0_l. replace (_ && _) with true by (symmetry; rewrite andb_true_iff, !Z.leb_le; lia). reflexivity. }
  split; [exact X|]. split; [exact X|]. split; [reflexivity|]. split; [|split; [reflexivity|]].
  - destruct (C93_distance A m b xs 0 (Z.of_nat (length xs)) E) as (_ & D & _); [lia|lia|]. apply D. exact X.
  - pose proof (visits_from m b xs E (length xs) (Nat.le_refl _)) as V. rewrite Nat.sub_diag in V. intros l. split; [intros V'; exact (visits_det _ _ _ _ V' _ V)|intros ->; exact V].
Qed.
Print Assumptions C93_list_partial.
(** What a program can make: the language makes std::initializer_list of braces, not this class, and the constructor with elements is private. *)
Inductive makeable : initializer_list -> Prop := make_default : makeable il_default | make_copy il : makeable il -> makeable (Il (begin_ il) (size_ il)).
Theorem C93_only_empty : forall A (m : @arrays A) il, makeable il -> size il = 0 /\ exists e, end_of m il = Ok e /\ distance m (begin il) e = Ok 0 /\ forall l, visits m (begin il) e l <-> l = [].
Proof.
  intros A m il M. assert (il = il_default) as -> by (induction M as [|il M ->]; reflexivity). split; [reflexivity|]. exists Null. repeat split; [|intros ->; constructor].
  intros V. inversion V; subst; [reflexivity|contradiction].
Qed.
Print Assumptions C93_only_empty.
(** No initializer_list of a program holds the elements 1, 2, 3. *)
Theorem C93_list_refuted : exists xs : list Z, forall m il e, makeable il -> end_of m il = Ok e -> ~ visits m (begin il) e xs.
Proof.
  exists [1; 2; 3]. intros m il e M E V. destruct (C93_only_empty Z m il M) as (_ & e' & E' & _ & O). assert (e' = e) as -> by congruence. apply O in V. discriminate V.
Qed.
Print Assumptions C93_list_refuted.
Example C93_case : let m : @arrays Z := fun b => match b with 5%nat => Some [10; 20; 30] | _ => None end in
  (exists e, end_of m (il_private (At 5 0) 3) = Ok e /\ visits m (At 5 0) e [10; 20; 30]) /\ makeable (il_default) /\
  iterator_traits (TPtr nocv (TArith (Cv true true) Int)) = Some (Traits (TArith nocv LLong) (TArith (Cv false true) Int) (TPtr nocv (TArith (Cv true true) Int)) (TLref (TArith (Cv true true) Int))).
Proof.
  intros m. split; [|split; [constructor|reflexivity]]. destruct (C93_list_partial Z m 5 [10; 20; 30] eq_refl) as (e & E & _ & _ & _ & _ & V). exists e. split; [exact E|]. now apply V.
Qed.
