(** Proofs about tuples (TupModel.v). *)
From Coq Require Import ZArith List Bool Lia.
From Verif Require Import SeqModel SeqProofs TupModel.
Import ListNotations.
Open Scope Z_scope.
Local Notation len l := (Z.of_nat (length l)).

Lemma get_ok {A} (t : list A) i : len t < small -> get (Z.of_nat i) t = nth_error t i.
Proof. apply at_index_ok. Qed.

(** get<T> *)
Section GetT.
  Context (fold : bool) {T A : Type} (same : forall x y : T, {x = y} + {x <> y}).
  Lemma size_t_id x : 0 <= x < 2 ^ 63 -> x mod 2 ^ width size_t = x.
  Proof. intro. assert (2 ^ 63 < 2 ^ width size_t) by reflexivity. apply Z.mod_small. lia. Qed.
  Lemma ones_total x (Ts : list T) : total (map (fun y => if same x y then 1 else 0) Ts) = Z.of_nat (count_occ same Ts x).
  Proof.
    induction Ts as [|y Ts IH]; [reflexivity|]. unfold total in *. cbn [map fold_right]. rewrite IH. cbn [count_occ].
    destruct (same x y), (same y x); try congruence; lia.
  Qed.
  Lemma count_ok x (Ts : list T) : len Ts + 1 < small -> count_of fold same x Ts = Some (Z.of_nat (count_occ same Ts x)).
  Proof.
    intro L. unfold small in *. unfold count_of. assert (C := count_occ_bound same x Ts).
    assert (P : (2 ^ 62 + 2 ^ 62 <= 2 ^ 63)) by (vm_compute; discriminate).
    assert (Q : 2 ^ 62 > 1048576) by reflexivity.
    rewrite sum_u_ok; rewrite ?ones_total, ?map_length; unfold small; try lia.
    - f_equal. apply size_t_id. lia.
    - reflexivity.
    - apply Forall_map, Forall_forall. intros y _. destruct (same x y); lia.
  Qed.
  (* the sum of the indices of the elements of type x *)
  Lemma mask_indices x (Ts : list T) : forall k,
    expand2 (fun i y => Some (if same x y then i else 0)) (map Z.of_nat (seq k (length Ts))) Ts
    = Some (map (fun p : Z * T => if same x (snd p) then fst p else 0) (combine (map Z.of_nat (seq k (length Ts))) Ts)).
  Proof. intro k. rewrite expand2_combine by now rewrite map_length, seq_length. now apply expand_map. Qed.
  Definition masked x (Ts : list T) k := map (fun p : Z * T => if same x (snd p) then fst p else 0) (combine (map Z.of_nat (seq k (length Ts))) Ts).
  Lemma masked_cons x y Ts k : masked x (y :: Ts) k = (if same x y then Z.of_nat k else 0) :: masked x Ts (S k).
  Proof. reflexivity. Qed.
  Lemma masked_none x Ts : ~ In x Ts -> forall k, total (masked x Ts k) = 0.
  Proof.
    induction Ts as [|y Ts IH]; intros H k; [reflexivity|]. rewrite masked_cons. unfold total in *. cbn [fold_right].
    rewrite IH by (intro; apply H; now right). destruct (same x y); [|lia]. exfalso; apply H; now left.
  Qed.
  Lemma masked_one x l1 l2 : ~ In x l1 -> ~ In x l2 -> forall k, total (masked x (l1 ++ x :: l2) k) = Z.of_nat (k + length l1).
  Proof.
    intros H1 H2. induction l1 as [|y l1 IH]; intro k; cbn [app]; rewrite masked_cons; unfold total in *; cbn [fold_right length].
    - fold (total (masked x l2 (S k))). rewrite masked_none by assumption. destruct (same x x); [lia|congruence].
    - rewrite IH by (intro; apply H1; now right). destruct (same x y); [exfalso; apply H1; now left|]. lia.
  Qed.
  Lemma masked_bounds x Ts : forall k, Forall (fun n => 0 <= n) (masked x Ts k) /\ length (masked x Ts k) = length Ts.
  Proof.
    induction Ts as [|y Ts IH]; intro k; [split; [constructor|reflexivity]|]. rewrite masked_cons.
    destruct (IH (S k)). split; [constructor; [destruct (same x y); lia|assumption]|cbn; lia].
  Qed.
  Lemma count_one x Ts : count_occ same Ts x = 1%nat -> exists l1 l2, Ts = l1 ++ x :: l2 /\ ~ In x l1 /\ ~ In x l2.
  Proof.
    induction Ts as [|y Ts IH]; cbn [count_occ]; [discriminate|]. destruct (same y x) as [->|N].
    - intro H. exists [], Ts. split; [reflexivity|]. split; [intros []|]. apply (count_occ_not_In same). lia.
    - intro H. destruct (IH H) as (l1 & l2 & -> & H1 & H2). exists (y :: l1), l2. split; [reflexivity|].
      split; [|assumption]. intros [->|K]; [now apply N|now apply H1].
  Qed.
  Lemma index_of_ok x Ts i : len Ts + 1 < small ->
    (index_of fold same x Ts = Some i <-> exists l1 l2, Ts = l1 ++ x :: l2 /\ ~ In x l1 /\ ~ In x l2 /\ i = len l1).
  Proof.
    intro L. unfold index_of, index_sequence_for. rewrite make_len by lia. cbn [bind]. rewrite count_ok by assumption. cbn [bind].
    assert (S : forall l1 l2, Ts = l1 ++ x :: l2 -> ~ In x l1 -> ~ In x l2 ->
      bind (expand2 (fun i y => Some (if same x y then i else 0)) (iota (length Ts)) Ts) (fun ns => sum fold size_t ns) = Some (len l1)).
    { intros l1 l2 E H1 H2. unfold iota. rewrite mask_indices. cbn [bind]. fold (masked x Ts 0).
      assert (TT : total (masked x Ts 0) = len l1) by (rewrite E; now apply masked_one).
      assert (LL : len l1 <= len Ts) by (rewrite E, app_length; lia).
      destruct (masked_bounds x Ts 0) as [B1 B2]. assert (P : 1048576 + 1048576 + 1 < 2 ^ 63) by reflexivity. unfold small in L.
      rewrite sum_u_ok; rewrite ?TT, ?B2; unfold small; try assumption; try lia; [|reflexivity].
      f_equal. apply size_t_id. lia. }
    split.
    - destruct (Z.ltb_spec 0 (Z.of_nat (count_occ same Ts x))); [|discriminate].
      destruct (Z.ltb_spec (Z.of_nat (count_occ same Ts x)) 2); [|discriminate]. cbn [andb]. intro G.
      destruct (count_one x Ts) as (l1 & l2 & E & H1 & H2); [lia|]. rewrite (S l1 l2 E H1 H2) in G.
      exists l1, l2. repeat split; try assumption. congruence.
    - intros (l1 & l2 & E & H1 & H2 & ->).
      assert (C : count_occ same Ts x = 1%nat).
      { rewrite E, count_occ_app. cbn [count_occ]. destruct (same x x); [|congruence].
        apply (count_occ_not_In same) in H1, H2. lia. }
      rewrite C. cbn [Z.of_nat Z.ltb andb]. rewrite (S l1 l2 E H1 H2). reflexivity.
  Qed.
  Lemma nth_middle_map (l1 : list (T * A)) e l2 : nth_error (l1 ++ e :: l2) (length l1) = Some e.
  Proof. rewrite nth_error_app2, Nat.sub_diag by lia. reflexivity. Qed.
  Lemma get_type_ok x (t : list (T * A)) e : len t + 1 < small ->
    (get_type fold same x t = Some e <-> exists l1 l2, t = l1 ++ e :: l2 /\ fst e = x /\ ~ In x (map fst l1) /\ ~ In x (map fst l2)).
  Proof.
    intro L. unfold get_type. split.
    - destruct (index_of fold same x (map fst t)) as [i|] eqn:E; [|discriminate]. cbn [bind]. intro G.
      apply index_of_ok in E; [|now rewrite map_length]. destruct E as (m1 & m2 & E & H1 & H2 & ->).
      rewrite get_ok in G by lia.
      apply nth_error_split in G. destruct G as (l1 & l2 & -> & L1). exists l1, l2. split; [reflexivity|].
      rewrite map_app in E. cbn [map] in E.
      assert (E1 : map fst l1 = m1 /\ fst e :: map fst l2 = x :: m2).
      { apply (f_equal (firstn (length m1))) in E as F. apply (f_equal (skipn (length m1))) in E as G.
        rewrite firstn_app, skipn_app, map_length, L1, Nat.sub_diag in *. cbn [firstn skipn] in *.
        rewrite app_nil_r in F.
        rewrite firstn_app, Nat.sub_diag, firstn_all in F. cbn [firstn] in F. rewrite app_nil_r in F.
        rewrite skipn_app, Nat.sub_diag, skipn_all in G. cbn [skipn app] in G.
        rewrite firstn_all2 in F by (rewrite map_length; lia). rewrite skipn_all2 in G by (rewrite map_length; lia). cbn [app] in G. now split. }
      destruct E1 as [-> E2]. injection E2 as E3 E4. rewrite E4. now repeat split.
    - intros (l1 & l2 & -> & <- & H1 & H2).
      assert (I : index_of fold same (fst e) (map fst (l1 ++ e :: l2)) = Some (len (map fst l1))).
      { apply index_of_ok; [now rewrite map_length|]. exists (map fst l1), (map fst l2). rewrite map_app. now repeat split. }
      rewrite I. cbn [bind]. rewrite get_ok by lia. rewrite map_length. apply nth_middle_map.
  Qed.
End GetT.

(** comparisons *)
Section Relational.
  Context (fold : bool) {A : Type} (eq lt : A -> A -> bool).
  Fixpoint all2 (l m : list A) : bool :=
    match l, m with a :: l, b :: m => eq a b && all2 l m | _, _ => true end.
  Fixpoint lex (l m : list A) : bool :=
    match l, m with a :: l, b :: m => lt a b || (negb (lt b a) && lex l m) | _, _ => false end.
  Lemma skipn_nth (l : list A) i : (i < length l)%nat -> exists a, nth_error l i = Some a /\ skipn i l = a :: skipn (S i) l.
  Proof.
    revert i. induction l; intros i H; cbn in H; [lia|]. destruct i; [now exists a|]. cbn [nth_error skipn]. apply IHl. lia.
  Qed.
  Lemma at2_ok (op : A -> A -> bool) i (l m : list A) a b : len l < small -> len m < small -> nth_error l i = Some a -> nth_error m i = Some b ->
    at2 op (Z.of_nat i) l m = Some (op a b).
  Proof. intros. unfold at2. rewrite !get_ok by assumption. now rewrite H1, H2. Qed.
  Lemma tuple_equal_ok l m : len l < small -> length m = length l -> forall k i, (i + k)%nat = length l ->
    tuple_equal eq k (Z.of_nat i) (len l) l m = Some (all2 (skipn i l) (skipn i m)).
  Proof.
    intros L E. induction k; intros i H; cbn [tuple_equal].
    - replace (Z.of_nat i =? len l) with true by (symmetry; apply Z.eqb_eq; lia). rewrite skipn_all2 by lia. reflexivity.
    - replace (Z.of_nat i =? len l) with false by (symmetry; apply Z.eqb_neq; lia).
      destruct (skipn_nth l i) as (a & Ha & Sa); [lia|]. destruct (skipn_nth m i) as (b & Hb & Sb); [lia|].
      rewrite (at2_ok _ _ _ _ a b) by (assumption || lia). cbn [bind]. rewrite Sa, Sb. cbn [all2].
      destruct (eq a b); [|reflexivity]. replace (Z.of_nat i + 1) with (Z.of_nat (S i)) by lia. apply IHk. lia.
  Qed.
  Lemma equal_fold_ok l m : len l < small -> length m = length l -> equal_fold eq l m = Some (all2 l m).
  Proof.
    intros L E. unfold equal_fold. rewrite make_len by assumption. cbn [bind].
    assert (G : forall k i, (i + k)%nat = length l ->
      fold_right (fun I r => bind (at2 eq I l m) (fun b => if b then r else Some false)) (Some true) (map Z.of_nat (seq i k))
      = Some (all2 (skipn i l) (skipn i m))).
    { induction k; intros i H; cbn [seq map fold_right].
      - rewrite skipn_all2 by lia. reflexivity.
      - destruct (skipn_nth l i) as (a & Ha & Sa); [lia|]. destruct (skipn_nth m i) as (b & Hb & Sb); [lia|].
        rewrite (at2_ok _ _ _ _ a b) by (assumption || lia). cbn [bind]. rewrite Sa, Sb. cbn [all2].
        destruct (eq a b); [|reflexivity]. apply IHk. lia. }
    apply (G (length l) 0%nat). lia.
  Qed.
  Lemma t_eq_ok l m : len l < small -> length m = length l -> t_eq fold eq l m = Some (all2 l m).
  Proof.
    intros L E. unfold t_eq, same_size. rewrite E, Z.eqb_refl. destruct fold; [now apply equal_fold_ok|].
    apply (tuple_equal_ok l m L E (length l) 0%nat). lia.
  Qed.
  Lemma tuple_less_ok l m : len l < small -> length m = length l -> forall k i, (i + k)%nat = length l ->
    tuple_less lt k (Z.of_nat i) (len l) l m = Some (lex (skipn i l) (skipn i m)).
  Proof.
    intros L E. induction k; intros i H; cbn [tuple_less].
    - replace (Z.of_nat i =? len l) with true by (symmetry; apply Z.eqb_eq; lia). rewrite skipn_all2 by lia. reflexivity.
    - replace (Z.of_nat i =? len l) with false by (symmetry; apply Z.eqb_neq; lia).
      destruct (skipn_nth l i) as (a & Ha & Sa); [lia|]. destruct (skipn_nth m i) as (b & Hb & Sb); [lia|].
      rewrite (at2_ok _ _ _ _ a b), (at2_ok _ _ _ _ b a) by (assumption || lia). cbn [bind]. rewrite Sa, Sb. cbn [lex].
      destruct (lt a b); [reflexivity|]. destruct (lt b a); [reflexivity|]. cbn [negb orb andb].
      replace (Z.of_nat i + 1) with (Z.of_nat (S i)) by lia. apply IHk. lia.
  Qed.
  Lemma t_lt_ok l m : len l < small -> length m = length l -> t_lt lt l m = Some (lex l m).
  Proof.
    intros L E. unfold t_lt, same_size. rewrite E, Z.eqb_refl. apply (tuple_less_ok l m L E (length l) 0%nat). lia.
  Qed.
  Lemma all2_iff l : forall m, length m = length l ->
    (all2 l m = true <-> forall i a b, nth_error l i = Some a -> nth_error m i = Some b -> eq a b = true).
  Proof.
    induction l as [|a l IH]; intros [|b m] E; cbn in E; try discriminate; cbn [all2].
    - split; [intros _ [|i] x y H; discriminate H|reflexivity].
    - rewrite andb_true_iff, IH by lia. split.
      + intros [H1 H2] [|i] x y Hx Hy; cbn in Hx, Hy; [congruence|now apply (H2 i)].
      + intro H. split; [now apply (H 0%nat)|]. intros i. apply (H (S i)).
  Qed.
  Lemma lex_iff l : forall m, length m = length l ->
    (lex l m = true <-> exists i a b, nth_error l i = Some a /\ nth_error m i = Some b /\ lt a b = true /\
       forall j x y, (j < i)%nat -> nth_error l j = Some x -> nth_error m j = Some y -> lt x y = false /\ lt y x = false).
  Proof.
    induction l as [|a l IH]; intros [|b m] E; cbn in E; try discriminate; cbn [lex].
    - split; [discriminate|]. intros ([|i] & x & y & H & _); discriminate H.
    - split.
      + destruct (lt a b) eqn:AB.
        * intros _. exists 0%nat, a, b. repeat split; try assumption; lia.
        * cbn [orb]. rewrite andb_true_iff, negb_true_iff, IH by lia. intros [BA (i & x & y & Hx & Hy & Hl & Hp)].
          exists (S i), x, y. split; [exact Hx|]. split; [exact Hy|]. split; [exact Hl|].
          intros [|j] x' y' Hj Hx' Hy'; cbn in Hx', Hy'; [split; congruence|]. apply (Hp j x' y'); (assumption || lia).
      + intros ([|i] & x & y & Hx & Hy & Hl & Hp); cbn in Hx, Hy.
        * injection Hx as ->. injection Hy as ->. now rewrite Hl.
        * destruct (Hp 0%nat a b) as [-> ->]; [lia|reflexivity|reflexivity|]. cbn. apply IH; [lia|].
          exists i, x, y. split; [exact Hx|]. split; [exact Hy|]. split; [exact Hl|].
          intros j x' y' Hj Hx' Hy'. apply (Hp (S j) x' y'); (assumption || lia).
  Qed.
  (* strict weak order *)
  Context (irr : forall a, lt a a = false) (tr : forall a b c, lt a b = true -> lt b c = true -> lt a c = true)
          (inc : forall a b c, lt a b = false -> lt b c = false -> lt a c = false).
  Lemma lex_irr l : lex l l = false.
  Proof. induction l; [reflexivity|]. cbn. now rewrite irr, IHl. Qed.
  Lemma lex_neg l : forall m n, length m = length l -> length n = length l -> lex l m = false -> lex m n = false -> lex l n = false.
  Proof.
    induction l as [|a l IH]; intros [|b m] [|c n] E F; cbn in E, F; try discriminate; [reflexivity|]. cbn [lex].
    destruct (lt a b) eqn:AB; [discriminate|]. destruct (lt b c) eqn:BC; [discriminate|]. cbn [orb].
    rewrite (inc _ _ _ AB BC). cbn [orb]. intros H1 H2.
    destruct (lt c a) eqn:CA; [reflexivity|].
    assert (BA : lt b a = false) by (apply (inc b c a); assumption).
    assert (CB : lt c b = false) by (apply (inc c a b); assumption).
    rewrite BA in H1. rewrite CB in H2. cbn in *. apply (IH m n); (assumption || lia).
  Qed.
  Lemma lex_trans l : forall m n, length m = length l -> length n = length l -> lex l m = true -> lex m n = true -> lex l n = true.
  Proof.
    induction l as [|a l IH]; intros [|b m] [|c n] E F; cbn in E, F; try discriminate. cbn [lex].
    destruct (lt a b) eqn:AB; cbn [orb].
    - intros _. destruct (lt b c) eqn:BC; cbn [orb]; [now rewrite (tr _ _ _ AB BC)|].
      destruct (lt c b) eqn:CB; [discriminate|]. intros _.
      destruct (lt a c) eqn:AC; [reflexivity|]. rewrite (inc _ _ _ AC CB) in AB. discriminate.
    - destruct (lt b a) eqn:BA; [discriminate|]. cbn. intro H1. destruct (lt b c) eqn:BC; cbn [orb].
      + intros _. destruct (lt a c) eqn:AC; [reflexivity|]. rewrite (inc _ _ _ BA AC) in BC. discriminate.
      + destruct (lt c b) eqn:CB; [discriminate|]. cbn. intro H2.
        rewrite (inc _ _ _ CB BA). cbn. rewrite (IH m n) by (assumption || lia). now rewrite orb_true_r.
  Qed.
  Lemma all2_lex l : (forall a b, eq a b = negb (lt a b) && negb (lt b a)) ->
    forall m, length m = length l -> all2 l m = negb (lex l m) && negb (lex m l).
  Proof.
    intro Q. induction l as [|a l IH]; intros [|b m] E; cbn in E; try discriminate; [reflexivity|]. cbn [all2 lex].
    rewrite Q, IH by lia. destruct (lt a b), (lt b a); reflexivity.
  Qed.
End Relational.

(** tuple_cat *)
Section Cat.
  Context (fold : bool) {A : Type}.
  Definition sizes (ts : list (list A)) : list Z := map (fun t => len t) ts.
  Lemma total_sizes (ts : list (list A)) : total (sizes ts) = len (concat ts).
  Proof. induction ts; [reflexivity|]. unfold total, sizes in *. cbn [map fold_right concat]. rewrite app_length, IHts. lia. Qed.
  Lemma sizes_nn (ts : list (list A)) : Forall (fun n => 0 <= n) (sizes ts).
  Proof. apply Forall_map, Forall_forall. intros; lia. Qed.
  Definition pre (ts : list (list A)) (i : nat) : Z := total (firstn i (sizes ts)).
  Lemma pre_mono ts i j : (i <= j)%nat -> 0 <= pre ts i <= pre ts j.
  Proof.
    intro H. unfold pre. replace (firstn i (sizes ts)) with (firstn i (firstn j (sizes ts))).
    - apply total_firstn_le. assert (P := sizes_nn ts). rewrite <- (firstn_skipn j (sizes ts)) in P. now apply Forall_app in P.
    - rewrite firstn_firstn. now rewrite Nat.min_l.
  Qed.
  Lemma locate (ts : list (list A)) : forall I, (I < length (concat ts))%nat ->
    exists j t, nth_error ts j = Some t /\ pre ts j <= Z.of_nat I < pre ts (S j) /\
      nth_error (concat ts) I = nth_error t (Z.to_nat (Z.of_nat I - pre ts j)).
  Proof.
    induction ts as [|t ts IH]; intros I H; cbn [concat] in H; [cbn in H; lia|]. rewrite app_length in H.
    assert (C : forall j, pre (t :: ts) (S j) = len t + pre ts j) by reflexivity.
    destruct (Nat.lt_ge_cases I (length t)).
    - exists 0%nat, t. split; [reflexivity|]. rewrite C. change (pre (t :: ts) 0) with 0. change (pre ts 0) with 0.
      split; [lia|]. cbn [concat]. rewrite nth_error_app1 by assumption. f_equal. lia.
    - destruct (IH (I - length t)%nat) as (j & u & Hu & B & E); [lia|]. exists (S j), u. split; [exact Hu|].
      rewrite !C. split; [lia|]. cbn [concat]. rewrite nth_error_app2 by assumption. rewrite E. f_equal. lia.
  Qed.
  Lemma total_ones {B} (l : list B) (f : B -> Z) c : (forall x, In x l -> f x = c) -> total (map f l) = c * len l.
  Proof.
    induction l; intro H; [cbn; lia|]. unfold total in *. cbn [map fold_right length]. rewrite IHl by (intros; apply H; now right).
    rewrite H by now left. lia.
  Qed.
  Lemma count_locate (ts : list (list A)) j x : (j < length ts)%nat -> pre ts j <= x < pre ts (S j) ->
    total (map (fun n => if n <=? x then 1 else 0) (map (fun i => pre ts (S i)) (seq 0 (length ts)))) = Z.of_nat j.
  Proof.
    intros H B. replace (length ts) with (j + (length ts - j))%nat by lia. rewrite seq_app, !map_app, total_app, !map_map.
    rewrite (total_ones _ _ 1), (total_ones _ _ 0), !seq_length; [lia| |].
    - intros i Hi. apply in_seq in Hi. destruct (Z.leb_spec (pre ts (S i)) x); [|reflexivity].
      assert (M := pre_mono ts (S j) (S i) ltac:(lia)). lia.
    - intros i Hi. apply in_seq in Hi. destruct (Z.leb_spec (pre ts (S i)) x); [reflexivity|].
      assert (M := pre_mono ts (S i) j ltac:(lia)). lia.
  Qed.
  Definition outer_of (ts : list (list A)) (x : Z) : Z :=
    total (map (fun n => if n <=? x then 1 else 0) (map (fun i => pre ts (S i)) (seq 0 (length ts)))).

  Context (ts : list (list A)) (LC : len (concat ts) < small) (LT : len ts + 1 < small).
  Lemma each_small t : In t ts -> len t < small.
  Proof.
    clear LT. revert LC. induction ts as [|u us IH]; intros LC H; [destruct H|]. cbn [concat] in LC. rewrite app_length in LC.
    destruct H as [->|H]; [lia|]. apply IH; [lia|assumption].
  Qed.
  Lemma sizes_ok : ok (sizes ts).
  Proof.
    unfold ok. rewrite total_sizes. unfold sizes at 2 3. rewrite map_length. split; [apply sizes_nn|]. split; [assumption|].
    assert (P : 1048576 + 1048576 + 1 < 2 ^ 63) by reflexivity. unfold small in *. lia.
  Qed.
  Lemma pre_bound i : 0 <= pre ts i < 2 ^ 63.
  Proof.
    unfold pre. assert (B := total_firstn_le i (sizes ts) (sizes_nn ts)). rewrite total_sizes in B.
    assert (P : 1048576 < 2 ^ 63) by reflexivity. unfold small in *. lia.
  Qed.
  Lemma excl : exclusive_scan fold size_t (sizes ts) = Some (map (pre ts) (seq 0 (length ts))).
  Proof.
    rewrite exclusive_ok; [|reflexivity|apply sizes_ok]. unfold sizes at 2. rewrite map_length. f_equal. apply map_ext.
    intro i. fold (pre ts i). apply size_t_id, pre_bound.
  Qed.
  Lemma incl : inclusive_scan fold size_t (sizes ts) = Some (map (fun i => pre ts (S i)) (seq 0 (length ts))).
  Proof.
    rewrite inclusive_ok; [|reflexivity|apply sizes_ok]. unfold sizes at 2. rewrite map_length. f_equal. apply map_ext.
    intro i. fold (pre ts (S i)). apply size_t_id, pre_bound.
  Qed.
  Lemma outer : outer_indices fold (iota (length (concat ts))) (map (fun i => pre ts (S i)) (seq 0 (length ts)))
    = Some (map (outer_of ts) (iota (length (concat ts)))).
  Proof.
    unfold outer_indices. apply expand_map. intros x _.
    set (ns := map (fun i => pre ts (S i)) (seq 0 (length ts))).
    assert (LN : length ns = length ts) by (unfold ns; now rewrite map_length, seq_length).
    assert (B : 0 <= total (map (fun n => if n <=? x then 1 else 0) ns) <= len ts).
    { rewrite <- LN. clear. induction ns; [cbn; lia|]. unfold total in *. cbn [map fold_right length]. destruct (a <=? x); lia. }
    assert (P : 1048576 + 1048576 + 1 < 2 ^ 63) by reflexivity. unfold small in *.
    rewrite sum_u_ok; rewrite ?map_length, ?LN; unfold small; try lia; [|reflexivity|].
    - unfold outer_of. fold ns. f_equal. apply size_t_id. lia.
    - apply Forall_map, Forall_forall. intros n _. destruct (n <=? x); lia.
  Qed.
  Lemma nth_seq_map {B} (f : nat -> B) n i : (i < n)%nat -> nth_error (map f (seq 0 n)) i = Some (f i).
  Proof. intro H. rewrite nth_error_map, (nth_error_nth' _ 0%nat) by now rewrite seq_length. cbn. now rewrite seq_nth. Qed.
  Lemma cat_ok : tuple_cat fold ts = Some (concat ts).
  Proof.
    unfold tuple_cat, cat_indices. fold (sizes ts).
    rewrite sum_u_ok; [|reflexivity|apply sizes_ok|apply sizes_ok|apply sizes_ok]. rewrite total_sizes.
    cbn [bind]. assert (P : 1048576 < 2 ^ 63) by reflexivity.
    rewrite size_t_id by (unfold small in *; lia). rewrite make_len by assumption. cbn [bind].
    rewrite incl. cbn [bind]. rewrite outer. cbn [bind]. rewrite excl. cbn [bind].
    assert (LE : length (map (pre ts) (seq 0 (length ts))) = length ts) by now rewrite map_length, seq_length.
    set (n := length (concat ts)).
    assert (J : forall x, In x (iota n) -> exists I j t, x = Z.of_nat I /\ (I < n)%nat /\ outer_of ts x = Z.of_nat j /\ nth_error ts j = Some t
       /\ pre ts j <= x < pre ts (S j) /\ nth_error (concat ts) I = nth_error t (Z.to_nat (x - pre ts j)) ).
    { intros x Hx. unfold iota in Hx. apply in_map_iff in Hx. destruct Hx as (I & <- & HI). apply in_seq in HI.
      destruct (locate ts I) as (j & t & Ht & B & E); [unfold n in HI; lia|].
      exists I, j, t. assert (Hj : (j < length ts)%nat) by (apply nth_error_Some; congruence).
      repeat split; try assumption; try lia. unfold outer_of. now apply count_locate. }
    unfold map_seq.
    rewrite (expand_map _ (fun o => pre ts (Z.to_nat o))).
    2: { intros o Ho. apply in_map_iff in Ho. destruct Ho as (x & <- & Hx). destruct (J x Hx) as (I & j & t & _ & _ & -> & Ht & _).
         assert (Hj : (j < length ts)%nat) by (apply nth_error_Some; congruence).
         unfold select. rewrite at_index_ok by (rewrite LE; lia). rewrite Nat2Z.id. now apply nth_seq_map. }
    cbn [bind]. rewrite map_map. unfold minus. rewrite expand2_combine by now rewrite map_length.
    rewrite (expand_nth _ _ (map (fun x => x - pre ts (Z.to_nat (outer_of ts x))) (iota n))).
    3: { intros i [a b] c H1 H2. cbn [fst snd].
         assert (C : forall (f : Z -> Z) l k a b, nth_error (combine l (map f l)) k = Some (a, b) -> nth_error l k = Some a /\ b = f a).
         { clear. intros f l. induction l as [|y l IH]; intros [|k] a b HH; cbn in HH; try discriminate HH.
           - injection HH as <- <-. now split.
           - now apply IH. }
         apply C in H1. destruct H1 as [Ha ->]. rewrite nth_error_map, Ha in H2. injection H2 as <-.
         apply nth_error_In in Ha. destruct (J a Ha) as (I & j & t & -> & HI & -> & Ht & B & _). rewrite Nat2Z.id.
         unfold arith. cbn [is_signed size_t]. f_equal. rewrite size_t_id; [lia|].
         assert (B0 := pre_bound j). assert (B1 := pre_bound (S j)). lia. }
    2: { now rewrite combine_length, !map_length, Nat.min_id. }
    cbn [bind fst snd]. rewrite expand2_combine by now rewrite !map_length.
    apply expand_nth; [rewrite combine_length, !map_length, Nat.min_id; apply len_iota|].
    intros i [o k] e H1 H2. cbn [fst snd].
    assert (C : forall (f g : Z -> Z) l k a b, nth_error (combine (map f l) (map g l)) k = Some (a, b) -> exists x, nth_error l k = Some x /\ a = f x /\ b = g x).
    { clear. intros f g l. induction l as [|y l IH]; intros [|k] a b HH; cbn in HH; try discriminate HH.
      - injection HH as <- <-. now exists y.
      - now apply IH. }
    apply C in H1. destruct H1 as (x & Hx & -> & ->).
    assert (Hi : (i < n)%nat) by (unfold n; apply nth_error_Some; congruence).
    rewrite nth_iota in Hx by assumption. injection Hx as <-.
    destruct (J (Z.of_nat i)) as (I & j & t & EI & HI & EO & Ht & B & E).
    { eapply nth_error_In. now apply nth_iota. }
    assert (I = i) by lia. subst I. rewrite EO, Nat2Z.id.
    rewrite get_ok by lia. rewrite Ht. cbn [bind].
    replace (Z.of_nat i - pre ts j) with (Z.of_nat (Z.to_nat (Z.of_nat i - pre ts j))) by lia.
    rewrite get_ok by (apply each_small; eapply nth_error_In; eassumption). congruence.
  Qed.
End Cat.

(** assignment and swap *)
Section Assign.
  Context {V : Type} (moved : V -> V).
  Notation store := (nat -> V).
  (* the pairs of locations, in order *)
  Fixpoint run (f : store -> nat -> nat -> store) (ps : list (nat * nat)) (s : store) : store :=
    match ps with [] => s | p :: r => run f r (f s (fst p) (snd p)) end.
  Lemma each_run (f : store -> nat -> nat -> store) l m : len l < small -> length m = length l -> forall k i s, (i + k)%nat = length l ->
    each f (map Z.of_nat (seq i k)) l m s = Some (run f (combine (skipn i l) (skipn i m)) s).
  Proof.
    intros L E. induction k; intros i s H; cbn [seq map each].
    - rewrite skipn_all2 by lia. reflexivity.
    - destruct (skipn_nth l i) as (a & Ha & Sa); [lia|]. destruct (skipn_nth m i) as (b & Hb & Sb); [lia|].
      rewrite !get_ok by lia. rewrite Ha, Hb. cbn [bind]. rewrite Sa, Sb. cbn [combine run fst snd]. apply IHk. lia.
  Qed.
  Lemma all_run (f : store -> nat -> nat -> store) l m s : len l < small -> length m = length l ->
    all_indices f l m s = Some (run f (combine l m) s).
  Proof.
    intros L E. unfold all_indices, index_sequence_for. rewrite E, Z.eqb_refl, make_len by assumption. cbn [bind].
    apply (each_run f l m L E (length l) 0%nat). lia.
  Qed.
  Lemma put_same (s : store) l v : put s l v l = v.
  Proof. unfold put. now rewrite Nat.eqb_refl. Qed.
  Lemma put_other (s : store) l v x : x <> l -> put s l v x = s x.
  Proof. unfold put. intro H. now apply Nat.eqb_neq in H as ->. Qed.

  Lemma run_copy ps : forall s,
    NoDup (map fst ps) ->
    (forall i j p q, (i < j)%nat -> nth_error ps i = Some p -> nth_error ps j = Some q -> fst p <> snd q) ->
    (forall p, In p ps -> run assign_copy ps s (fst p) = s (snd p)) /\
    (forall x, ~ In x (map fst ps) -> run assign_copy ps s x = s x).
  Proof.
    induction ps as [|p ps IH]; intros s ND D; [split; [intros p []|reflexivity]|]. cbn [run].
    cbn [map] in ND. inversion ND as [|? ? N1 N2]; subst.
    destruct (IH (assign_copy s (fst p) (snd p)) N2) as [I1 I2].
    { intros i j a b Hij Ha Hb. apply (D (S i) (S j) a b); [lia|assumption|assumption]. }
    split.
    - intros q [<-|Hq].
      + rewrite I2 by assumption. unfold assign_copy. apply put_same.
      + rewrite I1 by assumption. unfold assign_copy. apply put_other.
        apply In_nth_error in Hq. destruct Hq as [j Hj]. intro X. apply (D 0%nat (S j) p q); [lia|reflexivity|assumption|now symmetry].
    - intros x Hx. cbn [map] in Hx. rewrite I2 by (intro; apply Hx; now right). unfold assign_copy. apply put_other.
      intro. apply Hx. left. now symmetry.
  Qed.
  Lemma run_move ps : forall s,
    NoDup (map fst ps) -> NoDup (map snd ps) -> (forall x, In x (map fst ps) -> ~ In x (map snd ps)) ->
    (forall p, In p ps -> run (assign_move moved) ps s (fst p) = s (snd p)) /\
    (forall p, In p ps -> run (assign_move moved) ps s (snd p) = moved (s (snd p))) /\
    (forall x, ~ In x (map fst ps) -> ~ In x (map snd ps) -> run (assign_move moved) ps s x = s x).
  Proof.
    induction ps as [|p ps IH]; intros s ND1 ND2 D; [split; [intros p []|split; [intros p []|reflexivity]]|]. cbn [run].
    cbn [map] in *. inversion ND1 as [|? ? N1 N2]; inversion ND2 as [|? ? M1 M2]; subst.
    set (s1 := assign_move moved s (fst p) (snd p)).
    assert (S1 : forall x, x <> fst p -> x <> snd p -> s1 x = s x).
    { intros x H1 H2. unfold s1, assign_move. rewrite put_other, put_other by assumption. reflexivity. }
    assert (PP : fst p <> snd p) by (intro X; apply (D (fst p)); left; [reflexivity|now symmetry]).
    destruct (IH s1 N2 M2) as (I1 & I2 & I3).
    { intros x Hx Hy. apply (D x); now right. }
    assert (Q1 : forall q, In q ps -> s1 (snd q) = s (snd q)).
    { intros q Hq. apply S1.
      - intro X. apply (D (fst p)); [now left|right]. rewrite <- X. now apply in_map.
      - intro X. apply M1. rewrite <- X. now apply in_map. }
    split; [|split].
    - intros q [<-|Hq].
      + rewrite I3; [unfold s1, assign_move; apply put_same|assumption|]. intro X. apply (D (fst p)); [now left|now right].
      + rewrite I1 by assumption. now apply Q1.
    - intros q [<-|Hq].
      + rewrite I3; [|intro X; apply (D (snd p)); [now right|now left]|assumption].
        unfold s1, assign_move. rewrite put_other, put_same by congruence. reflexivity.
      + rewrite I2 by assumption. now rewrite Q1.
    - intros x H1 H2. rewrite I3; [apply S1; intro X; [apply H1|apply H2]; left; now symmetry| |]; intro; [apply H1|apply H2]; now right.
  Qed.
  Lemma run_swap ps : forall s,
    NoDup (map fst ps) -> NoDup (map snd ps) -> (forall x, In x (map fst ps) -> ~ In x (map snd ps)) ->
    (forall p, In p ps -> run swap_value ps s (fst p) = s (snd p)) /\
    (forall p, In p ps -> run swap_value ps s (snd p) = s (fst p)) /\
    (forall x, ~ In x (map fst ps) -> ~ In x (map snd ps) -> run swap_value ps s x = s x).
  Proof.
    induction ps as [|p ps IH]; intros s ND1 ND2 D; [split; [intros p []|split; [intros p []|reflexivity]]|]. cbn [run].
    cbn [map] in *. inversion ND1 as [|? ? N1 N2]; inversion ND2 as [|? ? M1 M2]; subst.
    set (s1 := swap_value s (fst p) (snd p)).
    assert (S1 : forall x, x <> fst p -> x <> snd p -> s1 x = s x).
    { intros x H1 H2. unfold s1, swap_value. rewrite put_other, put_other by assumption. reflexivity. }
    assert (PP : fst p <> snd p) by (intro X; apply (D (fst p)); left; [reflexivity|now symmetry]).
    destruct (IH s1 N2 M2) as (I1 & I2 & I3).
    { intros x Hx Hy. apply (D x); now right. }
    assert (Q1 : forall q, In q ps -> s1 (snd q) = s (snd q)).
    { intros q Hq. apply S1.
      - intro X. apply (D (fst p)); [now left|right]. rewrite <- X. now apply in_map.
      - intro X. apply M1. rewrite <- X. now apply in_map. }
    assert (Q2 : forall q, In q ps -> s1 (fst q) = s (fst q)).
    { intros q Hq. apply S1.
      - intro X. apply N1. rewrite <- X. now apply in_map.
      - intro X. apply (D (snd p)); [right|now left]. rewrite <- X. now apply in_map. }
    split; [|split].
    - intros q [<-|Hq].
      + rewrite I3; [unfold s1, swap_value; rewrite put_other by assumption; apply put_same|assumption|]. intro X. apply (D (fst p)); [now left|now right].
      + rewrite I1 by assumption. now apply Q1.
    - intros q [<-|Hq].
      + rewrite I3; [|intro X; apply (D (snd p)); [now right|now left]|assumption].
        unfold s1, swap_value. apply put_same.
      + rewrite I2 by assumption. now apply Q2.
    - intros x H1 H2. rewrite I3; [apply S1; intro X; [apply H1|apply H2]; left; now symmetry| |]; intro; [apply H1|apply H2]; now right.
  Qed.
  Lemma run_self f l : (forall (s : store) a x, f s a a x = s x) -> forall (s : store) x, run f (combine l l) s x = s x.
  Proof. intro H. induction l; intros s x; [reflexivity|]. cbn [combine run fst snd]. now rewrite IHl, H. Qed.
  Lemma combine_fst {A B} (l : list A) : forall m : list B, length m = length l -> map fst (combine l m) = l.
  Proof. induction l; intros [|b m] H; cbn in *; try discriminate; [reflexivity|]. f_equal. apply IHl. lia. Qed.
  Lemma combine_snd {A B} (l : list A) : forall m : list B, length m = length l -> map snd (combine l m) = m.
  Proof. induction l; intros [|b m] H; cbn in *; try discriminate; [reflexivity|]. f_equal. apply IHl. lia. Qed.
  Lemma combine_nth {A B} (l : list A) : forall (m : list B) i a b, nth_error l i = Some a -> nth_error m i = Some b -> nth_error (combine l m) i = Some (a, b).
  Proof. induction l; intros [|y m] [|i] u v H1 H2; cbn in *; try discriminate; [congruence|]. now apply IHl. Qed.
  Lemma combine_nth_inv {A B} (l : list A) : forall (m : list B) i p, nth_error (combine l m) i = Some p -> nth_error l i = Some (fst p) /\ nth_error m i = Some (snd p).
  Proof. induction l; intros [|y m] [|i] p H; cbn in *; try discriminate; [injection H as <-; now split|]. now apply IHl. Qed.
End Assign.
