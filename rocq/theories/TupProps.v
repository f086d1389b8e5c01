(** C69: compile-time integer sequences; C70: tuple access, comparison and tuple_cat; C71: tuple assignment and swap. *)
From Coq Require Import ZArith List Bool Lia.
From Verif Require Import SeqModel TupModel SeqProofs TupProofs.
Import ListNotations.
Open Scope Z_scope.
Local Notation len l := (Z.of_nat (length l)).

(** C69: make_index_sequence<N> is 0, 1, ..., N-1 for every N below 2^20, and is rejected above. *)
Theorem C69_index_sequence : forall N : Z, 0 <= N ->
  make_index_sequence N = if N <? 2 ^ 20 then Some (map Z.of_nat (seq 0 (Z.to_nat N))) else None.
Proof.
  intros N H. destruct (Z.ltb_spec N (2 ^ 20)) as [K|K]; change (2 ^ 20) with small in K; [|now apply make_big].
  apply make_ok. lia.
Qed.
Print Assumptions C69_index_sequence.

(** C69: at_index picks the type at the index, and nothing else compiles. *)
Theorem C69_at_index : forall (A : Type) (l : list A) (I : Z), 0 <= I -> len l < 2 ^ 20 -> at_index I l = nth_error l (Z.to_nat I).
Proof. intros A l I H L. rewrite <- at_index_ok by exact L. now rewrite Z2Nat.id. Qed.
Print Assumptions C69_at_index.

(** C69: is_all is the conjunction, whichever way it is computed. *)
Theorem C69_is_all : forall (fold : bool) (Bs : list bool), is_all fold Bs = true <-> (forall b, In b Bs -> b = true).
Proof. exact is_all_ok. Qed.
Print Assumptions C69_is_all.

(** C69: the sum of unsigned numbers, with fold expressions or by sizeof. *)
Theorem C69_sum_unsigned : forall (fold : bool) (t : ity) (l : list Z),
  is_signed t = false -> (forall n, In n l -> 0 <= n) -> len l + 1 < 2 ^ 20 -> fold_right Z.add 0 l + len l + 1 < 2 ^ 63 ->
  sum fold t l = Some (fold_right Z.add 0 l mod 2 ^ width t).
Proof. intros fold t l U P L T. apply sum_u_ok; try assumption. now apply Forall_forall. Qed.
Print Assumptions C69_sum_unsigned.

(** C69: the sum of signed numbers, if the positive and the negative part are representable. *)
Theorem C69_sum_signed : forall (fold : bool) (t : ity) (l : list Z) (P N : Z),
  is_signed t = true -> 0 < width t -> len l + 1 < 2 ^ 20 ->
  P = fold_right Z.add 0 (filter (fun n => 0 <? n) l) -> N = fold_right Z.add 0 (filter (fun n => n <? 0) l) ->
  P < 2 ^ (width t - 1) -> - 2 ^ (width t - 1) < N -> P + len l + 1 < 2 ^ 63 -> - N + len l + 1 < 2 ^ 63 ->
  sum fold t l = Some (fold_right Z.add 0 l).
Proof.
  intros fold t l P N S W L -> ->.
  assert (EP : fold_right Z.add 0 (filter (fun n => 0 <? n) l) = pos l).
  { induction l; [reflexivity|]. cbn [filter]. rewrite pos_cons. destruct (0 <? a); cbn [fold_right]; rewrite IHl; try reflexivity; cbn in L; lia. }
  assert (EN : fold_right Z.add 0 (filter (fun n => n <? 0) l) = - neg l).
  { clear EP. induction l; [reflexivity|]. cbn [filter]. rewrite neg_cons. destruct (a <? 0); cbn [fold_right]; rewrite IHl; try lia; cbn in L; lia. }
  rewrite EP, EN. intros. apply sum_s_ok; (assumption || lia).
Qed.
Print Assumptions C69_sum_signed.

(** C69: the two computations disagree at overflow: with fold expressions the sum INT_MAX + 1 is rejected, by
    sizeof it is INT_MIN. *)
Theorem C69_sum_overflow_refuted : exists (t : ity) (l : list Z),
  is_signed t = true /\ width t = 32 /\ (forall n, In n l -> fits t n = true) /\ fold_right Z.add 0 l = 2 ^ 31 /\
  sum true t l = None /\ sum false t l = Some (- 2 ^ 31).
Proof.
  exists (Ity 32 true), [2 ^ 31 - 1; 1]. repeat split; try reflexivity.
  intros n [<-|[<-|[]]]; reflexivity.
Qed.
Print Assumptions C69_sum_overflow_refuted.

(** C69: exclusive and inclusive scans are the prefix sums. *)
Theorem C69_scans : forall (fold : bool) (t : ity) (l : list Z),
  is_signed t = false -> (forall n, In n l -> 0 <= n) -> len l + 1 < 2 ^ 20 -> fold_right Z.add 0 l + len l + 1 < 2 ^ 63 ->
  exclusive_scan fold t l = Some (map (fun i => fold_right Z.add 0 (firstn i l) mod 2 ^ width t) (seq 0 (length l))) /\
  inclusive_scan fold t l = Some (map (fun i => fold_right Z.add 0 (firstn (S i) l) mod 2 ^ width t) (seq 0 (length l))).
Proof.
  intros fold t l U P L T.
  assert (O : ok l) by (split; [now apply Forall_forall|now split]).
  split; [now apply exclusive_ok|now apply inclusive_ok].
Qed.
Print Assumptions C69_scans.

Example C69_case :
  make_index_sequence 11 = Some [0; 1; 2; 3; 4; 5; 6; 7; 8; 9; 10] /\ at_index 1 [10; 20; 30] = Some 20 /\ at_index 3 [10; 20; 30] = None /\
  is_all false [true; false; true] = false /\ is_all false [true; true] = true /\
  sum false size_t [3; 0; 4] = Some 7 /\ sum true (Ity 32 true) [3; -5; 1] = Some (-1) /\ sum false (Ity 32 true) [3; -5; 1] = Some (-1) /\
  exclusive_scan false size_t [3; 0; 4; 2] = Some [0; 3; 3; 7] /\ inclusive_scan true size_t [3; 0; 4; 2] = Some [3; 3; 7; 9] /\
  sum false (Ity 32 false) [2 ^ 32 - 1; 2] = Some 1.
Proof. vm_compute. repeat split. Qed.

(** C70: tuple_cat gives the elements of all tuples in order, however many of them are empty, with either way of
    summing. *)
Theorem C70_tuple_cat : forall (fold : bool) (A : Type) (ts : list (list A)),
  len (concat ts) < 2 ^ 20 -> len ts + 1 < 2 ^ 20 -> tuple_cat fold ts = Some (concat ts).
Proof. intros fold A ts LC LT. now apply cat_ok. Qed.
Print Assumptions C70_tuple_cat.

(** C70: get<I> gives the element at I; get<T> gives the element of type T if exactly one has it, and is rejected
    otherwise. *)
Theorem C70_get : forall (fold : bool) (T A : Type) (same : forall x y : T, {x = y} + {x <> y}) (t : list (T * A)),
  len t + 1 < 2 ^ 20 ->
  (forall i, get (Z.of_nat i) t = nth_error t i) /\
  (forall x e, get_type fold same x t = Some e <->
     exists i, nth_error t i = Some e /\ fst e = x /\ forall j e', nth_error t j = Some e' -> fst e' = x -> j = i).
Proof.
  intros fold T A same t L. change (2 ^ 20) with small in L. split; [intro i; apply get_ok; lia|].
  intros x e. rewrite get_type_ok by assumption. split.
  - intros (l1 & l2 & -> & <- & H1 & H2). exists (length l1). split; [apply nth_middle_map|]. split; [reflexivity|].
    intros j e' Hj He. destruct (Nat.lt_trichotomy j (length l1)) as [J|[J|J]]; [|assumption|]; exfalso.
    + rewrite nth_error_app1 in Hj by assumption. apply H1. rewrite <- He. apply in_map. eapply nth_error_In; eassumption.
    + rewrite nth_error_app2 in Hj by lia. destruct (j - length l1)%nat eqn:D; [lia|]. cbn in Hj.
      apply H2. rewrite <- He. apply in_map. eapply nth_error_In; eassumption.
  - intros (i & Hi & <- & U). apply nth_error_split in Hi. destruct Hi as (l1 & l2 & -> & <-). exists l1, l2.
    split; [reflexivity|]. split; [reflexivity|]. split; intro K; apply in_map_iff in K; destruct K as (e' & Ef & Hin);
      apply In_nth_error in Hin; destruct Hin as [k Hk].
    + assert (k < length l1)%nat by (apply nth_error_Some; congruence).
      assert (k = length l1) by (apply (U k e'); [now rewrite nth_error_app1|assumption]). lia.
    + assert (length l1 + S k = length l1)%nat; [|lia]. apply (U _ e'); [|assumption].
      rewrite nth_error_app2 by lia. replace (length l1 + S k - length l1)%nat with (S k) by lia. exact Hk.
Qed.
Print Assumptions C70_get.

(** C70: comparisons. == compares all elements, < is lexicographic, the others are derived from these two;
    tuples of different sizes are not comparable. *)
Theorem C70_comparisons : forall (fold : bool) (A : Type) (eq lt : A -> A -> bool) (l m : list A),
  len l < 2 ^ 20 -> length m = length l ->
  exists e b c : bool,
    t_eq fold eq l m = Some e /\ t_ne fold eq l m = Some (negb e) /\
    t_lt lt l m = Some b /\ t_ge lt l m = Some (negb b) /\ t_gt lt l m = Some c /\ t_le lt l m = Some (negb c) /\
    (e = true <-> forall i x y, nth_error l i = Some x -> nth_error m i = Some y -> eq x y = true) /\
    (b = true <-> exists i x y, nth_error l i = Some x /\ nth_error m i = Some y /\ lt x y = true /\
       forall j u v, (j < i)%nat -> nth_error l j = Some u -> nth_error m j = Some v -> lt u v = false /\ lt v u = false) /\
    (c = true <-> exists i x y, nth_error l i = Some x /\ nth_error m i = Some y /\ lt y x = true /\
       forall j u v, (j < i)%nat -> nth_error l j = Some u -> nth_error m j = Some v -> lt u v = false /\ lt v u = false).
Proof.
  intros fold A eq lt l m L E.
  assert (L' : len m < small) by (rewrite E; exact L).
  exists (all2 eq l m), (lex lt l m), (lex lt m l).
  unfold t_ne, t_ge, t_gt, t_le. rewrite t_eq_ok, !t_lt_ok by (assumption || now symmetry).
  split; [reflexivity|]. split; [reflexivity|]. split; [reflexivity|]. split; [reflexivity|]. split; [reflexivity|]. split; [reflexivity|].
  split; [now apply all2_iff|]. split; [now apply lex_iff|].
  rewrite lex_iff by now symmetry. split; intros (i & x & y & Hx & Hy & Hl & Hp).
  - exists i, y, x. split; [assumption|]. split; [assumption|]. split; [assumption|]. intros j u v Hj Hu Hv.
    destruct (Hp j v u Hj Hv Hu). now split.
  - exists i, y, x. split; [assumption|]. split; [assumption|]. split; [assumption|]. intros j u v Hj Hu Hv.
    destruct (Hp j v u Hj Hv Hu). now split.
Qed.
Print Assumptions C70_comparisons.

(** C70: if the elements are strictly weakly ordered, so are the tuples, and if == of the elements means that neither
    is less then the same holds of the tuples. *)
Theorem C70_order : forall (fold : bool) (A : Type) (eq lt : A -> A -> bool),
  (forall a, lt a a = false) -> (forall a b c, lt a b = true -> lt b c = true -> lt a c = true) ->
  (forall a b c, lt a b = false -> lt b c = false -> lt a c = false) ->
  forall l m n : list A, len l < 2 ^ 20 -> length m = length l -> length n = length l ->
  t_lt lt l l = Some false /\
  (t_lt lt l m = Some true -> t_lt lt m n = Some true -> t_lt lt l n = Some true) /\
  (t_ge lt l m = Some true -> t_ge lt m n = Some true -> t_ge lt l n = Some true) /\
  ((forall a b, eq a b = negb (lt a b) && negb (lt b a)) ->
     (t_eq fold eq l m = Some true <-> t_lt lt l m = Some false /\ t_gt lt l m = Some false)).
Proof.
  intros fold A eq lt I T N l m n L Em En.
  assert (Lm : len m < small) by (rewrite Em; exact L).
  unfold t_ge, t_gt. rewrite t_eq_ok, !t_lt_ok by (assumption || congruence). cbn [option_map].
  split; [now rewrite lex_irr|]. split; [|split].
  - intros [= H1] [= H2]. f_equal. now apply (lex_trans lt T N l m n).
  - intros [= H1] [= H2]. apply negb_true_iff in H1, H2. f_equal. apply negb_true_iff. now apply (lex_neg lt N l m n).
  - intro Q. rewrite (all2_lex eq lt l Q m Em). split.
    + intros [= H]. apply andb_true_iff in H. destruct H as [H1 H2]. apply negb_true_iff in H1, H2. now rewrite H1, H2.
    + intros [[= H1] [= H2]]. now rewrite H1, H2.
Qed.
Print Assumptions C70_order.

Example C70_case :
  tuple_cat false [[]; [1; 2]; []; [3]; []] = Some [1; 2; 3] /\ tuple_cat true [[1]; [2; 3]; [4]] = Some [1; 2; 3; 4] /\
  get 2 [5; 6; 7] = Some 7 /\
  get_type true Z.eq_dec 8 [(7, true); (8, false); (9, true)] = Some (8, false) /\
  get_type false Z.eq_dec 8 [(8, true); (8, false)] = None /\ get_type false Z.eq_dec 6 [(8, true); (7, false)] = None /\
  t_lt Z.ltb [1; 2; 3] [1; 3; 0] = Some true /\ t_lt Z.ltb [1; 3; 0] [1; 2; 3] = Some false /\ t_le Z.ltb [1; 2] [1; 2] = Some true /\
  t_eq false Z.eqb [1; 2] [1; 2] = Some true /\ t_ne true Z.eqb [1; 2] [1; 3] = Some true /\ t_eq true Z.eqb [1] [1; 2] = None.
Proof. vm_compute. repeat split. Qed.

(** C71: assignment from a tuple of another type.  Every element of the left side gets the old value of the element of
    the right side with the same index, if its location is not read later; nothing else changes. *)
Theorem C71_copy_assign : forall (V : Type) (l m : list nat) (s : nat -> V),
  len l < 2 ^ 20 -> length m = length l -> NoDup l ->
  (forall i j a b, (i < j)%nat -> nth_error l i = Some a -> nth_error m j = Some b -> a <> b) ->
  exists s', copy_assign l m s = Some s' /\
    (forall i a b, nth_error l i = Some a -> nth_error m i = Some b -> s' a = s b) /\
    (forall x, ~ In x l -> s' x = s x).
Proof.
  intros V l m s L E ND D. exists (run assign_copy (combine l m) s). split; [apply all_run; (exact L || assumption || reflexivity)|].
  destruct (run_copy (combine l m) s) as [R1 R2].
  - now rewrite combine_fst.
  - intros i j p q Hij Hp Hq. apply combine_nth_inv in Hp, Hq. apply (D i j); [assumption|apply Hp|apply Hq].
  - split.
    + intros i a b Ha Hb. apply (R1 (a, b)). apply (nth_error_In _ i). now apply combine_nth.
    + intros x Hx. apply R2. now rewrite combine_fst.
Qed.
Print Assumptions C71_copy_assign.

(** C71: move assignment moves every element from the element with the same index; the sources are left moved from,
    nothing else changes. *)
Theorem C71_move_assign : forall (V : Type) (moved : V -> V) (l m : list nat) (s : nat -> V),
  len l < 2 ^ 20 -> length m = length l -> NoDup l -> NoDup m -> (forall x, In x l -> ~ In x m) ->
  exists s', move_assign moved l m s = Some s' /\
    (forall i a b, nth_error l i = Some a -> nth_error m i = Some b -> s' a = s b /\ s' b = moved (s b)) /\
    (forall x, ~ In x l -> ~ In x m -> s' x = s x).
Proof.
  intros V moved l m s L E N1 N2 D. exists (run (assign_move moved) (combine l m) s). split; [apply all_run; (exact L || assumption || reflexivity)|].
  destruct (run_move moved (combine l m) s) as (R1 & R2 & R3); rewrite ?combine_fst, ?combine_snd by assumption; try assumption.
  rewrite combine_fst, combine_snd in R3 by assumption. split; [|exact R3].
  intros i a b Ha Hb. assert (I : In (a, b) (combine l m)) by (apply (nth_error_In _ i); now apply combine_nth).
  split; [apply (R1 (a, b) I)|apply (R2 (a, b) I)].
Qed.
Print Assumptions C71_move_assign.

(** C71: swap exchanges the elements of two tuples index by index; swap with itself and copying from itself change
    nothing. *)
Theorem C71_swap : forall (V : Type) (l m : list nat) (s : nat -> V),
  len l < 2 ^ 20 -> length m = length l -> NoDup l -> NoDup m -> (forall x, In x l -> ~ In x m) ->
  exists s', swap l m s = Some s' /\
    (forall i a b, nth_error l i = Some a -> nth_error m i = Some b -> s' a = s b /\ s' b = s a) /\
    (forall x, ~ In x l -> ~ In x m -> s' x = s x).
Proof.
  intros V l m s L E N1 N2 D. exists (run swap_value (combine l m) s). split; [apply all_run; (exact L || assumption || reflexivity)|].
  destruct (run_swap (combine l m) s) as (R1 & R2 & R3); rewrite ?combine_fst, ?combine_snd by assumption; try assumption.
  rewrite combine_fst, combine_snd in R3 by assumption. split; [|exact R3].
  intros i a b Ha Hb. assert (I : In (a, b) (combine l m)) by (apply (nth_error_In _ i); now apply combine_nth).
  split; [apply (R1 (a, b) I)|apply (R2 (a, b) I)].
Qed.
Print Assumptions C71_swap.

Theorem C71_self : forall (V : Type) (l : list nat) (s : nat -> V), len l < 2 ^ 20 ->
  exists s1 s2, swap l l s = Some s1 /\ copy_assign l l s = Some s2 /\ forall x, s1 x = s x /\ s2 x = s x.
Proof.
  intros V l s L. exists (run swap_value (combine l l) s), (run assign_copy (combine l l) s).
  split; [apply all_run; (exact L || assumption || reflexivity)|]. split; [apply all_run; (exact L || assumption || reflexivity)|]. intro x. split; apply run_self; intros s0 a y.
  - unfold swap_value, put. now destruct (Nat.eqb_spec y a) as [->|].
  - unfold assign_copy, put. now destruct (Nat.eqb_spec y a) as [->|].
Qed.
Print Assumptions C71_self.

(** C71: the condition of C71_copy_assign is needed: tie( a, b ) = tie( b, a ) does not exchange a and b. *)
Theorem C71_tie_exchange_refuted : exists (l m : list nat) (s s' : nat -> Z),
  NoDup l /\ NoDup m /\ length m = length l /\ copy_assign l m s = Some s' /\
  exists i a b, nth_error l i = Some a /\ nth_error m i = Some b /\ s' a <> s b.
Proof.
  exists [0%nat; 1%nat], [1%nat; 0%nat], (fun x => if Nat.eqb x 0 then 5 else 6).
  eexists. split; [repeat constructor; cbn; intuition discriminate|]. split; [repeat constructor; cbn; intuition discriminate|].
  split; [reflexivity|]. split; [vm_compute; reflexivity|]. exists 1%nat, 1%nat, 0%nat. split; [reflexivity|]. split; [reflexivity|]. cbn. discriminate.
Qed.
Print Assumptions C71_tie_exchange_refuted.

Example C71_case :
  let s := fun x => Z.of_nat x + 10 in
  (exists s', copy_assign [0%nat; 1%nat] [2%nat; 3%nat] s = Some s' /\ map s' [0; 1; 2; 3]%nat = [12; 13; 12; 13]) /\
  (exists s', move_assign (fun _ => 0) [0%nat; 1%nat] [2%nat; 3%nat] s = Some s' /\ map s' [0; 1; 2; 3]%nat = [12; 13; 0; 0]) /\
  (exists s', swap [0%nat; 1%nat] [2%nat; 3%nat] s = Some s' /\ map s' [0; 1; 2; 3]%nat = [12; 13; 10; 11]).
Proof. repeat split; eexists; (split; [vm_compute; reflexivity|reflexivity]). Qed.
