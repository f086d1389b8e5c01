(** Every entry of the two power-of-five tables is what it should be (one evaluation over the
    table text; the powers of five are computed incrementally). *)
From Coq Require Import ZArith List Bool Lia.
From Verif Require Import Mem RyuTables RyuModel RyuArith.
Import ListNotations.
Open Scope Z_scope.

(** What a row [r] at index i of DOUBLE_POW5_SPLIT must satisfy, p5 being 5^i. *)
Definition pow_good (p5 i : Z) (r : Z * Z) : Prop :=
  row_ok r /\ snd r < 2 ^ 61 /\
  row r * 2 ^ (L25 i + 1) <= p5 * 2 ^ 125 < (row r + 1) * 2 ^ (L25 i + 1) /\
  (row r / 2 ^ 11) mod 2 ^ 64 <> 2 ^ 64 - 1.
(** The same for DOUBLE_POW5_INV_SPLIT. *)
Definition inv_good (p5 i : Z) (r : Z * Z) : Prop :=
  row_ok r /\ snd r < 2 ^ 61 + 1 /\ 1 <= fst r /\
  (row r - 1) * p5 <= 2 ^ (L25 i + 125) < row r * p5 /\
  (row r / 2 ^ 11) mod 2 ^ 64 <> 2 ^ 64 - 1.

Definition rowb (r : Z * Z) : Z := Z.shiftl (snd r) 64 + fst r.
Definition pow_goodb (p5 i : Z) (r : Z * Z) : bool :=
  (0 <=? fst r) && (fst r <? 18446744073709551616) && (0 <=? snd r) && (snd r <? 2305843009213693952) &&
  (let t := rowb r in let x := Z.shiftl p5 125 in let b := L25 i + 1 in
   (Z.shiftl t b <=? x) && (x <? Z.shiftl (t + 1) b) &&
   negb ((Z.shiftr t 11) mod 18446744073709551616 =? 18446744073709551615)).
Definition inv_goodb (p5 i : Z) (r : Z * Z) : bool :=
  (1 <=? fst r) && (fst r <? 18446744073709551616) && (0 <=? snd r) && (snd r <? 2305843009213693953) &&
  (let t := rowb r in let x := t * p5 in let y := Z.shiftl 1 (L25 i + 125) in
   (x - p5 <=? y) && (y <? x) &&
   negb ((Z.shiftr t 11) mod 18446744073709551616 =? 18446744073709551615)).

Fixpoint walk (good : Z -> Z -> Z * Z -> bool) (l : list (Z * Z)) (i p5 : Z) : bool :=
  match l with
  | [] => true
  | r :: t => good p5 i r && walk good t (i + 1) (5 * p5)
  end.

Lemma walk_ok good l i p5 : walk good l i p5 = true -> 0 <= i ->
  forall k r, nth_error l k = Some r -> good (5 ^ Z.of_nat k * p5) (i + Z.of_nat k) r = true.
Proof.
  revert i p5. induction l as [|a l IH]; intros i p5 W Hi k r E; [destruct k; discriminate E|].
  cbn [walk] in W. apply andb_prop in W. destruct W as [G W]. destruct k as [|k].
  - cbn in E. injection E as <-. replace (5 ^ Z.of_nat 0 * p5) with p5 by (change (5 ^ Z.of_nat 0) with 1; lia). replace (i + Z.of_nat 0) with i by lia. exact G.
  - specialize (IH _ _ W ltac:(lia) k r E). rewrite Nat2Z.inj_succ, Z.pow_succ_r by lia.
    replace (5 * 5 ^ Z.of_nat k * p5) with (5 ^ Z.of_nat k * (5 * p5)) by ring.
    replace (i + Z.succ (Z.of_nat k)) with (i + 1 + Z.of_nat k) by lia. exact IH.
Qed.

Lemma walk_pow : walk pow_goodb DOUBLE_POW5_SPLIT 0 1 = true.
Proof. vm_compute. reflexivity. Qed.
Lemma walk_inv : walk inv_goodb DOUBLE_POW5_INV_SPLIT 0 1 = true.
Proof. vm_compute. reflexivity. Qed.

Lemma rowb_eq r : rowb r = row r.
Proof. unfold rowb, row. rewrite Z.shiftl_mul_pow2 by lia. reflexivity. Qed.

Lemma L25_nonneg i : 0 <= i -> 0 <= L25 i.
Proof. intro H. unfold L25. apply Z.div_pos; lia. Qed.

Lemma pow_good_ok p5 i r : 0 <= i -> pow_goodb p5 i r = true -> pow_good p5 i r.
Proof.
  intros Hi G. unfold pow_goodb in G. rewrite rowb_eq in G. pose proof (L25_nonneg i Hi).
  rewrite !Z.shiftl_mul_pow2, Z.shiftr_div_pow2 in G by lia.
  repeat rewrite andb_true_iff in G. rewrite !Z.leb_le, !Z.ltb_lt, negb_true_iff, Z.eqb_neq in G.
  unfold pow_good, row_ok. change (2 ^ 64) with 18446744073709551616 in *. change (2 ^ 61) with 2305843009213693952.
  destruct G as ((((G1 & G2) & G3) & G4) & ((G5 & G6) & G7)).
  split; [split; split; lia|]. split; [exact G4|]. split; [split; assumption|exact G7].
Qed.
Lemma inv_good_ok p5 i r : 0 <= i -> inv_goodb p5 i r = true -> inv_good p5 i r.
Proof.
  intros Hi G. unfold inv_goodb in G. rewrite rowb_eq in G. pose proof (L25_nonneg i Hi).
  rewrite !Z.shiftl_mul_pow2, Z.shiftr_div_pow2 in G by lia.
  repeat rewrite andb_true_iff in G. rewrite !Z.leb_le, !Z.ltb_lt, negb_true_iff, Z.eqb_neq in G.
  unfold inv_good, row_ok. change (2 ^ 64) with 18446744073709551616 in *. change (2 ^ 61) with 2305843009213693952.
  rewrite Z.mul_1_l in G. replace ((row r - 1) * p5) with (row r * p5 - p5) by ring.
  destruct G as ((((G1 & G2) & G3) & G4) & ((G5 & G6) & G7)).
  split; [split; split; lia|]. split; [lia|]. split; [exact G1|]. split; [split; assumption|exact G7].
Qed.

Lemma tab_in t i : 0 <= i < Z.of_nat (length t) -> exists r, tab t i = Ok r /\ nth_error t (Z.to_nat i) = Some r.
Proof.
  intro H. unfold tab. replace (0 <=? i) with true by (symmetry; apply Z.leb_le; lia).
  destruct (nth_error t (Z.to_nat i)) as [r|] eqn:E; [now exists r|].
  apply nth_error_None in E. lia.
Qed.

Lemma pow_row i : 0 <= i < 326 -> exists r, tab DOUBLE_POW5_SPLIT i = Ok r /\ pow_good (5 ^ i) i r.
Proof.
  intro H. destruct (tab_in DOUBLE_POW5_SPLIT i) as (r & E & N); [exact H|]. exists r. split; [exact E|].
  apply pow_good_ok; [lia|]. pose proof (walk_ok _ _ _ _ walk_pow ltac:(lia) _ _ N) as W.
  rewrite Z2Nat.id in W by lia. rewrite Z.mul_1_r, Z.add_0_l in W. exact W.
Qed.
Lemma inv_row i : 0 <= i < 342 -> exists r, tab DOUBLE_POW5_INV_SPLIT i = Ok r /\ inv_good (5 ^ i) i r.
Proof.
  intro H. destruct (tab_in DOUBLE_POW5_INV_SPLIT i) as (r & E & N); [exact H|]. exists r. split; [exact E|].
  apply inv_good_ok; [lia|]. pose proof (walk_ok _ _ _ _ walk_inv ltac:(lia) _ _ N) as W.
  rewrite Z2Nat.id in W by lia. rewrite Z.mul_1_r, Z.add_0_l in W. exact W.
Qed.
