(** The error function over the reals, and the error of the approximation used by erf. *)
From Coq Require Import ZArith Bool Lia Reals Lra Psatz.
From Coquelicot Require Import Coquelicot.
From Flocq Require Import Core IEEE754.Binary IEEE754.Bits.
From Interval Require Import Tactic.
Open Scope R_scope.

(** The error function. *)
Definition erf (x : R) : R := 2 / R_sqrt.sqrt PI * RInt (fun t => exp (- (t * t))) 0 x.

(** nanomath.h:664-676 over the reals, with the coefficients rounded to float *)
Definition Perf (b : R) : R := ((((((11837287 / 274877906944) * b + 9502777 / 34359738368) * b + 10446343 / 68719476736) * b + 9954153 / 1073741824) * b + 11349991 / 268435456) * b + 9465447 / 134217728) * b + 1.
Definition dPerf (b : R) : R := (((((6 * (11837287 / 274877906944)) * b + 5 * (9502777 / 34359738368)) * b + 4 * (10446343 / 68719476736)) * b + 3 * (9954153 / 1073741824)) * b + 2 * (11349991 / 268435456)) * b + 1 * (9465447 / 134217728).

Lemma Perf_ge b : 0 <= b -> 1 <= Perf b.
Proof. intro H. unfold Perf. assert (forall a c, 0 <= a -> 0 <= c -> 0 <= a * b + c) by (intros a c A C; assert (0 <= a * b) by (now apply Rmult_le_pos); lra).
  assert (K : forall a, 0 <= a -> 1 <= a * b + 1) by (intros a A; assert (0 <= a * b) by (now apply Rmult_le_pos); lra). apply K. repeat (apply H0; [|lra]). lra. Qed.

Lemma erf_derive x : is_derive erf x (2 / R_sqrt.sqrt PI * exp (- (x * x))).
Proof.
  unfold erf. apply (is_derive_scal (fun y => RInt (fun t => exp (- (t * t))) 0 y)).
  apply (is_derive_RInt (fun t => exp (- (t * t))) (fun y => RInt (fun t => exp (- (t * t))) 0 y) 0).
  - apply filter_forall. intro y. apply (@RInt_correct R_CompleteNormedModule (fun t => exp (- (t * t)))). apply (@ex_RInt_continuous R_CompleteNormedModule). intros z _. apply (ex_derive_continuous (fun t => exp (- (t * t)))). auto_derive. exact I.
  - apply (ex_derive_continuous (fun t => exp (- (t * t)))). auto_derive. exact I.
Qed.

Definition derf (b : R) : R := 1 - / (Perf b) ^ 16 - erf b.
Definition derf' (b : R) : R := 16 * dPerf b / (Perf b) ^ 17 - 2 / R_sqrt.sqrt PI * exp (- (b * b)).

Lemma derf_derive b : 0 <= b -> is_derive derf b (derf' b).
Proof.
  intro H. assert (P1 := Perf_ge b H). unfold derf, derf'. 
  assert (DP : is_derive Perf b (dPerf b)) by (unfold Perf, dPerf; auto_derive; [exact I|field]).
  assert (D1 : is_derive (fun x => 1 - / (Perf x) ^ 16) b (16 * dPerf b / (Perf b) ^ 17)).
  { auto_derive; [split; [eexists; exact DP|split; [apply (pow_nonzero (Perf b) 16); lra|exact I]]|]. replace (Derive (fun x => Perf x) b) with (dPerf b) by (symmetry; now apply is_derive_unique). field. lra. }
  exact (is_derive_minus _ _ _ _ _ D1 (erf_derive b)).
Qed.

Lemma seg c h Dc m b : 0 <= c - h -> Rabs (derf c) <= Dc -> (forall t, c - h <= t <= c + h -> Rabs (derf' t) <= m) ->
  Dc + m * h <= 42 / 100000000 -> c - h <= b <= c + h -> Rabs (derf b) <= 42 / 100000000.
Proof.
  intros H0 HD Hd L B.
  assert (M0 : 0 <= m) by (specialize (Hd c ltac:(lra)); assert (K := Rabs_pos (derf' c)); lra).
  destruct (MVT_gen derf c b derf') as (t & T1 & T2).
  - intros x [X1 X2]. apply derf_derive. assert (0 <= Rmin c b) by (apply Rmin_glb; lra). lra.
  - intros x [X1 X2]. assert (0 <= Rmin c b) by (apply Rmin_glb; lra). apply derivable_continuous_pt. exists (derf' x). apply is_derive_Reals, derf_derive. lra.
  - assert (T3 : c - h <= t <= c + h).
    { split; [apply Rle_trans with (2 := proj1 T1); apply Rmin_glb; lra|apply Rle_trans with (1 := proj2 T1); apply Rmax_lub; lra]. }
    specialize (Hd t T3). replace (derf b) with (derf c + derf' t * (b - c)) by lra.
    apply Rle_trans with (1 := Rabs_triang _ _). rewrite Rabs_mult.
    assert (Rabs (derf' t) * Rabs (b - c) <= m * h) by (apply Rmult_le_compat; try apply Rabs_pos; [exact Hd|apply Rabs_le; lra]). lra.
Qed.

Ltac numD := unfold derf, Perf, erf; integral with (i_prec 70, i_relwidth 45, i_degree 12).
Ltac numd := let t := fresh in let H := fresh in intros t H; unfold derf', Perf, dPerf; interval with (i_bisect t, i_taylor t, i_prec 70, i_degree 10, i_depth 16).

Lemma derf_small b : 0 <= b <= 4 -> Rabs (derf b) <= 42 / 100000000.
Proof.
  intro B.
  destruct (Rle_dec b (1/32)) as [?|?]; [apply (seg (1/64) (1/64) (12910 / 100000000000) (1015425 / 100000000000)); [lra|numD|numd|lra|lra]|].
  destruct (Rle_dec b (1/16)) as [?|?]; [apply (seg (3/64) (1/64) (25247 / 100000000000) (393231 / 100000000000)); [lra|numD|numd|lra|lra]|].
  destruct (Rle_dec b (1/8)) as [?|?]; [apply (seg (3/32) (1/32) (21503 / 100000000000) (370482 / 100000000000)); [lra|numD|numd|lra|lra]|].
  destruct (Rle_dec b (1/4)) as [?|?]; [apply (seg (3/16) (1/16) (10988 / 100000000000) (384351 / 100000000000)); [lra|numD|numd|lra|lra]|].
  destruct (Rle_dec b (3/8)) as [?|?]; [apply (seg (5/16) (1/16) (22948 / 100000000000) (247671 / 100000000000)); [lra|numD|numd|lra|lra]|].
  destruct (Rle_dec b (1/2)) as [?|?]; [apply (seg (7/16) (1/16) (5114 / 100000000000) (268917 / 100000000000)); [lra|numD|numd|lra|lra]|].
  destruct (Rle_dec b (5/8)) as [?|?]; [apply (seg (9/16) (1/16) (26506 / 100000000000) (182509 / 100000000000)); [lra|numD|numd|lra|lra]|].
  destruct (Rle_dec b (3/4)) as [?|?]; [apply (seg (11/16) (1/16) (17713 / 100000000000) (217686 / 100000000000)); [lra|numD|numd|lra|lra]|].
  destruct (Rle_dec b (7/8)) as [?|?]; [apply (seg (13/16) (1/16) (7820 / 100000000000) (219128 / 100000000000)); [lra|numD|numd|lra|lra]|].
  destruct (Rle_dec b (1)) as [?|?]; [apply (seg (15/16) (1/16) (24465 / 100000000000) (140143 / 100000000000)); [lra|numD|numd|lra|lra]|].
  destruct (Rle_dec b (5/4)) as [?|?]; [apply (seg (9/8) (1/8) (10173 / 100000000000) (185173 / 100000000000)); [lra|numD|numd|lra|lra]|].
  destruct (Rle_dec b (11/8)) as [?|?]; [apply (seg (21/16) (1/16) (20384 / 100000000000) (162759 / 100000000000)); [lra|numD|numd|lra|lra]|].
  destruct (Rle_dec b (3/2)) as [?|?]; [apply (seg (23/16) (1/16) (26126 / 100000000000) (84192 / 100000000000)); [lra|numD|numd|lra|lra]|].
  destruct (Rle_dec b (7/4)) as [?|?]; [apply (seg (13/8) (1/8) (7301 / 100000000000) (157632 / 100000000000)); [lra|numD|numd|lra|lra]|].
  destruct (Rle_dec b (15/8)) as [?|?]; [apply (seg (29/16) (1/16) (18808 / 100000000000) (136925 / 100000000000)); [lra|numD|numd|lra|lra]|].
  destruct (Rle_dec b (2)) as [?|?]; [apply (seg (31/16) (1/16) (25924 / 100000000000) (58499 / 100000000000)); [lra|numD|numd|lra|lra]|].
  destruct (Rle_dec b (5/2)) as [?|?]; [apply (seg (9/4) (1/4) (2956 / 100000000000) (118692 / 100000000000)); [lra|numD|numd|lra|lra]|].
  destruct (Rle_dec b (11/4)) as [?|?]; [apply (seg (21/8) (1/8) (25443 / 100000000000) (60088 / 100000000000)); [lra|numD|numd|lra|lra]|].
  destruct (Rle_dec b (3)) as [?|?]; [apply (seg (23/8) (1/8) (22140 / 100000000000) (40301 / 100000000000)); [lra|numD|numd|lra|lra]|].
  destruct (Rle_dec b (4)) as [?|?]; [apply (seg (7/2) (1/2) (3179 / 100000000000) (40310 / 100000000000)); [lra|numD|numd|lra|lra]|].
  lra.
Qed.

(** ** General facts about erf *)
Lemma erf_mvt a b : a < b -> exists t, a <= t <= b /\ erf b - erf a = 2 / R_sqrt.sqrt PI * exp (- (t * t)) * (b - a).
Proof.
  intro L. destruct (MVT_gen erf a b (fun x => 2 / R_sqrt.sqrt PI * exp (- (x * x)))) as (t & T1 & T2).
  - intros. apply erf_derive.
  - intros. apply derivable_continuous_pt. eexists. apply is_derive_Reals, erf_derive.
  - rewrite Rmin_left, Rmax_right in T1 by lra. exists t. split; [exact T1|exact T2].
Qed.

Lemma two_sqrt_pi : 11283 / 10000 <= 2 / R_sqrt.sqrt PI <= 11284 / 10000.
Proof. split; interval. Qed.

Lemma erf_mono a b : a <= b -> erf a <= erf b.
Proof.
  intro H. destruct (Req_dec a b) as [->|N]; [lra|]. destruct (erf_mvt a b ltac:(lra)) as (t & _ & E). assert (K := two_sqrt_pi). assert (X := exp_pos (- (t * t))).
  assert (0 <= 2 / R_sqrt.sqrt PI * exp (- (t * t)) * (b - a)) by (apply Rmult_le_pos; [apply Rmult_le_pos; lra|lra]). lra.
Qed.

Lemma erf_0 : erf 0 = 0.
Proof. unfold erf. rewrite RInt_point. unfold zero. cbn. ring. Qed.

Lemma gauss_int a b : ex_RInt (fun t => exp (- (t * t))) a b.
Proof. apply (@ex_RInt_continuous R_CompleteNormedModule). intros z _. apply (ex_derive_continuous (fun t => exp (- (t * t)))). auto_derive. exact I. Qed.

Lemma erf_odd x : erf (- x) = - erf x.
Proof.
  unfold erf. assert (H := RInt_correct _ _ _ (gauss_int (- 0) (- x))). apply is_RInt_comp_opp in H. apply is_RInt_unique in H.
  rewrite Ropp_0 in H. rewrite <- H.
  rewrite (RInt_ext _ (fun t => opp (exp (- (t * t))))).
  2:{ intros t _. f_equal. f_equal. ring. }
  rewrite (RInt_opp (V := R_CompleteNormedModule)); [|apply gauss_int]. unfold opp. cbn. ring.
Qed.

Lemma erf_lip a b : Rabs (erf a - erf b) <= 11284 / 10000 * Rabs (a - b).
Proof.
  assert (K : forall a b, a < b -> 0 <= erf b - erf a <= 11284 / 10000 * (b - a)).
  { clear. intros a b L. destruct (erf_mvt a b L) as (t & _ & ->). assert (K := two_sqrt_pi). assert (X := exp_pos (- (t * t))).
    assert (X1 : exp (- (t * t)) <= 1). { rewrite <- exp_0. assert (S := Rle_0_sqr t). unfold Rsqr in S. destruct (Req_dec (t * t) 0) as [Z|Z]; [rewrite Z, Ropp_0; lra|]. left. apply exp_increasing. lra. }
    split; [apply Rmult_le_pos; [apply Rmult_le_pos; lra|lra]|]. apply Rmult_le_compat_r; [lra|]. clear -K X X1. nra. }
  destruct (Rtotal_order a b) as [H|[->|H]].
  - specialize (K a b H). rewrite (Rabs_left (a - b)), (Rabs_minus_sym (erf a)), (Rabs_pos_eq (erf b - erf a)) by lra. lra.
  - rewrite !Rminus_diag_eq, Rabs_R0 by reflexivity. lra.
  - specialize (K b a H). rewrite !Rabs_pos_eq by lra. lra.
Qed.

Lemma erf_lip1 a b : 9 / 10 <= a -> 9 / 10 <= b -> Rabs (erf a - erf b) <= 51 / 100 * Rabs (a - b).
Proof.
  assert (K : forall a b, 9 / 10 <= a -> a < b -> 0 <= erf b - erf a <= 51 / 100 * (b - a)).
  { clear. intros a b A L. destruct (erf_mvt a b L) as (t & T & ->). assert (K := two_sqrt_pi). assert (X := exp_pos (- (t * t))).
    assert (X1 : exp (- (t * t)) <= 45 / 100).
    { apply Rle_trans with (exp (- (81 / 100))); [|interval]. assert (81 / 100 <= t * t) by (clear -T A; nra). destruct (Req_dec (t * t) (81 / 100)) as [->|Z]; [lra|]. left. apply exp_increasing. lra. }
    split; [apply Rmult_le_pos; [apply Rmult_le_pos; lra|lra]|]. apply Rmult_le_compat_r; [lra|]. clear -K X X1. nra. }
  intros A B. destruct (Rtotal_order a b) as [H|[->|H]].
  - specialize (K a b A H). rewrite (Rabs_left (a - b)), (Rabs_minus_sym (erf a)), (Rabs_pos_eq (erf b - erf a)) by lra. lra.
  - rewrite !Rminus_diag_eq, Rabs_R0 by reflexivity. lra.
  - specialize (K b a B H). rewrite !Rabs_pos_eq by lra. lra.
Qed.

Lemma erf_4 : Rabs (erf 4 - 1) <= 2 / 100000000.
Proof. unfold erf. integral with (i_prec 70, i_relwidth 40, i_degree 12). Qed.

Lemma erf_4_low : 15 / 1000000000 <= 1 - erf 4.
Proof. assert (H : Rabs (erf 4 - (1 - 154 / 10000000000)) <= 3 / 10000000000) by (unfold erf; integral with (i_prec 70, i_relwidth 45, i_degree 12)). apply Rabs_le_inv in H. lra. Qed.

Lemma erf_tail b : 4 <= b -> Rabs (erf b - 1) <= 6 / 100000000.
Proof.
  intro B. assert (M := erf_mono 4 b B). assert (E4 := erf_4). apply Rabs_le_inv in E4.
  assert (U : erf b <= erf 4 + 4 / 100000000).
  { destruct (Req_dec b 4) as [->|N]; [lra|].
    set (K := 2 / R_sqrt.sqrt PI / 4). set (h := fun x => erf x + K * exp (- (4 * x))).
    destruct (MVT_gen h 4 b (fun x => 2 / R_sqrt.sqrt PI * exp (- (x * x)) + K * (-4 * exp (- (4 * x))))) as (t & T1 & T2).
    - intros x _. unfold h. apply (is_derive_plus erf); [apply erf_derive|]. apply (is_derive_scal (fun x => exp (- (4 * x)))). auto_derive; [exact I|ring].
    - intros x _. apply derivable_continuous_pt. eexists. apply is_derive_Reals. unfold h. apply (is_derive_plus erf); [apply erf_derive|]. apply (is_derive_scal (fun x => exp (- (4 * x)))). auto_derive; [exact I|reflexivity].
    - rewrite Rmin_left, Rmax_right in T1 by lra.
      assert (D : 2 / R_sqrt.sqrt PI * exp (- (t * t)) + K * (-4 * exp (- (4 * t))) <= 0).
      { replace (2 / R_sqrt.sqrt PI * exp (- (t * t)) + K * (-4 * exp (- (4 * t)))) with (2 / R_sqrt.sqrt PI * (exp (- (t * t)) - exp (- (4 * t)))) by (unfold K; field; apply Rgt_not_eq, sqrt_lt_R0, PI_RGT_0).
        assert (S := two_sqrt_pi). assert (exp (- (t * t)) <= exp (- (4 * t))).
        { destruct (Req_dec t 4) as [->|Z]; [lra|]. left. apply exp_increasing. clear -T1 Z. nra. }
        assert (0 <= 2 / R_sqrt.sqrt PI * (exp (- (4 * t)) - exp (- (t * t)))) by (apply Rmult_le_pos; lra). lra. }
      assert (H1 : h b <= h 4) by (assert (0 <= - (2 / R_sqrt.sqrt PI * exp (- (t * t)) + K * (-4 * exp (- (4 * t)))) * (b - 4)) by (apply Rmult_le_pos; lra); lra).
      unfold h in H1. assert (K0 : 0 <= K <= 29 / 100) by (unfold K; assert (S := two_sqrt_pi); lra).
      assert (P1 : 0 <= K * exp (- (4 * b))) by (apply Rmult_le_pos; [lra|left; apply exp_pos]).
      assert (P2 : K * exp (- (4 * 4)) <= 29 / 100 * (12 / 100000000)) by (apply Rmult_le_compat; [lra|left; apply exp_pos|lra|interval]). lra. }
  apply Rabs_le. lra.
Qed.
