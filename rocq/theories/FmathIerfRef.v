(** The error of the approximations used by ierf, over the reals. *)
From Coq Require Import ZArith Bool Lia Reals Lra Psatz.
From Coquelicot Require Import Coquelicot.
From Flocq Require Import Core.
From Interval Require Import Tactic.
From Verif Require Import FmathErfRef.
Open Scope R_scope.

(** nanomath.h:713-721 over the reals (w already reduced by 2.5), with the coefficients rounded to float, and its derivative *)
Definition Pc (w : R) : R := ((((((((1977521 / 70368744177664) * w + 6038939 / 17592186044416) * w + -15496023 / 4398046511104) * w + -9657025 / 2199023255552) * w + 15020763 / 68719476736) * w + -1346177 / 1073741824) * w + -8971503 / 2147483648) * w + 16551779 / 67108864) * w + 12594735 / 8388608.
Definition dPc (w : R) : R := (((((((8 * (1977521 / 70368744177664)) * w + 7 * (6038939 / 17592186044416)) * w + 6 * (-15496023 / 4398046511104)) * w + 5 * (-9657025 / 2199023255552)) * w + 4 * (15020763 / 68719476736)) * w + 3 * (-1346177 / 1073741824)) * w + 2 * (-8971503 / 2147483648)) * w + 16551779 / 67108864.
(** nanomath.h:724-732 over the reals (w already replaced by sqrt w - 3), and its derivative *)
Definition Pt (w : R) : R := ((((((((-13758619 / 68719476736) * w + 13874539 / 137438953472) * w + 5795385 / 4294967296) * w + -15777255 / 4294967296) * w + 12325499 / 2147483648) * w + -16369111 / 2147483648) * w + 5067455 / 536870912) * w + 8402651 / 8388608) * w + 5941183 / 2097152.
Definition dPt (w : R) : R := (((((((8 * (-13758619 / 68719476736)) * w + 7 * (13874539 / 137438953472)) * w + 6 * (5795385 / 4294967296)) * w + 5 * (-15777255 / 4294967296)) * w + 4 * (12325499 / 2147483648)) * w + 3 * (-16369111 / 2147483648)) * w + 2 * (5067455 / 536870912)) * w + 8402651 / 8388608.

Lemma Pc_derive w : is_derive Pc w (dPc w).
Proof. unfold Pc, dPc. auto_derive; [exact I|field]. Qed.
Lemma Pt_derive w : is_derive Pt w (dPt w).
Proof. unfold Pt, dPt. auto_derive; [exact I|field]. Qed.

(** The derivative of erf(al * Q(w)) - al *)
Lemma chain (Q w al : R -> R) x q w' al' : is_derive Q (w x) q -> is_derive w x w' -> is_derive al x al' ->
  is_derive (fun x => erf (al x * Q (w x)) - al x) x (2 / R_sqrt.sqrt PI * exp (- ((al x * Q (w x)) * (al x * Q (w x)))) * (al' * Q (w x) + al x * (q * w')) - al').
Proof.
  intros DQ DW DA. assert (DE := erf_derive (al x * Q (w x))).
  auto_derive.
  - repeat split; try (eexists; eassumption).
  - replace (Derive (fun x => al x) x) with al' by (symmetry; now apply is_derive_unique).
    replace (Derive (fun x => w x) x) with w' by (symmetry; now apply is_derive_unique).
    replace (Derive (fun x => Q x) (w x)) with q by (symmetry; now apply is_derive_unique).
    replace (Derive (fun x => erf x) (al x * Q (w x))) with (2 / R_sqrt.sqrt PI * exp (- ((al x * Q (w x)) * (al x * Q (w x))))) by (symmetry; now apply is_derive_unique).
    ring.
Qed.

(** A function with a small derivative grows slowly *)
Lemma grow (g g' : R -> R) a b m : a <= b -> (forall x, a <= x <= b -> is_derive g x (g' x)) -> (forall x, a <= x <= b -> Rabs (g' x) <= m) ->
  Rabs (g b) <= Rabs (g a) + m * (b - a).
Proof.
  intros L D M. destruct (MVT_gen g a b g') as (t & T1 & T2).
  - intros x X. rewrite Rmin_left, Rmax_right in X by lra. apply D. lra.
  - intros x X. rewrite Rmin_left, Rmax_right in X by lra. apply derivable_continuous_pt. exists (g' x). now apply is_derive_Reals, D.
  - rewrite Rmin_left, Rmax_right in T1 by lra. specialize (M t T1). replace (g b) with (g a + g' t * (b - a)) by lra.
    apply Rle_trans with (1 := Rabs_triang _ _). rewrite Rabs_mult, (Rabs_pos_eq (b - a)) by lra.
    assert (Rabs (g' t) * (b - a) <= m * (b - a)) by (apply Rmult_le_compat_r; lra). lra.
Qed.

(** ** The central part, as a function of the argument a *)
Definition wc (a : R) : R := - ln (1 - a * a) - 5 / 2.
Definition Gc (a : R) : R := erf (a * Pc (wc a)) - a.
Definition Gc' (a : R) : R := 2 / R_sqrt.sqrt PI * exp (- ((a * Pc (wc a)) * (a * Pc (wc a)))) * (1 * Pc (wc a) + a * (dPc (wc a) * (2 * a / (1 - a * a)))) - 1.

Lemma Gc_derive a : 0 <= a < 1 -> is_derive Gc a (Gc' a).
Proof.
  intro H. assert (N : 0 < 1 - a * a) by nra.
  assert (DW : is_derive wc a (2 * a / (1 - a * a))) by (unfold wc; auto_derive; [lra|field; lra]).
  exact (chain Pc wc (fun a => a) a _ _ _ (Pc_derive _) DW (is_derive_id a)).
Qed.

Lemma Gc'_0 a : 0 / 1 <= a <= 1 / 2 -> Rabs (Gc' a) <= 44 / 100000000.
Proof. intro H. unfold Gc', dPc, Pc, wc. interval with (i_bisect a, i_taylor a, i_prec 60, i_degree 10, i_depth 14). Qed.
Lemma Gc'_1 a : 1 / 2 <= a <= 8 / 10 -> Rabs (Gc' a) <= 76 / 100000000.
Proof. intro H. unfold Gc', dPc, Pc, wc. interval with (i_bisect a, i_taylor a, i_prec 60, i_degree 10, i_depth 14). Qed.
Lemma Gc'_2 a : 8 / 10 <= a <= 9 / 10 -> Rabs (Gc' a) <= 120 / 100000000.
Proof. intro H. unfold Gc', dPc, Pc, wc. interval with (i_bisect a, i_taylor a, i_prec 60, i_degree 10, i_depth 14). Qed.
Lemma Gc'_3 a : 9 / 10 <= a <= 98 / 100 -> Rabs (Gc' a) <= 215 / 100000000.
Proof. intro H. unfold Gc', dPc, Pc, wc. interval with (i_bisect a, i_taylor a, i_prec 60, i_degree 10, i_depth 14). Qed.
Lemma Gc'_4 a : 98 / 100 <= a <= 99 / 100 -> Rabs (Gc' a) <= 290 / 100000000.
Proof. intro H. unfold Gc', dPc, Pc, wc. interval with (i_bisect a, i_taylor a, i_prec 60, i_degree 10, i_depth 14). Qed.
Lemma Gc'_5 a : 99 / 100 <= a <= 99664 / 100000 -> Rabs (Gc' a) <= 2600 / 100000000.
Proof. intro H. unfold Gc', dPc, Pc, wc. interval with (i_bisect a, i_taylor a, i_prec 60, i_degree 10, i_depth 14). Qed.

(** ** The tail, as a function of s = sqrt w *)
Definition as_ (s : R) : R := R_sqrt.sqrt (1 - exp (- (s * s))).
Definition Gt (s : R) : R := erf (as_ s * Pt (s - 3)) - as_ s.
Definition Gt' (s : R) : R := 2 / R_sqrt.sqrt PI * exp (- ((as_ s * Pt (s - 3)) * (as_ s * Pt (s - 3)))) * (s * exp (- (s * s)) / as_ s * Pt (s - 3) + as_ s * (dPt (s - 3) * 1)) - s * exp (- (s * s)) / as_ s.

Lemma Gt'_1 s : 223 / 100 <= s <= 4 -> Rabs (Gt' s) <= 3 / 10000000.
Proof. intro H. unfold Gt', dPt, Pt, as_. interval with (i_bisect s, i_taylor s, i_prec 60, i_degree 10, i_depth 14). Qed.

Lemma Gc_0 : Gc 0 = 0.
Proof. unfold Gc. rewrite Rmult_0_l, erf_0. ring. Qed.

Lemma Gc_small a : 0 <= a <= 99664 / 100000 -> Rabs (Gc a) <= 95 / 100000000 * a.
Proof.
  intro H.
  assert (S : forall lo m, 0 <= lo <= a -> (forall x, lo <= x <= a -> Rabs (Gc' x) <= m) -> Rabs (Gc a) <= Rabs (Gc lo) + m * (a - lo)).
  { intros lo m L M. apply (grow Gc Gc'); [lra| |exact M]. intros x X. apply Gc_derive. lra. }
  assert (T : forall lo hi m, (forall x, lo <= x <= hi -> Rabs (Gc' x) <= m) -> 0 <= lo <= hi -> hi <= 99664 / 100000 -> Rabs (Gc hi) <= Rabs (Gc lo) + m * (hi - lo)).
  { intros lo hi m M L L'. apply (grow Gc Gc'); [lra| |exact M]. intros x X. apply Gc_derive. lra. }
  assert (Z : Rabs (Gc (0 / 1)) = 0) by (replace (0 / 1) with 0 by field; rewrite Gc_0; apply Rabs_R0).
  assert (T1 := T _ _ _ Gc'_0 ltac:(lra) ltac:(lra)). assert (T2 := T _ _ _ Gc'_1 ltac:(lra) ltac:(lra)). assert (T3 := T _ _ _ Gc'_2 ltac:(lra) ltac:(lra)).
  assert (T4 := T _ _ _ Gc'_3 ltac:(lra) ltac:(lra)). assert (T5 := T _ _ _ Gc'_4 ltac:(lra) ltac:(lra)).
  destruct (Rle_dec a (1 / 2)); [specialize (S (0 / 1) (44 / 100000000) ltac:(lra) ltac:(intros; apply Gc'_0; lra)); lra|].
  destruct (Rle_dec a (8 / 10)); [specialize (S (1 / 2) (76 / 100000000) ltac:(lra) ltac:(intros; apply Gc'_1; lra)); lra|].
  destruct (Rle_dec a (9 / 10)); [specialize (S (8 / 10) (120 / 100000000) ltac:(lra) ltac:(intros; apply Gc'_2; lra)); lra|].
  destruct (Rle_dec a (98 / 100)); [specialize (S (9 / 10) (215 / 100000000) ltac:(lra) ltac:(intros; apply Gc'_3; lra)); lra|].
  destruct (Rle_dec a (99 / 100)); [specialize (S (98 / 100) (290 / 100000000) ltac:(lra) ltac:(intros; apply Gc'_4; lra)); lra|].
  specialize (S (99 / 100) (2600 / 100000000) ltac:(lra) ltac:(intros; apply Gc'_5; lra)); lra.
Qed.

Lemma as_pos s : 2 <= s -> 0 < 1 - exp (- (s * s)).
Proof. intro H. assert (exp (- (s * s)) < exp 0) by (apply exp_increasing; nra). rewrite exp_0 in H0. lra. Qed.

Lemma Gt_derive s : 2 <= s -> is_derive Gt s (Gt' s).
Proof.
  intro H. assert (N := as_pos s H).
  assert (DA : is_derive as_ s (s * exp (- (s * s)) / as_ s)).
  { assert (Q := sqrt_lt_R0 _ N). unfold as_. auto_derive; [exact N|]. replace (1 + - exp (- (s * s))) with (1 - exp (- (s * s))) by ring. field. lra. }
  assert (DW : is_derive (fun s => s - 3) s 1) by (auto_derive; [exact I|ring]).
  exact (chain Pt (fun s => s - 3) as_ s _ _ _ (Pt_derive _) DW DA).
Qed.

Lemma as_sq s : 2 <= s -> 1 - as_ s * as_ s = exp (- (s * s)).
Proof. intro H. assert (N := as_pos s H). unfold as_. rewrite sqrt_sqrt by lra. ring. Qed.

Lemma Gt_left : Rabs (Gt (223 / 100)) <= 12 / 10000000.
Proof.
  assert (A : 0 <= as_ (223 / 100) <= 99664 / 100000) by (unfold as_; split; interval).
  assert (C := Gc_small _ A).
  assert (W : wc (as_ (223 / 100)) = 223 / 100 * (223 / 100) - 5 / 2) by (unfold wc; rewrite as_sq by lra; rewrite ln_exp; ring).
  unfold Gc in C. rewrite W in C. unfold Gt.
  assert (L := erf_lip (as_ (223 / 100) * Pt (223 / 100 - 3)) (as_ (223 / 100) * Pc (223 / 100 * (223 / 100) - 5 / 2))).
  assert (D : Rabs (as_ (223 / 100) * Pt (223 / 100 - 3) - as_ (223 / 100) * Pc (223 / 100 * (223 / 100) - 5 / 2)) <= 15 / 100000000).
  { unfold as_, Pt, Pc. interval with (i_prec 60). }
  apply Rabs_le. apply Rabs_le_inv in C.
  assert (L' : Rabs (erf (as_ (223 / 100) * Pt (223 / 100 - 3)) - erf (as_ (223 / 100) * Pc (223 / 100 * (223 / 100) - 5 / 2))) <= 17 / 100000000) by lra.
  apply Rabs_le_inv in L'. lra.
Qed.

Lemma Gt_small s : 223 / 100 <= s <= 4 -> Rabs (Gt s) <= 18 / 10000000.
Proof.
  intro H. assert (L := Gt_left).
  assert (G := grow Gt Gt' (223 / 100) s (3 / 10000000) ltac:(lra) ltac:(intros; apply Gt_derive; lra) ltac:(intros; apply Gt'_1; lra)). lra.
Qed.

(** ** Lipschitz bounds *)
Lemma lipsch (g g' : R -> R) lo hi m : (forall x, is_derive g x (g' x)) -> (forall x, lo <= x <= hi -> Rabs (g' x) <= m) ->
  forall a b, lo <= a <= hi -> lo <= b <= hi -> Rabs (g a - g b) <= m * Rabs (a - b).
Proof.
  intros D M.
  assert (K : forall a b, lo <= a <= hi -> lo <= b <= hi -> a <= b -> Rabs (g a - g b) <= m * Rabs (a - b)).
  { intros a b A B L. assert (G := grow (fun x => g x - g a) g' a b m L ltac:(intros x _; auto_derive; [eexists; apply D|]; replace (Derive (fun x => g x) x) with (g' x) by (symmetry; apply is_derive_unique, D); ring) ltac:(intros; apply M; lra)).
    cbv beta in G. rewrite (Rminus_diag_eq (g a) (g a)), Rabs_R0 in G by reflexivity. rewrite (Rabs_minus_sym (g a)), (Rabs_minus_sym a b), (Rabs_pos_eq (b - a)) by lra. lra. }
  intros a b A B. destruct (Rle_dec a b); [now apply K|]. rewrite Rabs_minus_sym, (Rabs_minus_sym a b). apply K; [assumption|assumption|lra].
Qed.

Lemma Pc_lip a b : -251 / 100 <= a <= 251 / 100 -> -251 / 100 <= b <= 251 / 100 -> Rabs (Pc a - Pc b) <= 26 / 100 * Rabs (a - b).
Proof. apply (lipsch Pc dPc); [apply Pc_derive|]. intros x H. unfold dPc. interval with (i_bisect x, i_taylor x, i_degree 8). Qed.

Lemma Pt_lip a b : -77 / 100 <= a <= 101 / 100 -> -77 / 100 <= b <= 101 / 100 -> Rabs (Pt a - Pt b) <= 1011 / 1000 * Rabs (a - b).
Proof. apply (lipsch Pt dPt); [apply Pt_derive|]. intros x H. unfold dPt. interval with (i_bisect x, i_taylor x, i_degree 8). Qed.

Lemma erf_lip_from z a b : 0 <= z <= a -> z <= b -> Rabs (erf a - erf b) <= 11284 / 10000 * exp (- (z * z)) * Rabs (a - b).
Proof.
  assert (K : forall a b, 0 <= z <= a -> a < b -> 0 <= erf b - erf a <= 11284 / 10000 * exp (- (z * z)) * (b - a)).
  { clear. intros a b A L. destruct (erf_mvt a b L) as (t & T & ->). assert (K := two_sqrt_pi). assert (X := exp_pos (- (t * t))).
    assert (X1 : exp (- (t * t)) <= exp (- (z * z))).
    { assert (z * z <= t * t) by (clear -T A; nra). destruct (Req_dec (t * t) (z * z)) as [->|Z]; [lra|]. left. apply exp_increasing. lra. }
    split; [apply Rmult_le_pos; [apply Rmult_le_pos; lra|lra]|]. apply Rmult_le_compat_r; [lra|]. apply Rmult_le_compat; lra. }
  intros A B. destruct (Rtotal_order a b) as [H|[->|H]].
  - specialize (K a b A H). rewrite (Rabs_left (a - b)), (Rabs_minus_sym (erf a)), (Rabs_pos_eq (erf b - erf a)) by lra. lra.
  - rewrite !Rminus_diag_eq, Rabs_R0 by reflexivity. lra.
  - specialize (K b a ltac:(lra) H). rewrite !Rabs_pos_eq by lra. lra.
Qed.

(** The effect of the inaccurate square root, 0.176% too small, in the tail. *)
Lemma tail_num s : 2236 / 1000 <= s <= 4 ->
  11284 / 10000 * exp (- ((as_ s * Pt (s - 3) - 18 / 10000 * s) * (as_ s * Pt (s - 3) - 18 / 10000 * s))) * (18 / 10000 * s) <= 65 / 1000000.
Proof. intro H. unfold as_, Pt. interval with (i_bisect s, i_taylor s, i_degree 8). Qed.

(** At the result for the argument 0.99859375: *)
Lemma ierf_bad_num : erf (9458371 / 4194304) <= 16753623 / 16777216 - 2 / 100000.
Proof.
  assert (H : Rabs (erf (9458371 / 4194304) - (16753623 / 16777216 - 20793 / 1000000000)) <= 1 / 1000000000) by (unfold erf; integral with (i_prec 70, i_relwidth 45, i_degree 12)).
  apply Rabs_le_inv in H. lra.
Qed.
