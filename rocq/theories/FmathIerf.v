(** ierf: the computed value against the approximations of [FmathIerfRef]. *)
From Coq Require Import ZArith Bool Lia Reals Lra Psatz.
From Flocq Require Import Core IEEE754.Binary IEEE754.Bits.
From Interval Require Import Tactic.
From Verif Require Import Mem AlgoModel FpModel FpProofs RoundModel LitModel LimModel FmathModel FmathReal FmathStep FmathExp FmathErfRef FmathIerfRef FmathErf FmathLog FmathSqrt.
Open Scope R_scope.

(** ** The polynomials *)
Lemma central_ok w t : fin (subf w (lit 25 (-1))) -> V (subf w (lit 25 (-1))) = t -> -251 / 100 <= t <= 251 / 100 -> appr (ierf_central w) (Pc t) (2088 / 10000000000).
Proof.
  intros F E H. unfold ierf_central. revert F E. generalize (subf w (lit 25 (-1))). intros x F E. assert (Kx := appr_val x t F E). clear F E.
  getk Kc0 (lit 281022636 (-16)).
  getk Kc1 (lit 343273939 (-15)).
  getk Kc2 (negf (lit 35233877 (-13))).
  getk Kc3 (negf (lit 439150654 (-14))).
  getk Kc4 (lit 21858087 (-11)).
  getk Kc5 (negf (lit 125372503 (-11))).
  getk Kc6 (negf (lit 417768164 (-11))).
  getk Kc7 (lit 246640727 (-9)).
  getk Kc8 (lit 150140941 (-8)).
  stepf Kp1 Kc0 Kx Kc1 (2816 / 100000000000) (2516 / 1000) (4147 / 10000000000) (4224 / 1000000000000000000) (2895 / 100000000000000000) t.
  stepf Kp2 Kp1 Kx Kc2 (4147 / 10000000000) (2516 / 1000) (4217 / 1000000000) (1351 / 10000000000000000) (3865 / 10000000000000000) t.
  stepf Kp3 Kp2 Kx Kc3 (4217 / 1000000000) (2516 / 1000) (1065 / 100000000) (1605 / 1000000000000000) (2241 / 1000000000000000) t.
  stepf Kp4 Kp3 Kx Kc4 (1065 / 100000000) (2516 / 1000) (2204 / 10000000) (7237 / 1000000000000000) (2038 / 100000000000000) t.
  stepf Kp5 Kp4 Kx Kc5 (2204 / 10000000) (2516 / 1000) (1768 / 1000000) (8434 / 100000000000000) (1898 / 10000000000000) t.
  stepf Kp6 Kp5 Kx Kc6 (1768 / 1000000) (2516 / 1000) (6128 / 1000000) (7428 / 10000000000000) (1109 / 1000000000000) t.
  stepf Kp7 Kp6 Kx Kc7 (6128 / 1000000) (2516 / 1000) (2500 / 10000) (3710 / 1000000000000) (1862 / 100000000000) t.
  stepf Kp8 Kp7 Kx Kc8 (2500 / 10000) (2516 / 1000) (2087 / 1000) (8435 / 100000000000) (2088 / 10000000000) t.
  eapply appr_eq; [exact Kp8|]. unfold Pc. field.
Qed.

Lemma tail_ok w t : fin (subf (sqrt w) (lit 3 0)) -> V (subf (sqrt w) (lit 3 0)) = t -> -77 / 100 <= t <= 101 / 100 -> appr (ierf_tail w) (Pt t) (3583 / 10000000000).
Proof.
  intros F E H. unfold ierf_tail. revert F E. generalize (subf (sqrt w) (lit 3 0)). intros x F E. assert (Kx := appr_val x t F E). clear F E.
  getk Kc0 (negf (lit 200214257 (-12))).
  getk Kc1 (lit 100950558 (-12)).
  getk Kc2 (lit 134934322 (-11)).
  getk Kc3 (negf (lit 367342844 (-11))).
  getk Kc4 (lit 573950773 (-11)).
  getk Kc5 (negf (lit 76224613 (-10))).
  getk Kc6 (lit 943887047 (-11)).
  getk Kc7 (lit 100167406 (-8)).
  getk Kc8 (lit 283297682 (-8)).
  stepf Kp1 Kc0 Kx Kc1 (2007 / 10000000) (1013 / 1000) (2557 / 10000000) (1212 / 100000000000000) (2737 / 100000000000000) t.
  stepf Kp2 Kp1 Kx Kc2 (2557 / 10000000) (1013 / 1000) (1365 / 1000000) (4317 / 100000000000000) (1246 / 10000000000000) t.
  stepf Kp3 Kp2 Kx Kc3 (1365 / 1000000) (1013 / 1000) (4571 / 1000000) (2087 / 10000000000000) (4813 / 10000000000000) t.
  stepf Kp4 Kp3 Kx Kc4 (4571 / 1000000) (1013 / 1000) (9271 / 1000000) (7637 / 10000000000000) (1317 / 1000000000000) t.
  stepf Kp5 Kp4 Kx Kc5 (9271 / 1000000) (1013 / 1000) (1478 / 100000) (1895 / 1000000000000) (2777 / 1000000000000) t.
  stepf Kp6 Kp5 Kx Kc6 (1478 / 100000) (1013 / 1000) (2084 / 100000) (3706 / 1000000000000) (4949 / 1000000000000) t.
  stepf Kp7 Kp6 Kx Kc7 (2084 / 100000) (1013 / 1000) (1009 / 1000) (6273 / 1000000000000) (6643 / 100000000000) t.
  stepf Kp8 Kp7 Kx Kc8 (1009 / 1000) (1013 / 1000) (3858 / 1000) (1283 / 10000000000) (3583 / 10000000000) t.
  eapply appr_eq; [exact Kp8|]. unfold Pt. field.
Qed.

(** ** The argument of the logarithm *)
Lemma b24 : bpow radix2 (-24) = / 16777216. Proof. reflexivity. Qed.

Lemma rnd_rel24 y : / 16777216 <= y -> exists e, Rabs e <= / 16777216 /\ rnd y = y * (1 + e).
Proof.
  intro H. rewrite <- b24. apply rnd_rel. rewrite Rabs_pos_eq by lra. apply Rle_trans with (bpow radix2 (-24)); [apply bpow_le; lia|]. rewrite b24. exact H.
Qed.

Lemma e3 e1 e2 e3 : Rabs e1 <= / 16777216 -> Rabs e2 <= / 16777216 -> Rabs e3 <= / 16777216 -> Rabs ((1 + e1) * (1 + e2) * (1 + e3) - 1) <= 18 / 100000000.
Proof. intros. interval with (i_prec 60, i_taylor e1). Qed.

Lemma small127 y : Rabs y <= 10 -> Rabs y <= bpow radix2 127.
Proof. intro H. apply (le127 y 10 H). lra. Qed.

Lemma arg_ok a : fin a -> 0 <= V a <= 1 - / 16777216 ->
  let u := mulf (subf f_one a) (addf f_one a) in
  fin u /\ exists e, Rabs e <= 18 / 100000000 /\ V u = (1 - V a * V a) * (1 + e).
Proof.
  intros F B u. destruct one_ok as (_ & FO & VO).
  destruct (sub_ok f_one a FO F) as [F1 V1]; [apply small127; rewrite VO; interval|].
  destruct (add_ok f_one a FO F) as [F2 V2]; [apply small127; rewrite VO; interval|].
  rewrite VO in V1, V2. destruct (rnd_rel24 (1 - V a)) as (e1 & H1 & R1); [lra|]. destruct (rnd_rel24 (1 + V a)) as (e2 & H2 & R2); [lra|].
  assert (L1 : rnd (/ 16777216) = / 16777216) by (rewrite <- b24; apply rnd_bpow; lia).
  assert (L2 : rnd 1 = 1) by exact (rnd_IZR 1 ltac:(lia)). assert (L3 : rnd 2 = 2) by exact (rnd_IZR 2 ltac:(lia)).
  assert (B1 : / 16777216 <= V (subf f_one a) <= 1) by (rewrite V1; apply rnd_bounds; [exact L1|exact L2|lra]).
  assert (B2 : 1 <= V (addf f_one a) <= 2) by (rewrite V2; apply rnd_bounds; [exact L2|exact L3|lra]).
  assert (B3 : / 16777216 <= V (subf f_one a) * V (addf f_one a) <= 2) by (clear -B1 B2; nra).
  destruct (mul_ok _ _ F1 F2) as [F3 V3]; [apply small127; rewrite Rabs_pos_eq; lra|]. fold u in F3, V3.
  destruct (rnd_rel24 (V (subf f_one a) * V (addf f_one a))) as (e3' & H3 & R3); [lra|].
  split; [exact F3|]. exists ((1 + e1) * (1 + e2) * (1 + e3') - 1). split; [apply e3; assumption|].
  rewrite V3, R3, V1, V2, R1, R2. clear. ring.
Qed.

Lemma ln_near e : Rabs e <= 18 / 100000000 -> Rabs (ln (1 + e)) <= 19 / 100000000.
Proof. intro H. interval with (i_prec 60, i_taylor e). Qed.

(** w approximates -ln(1 - a^2) *)
Definition ierf_w (a : Z) : Z := negf (log_ (mulf (subf f_one a) (addf f_one a))).

Lemma pat_log u : pattern float32 (log_ u).
Proof.
  unfold log_. destruct (is_zero_ float32 u); [split; vm_compute; congruence|]. destruct (Z.eqb u f_one); [split; vm_compute; congruence|].
  destruct (flt float32 u fzero); [split; vm_compute; congruence|]. apply pat_mul.
Qed.

Lemma w_ok a : fin a -> 0 <= V a <= 1 - / 16777216 ->
  0 <= - ln (1 - V a * V a) <= 159426 / 10000 /\ pattern float32 (ierf_w a) /\ fin (ierf_w a) /\
  Rabs (V (ierf_w a) - - ln (1 - V a * V a)) <= 65 / 100000000 + 13 / 100000000 * - ln (1 - V a * V a).
Proof.
  intros F B. destruct (arg_ok a F B) as (Fu & e & He & Vu). unfold ierf_w. set (u := mulf (subf f_one a) (addf f_one a)) in *.
  assert (Pu : pattern float32 u) by apply pat_mul. clearbody u.
  assert (N : 11920928 / 100000000000000 <= 1 - V a * V a <= 1) by (clear -B; nra).
  assert (W : 0 <= - ln (1 - V a * V a) <= 159426 / 10000).
  { split; [|interval]. destruct (Req_dec (1 - V a * V a) 1) as [->|NE]; [rewrite ln_1; lra|].
    assert (ln (1 - V a * V a) < ln 1) by (apply ln_increasing; lra). rewrite ln_1 in H. lra. }
  assert (E1 : 1 - 18 / 100000000 <= 1 + e <= 1 + 18 / 100000000) by (apply Rabs_le_inv in He; lra).
  assert (Bu : bpow radix2 (-126) <= V u).
  { apply Rle_trans with (bpow radix2 (-24)); [apply bpow_le; lia|]. rewrite b24, Vu. clear -N E1. nra. }
  destruct (log_ok u Pu Fu Bu) as (Fl & D & _).
  assert (L : ln (V u) = ln (1 - V a * V a) + ln (1 + e)) by (rewrite Vu; apply ln_mult; lra).
  assert (Le := ln_near e He). apply Rabs_le_inv in Le.
  assert (Pl : pattern float32 (log_ u)) by (apply pat_log).
  destruct (neg_ok _ Pl Fl) as (Pn & Fn & Vn). split; [exact W|]. split; [exact Pn|]. split; [exact Fn|]. rewrite Vn, L in *.
  assert (A : Rabs (ln (1 - V a * V a) + ln (1 + e)) <= - ln (1 - V a * V a) + 19 / 100000000) by (apply Rabs_le; lra).
  apply Rabs_le. assert (D' := Rabs_le_inv _ _ (Rle_trans _ _ _ D (Rplus_le_compat_l _ _ _ (Rmult_le_compat_l (13 / 100000000) _ _ ltac:(lra) A)))).
  clear -D' Le W. lra.
Qed.

(** ** The factor p *)
Definition ierf_p (w : Z) : Z := if flt float32 w (lit 5 0) then ierf_central w else ierf_tail w.

Lemma p_central w W : fin w -> Rabs (V w - W) <= 65 / 100000000 + 13 / 100000000 * W -> 0 <= W -> V w < 5 ->
  W <= 500001 / 100000 /\ fin (ierf_p w) /\ Rabs (V (ierf_p w) - Pc (W - 5 / 2)) <= 61 / 100000000.
Proof.
  intros F D W0 L. unfold ierf_p. getc K5 (lit 5 0). destruct K5 as (_ & F5 & V5). getc K2 (lit 25 (-1)). destruct K2 as (_ & F2 & V2).
  rewrite (flt_ok _ _ F F5), V5, Rlt_bool_true by lra.
  assert (D' := Rabs_le_inv _ _ D). assert (WB : W <= 500001 / 100000) by lra. split; [exact WB|].
  destruct (sub_ok w _ F F2) as [Fs Vs]; [apply small127; rewrite V2; apply Rabs_le; lra|].
  assert (R := rnd_err' (V w - V (lit 25 (-1))) (251 / 100) ltac:(rewrite V2; apply Rabs_le; lra)). rewrite <- Vs, V2 in R. assert (E := eta_small). assert (E0 := eta_pos).
  assert (R' := Rabs_le_inv _ _ R).
  destruct (central_ok w _ Fs eq_refl) as [Fp Hp]; [lra|]. split; [exact Fp|].
  assert (LP := Pc_lip (V (subf w (lit 25 (-1)))) (W - 5 / 2) ltac:(lra) ltac:(lra)).
  assert (T : Rabs (V (subf w (lit 25 (-1))) - (W - 5 / 2)) <= 148 / 100000000) by (apply Rabs_le; lra).
  revert Hp LP T. generalize (V (ierf_central w)) (V (subf w (lit 25 (-1)))). intros p t Hp LP T. clear -Hp LP T.
  replace (p - Pc (W - 5 / 2)) with ((p - Pc t) + (Pc t - Pc (W - 5 / 2))) by ring. apply Rle_trans with (1 := Rabs_triang _ _). lra.
Qed.

Lemma sqrt_near v W d : 4 <= v -> 4 <= W -> Rabs (v - W) <= d -> Rabs (R_sqrt.sqrt v - R_sqrt.sqrt W) <= d / 4.
Proof.
  intros A B D. assert (SV : 2 <= R_sqrt.sqrt v) by (replace 2 with (R_sqrt.sqrt 4) by (replace 4 with (2 * 2) by ring; apply sqrt_square; lra); apply sqrt_le_1_alt; lra).
  assert (SW : 2 <= R_sqrt.sqrt W) by (replace 2 with (R_sqrt.sqrt 4) by (replace 4 with (2 * 2) by ring; apply sqrt_square; lra); apply sqrt_le_1_alt; lra).
  assert (E1 : v = R_sqrt.sqrt v * R_sqrt.sqrt v) by (symmetry; apply sqrt_sqrt; lra). assert (E2 : W = R_sqrt.sqrt W * R_sqrt.sqrt W) by (symmetry; apply sqrt_sqrt; lra).
  assert (E : v - W = (R_sqrt.sqrt v - R_sqrt.sqrt W) * (R_sqrt.sqrt v + R_sqrt.sqrt W)) by (rewrite E1, E2 at 1; ring).
  rewrite E, Rabs_mult, (Rabs_pos_eq (_ + _)) in D by lra. assert (P := Rabs_pos (R_sqrt.sqrt v - R_sqrt.sqrt W)).
  revert D P SV SW. clear. generalize (Rabs (R_sqrt.sqrt v - R_sqrt.sqrt W)) (R_sqrt.sqrt v) (R_sqrt.sqrt W). intros. nra.
Qed.

Lemma p_tail w W : pattern float32 w -> fin w -> Rabs (V w - W) <= 65 / 100000000 + 13 / 100000000 * W -> 0 <= W <= 159426 / 10000 -> 5 <= V w ->
  2236 / 1000 <= R_sqrt.sqrt W <= 3993 / 1000 /\ fin (ierf_p w) /\ Rabs (V (ierf_p w) - Pt (R_sqrt.sqrt W - 3)) <= 178 / 100000 * R_sqrt.sqrt W + 2 / 1000000.
Proof.
  intros P F D W0 L. unfold ierf_p. getc K5 (lit 5 0). destruct K5 as (_ & F5 & V5). getc K3 (lit 3 0). destruct K3 as (_ & F3 & V3).
  rewrite (flt_ok _ _ F F5), V5, Rlt_bool_false by lra.
  assert (D' := Rabs_le_inv _ _ D). assert (WB : 499999 / 100000 <= W) by lra.
  assert (S1 : 2236 / 1000 <= R_sqrt.sqrt W <= 3993 / 1000) by (split; interval).
  split; [exact S1|].
  destruct (sqrt_ok w P F) as [Fq Hq]; [apply Rle_trans with (bpow radix2 0); [apply bpow_le; lia|change (bpow radix2 0) with 1; lra]|].
  assert (N := sqrt_near (V w) W (28 / 10000000) ltac:(lra) ltac:(lra) ltac:(lra)). apply Rabs_le_inv in N.
  destruct (sub_ok _ _ Fq F3) as [Fs Vs]; [apply small127; rewrite V3; apply Rabs_le; lra|].
  assert (R := rnd_err' (V (sqrt w) - V (lit 3 0)) 1 ltac:(rewrite V3; apply Rabs_le; lra)). rewrite <- Vs, V3 in R. assert (E := eta_small). assert (E0 := eta_pos).
  assert (R' := Rabs_le_inv _ _ R).
  destruct (tail_ok w _ Fs eq_refl) as [Fp Hp]; [lra|]. split; [exact Fp|].
  assert (LP := Pt_lip (V (subf (sqrt w) (lit 3 0))) (R_sqrt.sqrt W - 3) ltac:(lra) ltac:(lra)).
  assert (T : Rabs (V (subf (sqrt w) (lit 3 0)) - (R_sqrt.sqrt W - 3)) <= 176 / 100000 * R_sqrt.sqrt W + 1 / 1000000) by (apply Rabs_le; lra).
  revert Hp LP T S1. generalize (V (ierf_tail w)) (V (subf (sqrt w) (lit 3 0))) (R_sqrt.sqrt W). intros p t s Hp LP T S1. clear -Hp LP T S1.
  replace (p - Pt (s - 3)) with ((p - Pt t) + (Pt t - Pt (s - 3))) by ring. apply Rle_trans with (1 := Rabs_triang _ _). lra.
Qed.

(** ** The result *)
Definition ierf_a (x : Z) : Z := let a := fabs float32 x in if fgt float32 a (lit 99999994 (-8)) then lit 99999994 (-8) else a.

Lemma ierf_unfold x : ierf_ x = mulf (ierf_p (ierf_w (ierf_a x))) x.
Proof. unfold ierf_, ierf_p, ierf_w, ierf_a. reflexivity. Qed.

Lemma lim_ok : fin (lit 99999994 (-8)) /\ V (lit 99999994 (-8)) = 1 - / 16777216.
Proof. getc K (lit 99999994 (-8)). destruct K as (_ & F & E). split; [exact F|]. rewrite E. lra. Qed.

Lemma a_ok x : pattern float32 x -> fin x -> fin (ierf_a x) /\ 0 <= V (ierf_a x) <= 1 - / 16777216 /\
  (V (ierf_a x) = Rabs (V x) \/ V (ierf_a x) = 1 - / 16777216 /\ 1 - / 16777216 < Rabs (V x)).
Proof.
  intros P F. destruct (fabs_ok' x P F) as (_ & Fa & Va). destruct lim_ok as [FL VL]. assert (A := Rabs_pos (V x)). unfold ierf_a. cbv zeta. rewrite (fgt_ok _ _ Fa FL), VL, Va.
  case Rlt_bool_spec; intro H; [rewrite VL|rewrite Va]; (split; [assumption|]); split; [lra|right; lra|lra|left; reflexivity].
Qed.

(** erf of the signed result against the signed argument, from the unsigned ones *)
Lemma by_sign p x d : Rabs (erf (rnd (p * Rabs x)) - Rabs x) <= d -> Rabs (erf (rnd (p * x)) - x) <= d.
Proof.
  intro H. destruct (Rle_dec 0 x) as [S|S]; [rewrite (Rabs_pos_eq x S) in H; exact H|].
  rewrite (Rabs_left x) in H by lra. replace (p * - x) with (- (p * x)) in H by ring. rewrite rnd_opp, erf_odd in H.
  replace (erf (rnd (p * x)) - x) with (- (- erf (rnd (p * x)) - - x)) by ring. now rewrite Rabs_Ropp.
Qed.

Lemma Pc_range t : -25 / 10 <= t <= 251 / 100 -> 88 / 100 <= Pc t <= 21 / 10.
Proof. intro H. unfold Pc. split; interval with (i_bisect t, i_taylor t, i_degree 8). Qed.
Lemma Pt_range t : -77 / 100 <= t <= 1 -> 2 <= Pt t <= 385 / 100.
Proof. intro H. unfold Pt. split; interval with (i_bisect t, i_taylor t, i_degree 8). Qed.

Lemma b150 : 0 < bpow radix2 (-150) /\ bpow radix2 (-149) = 2 * bpow radix2 (-150) /\ bpow radix2 (-150) <= / 10 ^ 40.
Proof. split; [apply bpow_gt_0|]. split; [|exact small150]. change (-149)%Z with (1 + -150)%Z. rewrite bpow_plus. reflexivity. Qed.

Lemma fin_central p a P : 88 / 100 <= P <= 21 / 10 -> Rabs (p - P) <= 61 / 100000000 -> 0 <= a <= 1 ->
  Rabs (rnd (p * a) - a * P) <= 75 / 100000000 * a + bpow radix2 (-150).
Proof.
  intros HP D A. assert (R := rnd_err (p * a)). rewrite b24 in R. assert (D' := Rabs_le_inv _ _ D).
  assert (PA : 0 <= p * a <= 211 / 100 * a) by (clear -HP D' A; split; nra). rewrite (Rabs_pos_eq (p * a)) in R by lra.
  replace (rnd (p * a) - a * P) with ((rnd (p * a) - p * a) + (p - P) * a) by ring.
  apply Rle_trans with (1 := Rabs_triang _ _). rewrite (Rabs_mult (p - P) a), (Rabs_pos_eq a) by lra.
  assert (Rabs (p - P) * a <= 61 / 100000000 * a) by (apply Rmult_le_compat_r; lra). lra.
Qed.

Lemma fin_tail p a P X s : 2 <= P <= 385 / 100 -> Rabs (p - P) <= 178 / 100000 * s + 2 / 1000000 -> 99 / 100 <= a <= 1 -> a <= X <= a + / 16777216 -> 2236 / 1000 <= s <= 4 ->
  Rabs (rnd (p * X) - a * P) <= 18 / 10000 * s.
Proof.
  intros HP D A HX S. assert (R := rnd_err (p * X)). rewrite b24 in R. assert (D' := Rabs_le_inv _ _ D). destruct b150 as (B0 & _ & B).
  assert (PA : 0 <= p * X <= 4) by (clear -HP D' A HX S; split; nra). rewrite (Rabs_pos_eq (p * X)) in R by lra.
  replace (rnd (p * X) - a * P) with ((rnd (p * X) - p * X) + (p - P) * a + p * (X - a)) by ring.
  apply Rle_trans with (1 := Rabs_triang _ _). apply Rle_trans with (1 := Rplus_le_compat_r _ _ _ (Rabs_triang _ _)). rewrite (Rabs_mult (p - P) a), (Rabs_pos_eq a) by lra.
  assert (H1 : Rabs (p - P) * a <= 178 / 100000 * s + 2 / 1000000) by (apply Rle_trans with (2 := D); rewrite <- (Rmult_1_r (Rabs (p - P))) at 2; apply Rmult_le_compat_l; [apply Rabs_pos|lra]).
  assert (H2 : Rabs (p * (X - a)) <= 4 / 16777216). { rewrite Rabs_pos_eq; [|apply Rmult_le_pos; lra]. clear -HX D' S HP. assert (0 <= p <= 4) by lra. nra. }
  assert (T : / 10 ^ 40 <= / 1000000000) by (apply Rinv_le; lra). lra.
Qed.

Lemma central_a a : 0 <= a < 1 -> - ln (1 - a * a) <= 500001 / 100000 -> a <= 99664 / 100000.
Proof.
  intros A H. destruct (Rle_dec a (99664 / 100000)) as [|N]; [assumption|exfalso]. 
  assert (L : 1 - a * a < 1 - 99664 / 100000 * (99664 / 100000)) by nra.
  assert (ln (1 - a * a) < ln (1 - 99664 / 100000 * (99664 / 100000))) by (apply ln_increasing; [nra|exact L]).
  assert (ln (1 - 99664 / 100000 * (99664 / 100000)) <= - 5004 / 1000) by interval. lra.
Qed.

Lemma tail_a a : 0 <= a < 1 -> 499999 / 100000 <= - ln (1 - a * a) -> 9966 / 10000 < a.
Proof.
  intros A H. destruct (Rlt_dec (9966 / 10000) a) as [|N]; [assumption|exfalso].
  assert (L : 1 - 9966 / 10000 * (9966 / 10000) <= 1 - a * a) by nra.
  assert (ln (1 - 9966 / 10000 * (9966 / 10000)) <= ln (1 - a * a)) by (destruct L as [L| ->]; [left; apply ln_increasing; [nra|exact L]|lra]).
  assert (- 4999 / 1000 <= ln (1 - 9966 / 10000 * (9966 / 10000))) by interval. lra.
Qed.

Lemma as_inv a : 0 <= a < 1 -> as_ (R_sqrt.sqrt (- ln (1 - a * a))) = a.
Proof.
  intro A. unfold as_. assert (N : 0 < 1 - a * a) by nra.
  assert (W : 0 <= - ln (1 - a * a)).
  { destruct (Req_dec (1 - a * a) 1) as [->|NE]; [rewrite ln_1; lra|]. assert (ln (1 - a * a) < ln 1) by (apply ln_increasing; nra). rewrite ln_1 in H. lra. }
  rewrite sqrt_sqrt by exact W. rewrite Ropp_involutive, exp_ln by exact N. replace (1 - (1 - a * a)) with (a * a) by ring. apply sqrt_square. lra.
Qed.

Lemma mul_fin p x : fin p -> fin x -> Rabs (V p) <= 9 -> Rabs (V x) <= 1 -> fin (mulf p x) /\ V (mulf p x) = rnd (V p * V x).
Proof.
  intros Fp Fx Hp Hx. apply mul_ok; [exact Fp|exact Fx|]. apply small127. rewrite Rabs_mult.
  assert (A := Rabs_pos (V p)). assert (B := Rabs_pos (V x)). clear -Hp Hx A B. nra.
Qed.

Lemma ierf_ok x : pattern float32 x -> fin x -> Rabs (V x) <= 1 ->
  fin (ierf_ x) /\ Rabs (V (ierf_ x)) <= 5 /\ Rabs (erf (V (ierf_ x)) - V x) <= 67 / 1000000 /\
  (Rabs (V x) <= 9966 / 10000 -> Rabs (erf (V (ierf_ x)) - V x) <= 18 / 10000000 * Rabs (V x) + bpow radix2 (-149)).
Proof.
  intros P F B. rewrite ierf_unfold. destruct (a_ok x P F) as (Fa & Ha & Ea). set (a := ierf_a x) in *. clearbody a.
  destruct (w_ok a Fa Ha) as (HW & Pw & Fw & Dw). set (w := ierf_w a) in *. clearbody w.
  assert (AX : V a <= Rabs (V x) <= V a + / 16777216) by (destruct Ea; lra).
  destruct (Rlt_dec (V w) 5) as [C|C].
  - destruct (p_central w _ Fw Dw (proj1 HW) C) as (W5 & Fp & Dp). set (p := ierf_p w) in *. clearbody p.
    assert (A1 := central_a (V a) ltac:(lra) W5). assert (EA : V a = Rabs (V x)) by (destruct Ea; lra).
    assert (PR := Pc_range (- ln (1 - V a * V a) - 5 / 2) ltac:(lra)). assert (Dp' := Rabs_le_inv _ _ Dp).
    destruct (mul_fin p x Fp F ltac:(apply Rabs_le; lra) B) as [Fr Vr]. split; [exact Fr|].
    assert (G := Gc_small (V a) ltac:(lra)). unfold Gc, wc in G.
    assert (FC := fin_central (V p) (V a) _ PR Dp ltac:(lra)). destruct b150 as (B0 & B1 & B2).
    assert (LI := erf_lip (rnd (V p * V a)) (V a * Pc (- ln (1 - V a * V a) - 5 / 2))).
    assert (M : Rabs (erf (rnd (V p * V a)) - V a) <= 18 / 10000000 * V a + bpow radix2 (-149)).
    { replace (erf (rnd (V p * V a)) - V a) with ((erf (rnd (V p * V a)) - erf (V a * Pc (- ln (1 - V a * V a) - 5 / 2))) + (erf (V a * Pc (- ln (1 - V a * V a) - 5 / 2)) - V a)) by ring.
      apply Rle_trans with (1 := Rabs_triang _ _). rewrite B1. clear -FC LI G B0 Ha. lra. }
    rewrite EA in M. apply by_sign in M. rewrite <- Vr in M.
    assert (T : / 10 ^ 40 <= / 1000000000) by (apply Rinv_le; lra).
    split; [|split; [apply Rle_trans with (1 := M); rewrite B1; lra|intros _; exact M]].
    rewrite Vr. assert (R := rnd_err' (V p * V x) 3). assert (E := eta_small).
    assert (Q : Rabs (V p * V x) <= 3) by (rewrite Rabs_mult, (Rabs_pos_eq (V p)) by lra; clear -PR Dp' B; assert (H := Rabs_pos (V x)); nra).
    specialize (R Q). apply Rabs_le_inv in R. apply Rabs_le_inv in Q. apply Rabs_le. lra.
  - destruct (p_tail w _ Pw Fw Dw HW ltac:(lra)) as (S & Fp & Dp). set (p := ierf_p w) in *. clearbody p.
    assert (W5 : 499999 / 100000 <= - ln (1 - V a * V a)) by (apply Rabs_le_inv in Dw; lra).
    assert (A1 := tail_a (V a) ltac:(lra) W5). assert (IA := as_inv (V a) ltac:(lra)). set (s := R_sqrt.sqrt (- ln (1 - V a * V a))) in *. clearbody s.
    assert (PR := Pt_range (s - 3) ltac:(lra)). assert (Dp' := Rabs_le_inv _ _ Dp).
    destruct (mul_fin p x Fp F ltac:(apply Rabs_le; lra) B) as [Fr Vr]. split; [exact Fr|].
    assert (G := Gt_small s ltac:(lra)). unfold Gt in G. assert (TN := tail_num s ltac:(lra)). rewrite IA in G, TN.
    assert (FT := fin_tail (V p) (V a) _ (Rabs (V x)) s PR Dp ltac:(lra) AX ltac:(lra)).
    assert (FT' := Rabs_le_inv _ _ FT).
    assert (Z0 : 0 <= V a * Pt (s - 3) - 18 / 10000 * s) by (clear -A1 PR S; nra).
    assert (LI := erf_lip_from (V a * Pt (s - 3) - 18 / 10000 * s) (rnd (V p * Rabs (V x))) (V a * Pt (s - 3)) ltac:(lra) ltac:(lra)).
    assert (LI' : Rabs (erf (rnd (V p * Rabs (V x))) - erf (V a * Pt (s - 3))) <= 65 / 1000000).
    { apply Rle_trans with (1 := LI). apply Rle_trans with (2 := TN). apply Rmult_le_compat_l; [|exact FT]. apply Rmult_le_pos; [lra|left; apply exp_pos]. }
    assert (M : Rabs (erf (rnd (V p * Rabs (V x))) - Rabs (V x)) <= 67 / 1000000).
    { replace (erf (rnd (V p * Rabs (V x))) - Rabs (V x)) with ((erf (rnd (V p * Rabs (V x))) - erf (V a * Pt (s - 3))) + (erf (V a * Pt (s - 3)) - V a) + (V a - Rabs (V x))) by ring.
      apply Rle_trans with (1 := Rabs_triang _ _). apply Rle_trans with (1 := Rplus_le_compat_r _ _ _ (Rabs_triang _ _)).
      assert (Rabs (V a - Rabs (V x)) <= / 16777216) by (apply Rabs_le; lra). clear -LI' G H. lra. }
    apply by_sign in M. rewrite <- Vr in M.
    split; [|split; [exact M|intro H; exfalso; destruct Ea; lra]].
    rewrite Vr. assert (R := rnd_err' (V p * V x) 4). assert (E := eta_small).
    assert (Q : Rabs (V p * V x) <= 4) by (rewrite Rabs_mult, (Rabs_pos_eq (V p)) by lra; clear -PR Dp' B S; assert (H := Rabs_pos (V x)); nra).
    specialize (R Q). apply Rabs_le_inv in R. apply Rabs_le_inv in Q. apply Rabs_le. lra.
Qed.

