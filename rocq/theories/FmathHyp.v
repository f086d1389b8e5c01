(** sinh, cosh and tanh: error bounds. *)
From Coq Require Import ZArith Bool Lia Reals Lra Psatz.
From Flocq Require Import Core Mult_error IEEE754.Binary IEEE754.Bits.
From Interval Require Import Tactic.
From Verif Require Import Mem AlgoModel FpModel FpProofs RoundModel RoundProofs LitModel LimModel FmathModel FmathReal FmathStep FmathExp FmathLog FmathReduce FmathTrig2.
Open Scope R_scope.

Definition Psinh (t : R) : R := (((((14015029 / 68719476736) * (t * t) + (8944165 / 1073741824)) * (t * t) + (11184856 / 67108864)) * t) * (t * t) + t).

Lemma sinh_poly_ok x t : fin x -> V x = t -> 0 <= t <= 1 -> appr (sinh_poly x) (Psinh t) (1140 / 10000000000).
Proof.
  intros F E H. assert (Kx := appr_val x t F E).
  getk Ku0 (lit 203945513931 (-15)).
  getk Kc1 (lit 832990277558 (-14)).
  getk Kc2 (lit 1666673421859 (-13)).
  stepm Ks Kx Kx (1003 / 1000) (1003 / 1000) (5997 / 100000000000) t.
  stepf Ku1 Ku0 Ks Kc1 (2044 / 10000000) (1003 / 1000) (8551 / 1000000) (2449 / 100000000000000) (5343 / 10000000000000) t.
  stepf Ku2 Ku1 Ks Kc2 (8551 / 1000000) (1003 / 1000) (1756 / 10000) (1561 / 1000000000000) (1203 / 100000000000) t.
  stepm Kux Ku2 Kx (1756 / 10000) (1003 / 1000) (2257 / 100000000000) t.
  stepf Kr Kux Ks Kx (1756 / 10000) (1003 / 1000) (1178 / 1000) (4368 / 100000000000) (1140 / 10000000000) t.
  exact Kr.
Qed.

Lemma Psinh_err t : 0 <= t <= 1 -> Rabs (Psinh t - sinh t) <= 42 / 1000000000.
Proof. intro H. unfold Psinh, sinh. interval with (i_bisect t, i_taylor t, i_prec 60, i_degree 10, i_depth 30). Qed.

Lemma copysign_fun f r x d : (forall t, f (- t) = - f t) -> pattern float32 r -> pattern float32 x -> fin r -> fin x -> 0 <= f (Rabs (V x)) ->
  Rabs (V r - f (Rabs (V x))) <= d ->
  pattern float32 (copysign r x) /\ fin (copysign r x) /\ Rabs (V (copysign r x) - f (V x)) <= d.
Proof.
  intros O Pr Px Fr Fx W D. destruct (copysign_ok r x Pr Px Fr) as (Pc & Fc & Vc). split; [exact Pc|]. split; [exact Fc|].
  destruct (Req_dec (V x) 0) as [Z0|Z0].
  - rewrite Vc, Z0 in *. rewrite Rabs_R0 in D. assert (F0 : f 0 = 0) by (specialize (O 0); rewrite Ropp_0 in O; lra).
    rewrite F0, Rminus_0_r in *. rewrite Rabs_mult, Rabs_Rabsolu. destruct (sgn float32 x); rewrite ?Rabs_Ropp, ?Rabs_R1, ?Rmult_1_l; try exact D.
    rewrite (Rabs_left (-1)) by lra. lra.
  - pose proof (copysign_odd r x _ d Pr Px Fr Fx W D Z0) as E. destruct (Rlt_dec (V x) 0) as [L|L].
    + rewrite (Rabs_left (V x)) in E by exact L. rewrite O in E. replace (f (V x)) with (- - f (V x)) by ring. exact E.
    + rewrite (Rabs_pos_eq (V x)) in E by lra. exact E.
Qed.

Lemma sinh_opp t : sinh (- t) = - sinh t.
Proof. unfold sinh. rewrite Ropp_involutive. field. Qed.

(** ** The exponential of a non-negative argument *)
Lemma exp_pos_arg a : pattern float32 a -> fin a -> 0 <= V a <= 8733 / 100 ->
  exists e, exp_ a = Ok e /\ pattern float32 e /\ fin e /\ Rabs (V e - exp (V a)) <= (16 / 1000000 + V a / 10000000) * exp (V a).
Proof.
  intros P F B. destruct (exp_ok a P F) as (e & Q & Pe & Fe & _ & E); [rewrite Rabs_pos_eq; lra|].
  exists e. repeat (split; [assumption|]). rewrite (Rabs_pos_eq (V a)) in E by lra. apply E. lra.
Qed.

(** both halves of the hyperbolic functions *)
Lemma halves e T h : fin e -> 1 <= T <= 10 ^ 38 -> h <= 3 / 100000 -> Rabs (V e - T) <= h * T ->
  0 < V e /\ fin (mulf f_half e) /\ fin (divf f_half e) /\
  Rabs (V (mulf f_half e) - V e / 2) <= V e / 33554432 + eta /\ Rabs (V (divf f_half e) - / V e / 2) <= / V e / 33554432 + eta /\
  0 < / V e <= 10001 / 10000 * / T /\ Rabs (/ V e - / T) <= 10001 / 10000 * h * / T.
Proof.
  intros F HT Hh E. destruct half_ok as (_ & Fh & Vh). apply Rabs_le_inv in E.
  assert (EP : 99997 / 100000 * T <= V e <= 100003 / 100000 * T) by nra.
  assert (P0 : 0 < V e) by lra. split; [exact P0|].
  assert (I0 := Rinv_0_lt_compat _ P0).
  assert (IT : 0 < / T) by (apply Rinv_0_lt_compat; lra).
  assert (I1 : / V e <= 10001 / 10000 * / T).
  { apply Rmult_le_reg_l with (V e * T); [nra|]. replace (V e * T * / V e) with T by (field; lra).
    replace (V e * T * (10001 / 10000 * / T)) with (10001 / 10000 * V e) by (field; lra). lra. }
  assert (IT1 : / T <= 1) by (rewrite <- Rinv_1; apply Rinv_le_contravar; lra).
  assert (M1 : Rabs (V f_half * V e) <= V e / 2) by (rewrite Vh, Rabs_pos_eq; lra).
  assert (BIG : 10 ^ 38 <= bpow radix2 127).
  { replace (bpow radix2 127) with (IZR (2 ^ 127)) by reflexivity. replace (10 ^ 38) with (IZR (10 ^ 38)) by (rewrite pow_IZR; reflexivity). apply IZR_le. lia. }
  destruct (mul_ok f_half e Fh F) as [F1 V1]; [apply Rle_trans with (1 := M1); lra|].
  assert (M2 : Rabs (V f_half / V e) <= / V e / 2) by (rewrite Vh; unfold Rdiv; rewrite Rabs_pos_eq; lra).
  destruct (div_ok f_half e Fh F) as [F2 V2]; [lra|apply Rle_trans with (1 := M2); pose proof big127; lra|].
  split; [exact F1|]. split; [exact F2|]. rewrite V1, V2.
  pose proof (rnd_err' _ _ M1) as R1. pose proof (rnd_err' _ _ M2) as R2.
  rewrite Vh in *. replace (/ 2 * V e) with (V e / 2) in * by lra. replace (/ 2 / V e) with (/ V e / 2) in * by (unfold Rdiv; ring).
  split; [lra|]. split; [lra|]. split; [split; [exact I0|exact I1]|].
  replace (/ V e - / T) with ((T - V e) * (/ V e * / T)) by (field; lra). rewrite Rabs_mult, (Rabs_pos_eq (/ V e * / T)) by nra.
  apply Rle_trans with (h * T * (10001 / 10000 * / T * / T)).
  - apply Rmult_le_compat; [apply Rabs_pos|nra|rewrite Rabs_minus_sym; apply Rabs_le; lra|]. apply Rmult_le_compat_r; lra.
  - right. field. lra.
Qed.

Lemma exp_range a : 0 <= a <= 8733 / 100 -> 1 <= exp a <= 10 ^ 38.
Proof. intro H. split; interval. Qed.

Lemma fabs_fin x : pattern float32 x -> fin x -> exists a, fabs float32 x = a /\ pattern float32 a /\ fin a /\ V a = Rabs (V x).
Proof. intros P F. exists (fabs float32 x). destruct (fabs_ok' x P F) as (A & B & C). auto. Qed.

Lemma cosh_abs t : cosh (Rabs t) = cosh t.
Proof. unfold cosh. destruct (Rle_dec 0 t); [now rewrite Rabs_pos_eq|]. rewrite Rabs_left by lra. rewrite Ropp_involutive. field. Qed.

Lemma cosh_ok x : pattern float32 x -> fin x -> Rabs (V x) <= 8733 / 100 ->
  exists r, cosh_ x = Ok r /\ pattern float32 r /\ fin r /\ Rabs (V r - cosh (V x)) <= (17 / 1000000 + Rabs (V x) / 10000000) * cosh (V x).
Proof.
  intros P F B. unfold cosh_. destruct (fabs_fin x P F) as (a & -> & Pa & Fa & Va). rewrite <- Va in *. rewrite <- cosh_abs, <- Va.
  assert (A0 : 0 <= V a) by (rewrite Va; apply Rabs_pos).
  destruct (exp_pos_arg a Pa Fa ltac:(lra)) as (e & Q & Pe & Fe & E). rewrite Q. cbn [bind]. clear Q.
  assert (HT := exp_range (V a) ltac:(lra)). set (h := 16 / 1000000 + V a / 10000000) in *.
  assert (Hh : 16 / 1000000 <= h <= 3 / 100000) by (unfold h; lra).
  set (T := exp (V a)) in *.
  destruct (halves e T h Fe HT ltac:(lra) E) as (E0 & F1 & F2 & R1 & R2 & I1 & I2).
  assert (CT : cosh (V a) = (T + / T) / 2) by (unfold cosh, T; now rewrite exp_Ropp). rewrite CT. clearbody T.
  assert (IT : 0 < / T) by (apply Rinv_0_lt_compat; lra). assert (IT1 : / T <= 1) by (rewrite <- Rinv_1; apply Rinv_le_contravar; lra).
  set (p := mulf f_half e) in *. set (n := divf f_half e) in *. clearbody p n. apply Rabs_le_inv in E, R1, R2, I2.
  assert (HE := eta_small). assert (EP := eta_pos).
  assert (ED : 99997 / 100000 * T <= V e <= 100003 / 100000 * T) by (clear -E Hh HT; nra).
  assert (SB : Rabs (V p + V n) <= (T + / T) / 2 * (10001 / 10000)).
  { apply Rabs_le. lra. }
  assert (BIG : 10 ^ 38 <= bpow radix2 127).
  { replace (bpow radix2 127) with (IZR (2 ^ 127)) by reflexivity. replace (10 ^ 38) with (IZR (10 ^ 38)) by (rewrite pow_IZR; reflexivity). apply IZR_le. lia. }
  destruct (add_ok p n F1 F2) as [F3 V3]; [apply Rle_trans with (1 := SB); lra|].
  exists (addf p n). split; [reflexivity|]. split; [apply pat_add|]. split; [exact F3|]. rewrite V3.
  pose proof (rnd_err' _ _ SB) as R3. apply Rabs_le_inv in R3.
  (* (E + 1/E)/2 - (T + 1/T)/2 *)
  assert (K : Rabs ((V e + / V e) / 2 - (T + / T) / 2) <= h * (T / 2)).
  { replace ((V e + / V e) / 2 - (T + / T) / 2) with ((V e - T) / 2 * (1 - / V e * / T)) by (field; lra).
    rewrite Rabs_mult. rewrite <- (Rmult_1_r (h * (T / 2))). apply Rmult_le_compat; try apply Rabs_pos.
    - apply Rabs_le. lra.
    - assert (0 <= / V e * / T <= 2) by (clear -I1 IT IT1; nra). apply Rabs_le. lra. }
  apply Rabs_le_inv in K. replace (17 / 1000000 + V a / 10000000) with (h + 1 / 1000000) by (unfold h; lra). clearbody h.
  assert (HT2 : h * (T / 2) <= h * ((T + / T) / 2)) by (apply Rmult_le_compat_l; lra).
  rewrite Rmult_plus_distr_r. apply Rabs_le. lra.
Qed.

Lemma sinh_small x : pattern float32 x -> fin x -> Rabs (V x) <= 1 ->
  exists r, sinh_ x = Ok r /\ pattern float32 r /\ fin r /\ Rabs (V r - sinh (V x)) <= 3 / 10000000.
Proof.
  intros P F B. unfold sinh_. destruct (fabs_fin x P F) as (a & -> & Pa & Fa & Va). destruct one_ok as (_ & FO & VO).
  rewrite (fgt_ok a f_one Fa FO), VO, Va. rewrite Rlt_bool_false by exact B.
  assert (A0 : 0 <= V a) by (rewrite Va; apply Rabs_pos).
  destruct (crush_one a Fa) as (Fz & Bz & Ez); [rewrite Va, Rabs_Rabsolu; exact B|].
  assert (Z0 : 0 <= V (crush f_one a)).
  { unfold crush. destruct (sub_ok f_one a FO Fa) as [Fs Vs]; [rewrite VO, Va; apply le127 with 1; [apply Rabs_le; assert (H := Rabs_pos (V x)); lra|lra]|].
    assert (S1 : 0 <= V (subf f_one a) <= 1).
    { rewrite Vs, VO. apply rnd_bounds; [apply rnd_0|apply (rnd_IZR 1); lia|rewrite Va in *; lra]. }
    destruct (sub_ok f_one (subf f_one a) FO Fs) as [_ ->]; [rewrite VO; apply le127 with 1; [apply Rabs_le; lra|lra]|].
    rewrite VO, <- rnd_0. apply rnd_le. lra. }
  set (z := crush f_one a) in *. clearbody z. apply Rabs_le_inv in Bz, Ez.
  destruct (sinh_poly_ok z (V z) Fz eq_refl ltac:(lra)) as [Fu Eu]. assert (E2 := Psinh_err (V z) ltac:(lra)).
  assert (Pu : pattern float32 (sinh_poly z)) by (unfold sinh_poly; cbv zeta; apply pat_add).
  set (u := sinh_poly z) in *. clearbody u.
  eexists. split; [reflexivity|].
  apply (copysign_fun sinh); try assumption; [exact sinh_opp| |].
  - rewrite <- Va. unfold sinh. assert (exp (- V a) <= exp (V a)); [|lra].
    destruct (Req_dec (V a) 0) as [H|H]; [rewrite H, Ropp_0; lra|]. left. apply exp_increasing. lra.
  - rewrite <- Va. assert (L : Rabs (sinh (V z) - sinh (V a)) <= 155 / 100 * Rabs (V z - V a)).
    { assert (MV : forall a b, 0 <= a -> a < b -> b <= 1 -> 0 <= sinh b - sinh a <= 155 / 100 * (b - a)).
      { intros p q H1 H2 H3. destruct (MVT_cor2 sinh cosh p q H2) as (c & C1 & C2); [intros; apply derivable_pt_lim_sinh|].
        rewrite C1. assert (C0 : 0 <= c <= 1) by lra. assert (H : 0 <= cosh c <= 155 / 100) by (clear -C0; unfold cosh; split; interval with (i_bisect c)). clear -H H2. nra. }
      destruct (Rtotal_order (V z) (V a)) as [H|[H|H]].
      - assert (M := MV _ _ Z0 H ltac:(rewrite Va; exact B)). rewrite (Rabs_left (V z - V a)) by lra. apply Rabs_le. lra.
      - rewrite H, !Rminus_diag_eq, Rabs_R0 by reflexivity. lra.
      - assert (M := MV _ _ A0 H ltac:(lra)). rewrite (Rabs_pos_eq (V z - V a)) by lra. apply Rabs_le. lra. }
    assert (Rabs (V z - V a) <= 9 / 100000000) by (apply Rabs_le; lra).
    apply Rabs_le_inv in Eu, E2, L. apply Rabs_le. lra.
Qed.

Lemma big8 k : (40 <= k)%Z -> 2 * 10 ^ 8 <= bpow radix2 k.
Proof. intro K. apply Rle_trans with (bpow radix2 40); [cbn; lra|now apply bpow_le]. Qed.

Lemma exp2_big m e : pattern float32 m -> fin m -> 100 <= V m -> fast_exp2 m = Ok e -> 10 ^ 8 <= V e.
Proof.
  intros Pm Fm B2 Q. destruct f126_ok as (_ & F6 & V6). destruct (flt float32 m f126) eqn:L.
  - rewrite flt_ok, V6 in L by assumption. destruct (Rlt_bool_spec (V m) 126) as [L'|]; [|discriminate].
    destruct (exp2_ok m Pm Fm) as (r & Q' & _ & _ & E & _); [lra|]. rewrite Q in Q'. injection Q' as <-. apply Rabs_le_inv in E.
    assert (K := pow2_le 100 (V m) B2). rewrite (pow2_bpow 100) in K. assert (B := big8 100 ltac:(lia)). lra.
  - rewrite (exp2_sat_hi m L) in Q. assert (e = 0x7e800000%Z) by congruence. subst e. destruct big_const as (_ & _ & W). rewrite W.
    assert (B := big8 126 ltac:(lia)). lra.
Qed.

Lemma exp_mid c y e : fin c -> V c = 12102203 / 8388608 -> fin y -> 70 <= V y <= 100 -> fast_exp2 (mulf y c) = Ok e -> 10 ^ 8 <= V e.
Proof.
  intros FC VC F B Q.
  destruct (mul_ok y c F FC) as [Fm Vm]; [rewrite VC; apply le127 with 1000; [apply Rabs_le; lra|lra]|].
  assert (B2 : 100 <= V (mulf y c)).
  { rewrite Vm. apply Rle_trans with (rnd 100); [right; symmetry; apply (rnd_IZR 100); cbn; lia|]. apply rnd_le. rewrite VC. lra. }
  exact (exp2_big _ _ (pat_mul y c) Fm B2 Q).
Qed.

Lemma exp_low y e : pattern float32 y -> fin y -> 20 <= V y <= 8733 / 100 -> exp_ y = Ok e -> 10 ^ 8 <= V e.
Proof.
  intros P F B Q. destruct (exp_pos_arg y P F ltac:(lra)) as (e' & Q' & _ & _ & E). rewrite Q in Q'. assert (X : e' = e) by congruence. rewrite X in E. clear X Q Q'. apply Rabs_le_inv in E.
  assert (K : 400000000 <= exp (V y)) by (clear -B; interval). assert ((16 / 1000000 + V y / 10000000) * exp (V y) <= / 2 * exp (V y)) by (apply Rmult_le_compat_r; lra). lra.
Qed.

Lemma exp_high y e : pattern float32 y -> fin y -> 8734 / 100 <= V y -> exp_ y = Ok e -> 10 ^ 8 <= V e.
Proof.
  intros P F B Q. destruct (exp_sat y P F) as [S _]. rewrite (S B) in Q. assert (E : e = 0x7e800000%Z) by congruence. rewrite E.
  rewrite (proj2 (proj2 big_const)). assert (K := big8 126 ltac:(lia)). lra.
Qed.

Lemma exp_unfold y : exp_ y = fast_exp2 (mulf y inv_ln2).
Proof. reflexivity. Qed.

Lemma ln2_inv_ok : fin inv_ln2 /\ V inv_ln2 = 12102203 / 8388608.
Proof. getc HC inv_ln2. split; apply HC. Qed.

Lemma exp_gap y e : fin y -> 70 <= V y <= 100 -> exp_ y = Ok e -> 10 ^ 8 <= V e.
Proof.
  rewrite exp_unfold. destruct ln2_inv_ok as [FC VC]. revert FC VC. generalize inv_ln2. intros c FC VC F B Q.
  exact (exp_mid c y e FC VC F B Q).
Qed.

Lemma exp_big y : pattern float32 y -> fin y -> 20 <= V y ->
  exists e, exp_ y = Ok e /\ pattern float32 e /\ fin e /\ 10 ^ 8 <= V e <= bpow radix2 127.
Proof.
  intros P F B. destruct (exp_total y) as (e & Q & Pe & Fe & Be). exists e. split; [exact Q|]. split; [exact Pe|]. split; [exact Fe|].
  split; [|lra].
  destruct (Rle_dec (V y) (8733 / 100)) as [H1|H1]; [now apply (exp_low y e)|].
  destruct (Rle_dec (8734 / 100) (V y)) as [H2|H2]; [now apply (exp_high y e)|].
  apply (exp_gap y e F); [lra|exact Q].
Qed.

Lemma sinh_large x : pattern float32 x -> fin x -> 1 <= Rabs (V x) <= 8733 / 100 ->
  exists r, sinh_ x = Ok r /\ pattern float32 r /\ fin r /\ Rabs (V r - sinh (V x)) <= (22 / 1000000 + Rabs (V x) * (14 / 100000000)) * Rabs (sinh (V x)).
Proof.
  intros P F B. destruct (Req_dec (Rabs (V x)) 1) as [N1|N1].
  { destruct (sinh_small x P F) as (r & Q & Pr & Fr & E); [lra|]. exists r. split; [exact Q|]. split; [exact Pr|]. split; [exact Fr|].
    apply Rle_trans with (1 := E). rewrite N1. assert (S1 : 1 <= sinh 1) by (unfold sinh; interval).
    assert (1 <= Rabs (sinh (V x))). { unfold Rabs in N1. destruct (Rcase_abs (V x)); [replace (V x) with (- (1)) by lra; rewrite sinh_opp, Rabs_Ropp|rewrite N1]; rewrite Rabs_pos_eq; lra. } nra. }
  unfold sinh_. destruct (fabs_fin x P F) as (a & -> & Pa & Fa & Va). destruct one_ok as (_ & FO & VO).
  rewrite (fgt_ok a f_one Fa FO), VO, Va. rewrite Rlt_bool_true by lra. assert (AB : 1 < V a <= 8733 / 100) by lra.
  destruct (exp_pos_arg a Pa Fa ltac:(lra)) as (e & Q & Pe & Fe & E). rewrite Q. cbn [bind]. clear Q.
  assert (HT := exp_range (V a) ltac:(lra)). assert (HT2 : 271 / 100 <= exp (V a)) by (clear -AB; interval).
  set (h := 16 / 1000000 + V a / 10000000) in *.
  assert (Hh : 16 / 1000000 <= h <= 3 / 100000) by (unfold h; lra).
  set (T := exp (V a)) in *.
  destruct (halves e T h Fe HT ltac:(lra) E) as (E0 & F1 & F2 & R1 & R2 & I1 & I2).
  assert (CT : sinh (V a) = (T - / T) / 2) by (unfold sinh, T; now rewrite exp_Ropp).
  assert (SX : Rabs (sinh (V x)) = sinh (V a)).
  { rewrite Va. unfold Rabs at 2. destruct (Rcase_abs (V x)) as [N|N].
    - rewrite <- (Rabs_Ropp (sinh (V x))), <- sinh_opp. replace (- V x) with (V a) by (rewrite Va, Rabs_left; lra). apply Rabs_pos_eq. rewrite CT.
      assert (/ T <= 1) by (rewrite <- Rinv_1; apply Rinv_le_contravar; lra). lra.
    - replace (V x) with (V a) by (rewrite Va, Rabs_pos_eq; lra). apply Rabs_pos_eq. rewrite CT.
      assert (/ T <= 1) by (rewrite <- Rinv_1; apply Rinv_le_contravar; lra). lra. }
  rewrite SX, CT. rewrite <- Va.
  assert (IT : 0 < / T) by (apply Rinv_0_lt_compat; lra). assert (ITT : / T * T = 1) by (field; lra).
  assert (SQ : / T <= 1362 / 10000 * T) by (clear -HT2 IT ITT; nra).
  set (p := mulf f_half e) in *. set (n := divf f_half e) in *. clearbody p n. apply Rabs_le_inv in E, R1, R2, I2.
  assert (HE := eta_small). assert (EP := eta_pos).
  assert (ED : 99997 / 100000 * T <= V e <= 100003 / 100000 * T) by (clear -E Hh HT; nra).
  assert (SB : Rabs (V p - V n) <= T).
  { clear -R1 R2 ED I1 SQ HE EP HT. apply Rabs_le. lra. }
  assert (BIG : 10 ^ 38 <= bpow radix2 127).
  { replace (bpow radix2 127) with (IZR (2 ^ 127)) by reflexivity. replace (10 ^ 38) with (IZR (10 ^ 38)) by (rewrite pow_IZR; reflexivity). apply IZR_le. lia. }
  destruct (sub_ok p n F1 F2) as [F3 V3]; [lra|].
  eexists. split; [reflexivity|].
  apply (copysign_fun sinh); try assumption; [exact sinh_opp|apply pat_sub|rewrite <- Va, CT; lra|]. rewrite <- Va, CT, V3.
  pose proof (rnd_err' _ _ SB) as R3. apply Rabs_le_inv in R3.
  assert (IE : / V e * / T <= 1363 / 10000).
  { assert (H : / T <= 3691 / 10000). { apply Rle_trans with (/ (271 / 100)); [apply Rinv_le_contravar; lra|lra]. } clear -I1 IT H E0. assert (0 < / V e) by lra. nra. }
  assert (K : Rabs ((V e - / V e) / 2 - (T - / T) / 2) <= h * (T / 2) * (11363 / 10000)).
  { replace ((V e - / V e) / 2 - (T - / T) / 2) with ((V e - T) / 2 * (1 + / V e * / T)) by (field; lra).
    rewrite Rabs_mult. apply Rmult_le_compat; try apply Rabs_pos.
    - apply Rabs_le. lra.
    - assert (0 <= / V e * / T) by (clear -I1 IT; nra). apply Rabs_le. lra. }
  apply Rabs_le_inv in K.
  replace (22 / 1000000 + V a * (14 / 100000000)) with (h * (11363 / 8637) + (22 / 1000000 + V a * (14 / 100000000) - h * (11363 / 8637))) by ring.
  assert (SL : 6 / 10000000 <= 22 / 1000000 + V a * (14 / 100000000) - h * (11363 / 8637)) by (unfold h; lra).
  set (sl := 22 / 1000000 + V a * (14 / 100000000) - h * (11363 / 8637)) in *. clearbody sl h.
  assert (S1 : 8637 / 10000 * (T / 2) <= (T - / T) / 2) by lra.
  assert (M1 : h * (T / 2) * (11363 / 10000) <= h * (11363 / 8637) * ((T - / T) / 2)).
  { apply Rle_trans with (h * (11363 / 8637) * (8637 / 10000 * (T / 2))); [right; field|]. apply Rmult_le_compat_l; lra. }
  assert (M2 : 6 / 10000000 * (8637 / 10000 * (T / 2)) <= sl * ((T - / T) / 2)) by (apply Rmult_le_compat; lra).
  rewrite Rmult_plus_distr_r. apply Rabs_le. lra.
Qed.

(** ** Saturation *)
Definition f_sat : Z := 0x7e000000.
Lemma sat_const : pattern float32 f_sat /\ fin f_sat /\ V f_sat = bpow radix2 125.
Proof.
  split; [split; vm_compute; congruence|]. destruct (V_mk 252 0) as [A B]; [lia|lia|].
  replace (252 * 2 ^ 23 + 0)%Z with f_sat in * by reflexivity. split; [exact A|]. rewrite B.
  replace (IZR (2 ^ 23 + 0)) with (bpow radix2 23) by reflexivity. rewrite <- bpow_plus. reflexivity.
Qed.

Lemma hyp_sat x : pattern float32 x -> fin x -> 8734 / 100 <= Rabs (V x) ->
  cosh_ x = Ok f_sat /\ sinh_ x = Ok (copysign f_sat x).
Proof.
  intros P F B. unfold cosh_, sinh_. destruct (fabs_fin x P F) as (a & -> & Pa & Fa & Va). destruct one_ok as (_ & FO & VO).
  rewrite (fgt_ok a f_one Fa FO), VO, Va. rewrite Rlt_bool_true by lra.
  destruct (exp_sat a Pa Fa) as [S _]. rewrite S by lra. cbn [bind].
  split; [vm_compute; reflexivity|]. replace (subf (mulf f_half 0x7e800000) (divf f_half 0x7e800000)) with f_sat by (vm_compute; reflexivity). reflexivity.
Qed.

(** ** tanh *)
Lemma two_ok : pattern float32 f_two /\ fin f_two /\ V f_two = 2.
Proof. getc H f_two. destruct H as (A & B & C). split; [exact A|]. split; [exact B|]. rewrite C. lra. Qed.

Lemma two_mul a : fin a -> 0 <= V a ->
  (fin (mulf f_two a) /\ V (mulf f_two a) = 2 * V a) \/ (bpow radix2 127 <= V a /\ mulf f_two a = 0x7f800000%Z).
Proof.
  intros F A0. destruct two_ok as (_ & F2 & V2).
  assert (R2 : rnd (2 * V a) = 2 * V a).
  { apply rnd_format. rewrite Rmult_comm. apply (mult_bpow_pos_exact_FLT radix2 (-149) 24 (V a) 1 (V_format a)). lia. }
  destruct (Rlt_dec (2 * V a) (bpow radix2 128)) as [H|H].
  - left. destruct (mul_ok128 f_two a F2 F) as [G W]; [rewrite V2, R2, Rabs_pos_eq; lra|]. split; [exact G|]. rewrite W, V2. exact R2.
  - right. split.
    { replace (bpow radix2 128) with (bpow radix2 (127 + 1)) in H by reflexivity. rewrite bpow_plus in H. replace (bpow radix2 1) with 2 in H by reflexivity. lra. }
    pose proof (Bmult_correct 24 128 eq_refl eq_refl binop_nan_pl32 BinarySingleNaN.mode_NE (b32_of_bits f_two) (b32_of_bits a)) as C.
    change (round radix2 (SpecFloat.fexp 24 128) (BinarySingleNaN.round_mode BinarySingleNaN.mode_NE) (B2R 24 128 (b32_of_bits f_two) * B2R 24 128 (b32_of_bits a)))
      with (rnd (V f_two * V a)) in C.
    rewrite V2, R2, (Rabs_pos_eq (2 * V a)), Rlt_bool_false in C by lra.
    unfold BinarySingleNaN.binary_overflow in C. cbn [BinarySingleNaN.overflow_to_inf] in C.
    assert (D : Bmult 24 128 eq_refl eq_refl binop_nan_pl32 BinarySingleNaN.mode_NE (b32_of_bits f_two) (b32_of_bits a) = B754_infinity 24 128 false).
    { apply B2FF_inj. rewrite C. assert (0 < V a) by (assert (0 < bpow radix2 128) by apply bpow_gt_0; lra).
      rewrite (proj1 (sign_V a F)), (proj1 (sign_V f_two F2)) by (rewrite ?V2; lra). reflexivity. }
    replace (mulf f_two a) with (bits_of_b32 (B754_infinity 24 128 false)); [reflexivity|]. unfold mulf. f_equal. symmetry. exact D.
Qed.

Lemma tanh_odd t : tanh (- t) = - tanh t.
Proof. unfold tanh. rewrite sinh_opp, <- (cosh_abs (- t)), Rabs_Ropp, cosh_abs. unfold Rdiv. ring. Qed.

Lemma tanh_exp t : tanh t = 1 - 2 / (1 + exp (2 * t)).
Proof.
  unfold tanh, sinh, cosh. rewrite exp_Ropp. replace (2 * t) with (t + t) by ring. rewrite exp_plus.
  assert (0 < exp t) by apply exp_pos. field. nra.
Qed.

(** the last steps of tanh, given the exponential *)
Lemma tanh_tail e T d : fin e -> 0 < V e <= bpow radix2 127 -> 0 < T -> 2 * Rabs (V e - T) <= d * ((1 + T) * (1 + V e)) ->
  let r := subf f_one (divf f_two (addf f_one e)) in
  fin r /\ Rabs (V r) <= 1 /\ Rabs (V r - (1 - 2 / (1 + T))) <= d + 4 / 10000000.
Proof.
  intros F B HT D r. destruct one_ok as (_ & FO & VO). destruct two_ok as (_ & F2 & V2).
  assert (HE := eta_small). assert (EP := eta_pos). set (E := V e) in *.
  assert (S0 : Rabs (1 + E) <= 1 + E) by (rewrite Rabs_pos_eq; lra).
  pose proof (rnd_err' _ _ S0) as R1. apply Rabs_le_inv in R1.
  destruct (add_ok128 f_one e FO F) as [Fs Vs].
  { rewrite VO. fold E. replace (bpow radix2 128) with (bpow radix2 (127 + 1)) by reflexivity. rewrite bpow_plus. replace (bpow radix2 1) with 2 by reflexivity.
    assert (BB := big127). apply Rle_lt_trans with (bpow radix2 127 * (3 / 2)); [|lra]. apply Rabs_le. lra. }
  rewrite VO in Vs. fold E in Vs. assert (S1 : 1 <= V (addf f_one e)).
  { rewrite Vs. apply Rle_trans with (rnd 1); [right; symmetry; apply (rnd_IZR 1); cbn; lia|]. apply rnd_le. lra. }
  rewrite <- Vs in R1. subst r. set (sm := addf f_one e) in *. clearbody sm. clear Vs.
  assert (Q0 : 0 < 2 / V sm <= 2).
  { assert (0 < / V sm <= 1) by (split; [apply Rinv_0_lt_compat; lra|rewrite <- Rinv_1; apply Rinv_le_contravar; lra]). unfold Rdiv. lra. }
  destruct (div_ok f_two sm F2 Fs) as [Fq Vq]; [lra|rewrite V2; apply le127 with 2; [apply Rabs_le; lra|lra]|]. rewrite V2 in Vq.
  assert (Q1 : 0 <= V (divf f_two sm) <= 2).
  { rewrite Vq. apply rnd_bounds; [apply rnd_0|apply (rnd_IZR 2); cbn; lia|lra]. }
  assert (R2 : Rabs (V (divf f_two sm) - 2 / V sm) <= 2 / 16777216 + eta) by (rewrite Vq; apply rnd_err', Rabs_le; lra). apply Rabs_le_inv in R2.
  set (q := divf f_two sm) in *. clearbody q.
  destruct (sub_ok f_one q FO Fq) as [Fr Vr]; [rewrite VO; apply le127 with 1; [apply Rabs_le; lra|lra]|]. rewrite VO in Vr.
  split; [exact Fr|]. assert (RB : -1 <= V (subf f_one q) <= 1).
  { rewrite Vr. apply rnd_bounds; [apply (rnd_IZR (-1)); cbn; lia|apply (rnd_IZR 1); cbn; lia|lra]. }
  split; [apply Rabs_le; lra|].
  assert (R3 : Rabs (rnd (1 - V q) - (1 - V q)) <= 1 / 16777216 + eta) by (apply rnd_err', Rabs_le; lra). rewrite <- Vr in R3. apply Rabs_le_inv in R3.
  (* 2/s against 2/(1+E) *)
  assert (K1 : Rabs (2 / V sm - 2 / (1 + E)) <= 2 * (1 / 16777216 + eta)).
  { replace (2 / V sm - 2 / (1 + E)) with (2 / V sm * ((1 + E - V sm) / (1 + E))) by (field; lra).
    rewrite Rabs_mult. apply Rmult_le_compat; try apply Rabs_pos; [apply Rabs_le; lra|].
    unfold Rdiv at 1. rewrite Rabs_mult, (Rabs_pos_eq (/ (1 + E))) by (left; apply Rinv_0_lt_compat; lra).
    apply Rmult_le_reg_r with (1 + E); [lra|]. rewrite Rmult_assoc, Rinv_l, Rmult_1_r by lra. clear -R1 B EP. apply Rabs_le. assert (eta <= eta * (1 + E)) by nra. lra. }
  assert (K2 : Rabs (2 / (1 + E) - 2 / (1 + T)) <= d).
  { replace (2 / (1 + E) - 2 / (1 + T)) with (2 * (T - E) * / ((1 + T) * (1 + E))) by (field; lra).
    assert (0 < (1 + T) * (1 + E)) by (apply Rmult_lt_0_compat; lra). rewrite !Rabs_mult, (Rabs_pos_eq 2), (Rabs_pos_eq (/ ((1 + T) * (1 + E)))) by (try lra; left; now apply Rinv_0_lt_compat).
    apply Rmult_le_reg_r with ((1 + T) * (1 + E)); [assumption|]. rewrite Rmult_assoc, Rinv_l, Rmult_1_r by lra. rewrite Rabs_minus_sym. exact D. }
  apply Rabs_le_inv in K1, K2. apply Rabs_le. lra.
Qed.

Lemma tanh_core a : pattern float32 a -> fin a -> 0 <= V a ->
  exists e, exp_ (mulf f_two a) = Ok e /\
    let r := subf f_one (divf f_two (addf f_one e)) in
    fin r /\ Rabs (V r) <= 1 /\ Rabs (V r - tanh (V a)) <= 95 / 10000000.
Proof.
  intros P F A0. rewrite tanh_exp.
  assert (BIG : forall E T, 10 ^ 8 <= E -> 10 ^ 8 <= T -> 2 * Rabs (E - T) <= 1 / 1000000 * ((1 + T) * (1 + E))).
  { intros E T H1 H2. apply Rle_trans with (2 * (E + T)); [apply Rmult_le_compat_l; [lra|]; apply Rabs_le; lra|]. nra. }
  assert (FROM : forall e d, fin e -> 0 < V e <= bpow radix2 127 -> 2 * Rabs (V e - exp (2 * V a)) <= d * ((1 + exp (2 * V a)) * (1 + V e)) -> d <= 91 / 10000000 ->
    let r := subf f_one (divf f_two (addf f_one e)) in
    fin r /\ Rabs (V r) <= 1 /\ Rabs (V r - (1 - 2 / (1 + exp (2 * V a)))) <= 95 / 10000000).
  { intros e d Fe Be D Dd r. destruct (tanh_tail e _ d Fe Be (exp_pos (2 * V a)) D) as (X & Y & Z). split; [exact X|]. split; [exact Y|].
    apply Rle_trans with (1 := Z). lra. }
  assert (T20 : 20 <= 2 * V a -> 10 ^ 8 <= exp (2 * V a)).
  { intro H. apply Rle_trans with (exp 20); [interval|]. destruct (Req_dec (2 * V a) 20) as [->|N]; [lra|]. left. apply exp_increasing. lra. }
  destruct (two_mul a F A0) as [[Fy Vy]|[B Y]].
  - assert (Py := pat_mul f_two a). set (y := mulf f_two a) in *. clearbody y. rewrite <- Vy in *.
    destruct (Rle_dec 20 (V y)) as [H|H].
    + destruct (exp_big y Py Fy H) as (e & Q & Pe & Fe & Be). exists e. split; [exact Q|]. apply (FROM e (1 / 1000000)); [exact Fe|lra| |lra].
      apply BIG; [lra|now apply T20].
    + destruct (exp_pos_arg y Py Fy ltac:(lra)) as (e & Q & Pe & Fe & E). exists e. split; [exact Q|].
      destruct (exp_total y) as (e' & Q' & _ & _ & Be). rewrite Q in Q'. assert (X : e' = e) by congruence. rewrite X in Be. clear X Q Q' Pe.
      apply (FROM e (91 / 10000000)); [exact Fe|lra| |lra].
      set (T := exp (V y)) in *. assert (T0 : 0 < T) by apply exp_pos. clearbody T. set (W := V e) in *. clearbody W.
      assert (EE : Rabs (W - T) <= 18 / 1000000 * T).
      { apply Rle_trans with (1 := E). apply Rmult_le_compat_r; lra. }
      apply Rle_trans with (36 / 1000000 * T); [lra|]. apply Rabs_le_inv in EE.
      assert (4 * T <= (1 + T) * (1 + T)) by (pose proof (Rle_0_sqr (1 - T)); unfold Rsqr in *; lra).
      assert ((1 + T) * (999 / 1000 * (1 + T)) <= (1 + T) * (1 + W)) by (apply Rmult_le_compat_l; lra). lra.
  - rewrite Y. exists 0x7e800000%Z. split; [vm_compute; reflexivity|]. destruct big_const as (_ & Fe & Ve).
    assert (B8 := big8 126 ltac:(lia)). assert (B9 := big8 127 ltac:(lia)). apply (FROM _ (1 / 1000000)); [exact Fe| | |lra].
    + rewrite Ve. split; [apply bpow_gt_0|]. apply bpow_le. lia.
    + apply BIG; [rewrite Ve; lra|apply T20; lra].
Qed.

Lemma tanh_mono_abs t : 0 <= tanh (Rabs t).
Proof.
  rewrite tanh_exp. assert (1 <= exp (2 * Rabs t)). { rewrite <- exp_0. assert (H := Rabs_pos t). destruct (Req_dec (Rabs t) 0) as [Z|Z]; [rewrite Z, Rmult_0_r; lra|]. left. apply exp_increasing. lra. }
  assert (2 / (1 + exp (2 * Rabs t)) <= 1); [|lra]. apply Rmult_le_reg_r with (1 + exp (2 * Rabs t)); [lra|]. unfold Rdiv. rewrite Rmult_assoc, Rinv_l; lra.
Qed.

Lemma tanh_ok x : pattern float32 x -> fin x ->
  exists r, tanh_ x = Ok r /\ pattern float32 r /\ fin r /\ Rabs (V r) <= 1 /\ Rabs (V r - tanh (V x)) <= 95 / 10000000.
Proof.
  intros P F. unfold tanh_. destruct (fabs_fin x P F) as (a & -> & Pa & Fa & Va).
  destruct (tanh_core a Pa Fa) as (e & Q & Fr & B & E); [rewrite Va; apply Rabs_pos|]. rewrite Q. cbn [bind]. clear Q.
  assert (Pr := pat_sub f_one (divf f_two (addf f_one e))). set (r := subf f_one (divf f_two (addf f_one e))) in *. clearbody r.
  rewrite Va in E. destruct (copysign_fun tanh r x _ tanh_odd Pr P Fr F (tanh_mono_abs (V x)) E) as (Pc & Fc & D).
  eexists. split; [reflexivity|]. split; [exact Pc|]. split; [exact Fc|]. split; [|exact D].
  destruct (copysign_ok r x Pr P Fr) as (_ & _ & W). rewrite W, Rabs_mult, Rabs_Rabsolu. destruct (sgn float32 x); [rewrite (Rabs_left (-1)) by lra|rewrite Rabs_R1]; lra.
Qed.
