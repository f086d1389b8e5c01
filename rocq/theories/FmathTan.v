(** tan: error bound. *)
From Coq Require Import ZArith Bool Lia Reals Lra Psatz.
From Flocq Require Import Core IEEE754.Binary IEEE754.Bits.
From Interval Require Import Tactic.
From Verif Require Import Mem AlgoModel FpModel FpProofs RoundModel RoundProofs LitModel LimModel FmathModel FmathReal FmathStep FmathExp FmathLog FmathReduce FmathFast FmathTrig FmathTrig2.
Open Scope R_scope.

Definition Ptan (t : R) : R := ((t * t) * (((((((9956226 / 1073741824) * (t * t) + (14258647 / 4294967296)) * (t * t) + (13045860 / 536870912)) * (t * t) + (14347749 / 268435456)) * (t * t) + (8951182 / 67108864)) * (t * t) + (11184761 / 33554432)) * t) + t).

Lemma tan_poly_ok x t : fin x -> V x = t -> - (7875 / 10000) <= t <= (7875 / 10000) -> appr (tan_poly x) (Ptan t) (1251 / 10000000000).
Proof.
  intros F E H. assert (Kx := appr_val x t F E).
  getk Ku0 (lit 927245803177356719970703 (-26)).
  getk Kc1 (lit 331984995864331722259521 (-26)).
  getk Kc2 (lit 242998078465461730957031 (-25)).
  getk Kc3 (lit 534495301544666290283203 (-25)).
  getk Kc4 (lit 133383005857467651367188 (-24)).
  getk Kc5 (lit 333331853151321411132812 (-24)).
  stepm Ks Kx Kx (7891 / 10000) (7891 / 10000) (3712 / 100000000000) t.
  stepf Ku1 Ku0 Ks Kc1 (9292 / 1000000) (6214 / 10000) (9089 / 1000000) (6892 / 10000000000000) (1232 / 1000000000000) t.
  stepf Ku2 Ku1 Ks Kc2 (9089 / 1000000) (6214 / 10000) (2999 / 100000) (1440 / 1000000000000) (3228 / 1000000000000) t.
  stepf Ku3 Ku2 Ks Kc3 (2999 / 100000) (6214 / 10000) (7216 / 100000) (4231 / 1000000000000) (8533 / 1000000000000) t.
  stepf Ku4 Ku3 Ks Kc4 (7216 / 100000) (6214 / 10000) (1784 / 10000) (1066 / 100000000000) (2130 / 100000000000) t.
  stepf Ku5 Ku4 Ks Kc5 (1784 / 10000) (6214 / 10000) (4447 / 10000) (2647 / 100000000000) (5299 / 100000000000) t.
  stepm Kux Ku5 Kx (4447 / 10000) (7891 / 10000) (6274 / 100000000000) t.
  stepf Kr Ks Kux Kx (6214 / 10000) (3502 / 10000) (1007 / 1000) (6497 / 100000000000) (1251 / 10000000000) t.
  exact Kr.
Qed.

Lemma Ptan_err t : - (7875 / 10000) <= t <= 7875 / 10000 -> Rabs (Ptan t - tan t) <= 37 / 1000000000.
Proof. intro H. unfold Ptan. interval with (i_bisect t, i_taylor t, i_prec 60, i_degree 14, i_depth 30). Qed.

Lemma parts2 : (V (pi_part1 f_two) = IZR (-201) * bpow radix2 (-6 - 1) /\ V (pi_part2 f_two) = IZR (-2029) * bpow radix2 (-21 - 1) /\
   V (pi_part3 f_two) = IZR (-1297) * bpow radix2 (-33 - 1) /\ V (pi_part4 f_two) = IZR (-11821338) * bpow radix2 (-61 - 1)) /\
  (fin (pi_part1 f_two) /\ fin (pi_part2 f_two) /\ fin (pi_part3 f_two) /\ fin (pi_part4 f_two)).
Proof.
  getc H1 (pi_part1 f_two). getc H2 (pi_part2 f_two). getc H3 (pi_part3 f_two). getc H4 (pi_part4 f_two).
  destruct H1 as (_ & F1 & V1), H2 as (_ & F2 & V2), H3 as (_ & F3 & V3), H4 as (_ & F4 & V4).
  split; [|tauto]. rewrite V1, V2, V3, V4.
  replace (bpow radix2 (-6 - 1)) with (/ 128) by reflexivity. replace (bpow radix2 (-21 - 1)) with (/ 4194304) by reflexivity.
  replace (bpow radix2 (-33 - 1)) with (/ 17179869184) by reflexivity. replace (bpow radix2 (-61 - 1)) with (/ 4611686018427387904) by reflexivity.
  repeat split; lra.
Qed.

Definition tan_c : Z := d2f (muld (dlit 2 0) kM_1_PI).
Lemma tan_c_ok : fin tan_c /\ V tan_c = 10680707 / 16777216.
Proof. getc H tan_c. destruct H as (_ & A & B). split; [exact A|exact B]. Qed.

Lemma tan_arg x : pattern float32 x -> fin x -> Rabs (V x) <= 12866 ->
  exists q, fast_rint (mulf x tan_c) = Ok q /\
    let t := V x - IZR q * (PI / 2) in
    let z := if Z.odd q then reduce f_two (i2f q) x else crush (d2f kM_PI_4) (reduce f_two (i2f q) x) in
    fin z /\ Rabs (V z - t) <= (if Z.odd q then 6 / 100000000 else 15 / 100000000) /\ - (7874 / 10000) <= t <= 7874 / 10000 /\ - (7875 / 10000) <= V z <= 7875 / 10000.
Proof.
  intros P F B. destruct tan_c_ok as [FC VC]. set (c := tan_c) in *. clearbody c.
  assert (B1 : Rabs (V x * V c) <= bpow radix2 13).
  { replace (bpow radix2 13) with 8192 by reflexivity. rewrite VC. apply Rabs_le_inv in B. apply Rabs_le. lra. }
  destruct (mul_ok x c F FC) as [Fy Vy]; [apply Rle_trans with (1 := B1); apply bpow_le; lia|].
  pose proof (rnd_err_bpow 13 _ ltac:(lia) B1) as E1. rewrite <- Vy in E1. replace (bpow radix2 (13 - 25)) with (/ 4096) in E1 by reflexivity.
  assert (Py := pat_mul x c). set (y := mulf x c) in *. clearbody y.
  apply Rabs_le_inv in B, E1.
  destruct (rint_ok y Py Fy) as (q & Q & Hq & E2); [rewrite VC in E1; apply Rabs_le; lra|].
  exists q. split; [exact Q|]. cbv zeta. apply Rabs_le_inv in E2.
  assert (PB : 3141592653 / 1000000000 <= PI <= 3141592654 / 1000000000) by (split; interval).
  assert (T : Rabs (V x - IZR q * (PI * bpow radix2 (- (1)))) <= 15745 / 10000 * bpow radix2 (- (1))).
  { replace (bpow radix2 (- (1))) with (/ 2) by reflexivity.
    assert (X1 : Rabs (V x * V c * (PI * / 2) - V x) <= 6 / 10000).
    { replace (V x * V c * (PI * / 2) - V x) with (V x * (V c * (PI * / 2) - 1)) by ring. rewrite Rabs_mult.
      apply Rle_trans with (12866 * (42 / 1000000000)); [|lra].
      apply Rmult_le_compat; try apply Rabs_pos; [apply Rabs_le; lra|rewrite VC; interval with (i_prec 60)]. }
    apply Rabs_le_inv in X1.
    assert (X2 : Rabs ((V x * V c - IZR q) * (PI * / 2)) <= (/ 2 + / 2048) * (3141592654 / 1000000000 / 2)).
    { rewrite Rabs_mult, (Rabs_pos_eq (PI * / 2)) by lra. apply Rmult_le_compat; try lra; [apply Rabs_pos|apply Rabs_le; lra]. }
    apply Rabs_le_inv in X2. apply Rabs_le. lra. }
  destruct parts2 as [PV PF]. destruct (reduce_ok 1 f_two x q ltac:(lia) PV PF F Hq T) as [Fr Er].
  replace (bpow radix2 (- (1))) with (/ 2) in * by reflexivity.
  replace (PI * / 2) with (PI / 2) in * by reflexivity.
  set (r := reduce f_two (i2f q) x) in *. clearbody r. apply Rabs_le_inv in T, Er.
  destruct (Z.odd q).
  - split; [exact Fr|]. split; [apply Rabs_le; lra|]. lra.
  - getc HD (d2f kM_PI_4). destruct HD as (_ & FD & VD). set (d := d2f kM_PI_4) in *. clearbody d.
    destruct (crush_ok d r _ 0 FD Fr VD ltac:(lia)) as [Fz Ez].
    + replace (bpow radix2 (0 + 1)) with 2 by reflexivity. apply Rabs_le. lra.
    + replace (bpow radix2 0) with 1 by reflexivity. replace (bpow radix2 (0 - 20)) with (/ 1048576) by reflexivity. apply Rabs_le. lra.
    + replace (bpow radix2 (0 - 24)) with (/ 16777216) in Ez by reflexivity. replace (bpow radix2 (0 - 25)) with (/ 33554432) in Ez by reflexivity.
      split; [exact Fz|]. apply Rabs_le_inv in Ez. split; [apply Rabs_le; lra|lra].
Qed.

Lemma tan_close a b : - (7875 / 10000) <= a <= 7875 / 10000 -> - (7875 / 10000) <= b <= 7875 / 10000 -> Rabs (tan a - tan b) <= 201 / 100 * Rabs (a - b).
Proof.
  intros A B. assert (CA : 7056 / 10000 <= cos a) by interval. assert (CB : 7056 / 10000 <= cos b) by interval.
  replace (tan a - tan b) with (sin (a - b) / (cos a * cos b)) by (unfold tan; rewrite sin_minus; field; lra).
  unfold Rdiv. rewrite Rabs_mult, Rmult_comm. apply Rmult_le_compat; try apply Rabs_pos; [|apply sin_abs_le].
  rewrite Rabs_pos_eq.
  - apply Rle_trans with (/ (7056 / 10000 * (7056 / 10000))); [|lra]. apply Rinv_le_contravar; [lra|]. apply Rmult_le_compat; lra.
  - apply Rlt_le, Rinv_0_lt_compat. apply Rmult_lt_0_compat; lra.
Qed.

Lemma tan_shift_even k t : cos t <> 0 -> tan (t + IZR k * PI) = tan t.
Proof.
  intro N. unfold tan. destruct (trig_shift k t) as [-> ->]. destruct (Z.odd k); [field; exact N|reflexivity].
Qed.

Lemma tan_shift_odd k t : sin t <> 0 -> cos t <> 0 -> tan (t + IZR k * PI + PI / 2) = - / tan t /\ cos (t + IZR k * PI + PI / 2) = (if Z.odd k then sin t else - sin t).
Proof.
  intros N1 N2. assert (S : forall a, sin (a + PI / 2) = cos a) by (intro a; rewrite sin_plus, sin_PI2, cos_PI2; ring).
  assert (C : forall a, cos (a + PI / 2) = - sin a) by (intro a; rewrite cos_plus, sin_PI2, cos_PI2; ring).
  unfold tan. rewrite S, C. destruct (trig_shift k t) as [-> ->]. split; destruct (Z.odd k); try ring; field; auto.
Qed.

Lemma inv_err u T d : 0 < d -> T <> 0 -> Rabs T <= 1000000 -> Rabs (u - - / T) <= d -> d <= 3 / 10000000 ->
  u <> 0 /\ Rabs (-1 / u - T) <= 143 / 100 * d * (T * T) /\ Rabs (-1 / u) <= 143 / 100 * Rabs T.
Proof.
  intros D NT BT E DS.
  assert (PT : 0 < Rabs T) by (now apply Rabs_pos_lt).
  assert (K : Rabs (u * T + 1) <= d * Rabs T).
  { replace (u * T + 1) with ((u - - / T) * T) by (field; exact NT). rewrite Rabs_mult. apply Rmult_le_compat_r; [apply Rabs_pos|exact E]. }
  assert (K2 : d * Rabs T <= 3 / 10) by nra.
  assert (UT : Rabs (u * T + 1) <= 3 / 10) by lra. apply Rabs_le_inv in UT.
  assert (NU : u <> 0) by (intros ->; lra). split; [exact NU|].
  assert (U1 : Rabs (-1 / u) <= 143 / 100 * Rabs T).
  { replace (-1 / u) with (T * (/ (- (u * T)))) by (field; auto). rewrite Rabs_mult, Rmult_comm.
    apply Rmult_le_compat_r; [lra|]. rewrite Rabs_pos_eq.
    - apply Rle_trans with (/ (7 / 10)); [apply Rinv_le_contravar; lra|lra].
    - apply Rlt_le, Rinv_0_lt_compat. lra. }
  split; [|exact U1].
  replace (-1 / u - T) with ((-1 / u) * (u * T + 1)) by (field; exact NU). rewrite Rabs_mult.
  replace (143 / 100 * d * (T * T)) with (143 / 100 * Rabs T * (d * Rabs T)).
  - apply Rmult_le_compat; auto using Rabs_pos.
  - rewrite <- (Rabs_pos_eq (T * T)), Rabs_mult by nra. ring.
Qed.

Lemma tan_ok x : pattern float32 x -> fin x -> Rabs (V x) <= 12866 -> / 1000000 <= Rabs (cos (V x)) ->
  exists r, tan_ x = Ok r /\ pattern float32 r /\ fin r /\ Rabs (V r - tan (V x)) <= 5 / 10000000 * (1 + tan (V x) * tan (V x)).
Proof.
  intros P F B HC. destruct (tan_arg x P F B) as (q & Q & H). cbv zeta in H. unfold tan_.
  replace (d2f (muld (dlit 2 0) kM_1_PI)) with tan_c by reflexivity. rewrite Q. cbn [bind].
  revert H. match goal with |- context [tan_poly ?w] => generalize w end. intros z (Fz & Ez & Bt & Bz).
  destruct (tan_poly_ok z (V z) Fz eq_refl Bz) as [Fu Eu]. assert (E2 := Ptan_err (V z) Bz).
  set (t := V x - IZR q * (PI / 2)) in *. assert (E3 := tan_close (V z) t Bz ltac:(lra)).
  assert (CT : 7 / 10 <= cos t) by (clearbody t; clear - Bt; interval).
  assert (PU : pattern float32 (tan_poly z)) by (unfold tan_poly; cbv zeta; apply pat_add).
  set (u := tan_poly z) in *. clearbody u. apply Rabs_le_inv in Eu, E2, E3, Ez.
  destruct (Z.odd q) eqn:OQ.
  - assert (X : V x = t + IZR (Z.div2 q) * PI + PI / 2).
    { unfold t. rewrite (Z.div2_odd q) at 1. rewrite OQ. cbn [Z.b2z]. rewrite plus_IZR, mult_IZR. field. }
    assert (NS : sin t <> 0).
    { intro Z0. rewrite X in HC. replace (cos (t + IZR (Z.div2 q) * PI + PI / 2)) with 0 in HC; [rewrite Rabs_R0 in HC; lra|].
      rewrite cos_plus, sin_PI2, cos_PI2. destruct (trig_shift (Z.div2 q) t) as [-> _]. rewrite Z0. destruct (Z.odd (Z.div2 q)); ring. }
    destruct (tan_shift_odd (Z.div2 q) t NS ltac:(lra)) as [TT CC]. rewrite <- X in TT, CC. rewrite CC in HC.
    assert (S1 : / 1000000 <= Rabs (sin t)) by (destruct (Z.odd (Z.div2 q)); rewrite ?Rabs_Ropp in HC; exact HC).
    set (T := tan (V x)) in *. clearbody T.
    assert (TN : tan t <> 0) by (unfold tan; apply Rmult_integral_contrapositive_currified; [exact NS|apply Rinv_neq_0_compat; lra]).
    assert (T0 : T <> 0) by (rewrite TT; apply Ropp_neq_0_compat, Rinv_neq_0_compat, TN).
    assert (TI : - / T = tan t) by (rewrite TT; field; exact TN).
    assert (TB : Rabs T <= 1000000).
    { rewrite TT, Rabs_Ropp, Rabs_inv. replace 1000000 with (/ / 1000000) by field. apply Rinv_le_contravar; [lra|].
      apply Rle_trans with (1 := S1). unfold tan, Rdiv. rewrite Rabs_mult. rewrite <- (Rmult_1_r (Rabs (sin t))) at 1.
      apply Rmult_le_compat_l; [apply Rabs_pos|]. rewrite Rabs_inv, (Rabs_pos_eq (cos t)) by lra. rewrite <- Rinv_1 at 1.
      apply Rinv_le_contravar; [lra|]. apply COS_bound. }
    assert (EU : Rabs (V u - - / T) <= 284 / 1000000000).
    { rewrite TI. apply Rabs_le. assert (Rabs (V z - t) <= 6 / 100000000) by (apply Rabs_le; lra). lra. }
    destruct (inv_err (V u) T (284 / 1000000000) ltac:(lra) T0 TB EU ltac:(lra)) as (NU & I1 & I2).
    getc H1 (negf f_one). destruct H1 as (_ & F1 & V1). set (m := negf f_one) in *. clearbody m.
    assert (V1' : V m = -1) by (rewrite V1; lra).
    destruct (div_ok m u F1 Fu NU) as [Fr Vr]; [rewrite V1'; apply le127 with 1430000; lra|]. rewrite V1' in Vr.
    exists (divf m u). split; [reflexivity|]. split; [apply pat_div|]. split; [exact Fr|]. rewrite Vr.
    pose proof (rnd_err' _ _ I2) as RE. assert (HE := eta_small).
    assert (TS : Rabs T <= (1 + T * T) / 2).
    { clear. assert (0 <= (T - 1) * (T - 1)) by apply Rle_0_sqr. assert (0 <= (T + 1) * (T + 1)) by apply Rle_0_sqr. apply Rabs_le. lra. }
    apply Rabs_le_inv in I1, RE. assert (TT0 : 0 <= T * T) by apply Rle_0_sqr. apply Rabs_le. lra.
  - exists u. split; [reflexivity|]. split; [exact PU|]. split; [exact Fu|].
    assert (X : V x = t + IZR (Z.div2 q) * PI).
    { unfold t. rewrite (Z.div2_odd q) at 1. rewrite OQ. cbn [Z.b2z]. rewrite Z.add_0_r, mult_IZR. field. }
    rewrite X, tan_shift_even by lra.
    assert (Rabs (V z - t) <= 15 / 100000000) by (apply Rabs_le; lra). assert (0 <= tan t * tan t) by apply Rle_0_sqr. apply Rabs_le. lra.
Qed.

Lemma tan_bad x : pattern float32 x -> (fin x -> 3373260500 <= Rabs (V x)) -> tan_ x = UB BadArith.
Proof.
  intros P H. unfold tan_. replace (d2f (muld (dlit 2 0) kM_1_PI)) with tan_c by reflexivity. destruct tan_c_ok as [FC VC]. rewrite arg_bad.
  - reflexivity.
  - exact P.
  - exact FC.
  - rewrite VC. lra.
  - intro F. specialize (H F). rewrite VC. destruct (Rle_dec 0 (V x)); [right; rewrite Rabs_pos_eq in H by lra|left; rewrite Rabs_left in H by lra]; lra.
Qed.
