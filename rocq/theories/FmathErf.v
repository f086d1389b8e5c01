(** erf and erfc: error bounds. *)
From Coq Require Import ZArith Bool Lia Reals Lra Psatz.
From Flocq Require Import Core IEEE754.Binary IEEE754.Bits.
From Interval Require Import Tactic.
From Verif Require Import Mem AlgoModel FpModel FpProofs RoundModel LitModel LimModel FmathModel FmathReal FmathStep FmathExp FmathLog FmathReduce FmathTrig2 FmathHyp FmathSqrt FmathCbrt FmathErfRef.
Open Scope R_scope.

(** ** Lower bounds that include +inf *)
Definition finf : Z := 0x7f800000.
Definition big (c : R) (x : Z) : Prop := (fin x /\ c <= V x) \/ x = finf.

Lemma of_finf : b32_of_bits finf = B754_infinity 24 128 false.
Proof. vm_compute. reflexivity. Qed.

Lemma mul_inf a b : fin a -> fin b -> 0 < V a -> 0 < V b -> ~ Rabs (rnd (V a * V b)) < bpow radix2 128 -> mulf a b = finf.
Proof.
  intros Fa Fb A B H.
  pose proof (Bmult_correct 24 128 eq_refl eq_refl binop_nan_pl32 BinarySingleNaN.mode_NE (b32_of_bits a) (b32_of_bits b)) as C.
  change (round radix2 (SpecFloat.fexp 24 128) (BinarySingleNaN.round_mode BinarySingleNaN.mode_NE) (B2R 24 128 (b32_of_bits a) * B2R 24 128 (b32_of_bits b)))
    with (rnd (V a * V b)) in C.
  rewrite Rlt_bool_false in C by lra.
  unfold BinarySingleNaN.binary_overflow in C. cbn [BinarySingleNaN.overflow_to_inf] in C.
  assert (D : Bmult 24 128 eq_refl eq_refl binop_nan_pl32 BinarySingleNaN.mode_NE (b32_of_bits a) (b32_of_bits b) = B754_infinity 24 128 false).
  { apply B2FF_inj. rewrite C. rewrite (proj1 (sign_V a Fa) A), (proj1 (sign_V b Fb) B). reflexivity. }
  replace (mulf a b) with (bits_of_b32 (B754_infinity 24 128 false)); [reflexivity|]. unfold mulf. f_equal. symmetry. exact D.
Qed.

Lemma add_inf a b : fin a -> fin b -> 0 < V a -> ~ Rabs (rnd (V a + V b)) < bpow radix2 128 -> addf a b = finf.
Proof.
  intros Fa Fb A H.
  pose proof (Bplus_correct 24 128 eq_refl eq_refl binop_nan_pl32 BinarySingleNaN.mode_NE (b32_of_bits a) (b32_of_bits b) Fa Fb) as C.
  change (round radix2 (SpecFloat.fexp 24 128) (BinarySingleNaN.round_mode BinarySingleNaN.mode_NE) (B2R 24 128 (b32_of_bits a) + B2R 24 128 (b32_of_bits b)))
    with (rnd (V a + V b)) in C.
  rewrite Rlt_bool_false in C by lra. destruct C as [C _].
  unfold BinarySingleNaN.binary_overflow in C. cbn [BinarySingleNaN.overflow_to_inf] in C.
  assert (D : Bplus 24 128 eq_refl eq_refl binop_nan_pl32 BinarySingleNaN.mode_NE (b32_of_bits a) (b32_of_bits b) = B754_infinity 24 128 false).
  { apply B2FF_inj. rewrite C. rewrite (proj1 (sign_V a Fa) A). reflexivity. }
  replace (addf a b) with (bits_of_b32 (B754_infinity 24 128 false)); [reflexivity|]. unfold addf. f_equal. symmetry. exact D.
Qed.

Lemma mul_inf_l b : fin b -> 0 < V b -> mulf finf b = finf.
Proof.
  intros F B. assert (S := proj1 (sign_V b F) B). unfold mulf. rewrite of_finf. unfold fin, V in *. destruct (b32_of_bits b) as [s|s|s pl e|s m e0 b1]; cbn in *; try discriminate; try lra.
  rewrite S. reflexivity.
Qed.
Lemma mul_inf_r b : fin b -> 0 < V b -> mulf b finf = finf.
Proof.
  intros F B. assert (S := proj1 (sign_V b F) B). unfold mulf. rewrite of_finf. unfold fin, V in *. destruct (b32_of_bits b) as [s|s|s pl e|s m e0 b1]; cbn in *; try discriminate; try lra.
  rewrite S. reflexivity.
Qed.
Lemma add_inf_l b : fin b -> addf finf b = finf.
Proof. intros F. unfold addf. rewrite of_finf. unfold fin in *. destruct (b32_of_bits b) as [s|s|s pl e|s m e0 b1]; cbn in *; try discriminate; reflexivity. Qed.

Lemma mul_big c d e a b : 0 < c -> 0 < d -> rnd e = e -> e <= c * d -> big c a -> big d b -> big e (mulf a b).
Proof.
  intros C D E H [[Fa A]| ->] [[Fb B]| ->].
  - destruct (Rlt_dec (Rabs (rnd (V a * V b))) (bpow radix2 128)) as [L|L].
    + destruct (mul_ok128 a b Fa Fb L) as [F W]. left. split; [exact F|]. rewrite W, <- E. apply rnd_le. apply Rle_trans with (1 := H). apply Rmult_le_compat; lra.
    + right. apply mul_inf; try assumption; lra.
  - right. apply mul_inf_r; [exact Fa|lra].
  - right. apply mul_inf_l; [exact Fb|lra].
  - right. reflexivity.
Qed.

Lemma add_big c e a b : 0 < c -> rnd e = e -> fin b -> e <= c + V b -> big c a -> big e (addf a b).
Proof.
  intros C E Fb H [[Fa A]| ->].
  - destruct (Rlt_dec (Rabs (rnd (V a + V b))) (bpow radix2 128)) as [L|L].
    + destruct (add_ok128 a b Fa Fb L) as [F W]. left. split; [exact F|]. rewrite W, <- E. apply rnd_le. lra.
    + right. apply add_inf; try assumption; lra.
  - right. now apply add_inf_l.
Qed.

Lemma madd_big n m c r b k : (0 < n < 2 ^ 24)%Z -> (0 < m < 2 ^ 24)%Z -> fin k -> c = V k ->
  IZR m / 65536 <= IZR (4 * n) / 65536 + c -> (4 * n < 2 ^ 24)%Z ->
  big (IZR n / 65536) r -> big 4 b -> big (IZR m / 65536) (madd r b k).
Proof.
  assert (R : forall n, (0 < n < 2 ^ 24)%Z -> rnd (IZR n / 65536) = IZR n / 65536).
  { intros z Z. replace (IZR z / 65536) with (IZR z * bpow radix2 (-16)) by (cbn; lra). apply rnd_F2R; lia. }
  intros N M F -> H N4 B1 B2. unfold madd. apply (add_big (IZR (4 * n) / 65536)); [|now apply R|exact F|exact H|].
  - assert (0 < IZR (4 * n)) by (apply IZR_lt; lia). lra.
  - apply (mul_big (IZR n / 65536) 4); [|lra|apply R; lia| |exact B1|exact B2].
    + assert (0 < IZR n) by (apply IZR_lt; lia). lra.
    + rewrite mult_IZR. lra.
Qed.

Lemma erf_poly_big b : big 4 b -> big (IZR 196116 / 65536) (erf_poly b).
Proof.
  intro B. unfold erf_poly.
  getc K0 (lit 430638 (-10)). getc K1 (lit 2765672 (-10)). getc K2 (lit 1520143 (-10)). getc K3 (lit 92705272 (-10)). getc K4 (lit 422820123 (-10)). getc K5 (lit 705230784 (-10)).
  destruct one_ok as (_ & FO & VO).
  assert (B0 : big (IZR 2 / 65536) (lit 430638 (-10))) by (left; split; [apply K0|]; rewrite (proj2 (proj2 K0)); lra).
  revert K1 K2 K3 K4 K5 B0. clear K0.
  generalize (lit 430638 (-10)) (lit 2765672 (-10)) (lit 1520143 (-10)) (lit 92705272 (-10)) (lit 422820123 (-10)) (lit 705230784 (-10)).
  intros k0 k1 k2 k3 k4 k5 (_ & F1 & V1) (_ & F2 & V2) (_ & F3 & V3) (_ & F4 & V4) (_ & F5 & V5) B0.
  refine (madd_big 32645 _ _ _ _ _ _ _ FO eq_refl _ _ _ B); [lia|lia|rewrite mult_IZR, VO; lra|lia|].
  refine (madd_big 7006 _ _ _ _ _ _ _ F5 eq_refl _ _ _ B); [lia|lia|rewrite mult_IZR, V5; lra|lia|].
  refine (madd_big 1059 _ _ _ _ _ _ _ F4 eq_refl _ _ _ B); [lia|lia|rewrite mult_IZR, V4; lra|lia|].
  refine (madd_big 113 _ _ _ _ _ _ _ F3 eq_refl _ _ _ B); [lia|lia|rewrite mult_IZR, V3; lra|lia|].
  refine (madd_big 26 _ _ _ _ _ _ _ F2 eq_refl _ _ _ B); [lia|lia|rewrite mult_IZR, V2; lra|lia|].
  refine (madd_big 2 _ _ _ _ _ _ _ F1 eq_refl _ _ B0 B); [lia|lia|rewrite mult_IZR, V1; lra|lia].
Qed.

Lemma rev_sub_big b : fin b -> V b <= -3 -> big 4 (subf f_one b).
Proof.
  intros Fb B. destruct one_ok as (_ & Fa & VA).
  assert (R4 : rnd 4 = 4) by (apply (rnd_IZR 4); lia).
  pose proof (Bminus_correct 24 128 eq_refl eq_refl binop_nan_pl32 BinarySingleNaN.mode_NE (b32_of_bits f_one) (b32_of_bits b) Fa Fb) as C.
  change (round radix2 (SpecFloat.fexp 24 128) (BinarySingleNaN.round_mode BinarySingleNaN.mode_NE) (B2R 24 128 (b32_of_bits f_one) - B2R 24 128 (b32_of_bits b)))
    with (rnd (V f_one - V b)) in C.
  destruct (Rlt_dec (Rabs (rnd (V f_one - V b))) (bpow radix2 128)) as [L|L].
  - rewrite Rlt_bool_true in C by exact L. destruct C as (C1 & C2 & _). left. unfold subf, fin, V. rewrite of_bits_of. split; [exact C2|].
    change (4 <= B2R 24 128 (Bminus 24 128 eq_refl eq_refl binop_nan_pl32 BinarySingleNaN.mode_NE (b32_of_bits f_one) (b32_of_bits b))).
    rewrite C1. rewrite <- R4. apply rnd_le. lra.
  - rewrite Rlt_bool_false in C by lra. destruct C as [C _]. right.
    unfold BinarySingleNaN.binary_overflow in C. cbn [BinarySingleNaN.overflow_to_inf] in C.
    assert (D : Bminus 24 128 eq_refl eq_refl binop_nan_pl32 BinarySingleNaN.mode_NE (b32_of_bits f_one) (b32_of_bits b) = B754_infinity 24 128 false).
    { apply B2FF_inj. rewrite C. rewrite (proj1 (sign_V f_one Fa) ltac:(lra)). reflexivity. }
    replace (subf f_one b) with (bits_of_b32 (B754_infinity 24 128 false)); [reflexivity|]. unfold subf. f_equal. symmetry. exact D.
Qed.

Lemma sub_ok128 a b : fin a -> fin b -> Rabs (rnd (V a - V b)) < bpow radix2 128 -> fin (subf a b) /\ V (subf a b) = rnd (V a - V b).
Proof.
  unfold fin, V, subf. intros A B H. rewrite of_bits_of.
  pose proof (Bminus_correct 24 128 eq_refl eq_refl binop_nan_pl32 BinarySingleNaN.mode_NE (b32_of_bits a) (b32_of_bits b) A B) as C.
  rewrite fit128 in C by exact H. destruct C as (C1 & C2 & _). split; [exact C2|exact C1].
Qed.

Lemma crush_big a : fin a -> 4 <= V a -> big 4 (crush f_one a).
Proof.
  intros F A. destruct one_ok as (_ & Fo & VO). unfold crush.
  assert (R3 : rnd (-3) = -3) by (apply (rnd_IZR (-3)); lia).
  assert (L : Rabs (V a) < bpow radix2 128) by (apply (abs_B2R_lt_emax 24 128)). rewrite Rabs_pos_eq in L by lra.
  assert (B : - V a <= rnd (V f_one - V a) <= -3).
  { rewrite VO. split; [rewrite <- (rnd_V a) at 1; rewrite <- rnd_opp|rewrite <- R3]; apply rnd_le; lra. }
  destruct (sub_ok128 f_one a Fo F) as [F1 V1]; [rewrite Rabs_left1; lra|]. apply rev_sub_big; [exact F1|]. rewrite V1. lra.
Qed.

(** 1 - 1/v *)
Lemma erf_end v : big 16777216 v -> let r := subf f_one (divf f_one v) in fin r /\ 1 - / 16777216 <= V r <= 1.
Proof.
  intros B r. subst r. destruct one_ok as (_ & Fo & VO).
  assert (D : fin (divf f_one v) /\ 0 <= V (divf f_one v) <= / 16777216).
  { destruct B as [[F B]| ->].
    - assert (I : 0 < / V v <= / 16777216) by (split; [apply Rinv_0_lt_compat; lra|apply Rinv_le; lra]).
      destruct (div_ok f_one v Fo F) as [F1 V1]; [lra|rewrite VO; apply (le127 _ 1); [rewrite Rabs_pos_eq; unfold Rdiv; lra|lra]|].
      split; [exact F1|]. rewrite V1, VO. unfold Rdiv. rewrite Rmult_1_l. split.
      + rewrite <- rnd_0. apply rnd_le. lra.
      + replace (/ 16777216) with (bpow radix2 (-24)) by (cbn; lra). rewrite <- (rnd_bpow (-24)) by lia. apply rnd_le. cbn. lra.
    - replace (divf f_one finf) with 0%Z by (vm_compute; reflexivity). destruct (V_mk0 0) as [F W]; [lia|]. split; [exact F|]. rewrite W. lra. }
  destruct D as [F D]. destruct (sub_ok f_one (divf f_one v) Fo F) as [F1 V1]; [rewrite VO; apply (le127 _ 1); [apply Rabs_le; lra|lra]|].
  split; [exact F1|]. rewrite V1, VO. apply rnd_bounds.
  - replace (1 - / 16777216) with (IZR 16777215 * bpow radix2 (-24)) by (cbn; lra). apply rnd_F2R; lia.
  - apply (rnd_IZR 1). lia.
  - lra.
Qed.

(** nanomath.h:675-680: from the value of the polynomial to the result *)
Definition erf_fin (r : Z) : Z :=
  let s := mulf r r in
  let t := mulf s s in
  let u := mulf t t in
  let v := mulf u u in
  subf f_one (divf f_one v).
Definition erf_mag (a : Z) : Z := erf_fin (erf_poly (crush f_one a)).

Lemma erf_mag_big a : fin a -> 4 <= V a -> fin (erf_mag a) /\ 1 - / 16777216 <= V (erf_mag a) <= 1.
Proof.
  intros F A. assert (B := erf_poly_big _ (crush_big a F A)). unfold erf_mag. revert B. generalize (erf_poly (crush f_one a)). intros r B. unfold erf_fin. cbv zeta.
  apply erf_end.
  assert (B1 : big (17 / 2) (mulf r r)). { refine (mul_big _ _ _ _ _ _ _ _ _ B B); try lra. replace (17 / 2) with (IZR 17 * bpow radix2 (-1)) by (cbn; lra). apply rnd_F2R; lia. }
  assert (B2 : big 72 (mulf (mulf r r) (mulf r r))). { refine (mul_big _ _ _ _ _ _ _ _ _ B1 B1); try lra. apply (rnd_IZR 72); lia. }
  set (t := mulf (mulf r r) (mulf r r)) in *. clearbody t.
  assert (B3 : big 5184 (mulf t t)). { refine (mul_big _ _ _ _ _ _ _ _ _ B2 B2); try lra. apply (rnd_IZR 5184); lia. }
  refine (mul_big _ _ _ _ _ _ _ _ _ B3 B3); try lra. replace 16777216 with (bpow radix2 24) by (cbn; lra). apply rnd_bpow; lia.
Qed.

(** ** Relative errors for 0 <= b <= 4 *)
Lemma pos_madd r b c p h : fin r -> fin b -> fin c -> 0 <= V b <= 4 -> 0 <= p <= 10 -> 0 <= h <= / 1000000 -> / 100000 <= V c <= 1 ->
  Rabs (V r - p) <= h * p ->
  fin (madd r b c) /\ Rabs (V (madd r b c) - (p * V b + V c)) <= (h + 60 / 1000000000) * (p * V b) + 60 / 1000000000 * (p * V b + V c) /\ V c <= V (madd r b c).
Proof.
  intros Fr Fb Fc Hb Hp Hh Hc E. unfold madd.
  assert (R0 : 0 <= V r * V b).
  { apply Rmult_le_pos; [|lra]. assert (h * p <= 1 * p) by (apply Rmult_le_compat_r; lra). apply Rabs_le_inv in E. lra. } set (T := p * V b).
  assert (HT : 0 <= T <= 40) by (unfold T; split; [apply Rmult_le_pos; lra|replace 40 with (10 * 4) by lra; apply Rmult_le_compat; lra]).
  assert (Q : Rabs (V r * V b - T) <= h * T).
  { unfold T. replace (V r * V b - p * V b) with ((V r - p) * V b) by ring. rewrite Rabs_mult, (Rabs_pos_eq (V b)) by lra.
    rewrite <- Rmult_assoc. apply Rmult_le_compat_r; [lra|exact E]. }
  set (U := h * T) in *. assert (HU : 0 <= U <= T / 1000000).
  { unfold U. split; [apply Rmult_le_pos; lra|]. replace (T / 1000000) with (/ 1000000 * T) by lra. apply Rmult_le_compat_r; lra. }
  replace ((h + 60 / 1000000000) * T) with (U + 60 / 1000000000 * T) by (unfold U; ring).
  clearbody T U. apply Rabs_le_inv in Q.
  destruct (mul_ok r b Fr Fb) as [F1 V1]; [apply (le127 _ 100); [apply Rabs_le; lra|lra]|].
  assert (E1 := rnd_err' (V r * V b) (T + U)). rewrite <- V1 in E1. specialize (E1 ltac:(apply Rabs_le; lra)).
  assert (M0 : 0 <= V (mulf r b)) by (rewrite V1, <- rnd_0; now apply rnd_le).
  set (m := mulf r b) in *. set (q := V r * V b) in *. clearbody m q. clear V1 E. assert (Et := eta_small). assert (E0 : 0 < eta) by (unfold eta; lra). apply Rabs_le_inv in E1.
  destruct (add_ok m c F1 Fc) as [F2 V2]; [apply (le127 _ 100); [apply Rabs_le; lra|lra]|].
  assert (E2 := rnd_err' (V m + V c) (T + V c + (U + (T + U) / 16777216 + eta))). rewrite <- V2 in E2. specialize (E2 ltac:(apply Rabs_le; lra)).
  split; [exact F2|]. split; [|rewrite V2, <- (rnd_V c) at 1; apply rnd_le; lra]. apply Rabs_le_inv in E2. clear V2. apply Rabs_le. lra.
Qed.

Lemma erf_poly_rel b : fin b -> 0 <= V b <= 4 ->
  fin (erf_poly b) /\ Rabs (V (erf_poly b) - Perf (V b)) <= 73 / 100000000 * (Perf (V b) - 1) + 6 / 100000000 * Perf (V b) /\ 1 <= V (erf_poly b).
Proof.
  intros F B. unfold erf_poly.
  getc K0 (lit 430638 (-10)). getc K1 (lit 2765672 (-10)). getc K2 (lit 1520143 (-10)). getc K3 (lit 92705272 (-10)). getc K4 (lit 422820123 (-10)). getc K5 (lit 705230784 (-10)).
  destruct one_ok as (_ & FO & VO).
  revert K0 K1 K2 K3 K4 K5.
  generalize (lit 430638 (-10)) (lit 2765672 (-10)) (lit 1520143 (-10)) (lit 92705272 (-10)) (lit 422820123 (-10)) (lit 705230784 (-10)).
  intros k0 k1 k2 k3 k4 k5 (_ & F0 & V0) (_ & F1 & V1) (_ & F2 & V2) (_ & F3 & V3) (_ & F4 & V4) (_ & F5 & V5).
  assert (step : forall r c p h h', fin r -> fin c -> 0 <= p <= 10 -> 0 <= h <= / 1000000 -> / 100000 <= V c <= 1 -> Rabs (V r - p) <= h * p -> h' = h + 12 / 100000000 ->
    fin (madd r b c) /\ Rabs (V (madd r b c) - (p * V b + V c)) <= h' * (p * V b + V c)).
  { intros r c p h h' Fr Fc Hp Hh Hc E ->. destruct (pos_madd r b c p h Fr F Fc B Hp Hh Hc E) as (G & H & _). split; [exact G|]. apply Rle_trans with (1 := H).
    assert (0 <= h * V c) by (apply Rmult_le_pos; lra). lra. }
  set (x := V b) in *.
  destruct (step k0 k1 (V k0) 0 (12 / 100000000)) as [G1 E1]; [assumption|assumption|lra|lra|lra|rewrite Rminus_diag_eq, Rabs_R0 by reflexivity; lra|lra|].
  destruct (step (madd k0 b k1) k2 (V k0 * x + V k1) (12 / 100000000) (24 / 100000000)) as [G2 E2]; [assumption|assumption|rewrite V0, V1; split; interval|lra|lra|exact E1|lra|].
  destruct (step (madd (madd k0 b k1) b k2) k3 ((V k0 * x + V k1) * x + V k2) (24 / 100000000) (36 / 100000000)) as [G3 E3]; [assumption|assumption|rewrite V0, V1, V2; split; interval|lra|lra|exact E2|lra|].
  destruct (step (madd (madd (madd k0 b k1) b k2) b k3) k4 (((V k0 * x + V k1) * x + V k2) * x + V k3) (36 / 100000000) (48 / 100000000)) as [G4 E4]; [assumption|assumption|rewrite V0, V1, V2, V3; split; interval|lra|lra|exact E3|lra|].
  destruct (step (madd (madd (madd (madd k0 b k1) b k2) b k3) b k4) k5 ((((V k0 * x + V k1) * x + V k2) * x + V k3) * x + V k4) (48 / 100000000) (60 / 100000000)) as [G5 E5]; [assumption|assumption|rewrite V0, V1, V2, V3, V4; split; interval|lra|lra|exact E4|lra|].
  destruct (pos_madd (madd (madd (madd (madd (madd k0 b k1) b k2) b k3) b k4) b k5) b f_one (((((V k0 * x + V k1) * x + V k2) * x + V k3) * x + V k4) * x + V k5) (60 / 100000000)) as (G6 & E6 & M6); 
    [assumption|assumption|assumption|exact B|rewrite V0, V1, V2, V3, V4, V5; split; interval|lra|lra|exact E5|].
  split; [exact G6|]. split; [|now rewrite VO in M6]. fold x in E6. rewrite VO in E6.
  assert (Y : (((((V k0 * x + V k1) * x + V k2) * x + V k3) * x + V k4) * x + V k5) * x = Perf x - 1) by (rewrite V0, V1, V2, V3, V4, V5; unfold Perf; ring).
  rewrite Y in E6. replace (Perf x - 1 + 1) with (Perf x) in E6 by ring. assert (P1 := Perf_ge x ltac:(lra)). lra.
Qed.

Lemma sq_rel a p : fin a -> V a = p -> 1 <= p <= 10 ^ 12 -> exists e, Rabs e <= / 16777216 /\ fin (mulf a a) /\ V (mulf a a) = p * p * (1 + e) /\ 1 <= V (mulf a a).
Proof.
  intros F E H. assert (S : 1 <= p * p <= 10 ^ 24).
  { replace 1 with (1 * 1) by ring. replace (10 ^ 24) with (10 ^ 12 * 10 ^ 12) by ring. split; apply Rmult_le_compat; lra. }
  destruct (mul_ok a a F F) as [F1 V1]; [rewrite E; apply (le127 _ (10 ^ 24)); [rewrite Rabs_pos_eq; lra|lra]|].
  destruct (rel24 (p * p) 1) as (e & B & Q); [apply (bpow_le radix2 (-126) 0); lia|lra|].
  exists e. split; [exact B|]. split; [exact F1|]. rewrite V1, E. split; [exact Q|]. rewrite <- (rnd_IZR 1) by lia. apply rnd_le. lra.
Qed.

Lemma erf_num z k e1 e2 e3 e4 e5 : 32 / 100 <= z <= 1 -> -1 <= k <= 1 ->
  Rabs e1 <= / 16777216 -> Rabs e2 <= / 16777216 -> Rabs e3 <= / 16777216 -> Rabs e4 <= / 16777216 -> Rabs e5 <= / 16777216 ->
  Rabs (z ^ 16 * ((1 + e5) / ((1 + k * (6 / 100000000 + 73 / 100000000 * (1 - z))) ^ 16 * (1 + e1) ^ 8 * (1 + e2) ^ 4 * (1 + e3) ^ 2 * (1 + e4)) - 1)) <= 2 / 1000000.
Proof.
  intros Z K H1 H2 H3 H4 H5. apply Rabs_le_inv in H1, H2, H3, H4, H5.
  interval with (i_bisect z, i_prec 60, i_depth 12).
Qed.

Lemma erf_alg P q a1 a2 a3 a4 a5 : P <> 0 -> q ^ 16 * a1 ^ 8 * a2 ^ 4 * a3 ^ 2 * a4 <> 0 ->
  (/ P) ^ 16 * (a5 / (q ^ 16 * a1 ^ 8 * a2 ^ 4 * a3 ^ 2 * a4) - 1) =
  / (P * q * (P * q) * a1 * (P * q * (P * q) * a1) * a2 * (P * q * (P * q) * a1 * (P * q * (P * q) * a1) * a2) * a3 *
   (P * q * (P * q) * a1 * (P * q * (P * q) * a1) * a2 * (P * q * (P * q) * a1 * (P * q * (P * q) * a1) * a2) * a3) * a4) * a5 - / P ^ 16.
Proof.
  intros HP HD. rewrite pow_inv. assert (H16 : P ^ 16 <> 0) by (now apply pow_nonzero).
  match goal with |- _ = / ?X * _ - _ => replace X with (P ^ 16 * (q ^ 16 * a1 ^ 8 * a2 ^ 4 * a3 ^ 2 * a4)) by ring end.
  set (D := q ^ 16 * a1 ^ 8 * a2 ^ 4 * a3 ^ 2 * a4) in *. set (p := P ^ 16) in *. clearbody D p. field. split; assumption.
Qed.

Lemma erf_core r P : fin r -> 1 <= P <= 31 / 10 -> Rabs (V r - P) <= 73 / 100000000 * (P - 1) + 6 / 100000000 * P -> 1 <= V r ->
  fin (erf_fin r) /\ 0 <= V (erf_fin r) <= 1 /\ Rabs (V (erf_fin r) - (1 - / P ^ 16)) <= 204 / 100000000.
Proof.
  intros F B E R1. unfold erf_fin. set (s := mulf r r). set (t := mulf s s). set (u := mulf t t). set (v := mulf u u). set (y := subf f_one (divf f_one v)). cbv zeta.
  assert (Z : 32 / 100 <= / P <= 1) by (split; [apply Rle_trans with (/ (31 / 10)); [lra|apply Rinv_le; lra]|rewrite <- Rinv_1; apply Rinv_le; lra]).
  assert (EP : P * / P = 1) by (apply Rinv_r; lra).
  set (z := / P) in *.
  set (w := 6 / 100000000 + 73 / 100000000 * (1 - z)). assert (Hw : 0 < w) by (unfold w; lra).
  set (k := (V r - P) / P / w).
  assert (Ek : V r = P * (1 + k * w)) by (unfold k; field; lra).
  assert (Bk : -1 <= k <= 1).
  { assert (X : Rabs ((V r - P) / P) <= w).
    { unfold Rdiv. rewrite Rabs_mult. rewrite (Rabs_pos_eq (/ P)) by (fold z; lra). fold z.
      apply Rle_trans with ((73 / 100000000 * (P - 1) + 6 / 100000000 * P) * z); [apply Rmult_le_compat_r; [lra|exact E]|]. unfold w.
      right. replace ((73 / 100000000 * (P - 1) + 6 / 100000000 * P) * z) with (73 / 100000000 * (P * z - z) + 6 / 100000000 * (P * z)) by ring. rewrite EP. ring. }
    unfold k. apply Rabs_le_inv in X. set (q := (V r - P) / P) in *. unfold Rdiv. assert (I : 0 < / w) by (now apply Rinv_0_lt_compat).
    assert (w * / w = 1) by (apply Rinv_r; lra). split.
    - replace (-1) with (- w * / w) by (rewrite Ropp_mult_distr_l_reverse; lra). apply Rmult_le_compat_r; lra.
    - replace 1 with (w * / w) by lra. apply Rmult_le_compat_r; lra. }
  assert (R2 : V r <= 32 / 10) by (apply Rabs_le_inv in E; lra).
  assert (up : forall a e c, 1 <= a <= c -> c <= 10 ^ 12 -> Rabs e <= / 16777216 -> a * a * (1 + e) <= c * c * (1 + / 16777216)).
  { intros a e c A C He. apply Rabs_le_inv in He. apply Rmult_le_compat; [apply Rmult_le_pos; lra|lra|apply Rmult_le_compat; lra|lra]. }
  destruct (sq_rel r (V r) F eq_refl) as (e1 & H1 & F1 & V1 & L1); [lra|]. fold s in F1, V1, L1.
  assert (U1 : V s <= 103 / 10) by (rewrite V1; apply Rle_trans with (1 := up _ _ _ (conj R1 R2) ltac:(lra) H1); lra).
  destruct (sq_rel s (V s) F1 eq_refl) as (e2 & H2 & F2 & V2 & L2); [lra|]. fold t in F2, V2, L2.
  assert (U2 : V t <= 107) by (rewrite V2; apply Rle_trans with (1 := up _ _ _ (conj L1 U1) ltac:(lra) H2); lra).
  destruct (sq_rel t (V t) F2 eq_refl) as (e3 & H3 & F3 & V3 & L3); [lra|]. fold u in F3, V3, L3.
  assert (U3 : V u <= 12000) by (rewrite V3; apply Rle_trans with (1 := up _ _ _ (conj L2 U2) ltac:(lra) H3); lra).
  destruct (sq_rel u (V u) F3 eq_refl) as (e4 & H4 & F4 & V4 & L4); [lra|]. fold v in F4, V4, L4.
  assert (U4 : V v <= 150000000) by (rewrite V4; apply Rle_trans with (1 := up _ _ _ (conj L3 U3) ltac:(lra) H4); lra).
  destruct one_ok as (_ & Fo & VO).
  assert (I : / 150000000 <= / V v <= 1) by (split; [apply Rinv_le; lra|rewrite <- Rinv_1; apply Rinv_le; lra]).
  destruct (div_ok f_one v Fo F4) as [F5 V5]; [lra|rewrite VO; apply (le127 _ 1); [rewrite Rabs_pos_eq; unfold Rdiv; lra|lra]|].
  rewrite VO in V5. unfold Rdiv in V5. rewrite Rmult_1_l in V5.
  destruct (rel24 (/ V v) (/ 150000000)) as (e5 & H5 & Q5); [|lra|].
  { apply Rle_trans with (bpow radix2 (-30)); [apply bpow_le; lia|cbn; lra]. }
  assert (B5 : 0 <= V (divf f_one v) <= 1).
  { rewrite V5. apply rnd_bounds; [apply rnd_0|apply (rnd_IZR 1); lia|lra]. }
  destruct (sub_ok f_one (divf f_one v) Fo F5) as [F6 V6]; [rewrite VO; apply (le127 _ 1); [apply Rabs_le; lra|lra]|]. fold y in F6, V6.
  split; [exact F6|]. rewrite VO in V6. split.
  { rewrite V6. apply rnd_bounds; [apply rnd_0|apply (rnd_IZR 1); lia|lra]. }
  assert (E6 := rnd_err_bpow 0 (1 - V (divf f_one v)) ltac:(lia)). rewrite <- V6 in E6. specialize (E6 ltac:(clear -B5; change (bpow radix2 0) with 1; apply Rabs_le; lra)).
  replace (bpow radix2 (0 - 25)) with (/ 33554432) in E6 by (cbn; lra).
  assert (N := erf_num z k e1 e2 e3 e4 e5 Z Bk H1 H2 H3 H4 H5).
  match type of N with Rabs ?X <= _ => assert (X1 : X = V (divf f_one v) - / P ^ 16) end.
  { rewrite V5, Q5, V4, V3, V2, V1, Ek. fold w. apply erf_alg; [lra|].
    apply Rabs_le_inv in H1, H2, H3, H4, H5.
    assert (w <= / 1000000) by (unfold w; lra). assert (-(/ 1000000) <= k * w <= / 1000000).
    { apply Rabs_le_inv. rewrite Rabs_mult, (Rabs_pos_eq w) by lra. replace (/ 1000000) with (1 * / 1000000) by lra. apply Rmult_le_compat; try lra; [apply Rabs_pos|now apply Rabs_le]. }
    repeat apply Rmult_integral_contrapositive_currified; lra. }
  rewrite X1 in N. clear - N E6.
  assert (tri : forall a q p d1 d2, Rabs (a - (1 - q)) <= d1 -> Rabs (q - p) <= d2 -> Rabs (a - (1 - p)) <= d1 + d2).
  { intros a q p d1 d2 H1 H2. apply Rabs_le_inv in H1, H2. apply Rabs_le. lra. }
  apply Rle_trans with (1 := tri _ _ _ _ _ E6 N). lra.
Qed.

Lemma crush4 a : fin a -> 0 <= V a <= 4 -> fin (crush f_one a) /\ 0 <= V (crush f_one a) <= 4 /\
  Rabs (erf (V (crush f_one a)) - erf (V a)) <= 13 / 100000000.
Proof.
  intros F A. destruct (Rle_dec (V a) 1) as [L|L].
  - destruct (crush_one a F) as (G & B & E); [rewrite Rabs_pos_eq; lra|]. split; [exact G|].
    assert (P : 0 <= V (crush f_one a)).
    { destruct one_ok as (_ & Fo & VO). unfold crush in *. destruct (sub_ok f_one a Fo F) as [F1 V1]; [rewrite VO; apply (le127 _ 1); [apply Rabs_le; lra|lra]|].
      assert (B1 : 0 <= V (subf f_one a) <= 1) by (rewrite V1, VO; apply rnd_bounds; [apply rnd_0|apply (rnd_IZR 1); lia|lra]).
      destruct (sub_ok f_one (subf f_one a) Fo F1) as [F2 V2]; [rewrite VO; apply (le127 _ 1); [apply Rabs_le; lra|lra]|].
      rewrite V2, VO. rewrite <- rnd_0. apply rnd_le. lra. }
    apply Rabs_le_inv in B. split; [lra|]. apply Rle_trans with (1 := erf_lip _ _). lra.
  - destruct one_ok as (_ & Fo & VO). unfold crush.
    destruct (sub_ok f_one a Fo F) as [F1 V1]; [rewrite VO; apply (le127 _ 3); [apply Rabs_le; lra|lra]|].
    assert (B1 : -3 <= V (subf f_one a) <= 0) by (rewrite V1, VO; apply rnd_bounds; [apply (rnd_IZR (-3)); lia|apply rnd_0|lra]).
    assert (E1 := rnd_err_bpow 2 (V f_one - V a) ltac:(lia)). rewrite <- V1, VO in E1. specialize (E1 ltac:(change (bpow radix2 2) with 4; apply Rabs_le; lra)).
    destruct (sub_ok f_one (subf f_one a) Fo F1) as [F2 V2]; [rewrite VO; apply (le127 _ 4); [apply Rabs_le; lra|lra]|].
    assert (B2 : 1 <= V (subf f_one (subf f_one a)) <= 4) by (rewrite V2, VO; apply rnd_bounds; [apply (rnd_IZR 1); lia|apply (rnd_IZR 4); lia|lra]).
    assert (E2 := rnd_err_bpow 2 (V f_one - V (subf f_one a)) ltac:(lia)). rewrite <- V2, VO in E2. specialize (E2 ltac:(change (bpow radix2 2) with 4; apply Rabs_le; lra)).
    replace (bpow radix2 (2 - 25)) with (/ 8388608) in E1, E2 by (cbn; lra).
    split; [exact F2|]. split; [lra|]. apply Rle_trans with (1 := erf_lip1 (V (subf f_one (subf f_one a))) (V a) ltac:(lra) ltac:(lra)).
    apply Rabs_le_inv in E1, E2. assert (Rabs (V (subf f_one (subf f_one a)) - V a) <= / 4194304) by (apply Rabs_le; lra). lra.
Qed.

Lemma Perf_le b : 0 <= b <= 4 -> Perf b <= 31 / 10.
Proof. intro H. unfold Perf. interval. Qed.

Lemma erf_mag_ok a : fin a -> 0 <= V a -> fin (erf_mag a) /\ 0 <= V (erf_mag a) <= 1 /\ Rabs (V (erf_mag a) - erf (V a)) <= 26 / 10000000.
Proof.
  intros F A. destruct (Rle_dec (V a) 4) as [L|L].
  - destruct (crush4 a F) as (G & B & E); [lra|]. unfold erf_mag. set (b := crush f_one a) in *. clearbody b.
    destruct (erf_poly_rel b G B) as (Fr & Er & R1).
    set (r := erf_poly b) in *. clearbody r.
    destruct (erf_core r (Perf (V b)) Fr (conj (Perf_ge _ (proj1 B)) (Perf_le _ B)) Er R1) as (Fy & By & Ey).
    assert (D := derf_small (V b) B). unfold derf in D.
    revert Fy By Ey. generalize (erf_fin r). intros y Fy By Ey. split; [exact Fy|]. split; [exact By|]. replace (V y - erf (V a)) with ((V y - (1 - / Perf (V b) ^ 16)) + (1 - / Perf (V b) ^ 16 - erf (V b)) + (erf (V b) - erf (V a))) by ring.
    apply Rle_trans with (1 := Rabs_triang _ _). apply Rle_trans with (1 := Rplus_le_compat_r _ _ _ (Rabs_triang _ _)). lra.
  - destruct (erf_mag_big a F) as [G B]; [lra|]. split; [exact G|]. split; [lra|]. assert (T := erf_tail (V a) ltac:(lra)). apply Rabs_le_inv in T. apply Rabs_le. lra.
Qed.

(** ** erf and erfc *)
Lemma erf_pos t : 0 <= t -> 0 <= erf t.
Proof. intro H. rewrite <- erf_0. now apply erf_mono. Qed.

Lemma erf_unfold x : erf_ x = copysign (erf_mag (fabs float32 x)) x.
Proof. unfold erf_, erf_mag, erf_fin. reflexivity. Qed.

Lemma erf_ok x : pattern float32 x -> fin x -> pattern float32 (erf_ x) /\ fin (erf_ x) /\ Rabs (V (erf_ x)) <= 1 /\ Rabs (V (erf_ x) - erf (V x)) <= 26 / 10000000.
Proof.
  intros P F. rewrite erf_unfold. destruct (fabs_fin x P F) as (a & -> & Pa & Fa & Va).
  destruct (erf_mag_ok a Fa) as (Fm & Bm & Em); [rewrite Va; apply Rabs_pos|]. assert (Pm : pattern float32 (erf_mag a)) by apply pat_bits.
  revert Fm Bm Em Pm. generalize (erf_mag a). intros m Fm Bm Em Pm. rewrite Va in Em.
  destruct (copysign_fun erf m x _ erf_odd Pm P Fm F (erf_pos _ (Rabs_pos _)) Em) as (A & B & C).
  split; [exact A|]. split; [exact B|]. split; [|exact C].
  destruct (copysign_ok m x Pm P Fm) as (_ & _ & ->). rewrite (Rabs_pos_eq (V m)) by lra. destruct (sgn float32 x); apply Rabs_le; lra.
Qed.

Lemma erfc_ok x : pattern float32 x -> fin x -> fin (erfc_ x) /\ 0 <= V (erfc_ x) <= 2 /\ Rabs (V (erfc_ x) - (1 - erf (V x))) <= 27 / 10000000.
Proof.
  intros P F. destruct (erf_ok x P F) as (_ & Fe & B & E). unfold erfc_. revert Fe B E. generalize (erf_ x). intros e Fe B E.
  apply Rabs_le_inv in B. destruct one_ok as (_ & Fo & VO).
  destruct (sub_ok f_one e Fo Fe) as [F1 V1]; [rewrite VO; apply (le127 _ 2); [apply Rabs_le; lra|lra]|].
  split; [exact F1|]. split; [rewrite V1, VO; apply rnd_bounds; [apply rnd_0|apply (rnd_IZR 2); lia|lra]|].
  assert (E1 := rnd_err_bpow 1 (V f_one - V e) ltac:(lia)). rewrite <- V1, VO in E1. specialize (E1 ltac:(change (bpow radix2 1) with 2; apply Rabs_le; lra)).
  replace (bpow radix2 (1 - 25)) with (/ 16777216) in E1 by (cbn; lra).
  apply Rabs_le_inv in E, E1. apply Rabs_le. lra.
Qed.
