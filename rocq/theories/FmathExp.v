(** fast_exp2 and exp: error bounds. *)
From Coq Require Import ZArith Bool Lia Reals Lra Psatz.
From Flocq Require Import Core IEEE754.Binary IEEE754.Bits.
From Interval Require Import Tactic.
From Verif Require Import Mem AlgoModel FpModel FpProofs RoundModel RoundProofs LitModel LimModel FmathModel FmathReal.
Open Scope Z_scope.

(** [H : pattern c /\ fin c /\ V c = n / d] for a closed constant c *)
Tactic Notation "getc" ident(H) constr(c) :=
  let n := eval vm_compute in (cnum c) in let d := eval vm_compute in (cden c) in
  assert (H : pattern float32 c /\ fin c /\ V c = (IZR n / IZR d)%R) by (apply const_ok; vm_compute; reflexivity).

(** The rounded coefficients. *)
Definition Pexp2 (t : R) : R :=
  (t * (t * (t * (t * (t * (11453518 / 8589934592) + 10533786 / 1073741824) + 14903091 / 268435456) + 16118162 / 67108864) + 11629041 / 16777216) + 1)%R.

Lemma Pexp2_err t : (-1 <= t <= 1)%R -> (Rabs (Pexp2 t * exp (- t * ln 2) - 1) <= 1379 / 100000000)%R.
Proof. intro H. unfold Pexp2. interval with (i_bisect t, i_taylor t, i_prec 50). Qed.

Lemma Pexp2_range t : (-1 <= t <= 1)%R -> (49999 / 100000 <= Pexp2 t <= 199999 / 100000)%R.
Proof. intro H. unfold Pexp2. split; interval with (i_bisect t, i_taylor t, i_prec 40). Qed.

Ltac side := unfold eta; try (change (IZR (10 ^ 40)) with (10 ^ 40)%R); interval with (i_prec 60).

Lemma exp2_poly_ok x : fin x -> (Rabs (V x) <= 1)%R ->
  fin (exp2_poly x) /\ (Rabs (V (exp2_poly x) - Pexp2 (V x)) <= 3 / 10000000)%R.
Proof.
  intros F H. unfold exp2_poly. cbv zeta.
  getc C5 (lit 133336498402 (-14)). getc C4 (lit 9810352697968 (-15)). getc C3 (lit 5551834031939 (-14)).
  getc C2 (lit 2401793301105 (-13)). getc C1 (lit 693144857883 (-12)). getc C0 f_one.
  set (c5 := lit 133336498402 (-14)) in *. set (c4 := lit 9810352697968 (-15)) in *. set (c3 := lit 5551834031939 (-14)) in *.
  set (c2 := lit 2401793301105 (-13)) in *. set (c1 := lit 693144857883 (-12)) in *. clearbody c5 c4 c3 c2 c1.
  destruct C5 as (_ & F5 & V5), C4 as (_ & F4 & V4), C3 as (_ & F3 & V3), C2 as (_ & F2 & V2), C1 as (_ & F1 & V1), C0 as (_ & F0 & V0).
  assert (B : (-1 <= V x <= 1)%R) by now apply Rabs_le_inv.
  assert (A5 : (Rabs (V c5 - 11453518 / 8589934592) <= 0)%R) by (rewrite V5, Rminus_diag_eq, Rabs_R0 by reflexivity; lra).
  destruct (horner x c5 c4 _ 1 (14/10000) (12/1000) 0 (1/1000000000) F F5 F4 H A5) as [[G4 A4] _]; rewrite ?V4; try side.
  destruct (horner x _ c3 _ 1 (12/1000) (7/100) _ (6/1000000000) F G4 F3 H A4) as [[G3 A3] _]; rewrite ?V3, ?V4; try side.
  destruct (horner x _ c2 _ 1 (7/100) (31/100) _ (3/100000000) F G3 F2 H A3) as [[G2 A2] _]; rewrite ?V2, ?V3, ?V4; try side.
  destruct (horner x _ c1 _ 1 (31/100) (101/100) _ (11/100000000) F G2 F1 H A2) as [[G1 A1] _]; rewrite ?V1, ?V2, ?V3, ?V4; try side.
  destruct (horner x _ f_one _ 1 (101/100) (201/100) _ (3/10000000) F G1 F0 H A1) as [[G0 A0] _]; rewrite ?V0, ?V1, ?V2, ?V3, ?V4; try side.
  split; [exact G0|]. rewrite V0, V1, V2, V3, V4 in A0. unfold Pexp2. replace (8388608 / 8388608)%R with 1%R in A0 by lra. exact A0.
Qed.

Lemma one_ok : pattern float32 f_one /\ fin f_one /\ V f_one = 1%R.
Proof. getc H f_one. destruct H as (A & B & C). split; [exact A|]. split; [exact B|]. rewrite C. lra. Qed.

Lemma small_le127 y M : (Rabs y <= M)%R -> (M <= 10 ^ 30)%R -> (Rabs y <= bpow radix2 127)%R.
Proof. intros. pose proof big127. lra. Qed.

Lemma crush_one x : fin x -> (Rabs (V x) <= 1)%R ->
  fin (crush f_one x) /\ (Rabs (V (crush f_one x)) <= 1)%R /\ (Rabs (V (crush f_one x) - V x) <= 9 / 100000000)%R.
Proof.
  intros F H. destruct one_ok as (_ & F1 & V1). unfold crush.
  apply Rabs_le_inv in H.
  destruct (sub_ok f_one x F1 F) as [Fs Vs]; [rewrite V1; apply (small_le127 _ 2); [apply Rabs_le; lra|lra]|].
  rewrite V1 in Vs.
  assert (B : (0 <= V (subf f_one x) <= 2)%R).
  { rewrite Vs. apply rnd_bounds; [apply rnd_0|apply (rnd_IZR 2); cbn; lia|lra]. }
  destruct (sub_ok f_one (subf f_one x) F1 Fs) as [Ft Vt]; [rewrite V1; apply (small_le127 _ 1); [apply Rabs_le; lra|lra]|].
  rewrite V1 in Vt. split; [exact Ft|]. split.
  - rewrite Vt. apply Rabs_le. apply rnd_bounds; [apply (rnd_IZR (-1)); cbn; lia|apply (rnd_IZR 1); cbn; lia|lra].
  - rewrite Vt. assert (E1 : (Rabs (V (subf f_one x) - (1 - V x)) <= bpow radix2 (1 - 25))%R).
    { rewrite Vs. apply rnd_err_bpow; [lia|]. change (bpow radix2 1) with 2%R. apply Rabs_le. lra. }
    assert (E2 : (Rabs (rnd (1 - V (subf f_one x)) - (1 - V (subf f_one x))) <= bpow radix2 (0 - 25))%R).
    { apply rnd_err_bpow; [lia|]. change (bpow radix2 0) with 1%R. apply Rabs_le. lra. }
    change (bpow radix2 (1 - 25)) with (/ 16777216)%R in E1. change (bpow radix2 (0 - 25)) with (/ 33554432)%R in E2.
    apply Rabs_le_inv in E1, E2. apply Rabs_le. lra.
Qed.

(** the clamp of fast_exp2 *)
Lemma clamp_cases a lo hi : pattern float32 lo -> fin lo -> fin hi -> (V lo < V hi)%R ->
  (fin a -> (V lo < V a < V hi)%R -> clamp float32 a lo hi = a) /\
  (flt float32 a hi = false -> clamp float32 a lo hi = hi) /\
  (flt float32 a hi = true -> flt float32 lo a = false -> clamp float32 a lo hi = lo).
Proof.
  intros _ Fl Fh L. unfold clamp, min_, max_. rewrite gt_lt. split; [|split].
  - intros Fa [A B]. rewrite (flt_ok a hi Fa Fh). rewrite Rlt_bool_true by exact B. cbn [negb].
    rewrite (flt_ok lo a Fl Fa). now rewrite Rlt_bool_true by exact A.
  - intros ->. cbn [negb]. rewrite (flt_ok lo hi Fl Fh). now rewrite Rlt_bool_true by exact L.
  - intros ->. cbn [negb]. now intros ->.
Qed.

Definition f126 : Z := lit 126 0.
Lemma f126_ok : pattern float32 f126 /\ fin f126 /\ V f126 = 126%R.
Proof. getc H f126. destruct H as (A & B & C). split; [exact A|]. split; [exact B|]. rewrite C. lra. Qed.
Lemma fm126_ok : pattern float32 (negf f126) /\ fin (negf f126) /\ V (negf f126) = (-126)%R.
Proof. getc H (negf f126). destruct H as (A & B & C). split; [exact A|]. split; [exact B|]. rewrite C. lra. Qed.

(** Saturation. *)
Lemma exp2_sat_hi x : flt float32 x f126 = false -> fast_exp2 x = Ok 0x7e800000.
Proof.
  intro H. destruct f126_ok as (P & F & W). destruct fm126_ok as (P' & F' & W').
  unfold fast_exp2. fold f126. destruct (clamp_cases x (negf f126) f126 P' F' F) as (_ & C & _); [lra|]. rewrite C by exact H.
  vm_compute. reflexivity.
Qed.
Lemma exp2_sat_lo x : flt float32 x f126 = true -> flt float32 (negf f126) x = false -> fast_exp2 x = Ok 0x00800000.
Proof.
  intros H H'. destruct f126_ok as (P & F & W). destruct fm126_ok as (P' & F' & W').
  unfold fast_exp2. fold f126. destruct (clamp_cases x (negf f126) f126 P' F' F) as (_ & _ & C); [lra|]. rewrite C by assumption.
  vm_compute. reflexivity.
Qed.

(** Adding to the exponent field multiplies by a power of two. *)
Lemma scale_ok r m : pattern float32 r -> sgn float32 r = false -> exponent float32 r <> 0 ->
  1 <= exponent float32 r + m <= 254 ->
  (r + (m mod 2 ^ 32) * 2 ^ 23) mod 2 ^ 32 = r + m * 2 ^ 23 /\
  pattern float32 (r + m * 2 ^ 23) /\ fin (r + m * 2 ^ 23) /\ (fin r -> V (r + m * 2 ^ 23) = (V r * bpow radix2 m)%R).
Proof.
  intros P S N B. assert (P' := P). unfold pattern in P'. change (2 ^ (mw float32 + ew float32 + 1)) with (2 ^ 32) in P'.
  apply sgn_small in S; [|lia]. destruct (split32 r) as (E & A & M); [lia|].
  assert (Q : r + m * 2 ^ 23 = (exponent float32 r + m) * 2 ^ 23 + mantissa float32 r) by lia.
  split.
  - rewrite Z.mul_mod_idemp_l || idtac. rewrite <- (Zplus_mod_idemp_r (m mod 2 ^ 32 * 2 ^ 23)). rewrite Z.mul_mod_idemp_l by lia.
    rewrite Zplus_mod_idemp_r. rewrite Q. apply Z.mod_small. lia.
  - rewrite Q. destruct (mk32 (exponent float32 r + m) (mantissa float32 r)) as (_ & _ & _ & PP); [lia|lia|].
    destruct (V_mk (exponent float32 r + m) (mantissa float32 r)) as [F1 V1]; [lia|lia|].
    split; [exact PP|]. split; [exact F1|]. intro F. rewrite V1.
    assert (K : exponent float32 r <> 255).
    { apply fin_val in F. unfold isfinite in F. apply negb_true_iff in F. apply Z.eqb_neq in F. exact F. }
    destruct (V_mk (exponent float32 r) (mantissa float32 r)) as [_ V2]; [lia|lia|]. rewrite <- E in V2. rewrite V2.
    rewrite Rmult_assoc, <- bpow_plus. f_equal. f_equal. lia.
Qed.

Lemma bpow_exp m : bpow radix2 m = exp (IZR m * ln 2).
Proof. rewrite bpow_exp. cbn. reflexivity. Qed.

Definition pow2 (t : R) : R := exp (t * ln 2).
Lemma pow2_pos t : (0 < pow2 t)%R. Proof. apply exp_pos. Qed.
Lemma pow2_plus a b : pow2 (a + b) = (pow2 a * pow2 b)%R.
Proof. unfold pow2. rewrite Rmult_plus_distr_r. apply exp_plus. Qed.
Lemma pow2_bpow m : pow2 (IZR m) = bpow radix2 m.
Proof. symmetry. apply bpow_exp. Qed.

Lemma Rabs_rel a b e : (0 < b)%R -> (Rabs (a / b - 1) <= e)%R <-> (Rabs (a - b) <= e * b)%R.
Proof.
  intro H. replace (a - b)%R with ((a / b - 1) * b)%R by (field; lra). rewrite Rabs_mult, (Rabs_pos_eq b) by lra.
  split; intro K; [apply Rmult_le_compat_r; lra|]. apply Rmult_le_reg_r with b; assumption.
Qed.

Lemma rel_trans a b c e1 e2 e : (b <> 0)%R -> (c <> 0)%R -> (Rabs (a / b - 1) <= e1)%R -> (Rabs (b / c - 1) <= e2)%R ->
  (e1 + e2 + e1 * e2 <= e)%R -> (Rabs (a / c - 1) <= e)%R.
Proof.
  intros B C E1 E2 E. replace (a / c - 1)%R with ((a / b - 1) + (b / c - 1) + (a / b - 1) * (b / c - 1))%R by (field; split; assumption).
  apply Rle_trans with (1 := Rabs_triang _ _). apply Rle_trans with (2 := E). apply Rplus_le_compat.
  - apply Rle_trans with (1 := Rabs_triang _ _). lra.
  - rewrite Rabs_mult. apply Rmult_le_compat; try apply Rabs_pos; assumption.
Qed.

(** r approximates 2^t *)
Lemma exp2_poly_rel x t : fin x -> (Rabs (V x) <= 1)%R -> (-1 <= t <= 1)%R -> (Rabs (V x - t) <= 9 / 100000000)%R ->
  fin (exp2_poly x) /\ (Rabs (V (exp2_poly x) - pow2 t) <= 1455 / 100000000 * pow2 t)%R /\
  (49998 / 100000 <= V (exp2_poly x) < 2)%R.
Proof.
  intros F H T D. destruct (exp2_poly_ok x F H) as [Fp E]. apply Rabs_le_inv in H.
  split; [exact Fp|]. pose proof (Pexp2_range (V x) H) as PR. split.
  - pose proof (Pexp2_err (V x) H) as PE.
    assert (E1 : (Rabs (Pexp2 (V x) / pow2 (V x) - 1) <= 1379 / 100000000)%R).
    { unfold pow2, Rdiv. rewrite <- exp_Ropp. replace (- (V x * ln 2))%R with (- V x * ln 2)%R by ring. exact PE. }
    assert (E2 : (Rabs (pow2 (V x) / pow2 t - 1) <= 7 / 100000000)%R).
    { unfold pow2, Rdiv. rewrite <- exp_Ropp, <- exp_plus.
      replace (V x * ln 2 + - (t * ln 2))%R with ((V x - t) * ln 2)%R by ring.
      set (w := (V x - t)%R) in *. apply Rabs_le_inv in D. clearbody w. interval with (i_prec 60). }
    assert (E3 : (Rabs (V (exp2_poly x) / Pexp2 (V x) - 1) <= 61 / 100000000)%R).
    { apply Rabs_rel; [lra|]. apply Rle_trans with (1 := E). lra. }
    apply Rabs_rel; [apply pow2_pos|]. pose proof (pow2_pos t). pose proof (pow2_pos (V x)).
    apply (rel_trans _ (pow2 (V x)) _ (1444 / 100000000) (7 / 100000000)); try lra.
    apply (rel_trans _ (Pexp2 (V x)) _ (61 / 100000000) (1379 / 100000000)); lra.
  - apply Rabs_le_inv in E. lra.
Qed.

(** ** fast_exp2 on [-126, 126] *)
Lemma big_const : pattern float32 0x7e800000 /\ fin 0x7e800000 /\ V 0x7e800000 = bpow radix2 126.
Proof.
  getc HC 0x7e800000. destruct HC as (A1 & A2 & A3). split; [exact A1|]. split; [exact A2|].
  rewrite A3. change (bpow radix2 126) with (IZR (2 ^ 126)). vm_compute (2 ^ 126). unfold Rdiv. rewrite Rinv_1. ring.
Qed.

Lemma small_const : pattern float32 0x00800000 /\ fin 0x00800000 /\ V 0x00800000 = bpow radix2 (-126).
Proof.
  assert (E : 0x00800000 = 1 * 2 ^ 23 + 0) by reflexivity. rewrite E. clear E.
  destruct (mk32 1 0) as (_ & _ & _ & A1); [lia|lia|]. destruct (V_mk 1 0) as (A2 & A3); [lia|lia|].
  split; [exact A1|]. split; [exact A2|].
  rewrite A3. rewrite Z.add_0_r. rewrite (IZR_Zpower radix2) by lia. rewrite <- bpow_plus. reflexivity.
Qed.

Lemma trunc_bounds x k : (- IZR k - 1 < x < IZR k + 1)%R -> 0 <= k -> - k <= Ztrunc x <= k.
Proof.
  intros B K. assert (0 <= IZR k)%R by now apply IZR_le. split.
  - destruct (Rle_or_lt 0 x); [apply Z.le_trans with 0; [lia|]; rewrite Ztrunc_floor by lra; apply Zfloor_lub; lra|].
    rewrite Ztrunc_ceil by lra. pose proof (Zceil_ub x). assert (- k - 1 < Zceil x); [|lia]. apply lt_IZR. rewrite minus_IZR, opp_IZR. lra.
  - destruct (Rle_or_lt 0 x); [rewrite Ztrunc_floor by lra; pose proof (Zfloor_lb x); assert (Zfloor x < k + 1); [apply lt_IZR; rewrite plus_IZR; lra|lia]|].
    apply Z.le_trans with 0; [|lia]. rewrite Ztrunc_ceil by lra. apply Zceil_glb. lra.
Qed.

(** 2^-126 missed by a hair: the result of the exponent arithmetic is subnormal *)
Lemma scale_sub r : pattern float32 r -> sgn float32 r = false -> exponent float32 r = 125 ->
  exists z, (r + ((-125) mod 2 ^ 32) * 2 ^ 23) mod 2 ^ 32 = z /\ pattern float32 z /\ fin z /\
    V z = ((2 * V r - / 2) * bpow radix2 (-125))%R /\ (V r < / 2)%R.
Proof.
  intros Pr Sr Em1. assert (Pr' := Pr). unfold pattern in Pr'. change (2 ^ (mw float32 + ew float32 + 1)) with (2 ^ 32) in Pr'.
  apply sgn_small in Sr; [|lia]. destruct (split32 r) as (Q & A & M); [lia|]. rewrite Em1 in Q. clear A.
  remember (mantissa float32 r) as mm eqn:Mm. clear Mm.
  exists mm. split.
  { assert (E : -125 mod 2 ^ 32 = 2 ^ 32 - 125) by reflexivity. rewrite E, Q.
    replace (125 * 2 ^ 23 + mm + (2 ^ 32 - 125) * 2 ^ 23) with (mm + 2 ^ 23 * 2 ^ 32) by ring.
    rewrite Z.mod_add by lia. apply Z.mod_small. lia. }
  destruct (V_mk0 _ M) as [FM VM]. 
  split; [unfold pattern; change (2 ^ (mw float32 + ew float32 + 1)) with (2 ^ 32); lia|]. split; [exact FM|].
  destruct (V_mk 125 mm) as [_ Vr]; [lia|lia|]. rewrite <- Q in Vr. change (125 - 150) with (-25) in Vr.
  assert (B25 : bpow radix2 (-25) = (/ 33554432)%R) by reflexivity. assert (B24 : bpow radix2 (-24) = (/ 16777216)%R) by reflexivity.
  split.
  - rewrite VM, Vr, plus_IZR, B25. replace (-149) with (-24 + -125) by reflexivity. rewrite bpow_plus, B24.
    replace (IZR (2 ^ 23)) with 8388608%R by reflexivity. field.
  - rewrite Vr, B25. assert (IZR (2 ^ 23 + mm) < 16777216)%R; [|lra]. apply (IZR_lt _ 16777216). lia.
Qed.

Lemma pow2_le a b : (a <= b)%R -> (pow2 a <= pow2 b)%R.
Proof.
  intros [H|H]; [|rewrite H; apply Rle_refl]. left. unfold pow2. apply exp_increasing.
  apply Rmult_lt_compat_r; [interval|exact H].
Qed.

Lemma pow2_0 : pow2 0 = 1%R.
Proof. unfold pow2. rewrite Rmult_0_l. apply exp_0. Qed.

Lemma pow2_m1 : pow2 (-1) = (/ 2)%R.
Proof. apply (pow2_bpow (-1)). Qed.

(** the common tail: t is the fractional part, r approximates 2^t *)
Lemma scale_rel r m t : pattern float32 r -> fin r -> -125 <= m <= 125 -> (-1 <= t <= 1)%R ->
  (m = -125 -> (t <= 0)%R) ->
  (Rabs (V r - pow2 t) <= 1455 / 100000000 * pow2 t)%R -> (49998 / 100000 <= V r < 2)%R ->
  exists z, (r + (m mod 2 ^ 32) * 2 ^ 23) mod 2 ^ 32 = z /\ pattern float32 z /\ fin z /\
    (Rabs (V z - pow2 (t + IZR m)) <= 3 / 100000 * pow2 (t + IZR m))%R /\
    ((-125 <= t + IZR m)%R -> (Rabs (V z - pow2 (t + IZR m)) <= 15 / 1000000 * pow2 (t + IZR m))%R).
Proof.
  intros Pr Fr mB Ty Tneg Er Br. assert (Sr : sgn float32 r = false).
  { destruct (sgn float32 r) eqn:S; [|reflexivity]. apply sgn_V in S; [lra|exact Pr|exact Fr]. }
  assert (E1 : -2 + 127 <= exponent float32 r).
  { apply V_binade; try assumption; [|lia]. replace (bpow radix2 (-2)) with (/ 4)%R by reflexivity. lra. }
  assert (E2 : exponent float32 r < 1 + 127).
  { apply V_binade_up; try assumption; [|lia]. replace (bpow radix2 1) with 2%R by reflexivity. lra. }
  rewrite pow2_plus, pow2_bpow. pose proof (pow2_pos t) as PP. pose proof (bpow_ge_0 radix2 m) as PB.
  assert (TOT : forall v k, (Rabs (v - pow2 t) <= k * pow2 t)%R ->
    (Rabs (v * bpow radix2 m - pow2 t * bpow radix2 m) <= k * (pow2 t * bpow radix2 m))%R).
  { intros v k Hk. rewrite <- Rmult_minus_distr_r, Rabs_mult, (Rabs_pos_eq (bpow radix2 m)) by exact PB.
    rewrite <- Rmult_assoc. apply Rmult_le_compat_r; [exact PB|exact Hk]. }
  destruct (Z.eq_dec (exponent float32 r + m) 0) as [Z0|Z0].
  - assert (Em : exponent float32 r = 125 /\ m = -125) by lia. destruct Em as [Em1 Em2]. subst m.
    destruct (scale_sub r Pr Sr Em1) as (z & Q & Pz & Fz & Vz & R1). exists z. split; [exact Q|]. split; [exact Pz|]. split; [exact Fz|].
    rewrite Vz. pose proof (pow2_le (-1) t (proj1 Ty)) as R2. rewrite pow2_m1 in R2. split.
    + apply TOT. apply Rabs_le_inv in Er. apply Rabs_le. lra.
    + intro HB. exfalso. assert (t = 0%R) by (specialize (Tneg eq_refl); lra). subst t. rewrite pow2_0 in Er. apply Rabs_le_inv in Er. lra.
  - destruct (scale_ok r m Pr Sr) as (Q & Pz & Fz & Vz); [lia|lia|]. rewrite Q. eexists. split; [reflexivity|].
    split; [exact Pz|]. split; [exact Fz|]. rewrite (Vz Fr). split; [|intros _]; apply TOT; lra.
Qed.

Lemma exp2_ok x : pattern float32 x -> fin x -> (-126 <= V x <= 126)%R ->
  exists r, fast_exp2 x = Ok r /\ pattern float32 r /\ fin r /\
    (Rabs (V r - pow2 (V x)) <= 3 / 100000 * pow2 (V x))%R /\
    ((-125 <= V x)%R -> (Rabs (V r - pow2 (V x)) <= 15 / 1000000 * pow2 (V x))%R).
Proof.
  intros P F B. destruct f126_ok as (P6 & F6 & W6). destruct fm126_ok as (P6' & F6' & W6').
  destruct (Rlt_or_le (V x) 126) as [L|L].
  2:{ exists 0x7e800000. split; [apply exp2_sat_hi; rewrite flt_ok by assumption; apply Rlt_bool_false; lra|].
      assert (V x = 126%R) by lra. rewrite H. rewrite (pow2_bpow 126). destruct big_const as (A1 & A2 & E). split; [exact A1|]. split; [exact A2|].
      rewrite E, Rminus_diag_eq, Rabs_R0 by reflexivity. pose proof (bpow_gt_0 radix2 126). split; intros; apply Rmult_le_pos; lra. }
  destruct (Rlt_or_le (-126) (V x)) as [L'|L'].
  2:{ exists 0x00800000. split; [apply exp2_sat_lo; rewrite flt_ok by assumption; [apply Rlt_bool_true; lra|apply Rlt_bool_false; lra]|].
      assert (V x = (-126)%R) by lra. rewrite H. rewrite (pow2_bpow (-126)). destruct small_const as (A1 & A2 & E). split; [exact A1|]. split; [exact A2|].
      rewrite E, Rminus_diag_eq, Rabs_R0 by reflexivity. pose proof (bpow_gt_0 radix2 (-126)). split; intros; apply Rmult_le_pos; lra. }
  unfold fast_exp2. fold f126.
  destruct (clamp_cases x (negf f126) f126 P6' F6' F6) as (C & _ & _); [lra|]. rewrite C by (try assumption; lra). clear C.
  destruct (f2i_ok x F) as [I IB]; [lra|]. rewrite I. cbn [bind]. cbv zeta.
  destruct (trunc_sub x F) as [Fs Vs]; [apply Rabs_le; lra|].
  pose proof (trunc_lt (V x)) as TL. rewrite <- Vs in TL.
  assert (mB : -125 <= Ztrunc (V x) <= 125) by (apply (trunc_bounds (V x) 125); [lra|lia]).
  assert (Tneg : Ztrunc (V x) = -125 -> (V (subf x (i2f (Ztrunc (V x)))) <= 0)%R).
  { intro E. rewrite Vs. destruct (Rle_or_lt 0 (V x)) as [K|K].
    - rewrite Ztrunc_floor in E by exact K. assert (0 <= Zfloor (V x)) by (apply Zfloor_lub; exact K). lia.
    - rewrite Ztrunc_ceil by lra. pose proof (Zceil_ub (V x)). lra. }
  generalize dependent (subf x (i2f (Ztrunc (V x)))). intros y Fs Vs TL Tneg.
  clear I IB. revert Vs Tneg mB. generalize (Ztrunc (V x)). intros m Vs Tneg mB.
  assert (VE : (V x = V y + IZR m)%R) by (rewrite Vs; ring). rewrite VE. clear VE.
  destruct (crush_one y Fs) as (Fc & Bc & Dc); [lra|].
  fold (crush f_one y).
  assert (Ty : (-1 <= V y <= 1)%R) by (apply Rabs_le_inv; lra).
  destruct (exp2_poly_rel (crush f_one y) (V y) Fc Bc Ty Dc) as (Fr & Er & Br).
  destruct (scale_rel (exp2_poly (crush f_one y)) m (V y)) as (z & Q & H); try assumption.
  { unfold exp2_poly. apply pat_madd. }
  rewrite Q. exists z. split; [reflexivity|exact H].
Qed.

(** ** exp *)
Lemma exp_sub_1 d e : (Rabs d <= e)%R -> (e <= 1 / 1000)%R -> (Rabs (exp d - 1) <= e * (1002 / 1000))%R.
Proof.
  intros H E. apply Rabs_le_inv in H.
  assert (A : (1 + d <= exp d)%R) by apply exp_ineq1_le.
  assert (B : (exp d * (1 - d) <= 1)%R).
  { pose proof (exp_ineq1_le (- d)). rewrite exp_Ropp in H0. pose proof (exp_pos d).
    apply Rmult_le_reg_l with (/ exp d)%R; [now apply Rinv_0_lt_compat|].
    rewrite <- Rmult_assoc, Rinv_l, Rmult_1_l, Rmult_1_r by lra. lra. }
  pose proof (exp_pos d). apply Rabs_le. split.
  - lra.
  - destruct (Rle_or_lt d 0) as [K|K].
    + assert (exp d <= 1)%R; [|lra]. rewrite <- exp_0. destruct K as [K|K]; [left; now apply exp_increasing|rewrite K; apply Rle_refl].
    + assert (exp d <= / (1 - d))%R. { apply Rmult_le_reg_r with (1 - d)%R; [lra|]. rewrite Rinv_l by lra. exact B. }
      assert (/ (1 - d) <= 1 + d * (1002 / 1000))%R.
      { apply Rmult_le_reg_r with (1 - d)%R; [lra|]. rewrite Rinv_l by lra. nra. }
      lra.
Qed.

Lemma exp_ok x : pattern float32 x -> fin x -> (Rabs (V x) <= 8733 / 100)%R ->
  exists r, exp_ x = Ok r /\ pattern float32 r /\ fin r /\
    (Rabs (V r - exp (V x)) <= (31 / 1000000 + Rabs (V x) / 10000000) * exp (V x))%R /\
    ((-866 / 10 <= V x)%R -> (Rabs (V r - exp (V x)) <= (16 / 1000000 + Rabs (V x) / 10000000) * exp (V x))%R).
Proof.
  intros P F B. unfold exp_. getc HC inv_ln2. destruct HC as (_ & FC & VC).
  set (c := inv_ln2) in *. clearbody c.
  set (ax := Rabs (V x)) in *.
  assert (A0 : (Rabs (V x * V c) <= ax * (14427 / 10000))%R).
  { rewrite Rabs_mult. apply Rmult_le_compat_l; [apply Rabs_pos|]. rewrite VC. interval. }
  assert (AP : (0 <= ax)%R) by apply Rabs_pos.
  destruct (mul_ok x c F FC) as [Fm Vm]; [apply (small_le127 _ 1000); lra|].
  assert (Pm := pat_mul x c). set (y := mulf x c) in *.
  pose proof (rnd_err' _ _ A0) as RE. rewrite <- Vm in RE. pose proof eta_small as ES. pose proof eta_pos as EP.
  (* distance of the exponent from x / ln 2 *)
  assert (CE : (Rabs (V c * ln 2 - 1) <= 134 / 10000000000)%R) by (rewrite VC; interval with (i_prec 60)).
  assert (L2 : (69 / 100 <= ln 2 <= 694 / 1000)%R) by (split; interval).
  assert (D : (Rabs (V y * ln 2 - V x) <= 74 / 1000000000 * ax + eta)%R).
  { replace (V y * ln 2 - V x)%R with ((V y - V x * V c) * ln 2 + V x * (V c * ln 2 - 1))%R by ring.
    apply Rle_trans with (1 := Rabs_triang _ _). rewrite !Rabs_mult. fold ax.
    apply Rle_trans with ((ax * (14427 / 10000) / 16777216 + eta) * (694 / 1000) + ax * (134 / 10000000000))%R; [|lra].
    apply Rplus_le_compat; [|apply Rmult_le_compat_l; assumption].
    apply Rmult_le_compat; [apply Rabs_pos|apply Rabs_pos|exact RE|]. rewrite Rabs_pos_eq; lra. }
  assert (BY : (-126 <= V y <= 126)%R).
  { assert (K : (Rabs (V x * V c) <= 125995 / 1000)%R). 
    { rewrite Rabs_mult. fold ax. apply Rle_trans with (8733 / 100 * Rabs (V c))%R; [apply Rmult_le_compat_r; [apply Rabs_pos|exact B]|rewrite VC; interval]. }
    apply Rabs_le_inv in K. apply Rabs_le_inv in RE. lra. }
  destruct (exp2_ok y Pm Fm BY) as (r & Q & Pr & Fr & E1 & E2). exists r. split; [exact Q|]. split; [exact Pr|]. split; [exact Fr|].
  pose proof (exp_sub_1 _ _ D) as XE. unfold pow2 in *.
  assert (XE' : (Rabs (exp (V y * ln 2) / exp (V x) - 1) <= 75 / 1000000000 * ax + 2 * eta)%R).
  { unfold Rdiv. rewrite <- exp_Ropp, <- exp_plus. apply Rle_trans with (1 := XE ltac:(lra)). lra. }
  pose proof (exp_pos (V x)). pose proof (exp_pos (V y * ln 2)).
  split.
  - apply Rabs_rel; [assumption|]. apply (rel_trans _ (exp (V y * ln 2)) _ (3 / 100000) (75 / 1000000000 * ax + 2 * eta)); try lra.
    apply Rabs_rel; assumption.
  - intro HB. apply Rabs_rel; [assumption|]. apply (rel_trans _ (exp (V y * ln 2)) _ (15 / 1000000) (75 / 1000000000 * ax + 2 * eta)); try lra.
    apply Rabs_rel; [assumption|]. apply E2.
    assert (K : (-1249999 / 10000 <= V x * V c)%R) by (rewrite VC; lra).
    apply Rabs_le_inv in RE. lra.
Qed.

(** ** Every argument, including the infinities and NaN *)
Lemma between_fin x lo hi : flt float32 lo x = true -> flt float32 x hi = true -> fin x.
Proof.
  unfold flt, fin. change (val float32 x) with (b32_of_bits x). destruct (b32_of_bits x) as [s|s|s pl e|s m e h]; intros A B; try reflexivity.
  - destruct s.
    + destruct (val float32 lo) as [u|[]|u pl e|u m e h]; cbn in A; discriminate.
    + destruct (val float32 hi) as [u|[]|u pl e|u m e h]; cbn in B; discriminate.
  - destruct (val float32 hi) as [u|[]|u pl' e'|u m e' h]; cbn in B; discriminate.
Qed.

Lemma sign_V x : fin x -> ((0 < V x)%R -> Bsign 24 128 (b32_of_bits x) = false) /\ ((V x < 0)%R -> Bsign 24 128 (b32_of_bits x) = true).
Proof.
  unfold fin, V. destruct (b32_of_bits x) as [s|s|s pl e|s m e h]; intro F; try discriminate F; cbn [B2R Bsign].
  - split; intro; lra.
  - destruct s; cbn [cond_Zopp]; split; intro H; try reflexivity; exfalso.
    + apply gt_0_F2R in H. cbn in H. lia.
    + apply lt_0_F2R in H. cbn in H. lia.
Qed.

Lemma mul_sat a b : fin a -> fin b ->
  ((126 <= V a * V b)%R -> flt float32 (mulf a b) f126 = false) /\
  ((V a * V b <= -126)%R -> flt float32 (mulf a b) f126 = true /\ flt float32 (negf f126) (mulf a b) = false).
Proof.
  intros A B. destruct f126_ok as (P6 & F6 & W6). destruct fm126_ok as (P6' & F6' & W6').
  pose proof (Bmult_correct 24 128 eq_refl eq_refl binop_nan_pl32 BinarySingleNaN.mode_NE (b32_of_bits a) (b32_of_bits b)) as C.
  change (round radix2 (SpecFloat.fexp 24 128) (BinarySingleNaN.round_mode BinarySingleNaN.mode_NE) (B2R 24 128 (b32_of_bits a) * B2R 24 128 (b32_of_bits b)))
    with (rnd (V a * V b)) in C.
  destruct (Rlt_bool (Rabs (rnd (V a * V b))) (bpow radix2 128)).
  - destruct C as (C1 & C2 & _). assert (Fm : fin (mulf a b)).
    { unfold fin, mulf. rewrite of_bits_of. etransitivity; [exact C2|]. unfold fin in A, B. now rewrite A, B. }
    assert (Vm : V (mulf a b) = rnd (V a * V b)) by (unfold V at 1, mulf; rewrite of_bits_of; exact C1).
    split; intro H.
    + rewrite flt_ok by assumption. apply Rlt_bool_false. rewrite W6, Vm, <- (rnd_IZR 126) by (cbn; lia). now apply rnd_le.
    + apply rnd_le in H. rewrite (rnd_IZR (-126)) in H by (cbn; lia).
      split; rewrite flt_ok by assumption; [apply Rlt_bool_true|apply Rlt_bool_false]; lra.
  - unfold BinarySingleNaN.binary_overflow in C. cbn in C.
    assert (D : forall s, xorb (Bsign 24 128 (b32_of_bits a)) (Bsign 24 128 (b32_of_bits b)) = s ->
      val float32 (mulf a b) = B754_infinity 24 128 s).
    { intros s <-. change (val float32 (mulf a b)) with (b32_of_bits (mulf a b)). unfold mulf. rewrite of_bits_of.
      apply B2FF_inj. rewrite <- C at 1. reflexivity. }
    destruct (sign_V a A) as [SA1 SA2]. destruct (sign_V b B) as [SB1 SB2].
    split; intro H.
    + assert (K : xorb (Bsign 24 128 (b32_of_bits a)) (Bsign 24 128 (b32_of_bits b)) = false).
      { destruct (Rtotal_order (V a) 0) as [Z|[Z|Z]].
        - rewrite SA2, SB2 by nra. reflexivity.
        - rewrite Z, Rmult_0_l in H. lra.
        - rewrite SA1, SB1 by nra. reflexivity. }
      unfold flt. rewrite (D _ K). vm_compute. reflexivity.
    + assert (K : xorb (Bsign 24 128 (b32_of_bits a)) (Bsign 24 128 (b32_of_bits b)) = true).
      { destruct (Rtotal_order (V a) 0) as [Z|[Z|Z]].
        - rewrite SA2, SB1 by nra. reflexivity.
        - rewrite Z, Rmult_0_l in H. lra.
        - rewrite SA1, SB2 by nra. reflexivity. }
      unfold flt. rewrite (D _ K). split; vm_compute; reflexivity.
Qed.

Lemma exp2_total x : pattern float32 x ->
  exists r, fast_exp2 x = Ok r /\ pattern float32 r /\ fin r /\ (0 < V r < bpow radix2 127)%R.
Proof.
  intro P. destruct (flt float32 x f126) eqn:A.
  2:{ exists 0x7e800000. split; [now apply exp2_sat_hi|]. destruct big_const as (B1 & B2 & B3). rewrite B3. pose proof (bpow_gt_0 radix2 126).
      split; [exact B1|]. split; [exact B2|]. split; [lra|]. apply bpow_lt. lia. }
  destruct (flt float32 (negf f126) x) eqn:B.
  2:{ exists 0x00800000. split; [now apply exp2_sat_lo|]. destruct small_const as (B1 & B2 & B3). rewrite B3. pose proof (bpow_gt_0 radix2 (-126)).
      split; [exact B1|]. split; [exact B2|]. split; [lra|]. apply bpow_lt. lia. }
  assert (F := between_fin x _ _ B A). destruct f126_ok as (P6 & F6 & W6). destruct fm126_ok as (P6' & F6' & W6').
  rewrite flt_ok in A, B by assumption. rewrite W6 in A. rewrite W6' in B.
  assert (BB : (-126 <= V x <= 126)%R).
  { revert A B. destruct (Rlt_bool_spec (V x) 126); [|discriminate]. destruct (Rlt_bool_spec (-126) (V x)); [|discriminate]. lra. }
  destruct (exp2_ok x P F BB) as (r & Q & Pr & Fr & E & _). exists r. split; [exact Q|]. split; [exact Pr|]. split; [exact Fr|].
  pose proof (pow2_pos (V x)). apply Rabs_le_inv in E. split; [lra|].
  pose proof (pow2_le (V x) 126 (proj2 BB)) as K. rewrite (pow2_bpow 126) in K.
  change 127 with (126 + 1). rewrite bpow_plus. replace (bpow radix2 1) with 2%R by reflexivity.
  pose proof (bpow_gt_0 radix2 126). lra.
Qed.

Lemma exp_total x : exists r, exp_ x = Ok r /\ pattern float32 r /\ fin r /\ (0 < V r < bpow radix2 127)%R.
Proof. apply exp2_total, pat_mul. Qed.

Lemma exp_sat x : pattern float32 x -> fin x ->
  ((8734 / 100 <= V x)%R -> exp_ x = Ok 0x7e800000) /\ ((V x <= - (8734 / 100))%R -> exp_ x = Ok 0x00800000).
Proof.
  intros P F. unfold exp_. getc HC inv_ln2. destruct HC as (_ & FC & VC). set (c := inv_ln2) in *. clearbody c.
  destruct (mul_sat x c F FC) as [H1 H2]. split; intro H.
  - apply exp2_sat_hi, H1. rewrite VC. lra.
  - destruct H2 as [A B]; [rewrite VC; lra|]. now apply exp2_sat_lo.
Qed.
