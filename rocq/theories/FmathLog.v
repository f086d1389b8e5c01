(** fast_log2, log and log10: error bounds. *)
From Coq Require Import ZArith Bool Lia Reals Lra Psatz.
From Flocq Require Import Core IEEE754.Binary IEEE754.Bits.
From Interval Require Import Tactic.
From Verif Require Import Mem AlgoModel FpModel FpProofs RoundModel RoundProofs LitModel LimModel FmathModel FmathReal FmathStep FmathExp.
Open Scope R_scope.

Definition Plog2 (t : R) : R := ((((t * t) * (t * t)) * (t * (t * (t * (t * (-9997069 / 1073741824) + (13976009 / 268435456)) + (-9229565 / 67108864)) + (16231869 / 67108864)) + (-11653638 / 33554432))) + (t * (t * (t * (16061997 / 33554432) + (-12099156 / 16777216)) + (12102160 / 8388608)))).

Lemma Plog2_err t : 0 <= t <= 1 -> Rabs (Plog2 t - ln (1 + t) / ln 2) <= 824 / 10000000000.
Proof. intro H. unfold Plog2. interval with (i_bisect t, i_taylor t, i_prec 60, i_degree 12, i_depth 30). Qed.

Lemma log2_poly_ok x t : fin x -> V x = t -> 0 <= t <= 1 -> appr (log2_poly x) (Plog2 t) (5055 / 10000000000).
Proof.
  intros F E H. assert (Kx := appr_val x t F E).
  getk Ka0 (negf (lit 931049621349 (-14))).
  getk Ka1 (lit 5206469089414 (-14)).
  getk Kb0 (lit 47868480909345 (-14)).
  getk Kb1 (negf (lit 72116591947498 (-14))).
  getk Ka2 (negf (lit 13753123777116 (-14))).
  getk Ka3 (lit 24187369696082 (-14)).
  getk Ka4 (negf (lit 34730547155299 (-14))).
  getk Kb2 (lit 1442689881667200 (-15)).
  stepm Kf2 Kx Kx (1003 / 1000) (1003 / 1000) (5997 / 100000000000) t.
  stepm Kf4 Kf2 Kf2 (1003 / 1000) (1003 / 1000) (1803 / 10000000000) t.
  stepf Kh1 Kx Ka0 Ka1 (1003 / 1000) (9330 / 1000000) (5217 / 100000) (5579 / 10000000000000) (3668 / 1000000000000) t.
  stepf Kl1 Kx Kb0 Kb1 (1003 / 1000) (4797 / 10000) (7227 / 10000) (2869 / 100000000000) (7178 / 100000000000) t.
  stepf Kh2 Kx Kh1 Ka2 (1003 / 1000) (5217 / 100000) (1379 / 10000) (6799 / 1000000000000) (1502 / 100000000000) t.
  stepf Kh3 Kx Kh2 Ka3 (1003 / 1000) (1379 / 10000) (2424 / 10000) (2332 / 100000000000) (3778 / 100000000000) t.
  stepf Kh4 Kx Kh3 Ka4 (1003 / 1000) (2424 / 10000) (3481 / 10000) (5240 / 100000000000) (7316 / 100000000000) t.
  stepf Kl2 Kx Kl1 Kb2 (1003 / 1000) (7227 / 10000) (1446 / 1000) (1153 / 10000000000) (2016 / 10000000000) t.
  stepm Kp1 Kf4 Kh4 (1003 / 1000) (3481 / 10000) (1570 / 10000000000) t.
  stepm Kp2 Kx Kl2 (1003 / 1000) (1446 / 1000) (2887 / 10000000000) t.
  stepa Kr Kp1 Kp2 (1002 / 1000) (5055 / 10000000000) t.
  exact Kr.
Qed.

(** ** The clamp of fast_log2 *)
Lemma lim_min_ok : pattern float32 lim_min /\ fin lim_min /\ V lim_min = bpow radix2 (-126).
Proof. exact small_const. Qed.

Lemma lim_max_ok : pattern float32 lim_max /\ fin lim_max /\ V lim_max = bpow radix2 128 - bpow radix2 104.
Proof.
  getc HC lim_max. destruct HC as (A1 & A2 & A3). split; [exact A1|]. split; [exact A2|].
  rewrite A3. replace (bpow radix2 128) with (IZR (2 ^ 128)) by reflexivity. replace (bpow radix2 104) with (IZR (2 ^ 104)) by reflexivity.
  rewrite <- minus_IZR. unfold Rdiv. rewrite Rinv_1, Rmult_1_r. apply f_equal. vm_compute. reflexivity.
Qed.

Lemma V_inj x y : pattern float32 x -> pattern float32 y -> fin x -> fin y -> V x = V y -> V x <> 0 -> x = y.
Proof.
  intros P Q Fx Fy E N. unfold pattern in P, Q. change (2 ^ (mw float32 + ew float32 + 1))%Z with (2 ^ 32)%Z in P, Q.
  rewrite <- (bits_of_binary_float_of_bits 23 8 eq_refl eq_refl eq_refl x) by exact P.
  rewrite <- (bits_of_binary_float_of_bits 23 8 eq_refl eq_refl eq_refl y) by exact Q. f_equal.
  change (b32_of_bits x = b32_of_bits y). revert Fx Fy E N. unfold fin, V.
  destruct (b32_of_bits x) as [s|s|s pl e|s m e h]; intros Fx; try discriminate Fx; [intros _ _ N; now elim N|].
  intros Fy E N. apply B2R_Bsign_inj; try assumption; try reflexivity.
  destruct (b32_of_bits y) as [s'|s'|s' pl e'|s' m' e' h']; try discriminate Fy; [elim N; exact E|].
  cbn [B2R Bsign cond_Zopp] in *. destruct s, s'; try reflexivity; exfalso; cbn [cond_Zopp] in E.
  - assert (F2R (Float radix2 (Z.neg m) e) < 0) by (apply F2R_lt_0; reflexivity).
    assert (0 < F2R (Float radix2 (Z.pos m') e')) by (apply F2R_gt_0; reflexivity). cbn [Z.opp] in *. lra.
  - assert (F2R (Float radix2 (Z.neg m') e') < 0) by (apply F2R_lt_0; reflexivity).
    assert (0 < F2R (Float radix2 (Z.pos m) e)) by (apply F2R_gt_0; reflexivity). cbn [Z.opp] in *. lra.
Qed.

Lemma V_max x : fin x -> Rabs (V x) <= bpow radix2 128 - bpow radix2 104.
Proof. intros _. unfold V. apply (abs_B2R_le_emax_minus_prec 24 128). reflexivity. Qed.

Lemma clamp_normal x : pattern float32 x -> fin x -> bpow radix2 (-126) <= V x -> clamp float32 x lim_min lim_max = x.
Proof.
  intros P F B. destruct lim_min_ok as (Pl & Fl & Wl). destruct lim_max_ok as (Ph & Fh & Wh).
  pose proof (V_max x F) as M. apply Rabs_le_inv in M.
  assert (LT : V lim_min < V lim_max).
  { rewrite Wl, Wh. assert (bpow radix2 (-126) < bpow radix2 104) by (apply bpow_lt; lia).
    assert (bpow radix2 105 <= bpow radix2 128) by (apply bpow_le; lia). change 105%Z with (104 + 1)%Z in H0. rewrite bpow_plus in H0.
    replace (bpow radix2 1) with 2 in H0 by reflexivity. lra. }
  assert (N : V x <> 0) by (pose proof (bpow_gt_0 radix2 (-126)); lra).
  destruct (clamp_cases x lim_min lim_max Pl Fl Fh LT) as (C1 & C2 & C3).
  destruct (Req_dec (V x) (V lim_max)) as [E|E].
  { rewrite C2; [symmetry; now apply V_inj|]. rewrite flt_ok by assumption. apply Rlt_bool_false. lra. }
  destruct (Req_dec (V x) (V lim_min)) as [E'|E'].
  { rewrite C3; [symmetry; now apply V_inj| |]; rewrite flt_ok by assumption; [apply Rlt_bool_true|apply Rlt_bool_false]; lra. }
  apply C1; [exact F|]. lra.
Qed.

(** The fields of a positive normal number. *)
Lemma log2_fields x : pattern float32 x -> fin x -> bpow radix2 (-126) <= V x ->
  exists E M, (1 <= E <= 254 /\ 0 <= M < 2 ^ 23 /\ x = E * 2 ^ 23 + M /\
    x / 2 ^ 23 - 127 = E - 127 /\ Z.lor (Z.land x 0x007FFFFF) 0x3f800000 = 127 * 2 ^ 23 + M)%Z /\
    V x = (1 + IZR M / 8388608) * bpow radix2 (E - 127).
Proof.
  intros P F B. assert (N := bpow_gt_0 radix2 (-126)).
  pose proof (V_pos_fields x P F ltac:(lra)) as R. pose proof (V_binade x (-126) P F B ltac:(lia)) as EB.
  destruct (split32 x) as (Q & A & M); [lia|].
  exists (exponent float32 x), (mantissa float32 x).
  set (E := exponent float32 x) in *. set (m := mantissa float32 x) in *. clearbody E m.
  assert (E < 255)%Z by lia.
  assert (X1 : (x / 2 ^ 23 = E)%Z) by (rewrite Q, Z.add_comm, Z.div_add by lia; rewrite Z.div_small by lia; lia).
  assert (X2 : (Z.land x 0x007FFFFF = m)%Z).
  { change 0x007FFFFF%Z with (Z.ones 23). rewrite Z.land_ones by lia. rewrite Q, Z.add_comm, Z.mod_add by lia. apply Z.mod_small. lia. }
  assert (X3 : (Z.lor m 0x3f800000 = 127 * 2 ^ 23 + m)%Z).
  { rewrite Z.lor_comm. symmetry. apply Z.add_nocarry_lxor || idtac. 
    assert (LA : (Z.land (127 * 2 ^ 23) m = 0)%Z).
    { rewrite <- (Z.mod_small m (2 ^ 23)) by lia. rewrite <- Z.land_ones by lia. rewrite (Z.land_comm m), Z.land_assoc.
      replace (Z.land (127 * 2 ^ 23) (Z.ones 23)) with 0%Z by reflexivity. apply Z.land_0_l. }
    rewrite <- Z.add_nocarry_lxor || idtac. change 0x3f800000%Z with (127 * 2 ^ 23)%Z. rewrite Z.add_nocarry_lxor by exact LA. now apply Z.lxor_lor. }
  split.
  - rewrite X1, X2, X3. lia.
  - destruct (V_mk E m) as [_ W]; [lia|lia|]. rewrite <- Q in W. rewrite W, plus_IZR.
    replace (E - 150)%Z with (-23 + (E - 127))%Z by lia. rewrite bpow_plus.
    replace (bpow radix2 (-23)) with (/ 8388608) by reflexivity. replace (IZR (2 ^ 23)) with 8388608 by reflexivity. field.
Qed.

Lemma rnd_near y g : generic_format radix2 fexp32 g -> Rabs (rnd y - y) <= Rabs (g - y).
Proof.
  intro H. assert (VE : Valid_exp fexp32) by (apply FLT_exp_valid; reflexivity).
  destruct (round_N_pt radix2 fexp32 (fun x => negb (Z.even x)) y) as [_ K]. exact (K g H).
Qed.

Definition log2 (x : R) : R := ln x / ln 2.

Lemma log2_bpow a k : 0 < a -> log2 (a * bpow radix2 k) = log2 a + IZR k.
Proof.
  intro H. unfold log2. rewrite bpow_exp, ln_mult, ln_exp by (try assumption; apply exp_pos).
  assert (ln 2 <> 0) by (assert (0 < ln 2) by interval; lra). field. assumption.
Qed.

Lemma log2_ok x : pattern float32 x -> fin x -> bpow radix2 (-126) <= V x ->
  fin (fast_log2 x) /\ Rabs (V (fast_log2 x) - log2 (V x)) <= 6 / 10000000 + 6 / 100000000 * Rabs (log2 (V x)) /\
  Rabs (V (fast_log2 x) - log2 (V x)) <= 45 / 10000000 /\ Rabs (log2 (V x)) <= 128.
Proof.
  intros P F B. unfold fast_log2. rewrite (clamp_normal x P F B). cbv zeta.
  destruct (log2_fields x P F B) as (E & M & (HE & HM & Q & X1 & X2) & W). rewrite X1, X2.
  destruct (V_mk 127 M) as [F1 V1]; [lia|lia|]. destruct one_ok as (_ & Fo & Vo).
  set (t := IZR M / 8388608) in *.
  assert (MB : 0 <= IZR M <= 8388607) by (split; apply IZR_le; lia).
  assert (V1' : V (127 * 2 ^ 23 + M) = 1 + t).
  { rewrite V1, plus_IZR. replace (bpow radix2 (127 - 150)) with (/ 8388608) by reflexivity.
    replace (IZR (2 ^ 23)) with 8388608 by reflexivity. unfold t. field. }
  assert (T : 0 <= t <= 1) by (unfold t; lra).
  destruct (sub_ok (127 * 2 ^ 23 + M) f_one F1 Fo) as [Fs Vs]; [rewrite V1', Vo; apply (le127 _ 2); [apply Rabs_le; lra|lra]|].
  assert (Vt : V (subf (127 * 2 ^ 23 + M) f_one) = t).
  { rewrite Vs, V1', Vo. replace (1 + t - 1) with (IZR M * bpow radix2 (-23)).
    - rewrite rnd_F2R by lia. unfold t. reflexivity.
    - replace (bpow radix2 (-23)) with (/ 8388608) by reflexivity. unfold t. field. }
  destruct (i2f_ok (E - 127)) as [Fi Vi]; [lia|].
  assert (K := log2_poly_ok _ t Fs Vt T). pose proof (Plog2_err t T) as PE.
  set (r := log2_poly (subf (127 * 2 ^ 23 + M) f_one)) in *. clearbody r.
  assert (K1 : appr r (log2 (1 + t)) (589 / 1000000000)).
  { apply (appr_shift _ _ _ _ _ _ K PE). lra. }
  assert (K2 := appr_val _ _ Fi Vi).
  assert (LB : 0 <= log2 (1 + t) <= 1).
  { unfold log2. assert (A : 0 <= ln (1 + t) <= ln 2).
    { split; [rewrite <- ln_1; apply Rcomplements.ln_le|apply Rcomplements.ln_le]; lra. }
    assert (L2 : 0 < ln 2) by interval. split.
    - apply Rmult_le_pos; [lra|]. left. now apply Rinv_0_lt_compat.
    - apply Rmult_le_reg_r with (ln 2); [lra|]. unfold Rdiv. rewrite Rmult_assoc, Rinv_l, Rmult_1_r by lra. lra. }
  assert (LE : log2 (V x) = log2 (1 + t) + IZR (E - 127)) by (rewrite W; apply log2_bpow; lra).
  assert (EB : -126 <= IZR (E - 127) <= 127) by (split; apply IZR_le; lia).
  pose proof eta_small. pose proof eta_pos.
  assert (A1 : appr (addf r (i2f (E - 127))) (log2 (1 + t) + IZR (E - 127)) (6 / 10000000 + 6 / 100000000 * Rabs (log2 (V x)))).
  { apply (appr_add _ _ _ _ _ _ _ _ K1 K2 (Rle_refl _)).
    - rewrite <- LE. assert (Rabs (log2 (V x)) <= 128) by (rewrite LE; apply Rabs_le; lra). lra.
    - rewrite <- LE. pose proof (Rabs_pos (log2 (V x))). lra. }
  rewrite LE at 1 3 4. rewrite LE. split; [apply A1|]. split; [rewrite LE in A1; apply A1|]. split.
  - assert (D : Rabs (log2 (1 + t) + IZR (E - 127)) <= 128) by (apply Rabs_le; lra).
    destruct K1 as [Fr K1]. apply Rabs_le_inv in K1.
    destruct (add_ok r (i2f (E - 127)) Fr Fi) as [Fa Va]; [rewrite Vi; apply (le127 _ 200); [apply Rabs_le; lra|lra]|].
    rewrite Va, Vi.
    assert (R : Rabs (rnd (V r + IZR (E - 127)) - (V r + IZR (E - 127))) <= 3815 / 1000000000).
    { destruct (Rle_or_lt (V r + IZR (E - 127)) 128) as [C|C].
      - apply Rle_trans with (bpow radix2 (7 - 25)); [apply rnd_err_bpow; [lia|]|replace (bpow radix2 (7 - 25)) with (/ 262144) by reflexivity; lra].
        replace (bpow radix2 7) with 128 by reflexivity. apply Rabs_le. lra.
      - apply Rle_trans with (Rabs (bpow radix2 7 - (V r + IZR (E - 127)))).
        + apply rnd_near. rewrite <- (rnd_bpow 7) by lia. apply generic_format_round; [apply FLT_exp_valid; reflexivity|apply valid_rnd_N].
        + replace (bpow radix2 7) with 128 by reflexivity. apply Rabs_le. lra. }
    apply Rabs_le_inv in R. apply Rabs_le. lra.
  - apply Rabs_le. lra.
Qed.

(** ** log and log10 *)
Lemma fin_zero : fin 0 /\ V 0 = 0.
Proof. split; [reflexivity|]. reflexivity. Qed.

Lemma V_one_iff x : pattern float32 x -> fin x -> V x = 1 -> x = f_one.
Proof. intros P F E. destruct one_ok as (P1 & F1 & V1). apply V_inj; try assumption; lra. Qed.

Lemma nonzero_guard x : fin x -> V x <> 0 -> is_zero_ float32 x = false.
Proof.
  intros F N. rewrite iszero_spec. change (val float32 x) with (b32_of_bits x). revert F N. unfold fin, V.
  destruct (b32_of_bits x); intros F N; try reflexivity; try discriminate F. now elim N.
Qed.

(** The product with the constant, k = the power of two above the results *)
Lemma log_scale y c L C e1 a k : fin y -> fin c -> Rabs (V y - L) <= e1 -> Rabs L <= 128 -> e1 <= 1 / 1000 ->
  0 < V c < 1 -> Rabs (V c - C) <= a -> (-100 <= k <= 100)%Z -> Rabs (V y * V c) <= bpow radix2 k ->
  fin (mulf y c) /\ Rabs (V (mulf y c) - L * C) <= e1 * V c + a * Rabs L + bpow radix2 (k - 25) /\
  Rabs (V (mulf y c) - L * C) <= e1 * V c + a * Rabs L + (Rabs L * V c + e1 * V c) / 16777216 + eta.
Proof.
  intros Fy Fc H1 HL He Hc HC Hk HB.
  destruct (mul_ok y c Fy Fc) as [Fm Vm]; [apply Rle_trans with (1 := HB); apply bpow_le; lia|].
  assert (D : Rabs (V y * V c - L * C) <= e1 * V c + a * Rabs L).
  { replace (V y * V c - L * C) with ((V y - L) * V c + (V c - C) * L) by ring.
    apply Rle_trans with (1 := Rabs_triang _ _). rewrite !Rabs_mult, (Rabs_pos_eq (V c)) by lra.
    apply Rplus_le_compat; apply Rmult_le_compat_r; try assumption; [lra|apply Rabs_pos]. }
  assert (B : Rabs (V y * V c) <= Rabs L * V c + e1 * V c).
  { rewrite Rabs_mult, (Rabs_pos_eq (V c)) by lra. rewrite <- Rmult_plus_distr_r. apply Rmult_le_compat_r; [lra|].
    replace (V y) with (L + (V y - L)) by ring. apply Rle_trans with (1 := Rabs_triang _ _). lra. }
  assert (R1 : Rabs (rnd (V y * V c) - V y * V c) <= bpow radix2 (k - 25)) by (apply rnd_err_bpow; [lia|exact HB]).
  pose proof (rnd_err' _ _ B) as R2.
  split; [exact Fm|]. rewrite Vm.
  replace (rnd (V y * V c) - L * C) with ((rnd (V y * V c) - V y * V c) + (V y * V c - L * C)) by ring.
  split; apply Rle_trans with (1 := Rabs_triang _ _); lra.
Qed.

Lemma log_guard x y z : pattern float32 x -> fin x -> 0 < V x -> x <> f_one ->
  (if is_zero_ float32 x then negf lim_inf else if (x =? f_one)%Z then y else if flt float32 x fzero then lim_inf else z) = z.
Proof.
  intros P F B E. rewrite nonzero_guard by (try assumption; lra). destruct (Z.eqb_spec x f_one); [contradiction|].
  destruct fin_zero as [F0 V0]. assert (Z0 : flt float32 x fzero = false).
  { change fzero with 0%Z. rewrite flt_ok by assumption. apply Rlt_bool_false. lra. }
  now rewrite Z0.
Qed.

Lemma log_num y c L C lo hi d : fin y -> fin c ->
  Rabs (V y - L) <= 6 / 10000000 + 6 / 100000000 * Rabs L -> Rabs (V y - L) <= 45 / 10000000 -> Rabs L <= 128 ->
  Rabs (V c - C) <= d -> 0 < lo -> lo < V c < hi -> lo < C < hi -> hi < 1 -> forall k, (-100 <= k <= 100)%Z -> 129 * hi <= bpow radix2 k ->
  fin (mulf y c) /\
  Rabs (V (mulf y c) - L * C) <= (6 / 10000000 + 6 / 100000000 * Rabs L) * hi + d * Rabs L + (Rabs L * hi + 1 / 1000) / 16777216 + eta /\
  Rabs (V (mulf y c) - L * C) <= 45 / 10000000 * hi + d * 128 + bpow radix2 (k - 25) /\
  Rabs L * lo <= Rabs (L * C).
Proof.
  intros Fy FC D1 D2 D3 EC L0 BC BC' H1 k Hk B.
  pose proof (Rabs_pos L) as LP. pose proof eta_small. pose proof eta_pos.
  assert (D0 : 0 <= d) by (apply Rle_trans with (2 := EC); apply Rabs_pos).
  assert (YB : Rabs (V y * V c) <= bpow radix2 k).
  { rewrite Rabs_mult, (Rabs_pos_eq (V c)) by lra.
    assert (Rabs (V y) <= 129).
    { replace (V y) with (L + (V y - L)) by ring. apply Rle_trans with (1 := Rabs_triang _ _). lra. }
    apply Rle_trans with (2 := B). apply Rmult_le_compat; try lra. apply Rabs_pos. }
  assert (AL1 : Rabs L * lo <= Rabs (L * C)) by (rewrite Rabs_mult, (Rabs_pos_eq C) by lra; apply Rmult_le_compat_l; lra).
  assert (AL2 : Rabs L * V c <= Rabs L * hi) by (apply Rmult_le_compat_l; lra).
  assert (AL3 : d * Rabs L <= d * 128) by (apply Rmult_le_compat_l; lra).
  destruct (log_scale y c L C _ _ k Fy FC D1 D3 ltac:(lra) ltac:(lra) EC Hk YB) as (FM & _ & M2).
  destruct (log_scale y c L C _ _ k Fy FC D2 D3 ltac:(lra) ltac:(lra) EC Hk YB) as (_ & M1 & _).
  split; [exact FM|]. split; [|split; [|exact AL1]].
  - apply Rle_trans with (1 := M2).
    assert ((6 / 10000000 + 6 / 100000000 * Rabs L) * V c <= (6 / 10000000 + 6 / 100000000 * Rabs L) * hi) by (apply Rmult_le_compat_l; lra).
    assert ((6 / 10000000 + 6 / 100000000 * Rabs L) * V c <= 1 / 1000 * 1) by (apply Rmult_le_compat; lra).
    lra.
  - apply Rle_trans with (1 := M1). lra.
Qed.

Lemma ln2_const : fin (d2f kM_LN2) /\ Rabs (V (d2f kM_LN2) - ln 2) <= 191 / 100000000000 /\ 693147 / 1000000 < V (d2f kM_LN2) < 693148 / 1000000.
Proof.
  getc HC (d2f kM_LN2). destruct HC as (_ & FC & VC). split; [exact FC|]. rewrite VC. split; [interval with (i_prec 60)|]. split; interval.
Qed.

Lemma lg2_const : let c := d2f (divd kM_LN2 kM_LN10) in fin c /\ Rabs (V c - ln 2 / ln 10) <= 15 / 1000000000 /\ 30102 / 100000 < V c < 30104 / 100000.
Proof.
  cbv zeta. getc HC (d2f (divd kM_LN2 kM_LN10)). destruct HC as (_ & FC & VC). split; [exact FC|]. rewrite VC. split; [interval with (i_prec 60)|]. split; interval.
Qed.

Lemma log_one : fin (log_ f_one) /\ V (log_ f_one) = 0 /\ fin (log10_ f_one) /\ V (log10_ f_one) = 0.
Proof.
  destruct fin_zero. assert (E : log_ f_one = 0%Z) by (vm_compute; reflexivity). assert (E' : log10_ f_one = 0%Z) by (vm_compute; reflexivity).
  rewrite E, E'. tauto.
Qed.

Lemma log_ok x : pattern float32 x -> fin x -> bpow radix2 (-126) <= V x ->
  fin (log_ x) /\ Rabs (V (log_ x) - ln (V x)) <= 45 / 100000000 + 13 / 100000000 * Rabs (ln (V x)) /\
  Rabs (V (log_ x) - ln (V x)) <= 72 / 10000000.
Proof.
  intros P F B. assert (N := bpow_gt_0 radix2 (-126)).
  destruct (Z.eq_dec x f_one) as [E|E].
  { subst x. destruct one_ok as (_ & _ & V1). destruct log_one as (A1 & A2 & _). rewrite A2, V1, ln_1, Rminus_0_r, Rabs_R0. split; [exact A1|]. lra. }
  assert (Q : log_ x = mulf (fast_log2 x) (d2f kM_LN2)) by (apply log_guard; try assumption; lra). rewrite Q. clear Q.
  destruct (log2_ok x P F B) as (Fy & D1 & D2 & D3). destruct ln2_const as (FC & EC & BC).
  assert (L2 : 693147 / 1000000 < ln 2 < 693148 / 1000000) by (split; interval).
  assert (EL : ln (V x) = log2 (V x) * ln 2) by (unfold log2; field; lra).
  destruct (log_num _ _ _ _ (693147 / 1000000) (693148 / 1000000) _ Fy FC D1 D2 D3 EC ltac:(lra) BC L2 ltac:(lra) 7%Z ltac:(lia)) as (M1 & M2 & M3 & M4).
  { replace (bpow radix2 7) with 128 by reflexivity. lra. }
  rewrite <- EL in M2, M3, M4. pose proof eta_small. pose proof (Rabs_pos (log2 (V x))). split; [exact M1|]. split.
  - lra.
  - apply Rle_trans with (1 := M3). replace (bpow radix2 (7 - 25)) with (/ 262144) by reflexivity. lra.
Qed.

Lemma log10_ok x : pattern float32 x -> fin x -> bpow radix2 (-126) <= V x ->
  fin (log10_ x) /\ Rabs (V (log10_ x) - ln (V x) / ln 10) <= 20 / 100000000 + 17 / 100000000 * Rabs (ln (V x) / ln 10) /\
  Rabs (V (log10_ x) - ln (V x) / ln 10) <= 53 / 10000000.
Proof.
  intros P F B. assert (N := bpow_gt_0 radix2 (-126)).
  destruct (Z.eq_dec x f_one) as [E|E].
  { subst x. destruct one_ok as (_ & _ & V1). destruct log_one as (_ & _ & A1 & A2). rewrite A2, V1, ln_1.
    replace (0 / ln 10) with 0 by (unfold Rdiv; ring). rewrite Rminus_0_r, Rabs_R0. split; [exact A1|]. lra. }
  assert (Q : log10_ x = mulf (fast_log2 x) (d2f (divd kM_LN2 kM_LN10))) by (apply log_guard; try assumption; lra). rewrite Q. clear Q.
  destruct (log2_ok x P F B) as (Fy & D1 & D2 & D3). destruct lg2_const as (FC & EC & BC).
  assert (L2 : 30102 / 100000 < ln 2 / ln 10 < 30104 / 100000) by (split; interval).
  assert (EL : ln (V x) / ln 10 = log2 (V x) * (ln 2 / ln 10)).
  { unfold log2. assert (0 < ln 2) by interval. assert (0 < ln 10) by interval. field. lra. }
  destruct (log_num _ _ _ _ (30102 / 100000) (30104 / 100000) _ Fy FC D1 D2 D3 EC ltac:(lra) BC L2 ltac:(lra) 6%Z ltac:(lia)) as (M1 & M2 & M3 & M4).
  { replace (bpow radix2 6) with 64 by reflexivity. lra. }
  rewrite <- EL in M2, M3, M4. pose proof eta_small. pose proof (Rabs_pos (log2 (V x))). split; [exact M1|]. split.
  - lra.
  - apply Rle_trans with (1 := M3). replace (bpow radix2 (6 - 25)) with (/ 524288) by reflexivity. lra.
Qed.

(** Zero, subnormal and negative numbers are clamped to 2^-126. *)
Lemma log2_clamp x : fin x -> V x <= bpow radix2 (-126) -> fast_log2 x = negf (lit 126 0).
Proof.
  intros F B. destruct lim_min_ok as (Pl & Fl & Wl). destruct lim_max_ok as (Ph & Fh & Wh).
  assert (LT : V lim_min < V lim_max).
  { rewrite Wl, Wh. assert (bpow radix2 (-126) < bpow radix2 104) by (apply bpow_lt; lia).
    assert (bpow radix2 105 <= bpow radix2 128) by (apply bpow_le; lia). change 105%Z with (104 + 1)%Z in H0. rewrite bpow_plus in H0.
    replace (bpow radix2 1) with 2 in H0 by reflexivity. lra. }
  destruct (clamp_cases x lim_min lim_max Pl Fl Fh LT) as (_ & _ & C3). unfold fast_log2.
  rewrite C3; [vm_compute; reflexivity| |]; rewrite flt_ok by assumption; [apply Rlt_bool_true|apply Rlt_bool_false]; lra.
Qed.
