(** The argument reduction shared by sin, cos and tan. *)
From Coq Require Import ZArith Bool Lia Reals Lra Psatz.
From Flocq Require Import Core IEEE754.Binary IEEE754.Bits.
From Interval Require Import Tactic.
From Verif Require Import Mem AlgoModel FpModel FpProofs RoundModel RoundProofs LitModel LimModel FmathModel FmathReal FmathStep FmathExp.
Open Scope R_scope.

(** ** fast_rint *)
Lemma half_ok : pattern float32 f_half /\ fin f_half /\ V f_half = / 2.
Proof. getc H f_half. destruct H as (A & B & C). split; [exact A|]. split; [exact B|]. rewrite C. lra. Qed.

Lemma rint_ok y : pattern float32 y -> fin y -> Rabs (V y) <= 8191 ->
  exists q, fast_rint y = Ok q /\ (Z.abs q <= 8191)%Z /\ Rabs (V y - IZR q) <= / 2 + / 4096.
Proof.
  intros P F B. unfold fast_rint. destruct half_ok as (Ph & Fh & Vh).
  destruct (copysign_ok f_half y Ph P Fh) as (Pc & Fc & Vc). rewrite Vh, (Rabs_pos_eq (/ 2)) in Vc by lra.
  destruct (sgn_V y P F) as [S1 S2]. apply Rabs_le_inv in B.
  assert (SB : Rabs (V y + V (copysign f_half y)) <= bpow radix2 13).
  { replace (bpow radix2 13) with 8192 by reflexivity. rewrite Vc. apply Rabs_le. destruct (sgn float32 y); lra. }
  destruct (add_ok y (copysign f_half y) F Fc) as [Fa Va]; [apply Rle_trans with (1 := SB); apply bpow_le; lia|].
  assert (E : Rabs (rnd (V y + V (copysign f_half y)) - (V y + V (copysign f_half y))) <= bpow radix2 (13 - 25)) by (apply rnd_err_bpow; [lia|exact SB]).
  replace (bpow radix2 (13 - 25)) with (/ 4096) in E by reflexivity. rewrite <- Va in E.
  set (z := addf y (copysign f_half y)) in *. clearbody z. apply Rabs_le_inv in E.
  destruct (f2i_ok z Fa) as [I _]; [rewrite Vc in E; destruct (sgn float32 y); lra|]. rewrite I.
  exists (Ztrunc (V z)). split; [reflexivity|]. rewrite Vc in E, Va.
  destruct (sgn float32 y).
  - specialize (S1 eq_refl). assert (Z0 : V z <= 0).
    { rewrite Va, <- rnd_0. apply rnd_le. lra. }
    assert (Z1 : IZR (-16383) * bpow radix2 (-1) <= V z).
    { rewrite Va, <- (rnd_F2R (-16383) (-1)) by lia. apply rnd_le. replace (bpow radix2 (-1)) with (/ 2) by reflexivity. lra. }
    replace (bpow radix2 (-1)) with (/ 2) in Z1 by reflexivity.
    rewrite Ztrunc_ceil by exact Z0. pose proof (Zceil_ub (V z)) as U.
    assert (L : IZR (Zceil (V z)) < V z + 1).
    { unfold Zceil. rewrite opp_IZR. pose proof (Zfloor_ub (- V z)). lra. }
    split.
    + assert (Zceil (V z) <= 0)%Z by (apply Zceil_glb; exact Z0).
      assert (-8192 < Zceil (V z))%Z by (apply lt_IZR; lra). lia.
    + apply Rabs_le. lra.
  - specialize (S2 eq_refl). assert (Z0 : 0 <= V z).
    { rewrite Va, <- rnd_0. apply rnd_le. lra. }
    assert (Z1 : V z <= IZR 16383 * bpow radix2 (-1)).
    { rewrite Va, <- (rnd_F2R 16383 (-1)) by lia. apply rnd_le. replace (bpow radix2 (-1)) with (/ 2) by reflexivity. lra. }
    replace (bpow radix2 (-1)) with (/ 2) in Z1 by reflexivity.
    rewrite Ztrunc_floor by exact Z0. pose proof (Zfloor_ub (V z)) as U. pose proof (Zfloor_lb (V z)) as L.
    split.
    + assert (0 <= Zfloor (V z))%Z by (apply Zfloor_lub; exact Z0).
      assert (Zfloor (V z) < 8192)%Z by (apply lt_IZR; lra). lia.
    + apply Rabs_le. lra.
Qed.

(** ** Exact subtraction of the first two parts *)
Lemma V_multiple x e : bpow radix2 e <= Rabs (V x) -> (-126 <= e)%Z -> exists M : Z, V x = IZR M * bpow radix2 (e - 23).
Proof.
  intros B E. assert (G := V_format x). assert (N : V x <> 0).
  { intro Z. rewrite Z, Rabs_R0 in B. pose proof (bpow_gt_0 radix2 e). lra. }
  assert (Hm : (e + 1 <= mag radix2 (V x))%Z) by (apply mag_ge_bpow; replace (e + 1 - 1)%Z with e by lia; exact B).
  unfold generic_format in G. set (c := cexp radix2 fexp32 (V x)) in *.
  assert (C : (e - 23 <= c)%Z) by (unfold c, cexp, FLT_exp; lia).
  exists (Ztrunc (scaled_mantissa radix2 fexp32 (V x)) * 2 ^ (c - (e - 23)))%Z.
  rewrite G at 1. unfold F2R. cbn [Fnum Fexp]. fold c. rewrite mult_IZR, Rmult_assoc. f_equal.
  rewrite (IZR_Zpower radix2) by lia. rewrite <- bpow_plus. f_equal. lia.
Qed.

Lemma V_binary x e : bpow radix2 e <= Rabs (V x) < bpow radix2 (e + 1) -> (-126 <= e)%Z ->
  exists M : Z, V x = IZR M * bpow radix2 (e - 23).
Proof. intros [B _]. now apply V_multiple. Qed.

(** a float minus a multiple of a coarser unit *)
Lemma sub_exact x k e f : (-126 <= e)%Z -> (e - 23 <= f)%Z -> bpow radix2 e <= Rabs (V x) ->
  Rabs (V x - IZR k * bpow radix2 f) < bpow radix2 (e + 1) ->
  rnd (V x - IZR k * bpow radix2 f) = V x - IZR k * bpow radix2 f.
Proof.
  intros E Ef B D. destruct (V_multiple x e B E) as [M HM].
  assert (R : V x - IZR k * bpow radix2 f = IZR (M - k * 2 ^ (f - (e - 23))) * bpow radix2 (e - 23)).
  { rewrite HM, minus_IZR, mult_IZR, (IZR_Zpower radix2) by lia. rewrite Rmult_minus_distr_r, Rmult_assoc, <- bpow_plus.
    do 3 f_equal. lia. }
  rewrite R in *. apply rnd_F2R; [|lia].
  rewrite Rabs_mult, (Rabs_pos_eq (bpow radix2 (e - 23))) in D by apply bpow_ge_0.
  replace (e + 1)%Z with (24 + (e - 23))%Z in D by lia. rewrite bpow_plus in D.
  apply Rmult_lt_reg_r in D; [|apply bpow_gt_0]. rewrite <- abs_IZR in D. apply lt_IZR. exact D.
Qed.

Lemma mul_exact q c n f : (Z.abs q < 2 ^ 24)%Z -> fin c -> V c = IZR n * bpow radix2 f -> (Z.abs (q * n) < 2 ^ 24)%Z -> (-149 <= f <= 0)%Z ->
  fin (mulf (i2f q) c) /\ V (mulf (i2f q) c) = IZR (q * n) * bpow radix2 f.
Proof.
  intros Hq Fc Vc Hn Hf. destruct (i2f_ok q Hq) as [Fq Vq].
  assert (E : V (i2f q) * V c = IZR (q * n) * bpow radix2 f) by (rewrite Vq, Vc, mult_IZR; ring).
  destruct (mul_ok (i2f q) c Fq Fc) as [Fm Vm].
  { rewrite E, Rabs_mult, (Rabs_pos_eq (bpow radix2 f)) by apply bpow_ge_0. rewrite <- abs_IZR.
    apply Rle_trans with (bpow radix2 24 * bpow radix2 f).
    - apply Rmult_le_compat_r; [apply bpow_ge_0|]. apply (IZR_le _ (2 ^ 24)). lia.
    - rewrite <- bpow_plus. apply bpow_le. lia. }
  split; [exact Fm|]. rewrite Vm, E. apply rnd_F2R; lia.
Qed.

(** ** The reduction by multiples of pi 2^-h *)
Lemma reduce_ok h n x q : (0 <= h <= 1)%Z ->
  (V (pi_part1 n) = IZR (-201) * bpow radix2 (-6 - h) /\ V (pi_part2 n) = IZR (-2029) * bpow radix2 (-21 - h) /\
   V (pi_part3 n) = IZR (-1297) * bpow radix2 (-33 - h) /\ V (pi_part4 n) = IZR (-11821338) * bpow radix2 (-61 - h)) ->
  (fin (pi_part1 n) /\ fin (pi_part2 n) /\ fin (pi_part3 n) /\ fin (pi_part4 n)) ->
  fin x -> (Z.abs q <= 8191)%Z -> Rabs (V x - IZR q * (PI * bpow radix2 (- h))) <= 15745 / 10000 * bpow radix2 (- h) ->
  fin (reduce n (i2f q) x) /\ Rabs (V (reduce n (i2f q) x) - (V x - IZR q * (PI * bpow radix2 (- h)))) <= 1195 / 10000000000 * bpow radix2 (- h).
Proof.
  intros Hh (V1 & V2 & V3 & V4) (F1 & F2 & F3 & F4) F Hq T. unfold reduce. cbv zeta.
  set (w := bpow radix2 (- h)) in *.
  assert (W : / 2 <= w <= 1).
  { unfold w. split; [change (/ 2) with (bpow radix2 (-1))|change 1 with (bpow radix2 0)]; apply bpow_le; lia. }
  destruct (i2f_ok q ltac:(lia)) as [Fq Vq].
  assert (K1 : bpow radix2 (-6 - h) = w / 64) by (unfold w; replace (-6 - h)%Z with (- h + -6)%Z by lia; rewrite bpow_plus; reflexivity).
  assert (K2 : bpow radix2 (-21 - h) = w / 2097152) by (unfold w; replace (-21 - h)%Z with (- h + -21)%Z by lia; rewrite bpow_plus; reflexivity).
  assert (K3 : bpow radix2 (-33 - h) = w / 8589934592) by (unfold w; replace (-33 - h)%Z with (- h + -33)%Z by lia; rewrite bpow_plus; reflexivity).
  assert (K4 : bpow radix2 (-61 - h) = w / 2305843009213693952) by (unfold w; replace (-61 - h)%Z with (- h + -61)%Z by lia; rewrite bpow_plus; reflexivity).
  assert (QB : -8191 <= IZR q <= 8191) by (split; apply IZR_le; lia).
  destruct (mul_exact q _ _ _ ltac:(lia) F1 V1 ltac:(lia) ltac:(lia)) as [G1 W1].
  destruct (mul_exact q _ _ _ ltac:(lia) F2 V2 ltac:(lia) ltac:(lia)) as [G2 W2].
  destruct (mul_exact q _ _ _ ltac:(lia) F3 V3 ltac:(lia) ltac:(lia)) as [G3 W3].
  assert (PB : 314159265358979 / 100000000000000 <= PI <= 314159265358980 / 100000000000000) by (split; interval with (i_prec 80)).
  set (t := V x - IZR q * (PI * w)) in *. assert (T' := T). apply Rabs_le_inv in T'.
  assert (QW : -8191 * w <= IZR q * w <= 8191 * w) by (split; apply Rmult_le_compat_r; lra).
  set (qw := IZR q * w) in *.
  assert (Xt : V x = t + PI * qw) by (unfold t, qw; ring).
  (* the three exact stages as real numbers *)
  assert (E1 : V (mulf (i2f q) (pi_part1 n)) = - (201 / 64 * qw)) by (rewrite W1, K1, mult_IZR; unfold qw; field).
  assert (E2 : V (mulf (i2f q) (pi_part2 n)) = - (2029 / 2097152 * qw)) by (rewrite W2, K2, mult_IZR; unfold qw; field).
  assert (E3 : V (mulf (i2f q) (pi_part3 n)) = - (1297 / 8589934592 * qw)) by (rewrite W3, K3, mult_IZR; unfold qw; field).
  assert (P1 : -8191 * w * (98 / 100000) <= (PI - 201 / 64) * qw <= 8191 * w * (98 / 100000)).
  { assert (A : 0 <= PI - 201 / 64 <= 98 / 100000) by lra. clear -A QW W. nra. }
  assert (P2 : - w * (13 / 10000) <= (PI - 201 / 64 - 2029 / 2097152) * qw <= w * (13 / 10000)).
  { assert (A : 0 <= PI - 201 / 64 - 2029 / 2097152 <= 1511 / 10000000000) by lra. clear -A QW W. nra. }
  assert (P3 : - w * (43 / 1000000000) <= (PI - 201 / 64 - 2029 / 2097152 - 1297 / 8589934592) * qw <= w * (43 / 1000000000)).
  { assert (A : 0 <= PI - 201 / 64 - 2029 / 2097152 - 1297 / 8589934592 <= 52 / 10000000000000) by lra. clear -A QW W. nra. }
  assert (P4 : - w * (1 / 1000000000000) <= (PI - 201 / 64 - 2029 / 2097152 - 1297 / 8589934592 - 11821338 / 2305843009213693952) * qw <= w * (1 / 1000000000000)).
  { assert (A : - (1 / 10000000000000000) <= PI - 201 / 64 - 2029 / 2097152 - 1297 / 8589934592 - 11821338 / 2305843009213693952 <= 1 / 10000000000000000)
      by (split; interval with (i_prec 80)). clear -A QW W. nra. }
  assert (B1 : bpow radix2 (1 - h) = 2 * w) by (unfold w; replace (1 - h)%Z with (- h + 1)%Z by lia; rewrite bpow_plus; replace (bpow radix2 1) with 2 by reflexivity; ring).
  assert (S2 : fin (madd (i2f q) (pi_part2 n) (madd (i2f q) (pi_part1 n) x)) /\
    V (madd (i2f q) (pi_part2 n) (madd (i2f q) (pi_part1 n) x)) = t + (PI - 201 / 64 - 2029 / 2097152) * qw).
  { unfold madd. destruct (add_ok (mulf (i2f q) (pi_part1 n)) x G1 F) as [H1 Y1].
    { rewrite E1, Xt. apply (le127 _ 100); [apply Rabs_le; lra|lra]. }
    assert (X1 : V (addf (mulf (i2f q) (pi_part1 n)) x) = t + (PI - 201 / 64) * qw).
    { rewrite Y1. destruct (Z.eq_dec q 0) as [Z|Z].
      - assert (Q0 : qw = 0) by (unfold qw; rewrite Z; ring). rewrite E1, Q0. replace (- (201 / 64 * 0) + V x) with (V x) by ring.
        rewrite rnd_V, Xt, Q0. ring.
      - assert (QN : w <= Rabs qw).
        { unfold qw. rewrite Rabs_mult, (Rabs_pos_eq w) by lra. rewrite <- (Rmult_1_l w) at 1. apply Rmult_le_compat_r; [lra|].
          rewrite <- abs_IZR. apply (IZR_le 1). lia. }
        assert (XN : w <= Rabs (V x) /\ Rabs qw <= Rabs (V x) / 3 + 53 / 100 * w).
        { rewrite Xt. clear -PB T' QN W. unfold Rabs in *. destruct (Rcase_abs qw), (Rcase_abs (t + PI * qw)); nra. }
        destruct XN as [XN XQ]. destruct (mag radix2 (V x)) as [m Hm]. assert (XZ : V x <> 0).
        { intro Q. rewrite Q, Rabs_R0 in XN. lra. }
        specialize (Hm XZ). set (e := (m - 1)%Z). replace m with (e + 1)%Z in Hm by (unfold e; lia). replace (e + 1 - 1)%Z with e in Hm by lia.
        assert (He : (- h <= e <= 14)%Z).
        { split.
          - assert (- h < e + 1)%Z; [|lia]. apply (lt_bpow radix2). fold w. lra.
          - assert (e < 15)%Z; [|lia]. apply (lt_bpow radix2). apply Rle_lt_trans with (1 := proj1 Hm). rewrite Xt.
            replace (bpow radix2 15) with 32768 by reflexivity. apply Rabs_lt. clear -PB T' QW W. split; nra. }
        assert (XE : V x - IZR (q * 201) * bpow radix2 (-6 - h) = t + (PI - 201 / 64) * qw).
        { rewrite K1, mult_IZR, Xt. unfold qw. field. }
        rewrite E1 || idtac. replace (- (201 / 64 * qw) + V x) with (V x - IZR (q * 201) * bpow radix2 (-6 - h)) by (rewrite K1, mult_IZR; unfold qw; field).
        rewrite (sub_exact x (q * 201) e (-6 - h)); [exact XE|lia|lia|apply Hm|].
        rewrite XE. apply Rle_lt_trans with (16 / 10 * w + 1 / 1000 * Rabs (V x)).
        + apply Rle_trans with (1 := Rabs_triang _ _). rewrite (Rabs_mult (PI - 201 / 64)), (Rabs_pos_eq (PI - 201 / 64)) by lra.
          assert ((PI - 201 / 64) * Rabs qw <= 98 / 100000 * Rabs qw) by (apply Rmult_le_compat_r; [apply Rabs_pos|lra]). lra.
        + destruct (Rle_or_lt (2 * w) (Rabs (V x))) as [C|C]; [lra|].
          apply Rlt_le_trans with (bpow radix2 (1 - h)); [rewrite B1; lra|]. apply bpow_le. lia. }
    set (x1 := addf (mulf (i2f q) (pi_part1 n)) x) in *. clearbody x1.
    destruct (add_ok (mulf (i2f q) (pi_part2 n)) x1 G2 H1) as [H2 Y2].
    { rewrite E2, X1. apply (le127 _ 100); [apply Rabs_le; lra|lra]. }
    split; [exact H2|]. rewrite Y2, E2, X1.
    replace (- (2029 / 2097152 * qw) + (t + (PI - 201 / 64) * qw)) with (t + (PI - 201 / 64 - 2029 / 2097152) * qw) by ring.
    destruct (Z.eq_dec q 0) as [Z|Z].
    - assert (Q0 : qw = 0) by (unfold qw; rewrite Z; ring). replace (t + (PI - 201 / 64 - 2029 / 2097152) * qw) with (V x) by (rewrite Xt, Q0; ring).
      apply rnd_V.
    - assert (XN : bpow radix2 (- h) <= Rabs (V x)).
      { fold w. assert (QN : w <= Rabs qw).
        { unfold qw. rewrite Rabs_mult, (Rabs_pos_eq w) by lra. rewrite <- (Rmult_1_l w) at 1. apply Rmult_le_compat_r; [lra|].
          rewrite <- abs_IZR. apply (IZR_le 1). lia. }
        rewrite Xt. clear -PB T' QN W. unfold Rabs in *. destruct (Rcase_abs qw), (Rcase_abs (t + PI * qw)); nra. }
      destruct (V_multiple x (- h) XN ltac:(lia)) as [M HM].
      assert (K0 : bpow radix2 (- h - 23) = w / 8388608) by (unfold w; replace (- h - 23)%Z with (- h + -23)%Z by lia; rewrite bpow_plus; reflexivity).
      assert (R : t + (PI - 201 / 64 - 2029 / 2097152) * qw = IZR (M - q * 201 * 2 ^ 17 - q * 2029 * 4) * bpow radix2 (- h - 23)).
      { replace (t + (PI - 201 / 64 - 2029 / 2097152) * qw) with (V x - (201 / 64 + 2029 / 2097152) * qw) by (rewrite Xt; ring).
        rewrite HM, K0, !minus_IZR, !mult_IZR. unfold qw. replace (IZR (2 ^ 17)) with 131072 by reflexivity. field. }
      rewrite R. apply rnd_F2R; [|lia].
      assert (AB : Rabs (IZR (M - q * 201 * 2 ^ 17 - q * 2029 * 4) * bpow radix2 (- h - 23)) < 2 * w) by (rewrite <- R; apply Rabs_lt; lra).
      rewrite Rabs_mult, (Rabs_pos_eq (bpow radix2 (- h - 23))) in AB by apply bpow_ge_0. rewrite K0, <- abs_IZR in AB.
      apply lt_IZR. change (IZR (2 ^ 24)) with 16777216. apply Rmult_lt_reg_r with (w / 8388608); lra. }
  destruct S2 as [H2 X2]. set (x2 := madd (i2f q) (pi_part2 n) (madd (i2f q) (pi_part1 n) x)) in *. clearbody x2.
  (* the two rounded stages *)
  unfold madd. destruct (add_ok (mulf (i2f q) (pi_part3 n)) x2 G3 H2) as [H3 Y3].
  { rewrite E3, X2. apply (le127 _ 100); [apply Rabs_le; lra|lra]. }
  assert (R3 : Rabs (V (addf (mulf (i2f q) (pi_part3 n)) x2) - (t + (PI - 201 / 64 - 2029 / 2097152 - 1297 / 8589934592) * qw)) <= w / 16777216).
  { rewrite Y3, E3, X2. replace (- (1297 / 8589934592 * qw) + (t + (PI - 201 / 64 - 2029 / 2097152) * qw))
      with (t + (PI - 201 / 64 - 2029 / 2097152 - 1297 / 8589934592) * qw) by ring.
    apply Rle_trans with (bpow radix2 (1 - h - 25)).
    - apply rnd_err_bpow; [lia|]. rewrite B1. apply Rabs_le. lra.
    - right. unfold w. replace (1 - h - 25)%Z with (- h + -24)%Z by lia. rewrite bpow_plus. reflexivity. }
  set (x3 := addf (mulf (i2f q) (pi_part3 n)) x2) in *. clearbody x3. apply Rabs_le_inv in R3.
  assert (Q4 : Rabs (V (i2f q) * V (pi_part4 n)) <= 1 / 1000000 * w).
  { rewrite Vq, V4, K4. replace (IZR q * (IZR (-11821338) * (w / 2305843009213693952))) with (- (11821338 / 2305843009213693952) * qw) by (unfold qw; field).
    apply Rabs_le. lra. }
  destruct (mul_ok (i2f q) (pi_part4 n) Fq F4) as [G4 W4]; [apply (le127 _ 1); [lra|lra]|].
  pose proof (rnd_err' _ _ Q4) as R4. rewrite <- W4 in R4. rewrite Vq, V4, K4 in R4.
  replace (IZR q * (IZR (-11821338) * (w / 2305843009213693952))) with (- (11821338 / 2305843009213693952) * qw) in R4 by (unfold qw; field).
  apply Rabs_le_inv in R4. pose proof eta_small as ES. pose proof eta_pos as EP.
  destruct (add_ok (mulf (i2f q) (pi_part4 n)) x3 G4 H3) as [H4 Y4].
  { apply (le127 _ 100); [apply Rabs_le; lra|lra]. }
  split; [exact H4|]. rewrite Y4.
  assert (R5 : Rabs (rnd (V (mulf (i2f q) (pi_part4 n)) + V x3) - (V (mulf (i2f q) (pi_part4 n)) + V x3)) <= bpow radix2 (1 - h - 25)).
  { apply rnd_err_bpow; [lia|]. rewrite B1. apply Rabs_le. lra. }
  replace (bpow radix2 (1 - h - 25)) with (w / 16777216) in R5 by (unfold w; replace (1 - h - 25)%Z with (- h + -24)%Z by lia; rewrite bpow_plus; reflexivity).
  apply Rabs_le_inv in R5. apply Rabs_le. lra.
Qed.
