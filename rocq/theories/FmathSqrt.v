(** sqrt: error bound of the guess and of the Newton step. *)
From Coq Require Import ZArith Bool Lia Reals Lra Psatz.
From Flocq Require Import Core IEEE754.Binary IEEE754.Bits.
From Interval Require Import Tactic.
From Verif Require Import Mem AlgoModel FpModel FpProofs RoundModel LitModel LimModel FmathModel FmathReal FmathStep FmathExp FmathLog FmathReduce.
Open Scope R_scope.

Lemma three_halves_ok : pattern float32 f_three_halves /\ fin f_three_halves /\ V f_three_halves = 3 / 2.
Proof. getc H f_three_halves. destruct H as (A & B & C). split; [exact A|]. split; [exact B|]. rewrite C. lra. Qed.

(** relative error of rounding, for numbers of at least half the least normal *)
Lemma rnd_rel2 y : bpow radix2 (-127) <= Rabs y -> exists e, Rabs e <= / 5000000 /\ rnd y = y * (1 + e).
Proof.
  intro H. assert (P := bpow_gt_0 radix2 (-127)). assert (Y0 : y <> 0) by (intro Z; rewrite Z, Rabs_R0 in H; lra).
  exists ((rnd y - y) / y). split; [|field; exact Y0].
  unfold Rdiv. rewrite Rabs_mult, Rabs_inv. apply Rmult_le_reg_r with (Rabs y); [lra|]. rewrite Rmult_assoc, Rinv_l, Rmult_1_r by lra.
  apply Rle_trans with (1 := rnd_err y). replace (bpow radix2 (-150)) with (bpow radix2 (-23 + -127)) by reflexivity. rewrite bpow_plus.
  replace (bpow radix2 (-24)) with (/ 16777216) by (cbn; lra). replace (bpow radix2 (-23)) with (/ 8388608) by (cbn; lra). lra.
Qed.

Lemma rnd_rel1 y L : bpow radix2 (-126) <= L -> L <= Rabs y -> exists e, Rabs e <= / 5000000 /\ rnd y = y * (1 + e).
Proof. intros H1 H2. apply rnd_rel2. apply Rle_trans with (2 := H2). apply Rle_trans with (2 := H1). apply bpow_le. lia. Qed.

(** ** The guess *)
Lemma guess_num n d c s : 1 <= n < 2 -> 0 <= d <= / 8388608 -> 
  (c = 12016095 / 8388608 /\ s = / 2 /\ n <= 186487 / 100000) \/ (c = 20404703 / 8388608 /\ s = / 8 /\ 186486 / 100000 <= n) \/
  (c = 16210399 / 8388608 /\ s = / 4) ->
  93242 / 100000 <= (c - (n - 1) / 2 + d) * (c - (n - 1) / 2 + d) * n * s <= 106909 / 100000.
Proof.
  intros Hn Hd [(-> & -> & H)|[(-> & -> & H)|(-> & ->)]].
  - split; interval with (i_bisect n, i_depth 20, i_prec 50).
  - split; interval with (i_bisect n, i_depth 20, i_prec 50).
  - split; interval with (i_bisect n, i_depth 20, i_prec 50).
Qed.

Lemma guess_form E M : (1 <= E < 255)%Z -> (0 <= M < 2 ^ 23)%Z ->
  exists P e1, fin (sqrt_guess (E * 2 ^ 23 + M)) /\ V (sqrt_guess (E * 2 ^ 23 + M)) = IZR P * bpow radix2 e1 /\ pattern float32 (sqrt_guess (E * 2 ^ 23 + M)) /\
    ((P = 12016095 - M / 2 /\ 2 * e1 + (E - 150) = -70 /\ M / 2 <= 3627487) \/
     (P = 20404703 - M / 2 /\ 2 * e1 + (E - 150) = -72 /\ 3627487 < M / 2) \/
     (P = 16210399 - M / 2 /\ 2 * e1 + (E - 150) = -71))%Z.
Proof.
  intros HE HM.
  assert (G : sqrt_guess (E * 2 ^ 23 + M) = (0x5f3759df - (E * 2 ^ 23 + M) / 2)%Z).
  { unfold sqrt_guess, FloatToInt, IntToFloat. rewrite (proj2 (Z.ltb_lt _ _)) by lia. rewrite Z.shiftr_div_pow2 by lia. change (2 ^ 1)%Z with 2%Z.
    apply Z.mod_small. assert (0 <= (E * 2 ^ 23 + M) / 2 < 2 ^ 30)%Z; [|lia]. split; [apply Z.div_pos; lia|apply Z.div_lt_upper_bound; lia]. }
  rewrite G. clear G.
  assert (HH : (0 <= M / 2 < 2 ^ 22)%Z) by (split; [apply Z.div_pos; lia|apply Z.div_lt_upper_bound; lia]).
  assert (PAT : forall e m, (0 < e < 255)%Z -> (0 <= m < 2 ^ 23)%Z -> pattern float32 (e * 2 ^ 23 + m)) by (intros e m H1 H2; split; cbn; lia).
  destruct (Z.Even_or_Odd E) as [[k ->]|[k ->]].
  - replace ((2 * k * 2 ^ 23 + M) / 2)%Z with (k * 2 ^ 23 + M / 2)%Z by (replace (2 * k * 2 ^ 23 + M)%Z with (M + (k * 2 ^ 23) * 2)%Z by ring; rewrite Z.div_add by lia; ring).
    destruct (Z_le_gt_dec (M / 2) 3627487) as [L|L].
    + replace (0x5f3759df - (k * 2 ^ 23 + M / 2))%Z with ((190 - k) * 2 ^ 23 + (3627487 - M / 2))%Z by lia.
      destruct (V_mk (190 - k) (3627487 - M / 2)) as [A B]; [lia|lia|].
      exists (12016095 - M / 2)%Z, (40 - k)%Z. split; [exact A|]. split; [|split; [apply PAT; lia|left; lia]].
      rewrite B. f_equal; [f_equal; lia|f_equal; lia].
    + replace (0x5f3759df - (k * 2 ^ 23 + M / 2))%Z with ((189 - k) * 2 ^ 23 + (12016095 - M / 2))%Z by lia.
      destruct (V_mk (189 - k) (12016095 - M / 2)) as [A B]; [lia|lia|].
      exists (20404703 - M / 2)%Z, (39 - k)%Z. split; [exact A|]. split; [|split; [apply PAT; lia|right; left; lia]].
      rewrite B. f_equal; [f_equal; lia|f_equal; lia].
  - replace (((2 * k + 1) * 2 ^ 23 + M) / 2)%Z with (k * 2 ^ 23 + 2 ^ 22 + M / 2)%Z by (replace ((2 * k + 1) * 2 ^ 23 + M)%Z with (M + (k * 2 ^ 23 + 2 ^ 22) * 2)%Z by ring; rewrite Z.div_add by lia; ring).
    replace (0x5f3759df - (k * 2 ^ 23 + 2 ^ 22 + M / 2))%Z with ((189 - k) * 2 ^ 23 + (7821791 - M / 2))%Z by lia.
    destruct (V_mk (189 - k) (7821791 - M / 2)) as [A B]; [lia|lia|].
    exists (16210399 - M / 2)%Z, (39 - k)%Z. split; [exact A|]. split; [|split; [apply PAT; lia|right; right; lia]].
    rewrite B. f_equal; [f_equal; lia|f_equal; lia].
Qed.

Lemma half_down M : exists d, 0 <= d <= / 2 /\ IZR (M / 2) = IZR M / 2 - d.
Proof.
  exists (IZR (M mod 2) / 2). assert (H := Z.mod_pos_bound M 2 eq_refl). assert (D := Z.div_mod M 2 ltac:(lia)).
  assert (0 <= IZR (M mod 2) <= 1) by (split; apply IZR_le; lia). split; [lra|].
  apply (f_equal IZR) in D. rewrite plus_IZR, mult_IZR in D. lra.
Qed.

Lemma guess_sq E M : (1 <= E < 255)%Z -> (0 <= M < 2 ^ 23)%Z ->
  let x := (E * 2 ^ 23 + M)%Z in let U := V (sqrt_guess x) in
  pattern float32 (sqrt_guess x) /\ fin (sqrt_guess x) /\ 0 < U /\ 93242 / 100000 <= U * U * V x <= 106909 / 100000.
Proof.
  intros HE HM x U. destruct (guess_form E M HE HM) as (P & e & F & W & PT & C). fold x in F, W, PT. split; [exact PT|]. split; [exact F|].
  assert (P0 : (0 < P)%Z).
  { assert (HH : (0 <= M / 2 < 2 ^ 22)%Z) by (split; [apply Z.div_pos; lia|apply Z.div_lt_upper_bound; lia]). lia. }
  assert (U0 : 0 < U) by (unfold U; rewrite W; apply Rmult_lt_0_compat; [now apply IZR_lt|apply bpow_gt_0]). split; [exact U0|].
  destruct (V_mk E M) as [_ VX]; [lia|lia|]. fold x in VX. unfold U. rewrite W, VX.
  replace (IZR P * bpow radix2 e * (IZR P * bpow radix2 e) * (IZR (2 ^ 23 + M) * bpow radix2 (E - 150)))
    with (IZR P * IZR P * IZR (2 ^ 23 + M) * (bpow radix2 e * bpow radix2 e * bpow radix2 (E - 150))) by ring.
  rewrite <- !bpow_plus. replace (e + e + (E - 150))%Z with (2 * e + (E - 150))%Z by ring.
  destruct (half_down M) as (d & D1 & D2). rewrite plus_IZR.
  assert (MB : 0 <= IZR M <= 8388607) by (split; apply IZR_le; lia).
  set (n := 1 + IZR M / 8388608).
  assert (K : forall c s, IZR P = 8388608 * (c - (n - 1) / 2 + d / 8388608) -> bpow radix2 (2 * e + (E - 150)) = s / 8388608 / 8388608 / 8388608 ->
     IZR P * IZR P * (IZR (2 ^ 23) + IZR M) * bpow radix2 (2 * e + (E - 150)) = (c - (n - 1) / 2 + d / 8388608) * (c - (n - 1) / 2 + d / 8388608) * n * s).
  { intros c s HP HB. rewrite HP, HB. replace (IZR (2 ^ 23) + IZR M) with (8388608 * n) by (unfold n; replace (IZR (2 ^ 23)) with 8388608 by reflexivity; field). field. }
  assert (Hn : 1 <= n < 2) by (unfold n; lra). assert (Hd : 0 <= d / 8388608 <= / 8388608) by lra.
  destruct C as [(-> & Q & L)|[(-> & Q & L)|(-> & Q)]]; rewrite Q in *; rewrite minus_IZR in K.
  - rewrite minus_IZR, (K (12016095 / 8388608) (/ 2)).
    + apply guess_num; [exact Hn|exact Hd|]. left. repeat split. apply IZR_le in L. unfold n. lra.
    + rewrite D2. unfold n. field.
    + cbn. lra.
  - rewrite minus_IZR, (K (20404703 / 8388608) (/ 8)).
    + apply guess_num; [exact Hn|exact Hd|]. right. left. repeat split. apply IZR_lt in L. unfold n. lra.
    + rewrite D2. unfold n. field.
    + cbn. lra.
  - rewrite minus_IZR, (K (16210399 / 8388608) (/ 4)).
    + apply guess_num; [exact Hn|exact Hd|]. right. right. repeat split.
    + rewrite D2. unfold n. field.
    + cbn. lra.
Qed.

(** ** The Newton step *)
Lemma newton_num w e1 e2 e3 e4 e5 e6 : 9656 / 10000 <= w <= 103398 / 100000 ->
  Rabs e1 <= / 5000000 -> Rabs e2 <= / 5000000 -> Rabs e3 <= / 5000000 -> Rabs e4 <= / 5000000 -> Rabs e5 <= / 5000000 -> Rabs e6 <= / 5000000 ->
  - (176 / 100000) <= w * (1 + e5) * ((3 / 2 - w * w / 2 * (1 + e1) * (1 + e2) * (1 + e3)) * (1 + e4)) * (1 + e6) - 1 <= / 700000.
Proof.
  intros Hw H1 H2 H3 H4 H5 H6.
  assert (K : exists d, Rabs d <= 13 / 10000000 /\ w * (1 + e5) * ((3 / 2 - w * w / 2 * (1 + e1) * (1 + e2) * (1 + e3)) * (1 + e4)) * (1 + e6) = w * (3 / 2 - w * w / 2) + d).
  { set (A := w * (3 / 2 - w * w / 2)). set (a := (1 + e5) * (1 + e4) * (1 + e6) - 1). set (b := (1 + e1) * (1 + e2) * (1 + e3) - 1).
    assert (Ha : Rabs a <= 601 / 1000000000) by (unfold a; interval with (i_prec 60)).
    assert (Hb : Rabs b <= 601 / 1000000000) by (unfold b; interval with (i_prec 60)).
    exists (A * a - w * w * w / 2 * b * (1 + a)). split; [|unfold A, a, b; field].
    assert (HA : 0 <= A <= 1). { unfold A. split; [apply Rmult_le_pos; nra|]. replace (w * (3 / 2 - w * w / 2)) with (1 - (w - 1) * (w - 1) * (w + 2) / 2) by field.
      assert (0 <= (w - 1) * (w - 1)) by (apply Rle_0_sqr). nra. }
    clearbody A a b. clear -Hw HA Ha Hb. interval with (i_prec 60). }
  destruct K as (d & Hd & ->). apply Rabs_le_inv in Hd.
  replace (w * (3 / 2 - w * w / 2)) with (1 - (w - 1) * (w - 1) * (w + 2) / 2) by field.
  assert (0 <= (w - 1) * (w - 1) * (w + 2) / 2 <= 17584 / 10000000).
  { clear -Hw. split; [|interval with (i_bisect w, i_depth 20, i_prec 50)]. assert (0 <= (w - 1) * (w - 1)) by apply Rle_0_sqr. nra. }
  lra.
Qed.

Lemma sqrt_newton x u : fin x -> fin u -> bpow radix2 (-126) <= V x -> 0 < V u -> 93242 / 100000 <= V u * V u * V x <= 106909 / 100000 ->
  let r := mulf (mulf x u) (subf f_three_halves (mulf (mulf (mulf f_half x) u) u)) in
  fin r /\ - (176 / 100000) * R_sqrt.sqrt (V x) <= V r - R_sqrt.sqrt (V x) <= / 700000 * R_sqrt.sqrt (V x).
Proof.
  intros Fx Fu BX U0 HW r. destruct half_ok as (_ & Fh & Vh). destruct three_halves_ok as (_ & F3 & V3).
  assert (X0 : 0 < V x) by (assert (H := bpow_gt_0 radix2 (-126)); lra).
  assert (XM : V x <= bpow radix2 128). { assert (H := V_max x Fx). rewrite Rabs_pos_eq in H by lra. assert (K := bpow_gt_0 radix2 104). lra. }
  set (X := V x) in *. set (U := V u) in *. set (S := R_sqrt.sqrt X).
  assert (S0 : 0 < S) by (apply sqrt_lt_R0; exact X0). assert (SS : S * S = X) by (apply sqrt_sqrt; lra).
  assert (SL : bpow radix2 (-63) <= S).
  { apply Rsqr_incr_0_var; [|lra]. unfold Rsqr. rewrite SS, <- bpow_plus. exact BX. }
  assert (SH : S <= bpow radix2 64).
  { apply Rsqr_incr_0_var; [|apply bpow_ge_0]. unfold Rsqr. rewrite SS, <- bpow_plus. exact XM. }
  set (w := U * S). assert (w0 : 0 < w) by (now apply Rmult_lt_0_compat).
  assert (WW : w * w = U * U * X) by (unfold w; rewrite <- SS; ring).
  assert (Hw : 9656 / 10000 <= w <= 103398 / 100000) by (rewrite <- WW in HW; clear -HW w0; split; nra).
  assert (UX : U * X = w * S) by (unfold w; rewrite <- SS; ring). assert (US : U * S = w) by reflexivity. clearbody w S.
  assert (BP : bpow radix2 127 = 8388608 * (8388608 * 2 * bpow radix2 80)) by (replace 127%Z with (23 + (23 + (1 + 80)))%Z by ring; rewrite !bpow_plus; replace (bpow radix2 23) with 8388608 by reflexivity; replace (bpow radix2 1) with 2 by reflexivity; ring).
  assert (B64 : bpow radix2 64 <= bpow radix2 80) by (apply bpow_le; lia).
  assert (B0 := bpow_gt_0 radix2 80).
  (* 0.5f * x *)
  destruct (mul_ok f_half x Fh Fx) as [Fa Va]; [rewrite Vh; fold X; rewrite Rabs_pos_eq by lra; replace (bpow radix2 128) with (bpow radix2 (127 + 1)) in XM by reflexivity; rewrite bpow_plus in XM; replace (bpow radix2 1) with 2 in XM by reflexivity; lra|].
  destruct (rnd_rel2 (V f_half * V x)) as (e1 & H1 & E1).
  { rewrite Vh. fold X. rewrite Rabs_pos_eq by lra. replace (-126)%Z with (-127 + 1)%Z in BX by ring. rewrite bpow_plus in BX. replace (bpow radix2 1) with 2 in BX by reflexivity. lra. }
  rewrite E1, Vh in Va. fold X in Va. clear E1. set (a := mulf f_half x) in *. clearbody a.
  assert (M126 : bpow radix2 (-126) <= bpow radix2 (-63) / 8).
  { replace (/ 8) with (bpow radix2 (-3)) by (cbn; lra). unfold Rdiv. replace (/ 8) with (bpow radix2 (-3)) by (cbn; lra). rewrite <- bpow_plus. apply bpow_le. lia. }
  (* times u *)
  assert (VB : V a * U = w * S / 2 * (1 + e1)) by (rewrite Va, <- UX; field).
  assert (BB : S / 4 <= V a * U <= S) by (rewrite VB; apply Rabs_le_inv in H1; clear -H1 Hw S0; split; [assert (1 / 2 <= w * (1 + e1)) by nra; nra|assert (w * (1 + e1) <= 2) by nra; nra]).
  destruct (mul_ok a u Fa Fu) as [Fb Vb]; [fold U; rewrite Rabs_pos_eq by lra; lra|].
  destruct (rnd_rel1 (V a * V u) _ M126) as (e2 & H2 & E2); [fold U; rewrite Rabs_pos_eq; lra|].
  rewrite E2 in Vb. fold U in Vb. rewrite VB in Vb. clear E2 VB BB Va. set (b := mulf a u) in *. clearbody b.
  (* times u *)
  assert (VC : V b * U = w * w / 2 * (1 + e1) * (1 + e2)) by (rewrite Vb, <- US; field).
  assert (BB : 1 / 4 <= V b * U <= 1).
  { rewrite VC. clear -H1 H2 Hw. split; interval. }
  destruct (mul_ok b u Fb Fu) as [Fc Vc]; [fold U; rewrite Rabs_pos_eq by lra; assert (B := big127); lra|].
  assert (M1 : bpow radix2 (-126) <= / 4) by (replace (/ 4) with (bpow radix2 (-2)) by (cbn; lra); apply bpow_le; lia).
  destruct (rnd_rel1 (V b * V u) _ M1) as (e3 & H3 & E3); [fold U; rewrite Rabs_pos_eq; lra|].
  rewrite E3 in Vc. fold U in Vc. rewrite VC in Vc. clear E3 VC BB Vb. set (c := mulf b u) in *. clearbody c.
  (* 1.5f - *)
  assert (BD : 9 / 10 <= V f_three_halves - V c <= 11 / 10).
  { rewrite V3, Vc. clear -H1 H2 H3 Hw. split; interval. }
  destruct (sub_ok f_three_halves c F3 Fc) as [Fd Vd]; [rewrite Rabs_pos_eq by lra; assert (B := big127); lra|].
  destruct (rnd_rel1 (V f_three_halves - V c) _ M1) as (e4 & H4 & E4); [rewrite Rabs_pos_eq; lra|].
  rewrite E4, Vc, V3 in Vd. rewrite Vc, V3 in BD. clear E4. set (dd := subf f_three_halves c) in *. 
  (* x * u *)
  assert (BE : S / 2 <= X * U <= 2 * S) by (rewrite Rmult_comm, UX; clear -Hw S0; split; nra).
  destruct (mul_ok x u Fx Fu) as [Fe Ve]; [fold X U; rewrite Rabs_pos_eq by lra; lra|].
  destruct (rnd_rel1 (V x * V u) _ M126) as (e5 & H5 & E5); [fold X U; rewrite Rabs_pos_eq; lra|].
  rewrite E5 in Ve. fold X U in Ve. clear E5. set (ee := mulf x u) in *.
  subst r. fold ee dd. clearbody dd ee.
  assert (VF : V ee * V dd = S * (w * (1 + e5) * ((3 / 2 - w * w / 2 * (1 + e1) * (1 + e2) * (1 + e3)) * (1 + e4)))).
  { rewrite Ve, Vd. rewrite (Rmult_comm X U), UX. field. }
  assert (BF : 9 / 10 <= w * (1 + e5) * ((3 / 2 - w * w / 2 * (1 + e1) * (1 + e2) * (1 + e3)) * (1 + e4)) <= 12 / 10).
  { clear -H1 H2 H3 H4 H5 Hw. assert (N := newton_num w e1 e2 e3 e4 e5 0 Hw H1 H2 H3 H4 H5). rewrite Rabs_R0, Rplus_0_r, Rmult_1_r in N. assert (I : 0 <= / 5000000) by lra. specialize (N I). lra. }
  assert (N := fun e6 => newton_num w e1 e2 e3 e4 e5 e6 Hw H1 H2 H3 H4 H5).
  set (z := w * (1 + e5) * ((3 / 2 - w * w / 2 * (1 + e1) * (1 + e2) * (1 + e3)) * (1 + e4))) in *. clearbody z.
  assert (SZ : S / 2 <= S * z <= 2 * S) by (clear -BF S0; nra).
  destruct (mul_ok ee dd Fe Fd) as [Fr Vr]; [rewrite VF, Rabs_pos_eq by lra; lra|].
  destruct (rnd_rel1 (V ee * V dd) _ M126) as (e6 & H6 & E6); [rewrite VF, Rabs_pos_eq by lra; lra|].
  rewrite E6, VF in Vr. split; [exact Fr|]. rewrite Vr. specialize (N e6 H6).
  clear -N S0. replace (S * z * (1 + e6) - S) with ((z * (1 + e6) - 1) * S) by ring. split; apply Rmult_le_compat_r; lra.
Qed.

Lemma sqrt_ok x : pattern float32 x -> fin x -> bpow radix2 (-126) <= V x ->
  fin (sqrt x) /\ - (176 / 100000) * R_sqrt.sqrt (V x) <= V (sqrt x) - R_sqrt.sqrt (V x) <= / 700000 * R_sqrt.sqrt (V x).
Proof.
  intros P F B. assert (X0 : 0 < V x) by (assert (H := bpow_gt_0 radix2 (-126)); lra).
  unfold sqrt. rewrite (nonzero_guard x F) by lra.
  destruct (Z.eqb_spec x 0x3f800000) as [->|N].
  { replace 1065353216%Z with f_one by reflexivity. destruct one_ok as (_ & FO & VO). split; [exact FO|]. rewrite VO, sqrt_1. lra. }
  assert (L : flt float32 x fzero = false).
  { rewrite flt_ok; [|exact F|apply fin_zero]. apply Rlt_bool_false. replace (V fzero) with 0; [lra|]. symmetry. apply fin_zero. }
  rewrite L. cbn [andb].
  assert (HB := V_pos_fields x P F X0). assert (HE := V_binade x (-126) P F B ltac:(lia)).
  destruct (split32 x) as (EX & EB & MB); [lia|].
  assert (E255 : (exponent float32 x < 255)%Z) by (assert (exponent float32 x * 2 ^ 23 <= x)%Z by lia; lia).
  destruct (guess_sq (exponent float32 x) (mantissa float32 x)) as (_ & FG & G0 & GB); [lia|exact MB|]. rewrite <- EX in *.
  exact (sqrt_newton x (sqrt_guess x) F FG B G0 GB).
Qed.
