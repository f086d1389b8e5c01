(** cbrt: error bound of the guess and of the two Newton steps. *)
From Coq Require Import ZArith Bool Lia Reals Lra Psatz.
From Flocq Require Import Core IEEE754.Binary IEEE754.Bits.
From Interval Require Import Tactic.
From Verif Require Import Mem AlgoModel FpModel FpProofs RoundModel LitModel LimModel FmathModel FmathReal FmathStep FmathExp FmathLog FmathReduce FmathTrig2 FmathHyp FmathSqrt.
Open Scope R_scope.

(** ** The guess *)
Lemma cguess_num n d p s : 1 <= n < 2 -> 0 <= d <= / 8388608 ->
  (p = 13711264 / 8388608 + (n - 1) / 3 /\ s = / 4) \/ (p = 13711264 / 8388608 + n / 3 /\ s = / 8 /\ n <= 10965 / 10000) \/
  (p = 5322656 / 8388608 + n / 3 /\ s = 1 /\ 10964 / 10000 <= n) \/ (p = 5322656 / 8388608 + (n + 1) / 3 /\ s = / 2) ->
  912 / 1000 <= (p - d) * (p - d) * (p - d) / n * s <= 11016 / 10000.
Proof.
  intros Hn Hd [(-> & ->)|[(-> & -> & H)|[(-> & -> & H)|(-> & ->)]]]; split; interval with (i_bisect n, i_depth 20, i_prec 50).
Qed.

Lemma third_down M : exists d, 0 <= d <= 1 /\ IZR (M / 3) = IZR M / 3 - d.
Proof.
  exists (IZR (M mod 3) / 3). assert (H := Z.mod_pos_bound M 3 eq_refl). assert (D := Z.div_mod M 3 ltac:(lia)).
  assert (0 <= IZR (M mod 3) <= 2) by (split; apply IZR_le; lia). split; [lra|].
  apply (f_equal IZR) in D. rewrite plus_IZR, mult_IZR in D. lra.
Qed.

Definition cguess (x : Z) : Z := IntToFloat (0x2a5137a0 + Z.quot (FloatToInt x) 3).

Lemma cguess_form E M : (1 <= E < 255)%Z -> (0 <= M < 2 ^ 23)%Z ->
  exists P e j, fin (cguess (E * 2 ^ 23 + M)) /\ V (cguess (E * 2 ^ 23 + M)) = IZR P * bpow radix2 e /\
    ((j = 0 /\ P = 13711264 + M / 3 /\ 3 * e - (E - 150) = -48) \/
     (j = 1 /\ P = 13711264 + (2 ^ 23 + M) / 3 /\ 3 * e - (E - 150) = -49 /\ (2 ^ 23 + M) / 3 < 3065952) \/
     (j = 1 /\ P = 5322656 + (2 ^ 23 + M) / 3 /\ 3 * e - (E - 150) = -46 /\ 3065952 <= (2 ^ 23 + M) / 3) \/
     (j = 2 /\ P = 5322656 + (2 * 2 ^ 23 + M) / 3 /\ 3 * e - (E - 150) = -47))%Z.
Proof.
  intros HE HM. set (x := (E * 2 ^ 23 + M)%Z).
  assert (G : cguess x = (0x2a5137a0 + x / 3)%Z).
  { unfold cguess, FloatToInt, IntToFloat. rewrite (proj2 (Z.ltb_lt _ _)) by (unfold x; lia). rewrite Z.quot_div_nonneg by (unfold x; lia).
    apply Z.mod_small. assert (0 <= x / 3 < 2 ^ 30)%Z; [|lia]. unfold x. split; [apply Z.div_pos; lia|apply Z.div_lt_upper_bound; lia]. }
  rewrite G. clear G. assert (DM := Z.div_mod E 3 ltac:(lia)). assert (MB := Z.mod_pos_bound E 3 eq_refl).
  set (k := (E / 3)%Z) in *. set (j := (E mod 3)%Z) in *. clearbody k j.
  assert (X3 : (x / 3 = k * 2 ^ 23 + (j * 2 ^ 23 + M) / 3)%Z).
  { unfold x. rewrite DM. replace ((3 * k + j) * 2 ^ 23 + M)%Z with ((j * 2 ^ 23 + M) + (k * 2 ^ 23) * 3)%Z by ring. rewrite Z.div_add by lia. ring. }
  rewrite X3. clear X3.
  assert (HH : (j * 2796202 <= (j * 2 ^ 23 + M) / 3 < (j + 1) * 2796203)%Z).
  { split; [apply Z.div_le_lower_bound; lia|apply Z.div_lt_upper_bound; lia]. }
  assert (J : (j = 0 \/ j = 1 \/ j = 2)%Z) by lia. destruct J as [J|[J|J]]; rewrite J in *; clear J.
  - change (0 * 2 ^ 23 + M)%Z with M in *.
    replace (0x2a5137a0 + (k * 2 ^ 23 + M / 3))%Z with ((84 + k) * 2 ^ 23 + (5322656 + M / 3))%Z by lia.
    destruct (V_mk (84 + k) (5322656 + M / 3)) as [A B]; [lia|lia|].
    exists (13711264 + M / 3)%Z, (k - 66)%Z, 0%Z. split; [exact A|]. split; [|left; lia]. rewrite B. f_equal; f_equal; lia.
  - replace (1 * 2 ^ 23 + M)%Z with (2 ^ 23 + M)%Z in * by lia. set (h := ((2 ^ 23 + M) / 3)%Z) in *. clearbody h.
    destruct (Z_lt_le_dec h 3065952) as [L|L].
    + replace (0x2a5137a0 + (k * 2 ^ 23 + h))%Z with ((84 + k) * 2 ^ 23 + (5322656 + h))%Z by lia.
      destruct (V_mk (84 + k) (5322656 + h)) as [A B]; [lia|lia|].
      exists (13711264 + h)%Z, (k - 66)%Z, 1%Z. split; [exact A|]. split; [|right; left; lia]. rewrite B. f_equal; f_equal; lia.
    + replace (0x2a5137a0 + (k * 2 ^ 23 + h))%Z with ((85 + k) * 2 ^ 23 + (5322656 + h - 2 ^ 23))%Z by lia.
      destruct (V_mk (85 + k) (5322656 + h - 2 ^ 23)) as [A B]; [lia|lia|].
      exists (5322656 + h)%Z, (k - 65)%Z, 1%Z. split; [exact A|]. split; [|right; right; left; lia]. rewrite B. f_equal; f_equal; lia.
  - set (h := ((2 * 2 ^ 23 + M) / 3)%Z) in *. clearbody h.
    replace (0x2a5137a0 + (k * 2 ^ 23 + h))%Z with ((85 + k) * 2 ^ 23 + (5322656 + h - 2 ^ 23))%Z by lia.
    destruct (V_mk (85 + k) (5322656 + h - 2 ^ 23)) as [A B]; [lia|lia|].
    exists (5322656 + h)%Z, (k - 65)%Z, 2%Z. split; [exact A|]. split; [|right; right; right; lia]. rewrite B. f_equal; f_equal; lia.
Qed.

Lemma cguess_cube E M : (1 <= E < 255)%Z -> (0 <= M < 2 ^ 23)%Z ->
  let x := (E * 2 ^ 23 + M)%Z in let A := V (cguess x) in
  fin (cguess x) /\ 0 < A /\ 912 / 1000 * V x <= A * A * A <= 11016 / 10000 * V x.
Proof.
  intros HE HM x A. destruct (cguess_form E M HE HM) as (P & e & j & F & W & C). fold x in F, W. split; [exact F|].
  assert (P0 : (0 < P)%Z).
  { assert (0 <= M / 3)%Z by (apply Z.div_pos; lia). assert (0 <= (2 ^ 23 + M) / 3)%Z by (apply Z.div_pos; lia). assert (0 <= (2 * 2 ^ 23 + M) / 3)%Z by (apply Z.div_pos; lia). lia. }
  assert (A0 : 0 < A) by (unfold A; rewrite W; apply Rmult_lt_0_compat; [now apply IZR_lt|apply bpow_gt_0]). split; [exact A0|].
  destruct (V_mk E M) as [_ VX]; [lia|lia|]. fold x in VX.
  assert (MB : 0 <= IZR M <= 8388607) by (split; apply IZR_le; lia).
  set (n := 1 + IZR M / 8388608). assert (Hn : 1 <= n < 2) by (unfold n; lra).
  assert (NX : IZR (2 ^ 23 + M) = 8388608 * n) by (rewrite plus_IZR; unfold n; replace (IZR (2 ^ 23)) with 8388608 by reflexivity; field).
  assert (X0 : 0 < V x) by (rewrite VX, NX; apply Rmult_lt_0_compat; [lra|apply bpow_gt_0]).
  assert (K : forall p d s, IZR P = 8388608 * (p - d / 8388608) -> bpow radix2 (3 * e - (E - 150)) = s / 8388608 / 8388608 -> 0 <= d <= 1 ->
     (0 <= d / 8388608 <= / 8388608 -> 912 / 1000 <= (p - d / 8388608) * (p - d / 8388608) * (p - d / 8388608) / n * s <= 11016 / 10000) ->
     912 / 1000 * V x <= A * A * A <= 11016 / 10000 * V x).
  { intros p d s HP HB Hd B. specialize (B ltac:(lra)).
    assert (Q : A * A * A = (p - d / 8388608) * (p - d / 8388608) * (p - d / 8388608) / n * s * V x).
    { unfold A. rewrite W, VX, NX.
      replace (IZR P * bpow radix2 e * (IZR P * bpow radix2 e) * (IZR P * bpow radix2 e)) with (IZR P * IZR P * IZR P * (bpow radix2 e * bpow radix2 e * bpow radix2 e)) by ring.
      rewrite <- !bpow_plus. replace (e + e + e)%Z with (3 * e - (E - 150) + (E - 150))%Z by ring. rewrite bpow_plus, HB, HP. field. lra. }
    rewrite Q. split; apply Rmult_le_compat_r; lra. }
  destruct C as [(_ & -> & Q)|[(_ & -> & Q & L)|[(_ & -> & Q & L)|(_ & -> & Q)]]]; rewrite Q in *; rewrite plus_IZR in K.
  - destruct (third_down M) as (d & D1 & D2). apply (K (13711264 / 8388608 + (n - 1) / 3) d (/ 4)); [rewrite D2; unfold n; field|cbn; lra|exact D1|].
    intro Hd. apply cguess_num; [exact Hn|exact Hd|]. left. repeat split.
  - destruct (third_down (2 ^ 23 + M)) as (d & D1 & D2). rewrite NX in D2. apply (K (13711264 / 8388608 + n / 3) d (/ 8)); [rewrite D2; field|cbn; lra|exact D1|].
    intro Hd. apply cguess_num; [exact Hn|exact Hd|]. right. left. repeat split. apply IZR_lt in L. lra.
  - destruct (third_down (2 ^ 23 + M)) as (d & D1 & D2). rewrite NX in D2. apply (K (5322656 / 8388608 + n / 3) d 1); [rewrite D2; field|cbn; lra|exact D1|].
    intro Hd. apply cguess_num; [exact Hn|exact Hd|]. right. right. left. repeat split. apply IZR_le in L. lra.
  - destruct (third_down (2 * 2 ^ 23 + M)) as (d & D1 & D2). replace (2 * 2 ^ 23 + M)%Z with (2 ^ 23 + (2 ^ 23 + M))%Z in D2 at 2 by ring. rewrite plus_IZR, NX in D2.
    apply (K (5322656 / 8388608 + (n + 1) / 3) d (/ 2)); [rewrite D2; replace (IZR (2 ^ 23)) with 8388608 by reflexivity; field|cbn; lra|exact D1|].
    intro Hd. apply cguess_num; [exact Hn|exact Hd|]. right. right. right. repeat split.
Qed.

(** ** The Newton step *)
Definition third : Z := lit 333333333 (-9).
Lemma third_ok : fin third /\ V third = 11184811 / 33554432.
Proof. getc H (lit 333333333 (-9)). split; apply H. Qed.

Lemma rel24 y L : bpow radix2 (-126) <= L -> L <= y -> exists e, Rabs e <= / 16777216 /\ rnd y = y * (1 + e).
Proof.
  intros H1 H2. destruct (rnd_rel y) as (e & E & Q); [rewrite Rabs_pos_eq; [lra|]; assert (K := bpow_gt_0 radix2 (-126)); lra|].
  exists e. split; [|exact Q]. replace (/ 16777216) with (bpow radix2 (-24)) by (cbn; lra). exact E.
Qed.

Lemma cstep_num w e1 e2 e4 e5 : 9 / 10 <= w <= 11 / 10 ->
  Rabs e1 <= / 16777216 -> Rabs e2 <= / 16777216 -> Rabs e4 <= / 16777216 -> Rabs e5 <= / 16777216 ->
  Rabs (11184811 / 33554432 * ((2 * w + / (w * w * (1 + e1)) * (1 + e2)) * (1 + e4)) * (1 + e5) - 1 - (w - 1) * (w - 1) * (2 * w + 1) / (3 * (w * w))) <= 21 / 100000000.
Proof.
  intros Hw H1 H2 H4 H5.
  set (T := (w - 1) * (w - 1) * (2 * w + 1) / (3 * (w * w))).
  assert (HT : 0 <= T <= 2 / 100).
  { unfold T. split; [|interval with (i_bisect w, i_depth 20)]. assert (0 <= (w - 1) * (w - 1)) by apply Rle_0_sqr.
    apply Rmult_le_pos; [nra|]. left. apply Rinv_0_lt_compat. nra. }
  set (b := / (1 + e1) * (1 + e2) - 1).
  assert (N1 : 1 + e1 <> 0) by (apply Rabs_le_inv in H1; lra).
  assert (Hb : Rabs b <= 12 / 100000000) by (unfold b; interval with (i_prec 60)).
  set (c := 33554433 / 33554432 * (1 + e4) * (1 + e5) - 1).
  assert (Hc : Rabs c <= 15 / 100000000) by (unfold c; interval with (i_prec 60)).
  replace (11184811 / 33554432 * ((2 * w + / (w * w * (1 + e1)) * (1 + e2)) * (1 + e4)) * (1 + e5) - 1 - T)
    with (T * c + c + / (3 * (w * w)) * b * (1 + c)).
  2:{ unfold T, b, c. field. split; [lra|]. assumption. }
  clearbody T b c. clear -Hw HT Hb Hc. interval with (i_prec 60).
Qed.

Lemma cstep x0 a C w : fin x0 -> fin a -> V x0 = C * C * C -> bpow radix2 (-8) <= C <= bpow radix2 43 -> V a = w * C -> 9 / 10 <= w <= 11 / 10 ->
  let r := cbrt_step x0 a in
  pattern float32 r /\ fin r /\ exists w', V r = w' * C /\ Rabs (w' - 1 - (w - 1) * (w - 1) * (2 * w + 1) / (3 * (w * w))) <= 21 / 100000000.
Proof.
  intros Fx Fa VX BC VA Hw r. destruct third_ok as [Ft Vt]. destruct two_ok as (_ & F2 & V2).
  split; [apply pat_mul|]. subst r. unfold cbrt_step. fold third.
  assert (C0 : 0 < C) by (assert (K := bpow_gt_0 radix2 (-8)); lra).
  assert (L8 : bpow radix2 (-126) <= bpow radix2 (-8) / 8). { unfold Rdiv. replace (/ 8) with (bpow radix2 (-3)) by (cbn; lra). rewrite <- bpow_plus. apply bpow_le. lia. }
  assert (L16 : bpow radix2 (-126) <= bpow radix2 (-16) / 8). { unfold Rdiv. replace (/ 8) with (bpow radix2 (-3)) by (cbn; lra). rewrite <- bpow_plus. apply bpow_le. lia. }
  assert (U43 : 8 * bpow radix2 43 <= bpow radix2 127). { replace 8 with (bpow radix2 3) by reflexivity. rewrite <- bpow_plus. apply bpow_le. lia. }
  assert (U86 : 8 * bpow radix2 86 <= bpow radix2 127). { replace 8 with (bpow radix2 3) by reflexivity. rewrite <- bpow_plus. apply bpow_le. lia. }
  assert (CC : bpow radix2 (-16) <= C * C <= bpow radix2 86).
  { replace (bpow radix2 (-16)) with (bpow radix2 (-8) * bpow radix2 (-8)) by (rewrite <- bpow_plus; reflexivity).
    replace (bpow radix2 86) with (bpow radix2 43 * bpow radix2 43) by (rewrite <- bpow_plus; reflexivity).
    assert (K := bpow_gt_0 radix2 (-8)). split; apply Rmult_le_compat; lra. }
  (* a * a *)
  assert (VB : V a * V a = w * w * (C * C)) by (rewrite VA; ring).
  assert (BB : bpow radix2 (-16) / 8 <= V a * V a <= 2 * bpow radix2 86).
  { rewrite VB. assert (81 / 100 <= w * w <= 121 / 100) by (clear -Hw; nra). assert (K := bpow_gt_0 radix2 (-16)).
    split; [apply Rle_trans with (81 / 100 * (C * C)); [lra|apply Rmult_le_compat_r; lra]|apply Rle_trans with (121 / 100 * (C * C)); [apply Rmult_le_compat_r; lra|lra]]. }
  destruct (mul_ok a a Fa Fa) as [Fb Vb]; [rewrite Rabs_pos_eq by (assert (K := bpow_gt_0 radix2 (-16)); lra); lra|].
  destruct (rel24 (V a * V a) _ L16) as (e1 & H1 & E1); [lra|]. rewrite E1, VB in Vb. clear E1 VB BB. set (b := mulf a a) in *. clearbody b.
  assert (N1 : 1 - / 16777216 <= 1 + e1 <= 1 + / 16777216) by (apply Rabs_le_inv in H1; lra).
  (* x0 / _ *)
  assert (W2 : 80 / 100 <= w * w * (1 + e1) <= 122 / 100) by (assert (81 / 100 <= w * w <= 121 / 100) by (clear -Hw; nra); clear -H N1; nra).
  assert (WI : 80 / 100 <= / (w * w * (1 + e1)) <= 126 / 100).
  { clear -W2. split; [apply Rle_trans with (/ (122 / 100)); [lra|apply Rinv_le_contravar; lra]|apply Rle_trans with (/ (80 / 100)); [apply Rinv_le_contravar; lra|lra]]. }
  assert (B0 : V b <> 0). { rewrite Vb. replace (w * w * (C * C) * (1 + e1)) with (w * w * (1 + e1) * (C * C)) by ring. apply Rgt_not_eq, Rmult_lt_0_compat; [lra|now apply Rmult_lt_0_compat]. }
  assert (VD : V x0 / V b = / (w * w * (1 + e1)) * C).
  { rewrite VX, Vb. field. split; [lra|]. split; lra. }
  assert (BD : bpow radix2 (-8) / 8 <= V x0 / V b <= 2 * bpow radix2 43).
  { rewrite VD. split; [apply Rle_trans with (80 / 100 * C); [lra|apply Rmult_le_compat_r; lra]|apply Rle_trans with (126 / 100 * C); [apply Rmult_le_compat_r; lra|lra]]. }
  destruct (div_ok x0 b Fx Fb B0) as [Fd Vd]; [rewrite Rabs_pos_eq by (assert (K := bpow_gt_0 radix2 (-8)); lra); lra|].
  destruct (rel24 (V x0 / V b) _ L8) as (e2 & H2 & E2); [lra|]. rewrite E2, VD in Vd. clear E2 VD BD. set (q := divf x0 b) in *. clearbody q.
  assert (N2 : 1 - / 16777216 <= 1 + e2 <= 1 + / 16777216) by (apply Rabs_le_inv in H2; lra).
  (* 2 * a *)
  destruct (two_mul a Fa) as [[Fm Vm]|[Bad _]]; [rewrite VA; nra| |].
  2:{ exfalso. rewrite VA in Bad. assert (w * C <= 2 * C) by (apply Rmult_le_compat_r; lra). assert (K := bpow_gt_0 radix2 43). lra. }
  rewrite VA in Vm. set (m := mulf f_two a) in *. clearbody m.
  (* sum *)
  assert (VS : V m + V q = (2 * w + / (w * w * (1 + e1)) * (1 + e2)) * C) by (rewrite Vm, Vd; ring).
  set (z := 2 * w + / (w * w * (1 + e1)) * (1 + e2)) in *.
  assert (Hz : 25 / 10 <= z <= 35 / 10).
  { unfold z. assert (79 / 100 <= / (w * w * (1 + e1)) * (1 + e2) <= 127 / 100) by (clear -WI N2; nra). lra. }
  assert (BS : bpow radix2 (-8) / 8 <= z * C <= 4 * bpow radix2 43).
  { split; [apply Rle_trans with (25 / 10 * C); [lra|apply Rmult_le_compat_r; lra]|apply Rle_trans with (35 / 10 * C); [apply Rmult_le_compat_r; lra|lra]]. }
  destruct (add_ok m q Fm Fd) as [Fs Vs]; [rewrite VS, Rabs_pos_eq by (assert (K := bpow_gt_0 radix2 (-8)); lra); lra|].
  destruct (rel24 (V m + V q) _ L8) as (e4 & H4 & E4); [lra|]. rewrite E4, VS in Vs. clear E4 VS. set (sm := addf m q) in *. clearbody sm.
  assert (N4 : 1 - / 16777216 <= 1 + e4 <= 1 + / 16777216) by (apply Rabs_le_inv in H4; lra).
  (* times 1/3 *)
  assert (VR : V third * V sm = 11184811 / 33554432 * (z * (1 + e4)) * C) by (rewrite Vt, Vs; ring).
  assert (BZ : 24 / 10 <= z * (1 + e4) <= 36 / 10) by (clear -Hz N4; nra).
  assert (BR : bpow radix2 (-8) / 8 <= V third * V sm <= 2 * bpow radix2 43).
  { rewrite VR. split; [apply Rle_trans with (8 / 10 * C); [lra|apply Rmult_le_compat_r; lra]|apply Rle_trans with (13 / 10 * C); [apply Rmult_le_compat_r; lra|lra]]. }
  destruct (mul_ok third sm Ft Fs) as [Fr Vr]; [rewrite Rabs_pos_eq by (assert (K := bpow_gt_0 radix2 (-8)); lra); lra|].
  destruct (rel24 (V third * V sm) _ L8) as (e5 & H5 & E5); [lra|]. rewrite E5, VR in Vr.
  split; [exact Fr|]. exists (11184811 / 33554432 * (z * (1 + e4)) * (1 + e5)). split; [rewrite Vr; ring|].
  unfold z. exact (cstep_num w e1 e2 e4 e5 Hw H1 H2 H4 H5).
Qed.

Lemma cube_mono a b : 0 <= b -> a * a * a <= b * b * b -> a <= b.
Proof.
  intros Hb H. destruct (Rle_dec a b) as [L|L]; [exact L|]. exfalso. assert (b < a) by lra.
  assert (b * b <= a * a) by (apply Rmult_le_compat; lra). assert (b * (b * b) <= b * (a * a)) by (apply Rmult_le_compat_l; lra).
  assert (0 < (a - b) * (a * a)) by (apply Rmult_lt_0_compat; [lra|nra]). lra.
Qed.

Lemma cube_root X : 0 < X -> exists C, 0 < C /\ C * C * C = X.
Proof.
  intro H. exists (Rpower X (/ 3)). split; [apply exp_pos|]. rewrite <- !Rpower_plus. replace (/ 3 + / 3 + / 3) with 1 by field. now apply Rpower_1.
Qed.

Lemma eps_ok : pattern float32 lim_eps /\ fin lim_eps /\ V lim_eps = bpow radix2 (-23).
Proof.
  split; [split; vm_compute; congruence|]. destruct (V_mk 104 0) as [A B]; [lia|lia|].
  replace (104 * 2 ^ 23 + 0)%Z with lim_eps in * by (vm_compute; reflexivity). split; [exact A|]. rewrite B.
  replace (IZR (2 ^ 23 + 0)) with (bpow radix2 23) by reflexivity. rewrite <- bpow_plus. reflexivity.
Qed.

Lemma cbrt_core x : pattern float32 x -> fin x -> bpow radix2 (-23) <= V x ->
  exists C, 0 < C /\ C * C * C = V x /\ let r := cbrt_step x (cbrt_step x (cguess x)) in
    pattern float32 r /\ fin r /\ Rabs (V r - C) <= 15 / 10000000 * C.
Proof.
  intros P F B. assert (X0 : 0 < V x) by (assert (H := bpow_gt_0 radix2 (-23)); lra).
  destruct (cube_root (V x) X0) as (C & C0 & CX). exists C. split; [exact C0|]. split; [exact CX|].
  assert (HB := V_pos_fields x P F X0). assert (HE := V_binade x (-23) P F B ltac:(lia)).
  destruct (split32 x) as (EX & EB & MB); [lia|].
  assert (E255 : (exponent float32 x < 255)%Z) by (assert (exponent float32 x * 2 ^ 23 <= x)%Z by lia; lia).
  destruct (cguess_cube (exponent float32 x) (mantissa float32 x)) as (FG & G0 & GB); [lia|exact MB|]. rewrite <- EX in *.
  set (g := cguess x) in *. clearbody g. clear HE EX EB MB E255 HB.
  assert (CB : bpow radix2 (-8) <= C <= bpow radix2 43).
  { assert (XM := V_max x F). rewrite Rabs_pos_eq in XM by lra. split; apply cube_mono; try lra; try apply bpow_ge_0; rewrite CX, <- !bpow_plus.
    - apply Rle_trans with (2 := B). apply bpow_le. lia.
    - assert (K := bpow_gt_0 radix2 104). apply Rle_trans with (bpow radix2 128); [lra|apply bpow_le; lia]. }
  set (w := V g / C). assert (VG : V g = w * C) by (unfold w; field; lra). assert (w0 : 0 < w) by (apply Rdiv_lt_0_compat; lra).
  assert (W3 : 912 / 1000 <= w * w * w <= 11016 / 10000).
  { rewrite VG, <- CX in GB. replace (w * C * (w * C) * (w * C)) with (w * w * w * (C * C * C)) in GB by ring.
    assert (K : 0 < C * C * C) by (rewrite CX; exact X0). split; apply Rmult_le_reg_r with (C * C * C); lra. }
  assert (Hw : 9697 / 10000 <= w <= 10328 / 10000) by (split; apply cube_mono; lra).
  clearbody w. clear W3 GB.
  destruct (cstep x g C w F FG (eq_sym CX) CB VG ltac:(lra)) as (_ & F1 & w1 & V1 & D1). set (a1 := cbrt_step x g) in *. clearbody a1.
  set (T1 := (w - 1) * (w - 1) * (2 * w + 1) / (3 * (w * w))) in *.
  assert (H1 : 0 <= T1 <= 1031 / 1000000).
  { unfold T1. clear -Hw. split; [|interval with (i_bisect w, i_depth 20)]. assert (0 <= (w - 1) * (w - 1)) by apply Rle_0_sqr.
    apply Rmult_le_pos; [nra|]. left. apply Rinv_0_lt_compat. nra. }
  clearbody T1. apply Rabs_le_inv in D1.
  destruct (cstep x a1 C w1 F F1 (eq_sym CX) CB V1 ltac:(lra)) as (P2 & F2 & w2 & V2 & D2).
  split; [exact P2|]. split; [exact F2|]. rewrite V2.
  set (T2 := (w1 - 1) * (w1 - 1) * (2 * w1 + 1) / (3 * (w1 * w1))) in *.
  assert (H2 : 0 <= T2 <= 107 / 100000000).
  { assert (Hw1 : -21 / 100000000 <= w1 - 1 <= 10313 / 10000000) by lra. unfold T2. clear -Hw1. set (d := w1 - 1) in *. replace w1 with (1 + d) by (unfold d; ring). clearbody d.
    split; [|interval with (i_bisect d, i_depth 20, i_prec 60)]. assert (0 <= d * d) by apply Rle_0_sqr.
    apply Rmult_le_pos; [nra|]. left. apply Rinv_0_lt_compat. nra. }
  clearbody T2. apply Rabs_le_inv in D2. replace (w2 * C - C) with ((w2 - 1) * C) by ring. rewrite Rabs_mult, (Rabs_pos_eq C) by lra.
  apply Rmult_le_compat_r; [lra|]. apply Rabs_le. lra.
Qed.

Lemma cbrt_split x a : pattern float32 x -> fin x -> fabs float32 x = a -> 
  cbrt_ x = copysign (if Rlt_bool (Rabs (V x)) (bpow radix2 (-23)) then fzero else cbrt_step a (cbrt_step a (cguess a))) x.
Proof.
  intros P F E. unfold cbrt_, cguess. rewrite E. destruct (fabs_fin x P F) as (a' & E1 & Pa & Fa & Va). assert (X : a' = a) by congruence. rewrite X in *. clear X a' E1.
  destruct (fabs_fin a Pa Fa) as (a2 & -> & _ & Fa2 & Va2). destruct eps_ok as (_ & Fe & Ve).
  rewrite (flt_ok a2 lim_eps Fa2 Fe), Ve, Va2, Va, Rabs_Rabsolu. reflexivity.
Qed.

Lemma cbrt_ok x : pattern float32 x -> fin x -> bpow radix2 (-23) <= Rabs (V x) ->
  exists c, c * c * c = V x /\ pattern float32 (cbrt_ x) /\ fin (cbrt_ x) /\ Rabs (V (cbrt_ x) - c) <= 15 / 10000000 * Rabs c.
Proof.
  intros P F B. destruct (fabs_fin x P F) as (a & EA & Pa & Fa & Va). rewrite (cbrt_split x a P F EA). rewrite Rlt_bool_false by exact B.
  destruct (cbrt_core a Pa Fa) as (C & C0 & CX & Pr & Fr & E); [lra|].
  set (r := cbrt_step a (cbrt_step a (cguess a))) in *. clearbody r.
  assert (N : V x <> 0). { intro Z. rewrite Z, Rabs_R0 in B. assert (K := bpow_gt_0 radix2 (-23)). lra. }
  destruct (copysign_ok r x Pr P Fr) as (Pc & Fc & _).
  pose proof (copysign_odd r x C _ Pr P Fr F (Rlt_le _ _ C0) E N) as D.
  exists (if Rlt_dec (V x) 0 then - C else C). rewrite Va in CX. split; [|split; [exact Pc|split; [exact Fc|]]].
  - destruct (Rlt_dec (V x) 0) as [L|L]; [rewrite Rabs_left in CX by exact L|rewrite Rabs_pos_eq in CX by lra]; lra.
  - destruct (Rlt_dec (V x) 0); rewrite ?Rabs_Ropp, (Rabs_pos_eq C) by lra; exact D.
Qed.

Lemma cbrt_tiny x : pattern float32 x -> fin x -> Rabs (V x) < bpow radix2 (-23) -> fin (cbrt_ x) /\ V (cbrt_ x) = 0.
Proof.
  intros P F B. destruct (fabs_fin x P F) as (a & EA & Pa & Fa & Va). rewrite (cbrt_split x a P F EA). rewrite Rlt_bool_true by exact B.
  destruct (copysign_ok fzero x) as (_ & Fc & W); [split; vm_compute; congruence|exact P|apply fin_zero|]. split; [exact Fc|].
  rewrite W. replace (V fzero) with 0 by (symmetry; apply fin_zero). rewrite Rabs_R0. ring.
Qed.
