(** parse_number.h: Clinger's fast path and the slow path give the nearest value. *)
From Coq Require Import ZArith List Bool Lia Reals Lra.
From Flocq Require Import Core IEEE754.Binary IEEE754.Bits.
From Verif Require Import Mem FpModel FpProofs LitModel LitProofs LimProps RyuText RyuRound RyuArith RyuMul RyuCvt RyuParse RyuScan FfTable FfModel FfWord FfRound FfPow FfApprox FfCompute FfBig FfScan FfMant FfDigit FfComp.
Import ListNotations.
Open Scope Z_scope.
Local Notation len l := (Z.of_nat (length l)).

(** ** The fast path *)
Definition exactly (f : fmt) (x : Z) (r : R) : Prop := is_finite _ _ (val f x) = true /\ Bsign _ _ (val f x) = false /\ B2R _ _ (val f x) = r.
Notation big_value f := (bpow radix2 (2 ^ (ew f - 1))).

Lemma of_bits64 v : b64_of_bits (bits_of_b64 v) = v.
Proof. exact (binary_float_of_bits_of_binary_float 52 11 eq_refl eq_refl eq_refl v). Qed.
Lemma of_bits32 v : b32_of_bits (bits_of_b32 v) = v.
Proof. exact (binary_float_of_bits_of_binary_float 23 8 eq_refl eq_refl eq_refl v). Qed.

Lemma mul_near b x y r s : std b -> exactly (bfmt b) x r -> exactly (bfmt b) y s -> (Rabs (rnd (bfmt b) (r * s)) < big_value (bfmt b))%R ->
  nearest (bfmt b) false (r * s) (t_mul b x y).
Proof.
  intros [-> | ->] (X1 & X2 & X3) (Y1 & Y2 & Y3) H; cbn [bfmt bdouble bfloat t_mul] in *; unfold nearest.
  - change (val float64 x) with (b64_of_bits x) in *. change (val float64 y) with (b64_of_bits y) in *. change (mw float64 + 1) with 53 in *. change (2 ^ (ew float64 - 1)) with 1024 in *.
    pose proof (Bmult_correct 53 1024 eq_refl eq_refl binop_nan_pl64 BinarySingleNaN.mode_NE (b64_of_bits x) (b64_of_bits y)) as C. rewrite X3, Y3 in C.
    change (round radix2 (SpecFloat.fexp 53 1024) (BinarySingleNaN.round_mode BinarySingleNaN.mode_NE) (r * s)) with (rnd float64 (r * s)) in C. rewrite Rlt_bool_true in C by exact H. destruct C as (C1 & C2 & C3). rewrite X1, Y1, X2, Y2 in *.
    change (val float64 (bits_of_b64 (b64_mult BinarySingleNaN.mode_NE (b64_of_bits x) (b64_of_bits y)))) with (b64_of_bits (bits_of_b64 (b64_mult BinarySingleNaN.mode_NE (b64_of_bits x) (b64_of_bits y)))). rewrite of_bits64.
    split; [apply (bits_of_binary_float_range 52 11); reflexivity|]. split; [|intro L; exfalso; apply Rabs_lt_inv in H; lra]. intros _. split; [exact C2|]. split; [|exact C1]. apply C3. destruct (Bmult 53 1024 _ _ _ _ _ _); [reflexivity|reflexivity|discriminate C2|reflexivity].
  - change (val float32 x) with (b32_of_bits x) in *. change (val float32 y) with (b32_of_bits y) in *. change (mw float32 + 1) with 24 in *. change (2 ^ (ew float32 - 1)) with 128 in *.
    pose proof (Bmult_correct 24 128 eq_refl eq_refl binop_nan_pl32 BinarySingleNaN.mode_NE (b32_of_bits x) (b32_of_bits y)) as C. rewrite X3, Y3 in C.
    change (round radix2 (SpecFloat.fexp 24 128) (BinarySingleNaN.round_mode BinarySingleNaN.mode_NE) (r * s)) with (rnd float32 (r * s)) in C. rewrite Rlt_bool_true in C by exact H. destruct C as (C1 & C2 & C3). rewrite X1, Y1, X2, Y2 in *.
    change (val float32 (bits_of_b32 (b32_mult BinarySingleNaN.mode_NE (b32_of_bits x) (b32_of_bits y)))) with (b32_of_bits (bits_of_b32 (b32_mult BinarySingleNaN.mode_NE (b32_of_bits x) (b32_of_bits y)))). rewrite of_bits32.
    split; [apply (bits_of_binary_float_range 23 8); reflexivity|]. split; [|intro L; exfalso; apply Rabs_lt_inv in H; lra]. intros _. split; [exact C2|]. split; [|exact C1]. apply C3. destruct (Bmult 24 128 _ _ _ _ _ _); [reflexivity|reflexivity|discriminate C2|reflexivity].
Qed.
Lemma div_near b x y r s : std b -> exactly (bfmt b) x r -> exactly (bfmt b) y s -> s <> 0%R -> (Rabs (rnd (bfmt b) (r / s)) < big_value (bfmt b))%R ->
  nearest (bfmt b) false (r / s) (t_div b x y).
Proof.
  intros [-> | ->] (X1 & X2 & X3) (Y1 & Y2 & Y3) N H; cbn [bfmt bdouble bfloat t_div] in *; unfold nearest.
  - change (val float64 x) with (b64_of_bits x) in *. change (val float64 y) with (b64_of_bits y) in *. change (mw float64 + 1) with 53 in *. change (2 ^ (ew float64 - 1)) with 1024 in *.
    rewrite <- Y3 in N. pose proof (Bdiv_correct 53 1024 eq_refl eq_refl binop_nan_pl64 BinarySingleNaN.mode_NE (b64_of_bits x) (b64_of_bits y) N) as C. rewrite X3, Y3 in C.
    change (round radix2 (SpecFloat.fexp 53 1024) (BinarySingleNaN.round_mode BinarySingleNaN.mode_NE) (r / s)) with (rnd float64 (r / s)) in C. rewrite Rlt_bool_true in C by exact H. destruct C as (C1 & C2 & C3). rewrite X1, X2, Y2 in *.
    change (val float64 (bits_of_b64 (b64_div BinarySingleNaN.mode_NE (b64_of_bits x) (b64_of_bits y)))) with (b64_of_bits (bits_of_b64 (b64_div BinarySingleNaN.mode_NE (b64_of_bits x) (b64_of_bits y)))). rewrite of_bits64.
    split; [apply (bits_of_binary_float_range 52 11); reflexivity|]. split; [|intro L; exfalso; apply Rabs_lt_inv in H; lra]. intros _. split; [exact C2|]. split; [|exact C1]. apply C3. destruct (Bdiv 53 1024 _ _ _ _ _ _); [reflexivity|reflexivity|discriminate C2|reflexivity].
  - change (val float32 x) with (b32_of_bits x) in *. change (val float32 y) with (b32_of_bits y) in *. change (mw float32 + 1) with 24 in *. change (2 ^ (ew float32 - 1)) with 128 in *.
    rewrite <- Y3 in N. pose proof (Bdiv_correct 24 128 eq_refl eq_refl binop_nan_pl32 BinarySingleNaN.mode_NE (b32_of_bits x) (b32_of_bits y) N) as C. rewrite X3, Y3 in C.
    change (round radix2 (SpecFloat.fexp 24 128) (BinarySingleNaN.round_mode BinarySingleNaN.mode_NE) (r / s)) with (rnd float32 (r / s)) in C. rewrite Rlt_bool_true in C by exact H. destruct C as (C1 & C2 & C3). rewrite X1, X2, Y2 in *.
    change (val float32 (bits_of_b32 (b32_div BinarySingleNaN.mode_NE (b32_of_bits x) (b32_of_bits y)))) with (b32_of_bits (bits_of_b32 (b32_div BinarySingleNaN.mode_NE (b32_of_bits x) (b32_of_bits y)))). rewrite of_bits32.
    split; [apply (bits_of_binary_float_range 23 8); reflexivity|]. split; [|intro L; exfalso; apply Rabs_lt_inv in H; lra]. intros _. split; [exact C2|]. split; [|exact C1]. apply C3. destruct (Bdiv 24 128 _ _ _ _ _ _); [reflexivity|reflexivity|discriminate C2|reflexivity].
Qed.

Lemma literal_range f n e : 0 <= n -> 0 <= literal f n e <= inf_pattern f.
Proof.
  intro Hn. rewrite literal_ratio. assert (N0 : 0 <= dnum n e) by (unfold dnum; destruct (Z.leb_spec 0 e); [apply Z.mul_nonneg_nonneg; [exact Hn|apply Z.pow_nonneg; lia]|exact Hn]).
  pose proof (inf_lt f). destruct (round_ratio_ok f (dnum n e) (dden e) N0 (dden_pos e)) as [(_ & R & _)|(_ & ->)]; lia.
Qed.
Lemma land_bit_zero x k : 0 <= k -> 0 <= x < 2 ^ k -> Z.land x (2 ^ k) = 0.
Proof.
  intros Hk Hx. apply Z.bits_inj'. intros i Hi. rewrite Z.land_spec, Z.pow2_bits_eqb, Z.bits_0 by exact Hk. destruct (Z.eqb_spec k i) as [<-|N]; [|apply andb_false_r]. rewrite andb_true_r.
  destruct (Z.eq_dec x 0) as [->|X]; [apply Z.bits_0|]. apply Z.bits_above_log2; [lia|]. apply Z.log2_lt_pow2; lia.
Qed.

(** more constants of the formats *)
Record consts3 (b : bformat) : Prop := {
  c_fp : -22 <= min_exponent_fast_path b /\ max_exponent_fast_path b <= 22 /\ 0 <= max_exponent_fast_path b /\ min_exponent_fast_path b = - max_exponent_fast_path b;
  c_tab : powers_of_ten b = map (fun k => literal (bfmt b) 1 (Z.of_nat k)) (seq 0 (Z.to_nat (max_exponent_fast_path b + 1)));
  c_five : 5 ^ max_exponent_fast_path b < 2 ^ (explicit_bits b + 1);
  c_max : 2 ^ (explicit_bits b + 1) * 10 ^ max_exponent_fast_path b <= 2 ^ (2 ^ (ew (bfmt b) - 1) - 1);
  c_emin : femin (bfmt b) <= 0;
  c_of : forall m, t_of b m = literal (bfmt b) m 0 }.
Lemma std_consts3 b : std b -> consts3 b.
Proof. intros [-> | ->]; (split; [cbn; lia|reflexivity|vm_compute; reflexivity|vm_compute; congruence|vm_compute; congruence|reflexivity]). Qed.

Section B.
Variable b : bformat.
Hypothesis Hb : std b.
Let C := std_consts b Hb.
Notation mb := (explicit_bits b).
Notation f := (bfmt b).

Let C3 := std_consts3 b Hb.
Local Instance prec_pos : Prec_gt_0 (mw f + 1).
Proof. unfold Prec_gt_0. pose proof (mw_pos f). lia. Qed.

Lemma rnd_int m e : 0 <= m < 2 ^ (mb + 1) -> femin f <= e -> rnd f (IZR m * bpow radix2 e) = (IZR m * bpow radix2 e)%R.
Proof.
  intros Hm He. apply round_generic; [apply valid_rnd_N|]. apply generic_format_FLT. exists (Float radix2 m e); [reflexivity| |exact He].
  cbn [Fnum]. rewrite Z.abs_eq by lia. rewrite (c_mw b C). exact (proj2 Hm).
Qed.
Lemma rnd_mono x y : (x <= y)%R -> (rnd f x <= rnd f y)%R.
Proof. intro H. apply round_le; [apply FLT_exp_valid; exact prec_pos|apply valid_rnd_N|exact H]. Qed.
Lemma rnd_zero : rnd f 0 = 0%R.
Proof. unfold rnd. apply round_0, valid_rnd_N. Qed.
Lemma rnd_small x : (0 <= x <= bpow radix2 (2 ^ (ew f - 1) - 1))%R -> (Rabs (rnd f x) < big_value f)%R.
Proof.
  intros [H0 H1]. apply rnd_mono in H0, H1. rewrite rnd_zero in H0. rewrite Rabs_pos_eq by exact H0. eapply Rle_lt_trans; [exact H1|].
  assert (E : rnd f (bpow radix2 (2 ^ (ew f - 1) - 1)) = bpow radix2 (2 ^ (ew f - 1) - 1)).
  { pose proof (rnd_int 1 (2 ^ (ew f - 1) - 1)) as R. rewrite Rmult_1_l in R. apply R.
    - pose proof (c_mb b C). split; [lia|]. apply Z.pow_gt_1; lia.
    - pose proof (c_emin b C3). assert (0 < 2 ^ (ew f - 1)) by (apply Z.pow_pos_nonneg; [lia|]; pose proof (ew_pos f); lia). lia. }
  rewrite E. apply bpow_lt. lia.
Qed.
Lemma lit_exact n e : 0 <= n -> rnd f (dec n e) = dec n e -> (0 <= dec n e <= bpow radix2 (2 ^ (ew f - 1) - 1))%R -> exactly f (literal f n e) (dec n e).
Proof.
  intros Hn HR HB. destruct (literal_nearest f false n e Hn) as (_ & F & _). cbn [b2z] in F. rewrite Z.mul_0_l, Z.add_0_l in F. destruct F as (F1 & F2 & F3).
  - pose proof (rnd_small _ HB) as S. apply Rabs_lt_inv in S. apply S.
  - split; [exact F1|]. split; [exact F2|]. rewrite F3. exact HR.
Qed.
Lemma fast_path_ok num : 0 <= mantissa_ num <= max_mantissa_fast_path b -> min_exponent_fast_path b <= exponent_ num <= max_exponent_fast_path b ->
  fast_path b num = Ok (bits_of b (negative num) (literal f (mantissa_ num) (exponent_ num))).
Proof.
  intros Hw Hq. unfold fast_path. set (w := mantissa_ num) in *. set (q := exponent_ num) in *. destruct (c_fp b C3) as (P1 & P2 & P3 & P4). pose proof (c_mb b C) as Mb. set (mx := max_exponent_fast_path b) in *.
  pose proof (c_emin b C3) as Em. pose proof (c_max b C3) as Mx. fold mx in Mx.
  assert (Tab : forall k, 0 <= k <= mx -> exact_power_of_ten b k = Ok (literal f 1 k)).
  { intros k Hk. unfold exact_power_of_ten. replace (k <? 0) with false by lia. rewrite (c_tab b C3). rewrite nth_error_map. assert (E : nth_error (seq 0 (Z.to_nat (mx + 1))) (Z.to_nat k) = Some (Z.to_nat k)). { rewrite (nth_error_nth' _ 0%nat) by (rewrite seq_length; lia). rewrite seq_nth by lia. reflexivity. } fold mx. rewrite E. cbn [option_map]. now rewrite Z2Nat.id by lia. }
  assert (W : w <= 2 ^ (mb + 1)) by (unfold max_mantissa_fast_path in Hw; rewrite Z.pow_add_r by lia; change (2 ^ 1) with 2; lia).
  assert (Pm : 0 < 2 ^ mb) by (apply Z.pow_pos_nonneg; lia). assert (P10 : forall k, 0 <= k <= mx -> 1 <= 10 ^ k <= 10 ^ mx) by (intros k Hk; split; [pose proof (Z.pow_pos_nonneg 10 k); lia|apply Z.pow_le_mono_r; lia]).
  assert (Bd : forall n, 0 <= n <= 2 ^ (mb + 1) * 10 ^ mx -> (0 <= IZR n <= bpow radix2 (2 ^ (ew f - 1) - 1))%R).
  { intros n Hn. split; [apply IZR_le; lia|]. rewrite bpow2. { apply IZR_le. lia. } assert (0 < 2 ^ (ew f - 1)) by (apply Z.pow_pos_nonneg; [lia|]; pose proof (ew_pos f); lia). lia. }
  assert (D0 : forall n, dec n 0 = IZR n) by (intro n; unfold dec; cbn; ring).
  assert (XW : exactly f (literal f w 0) (IZR w)).
  { rewrite <- D0. apply lit_exact; [lia| |rewrite D0; apply Bd; pose proof (P10 0 ltac:(lia)); pose proof (P10 mx ltac:(lia)); nia]. rewrite D0. destruct (Z.eq_dec w (2 ^ (mb + 1))) as [E|E].
    - replace (IZR w) with (IZR (2 ^ mb) * bpow radix2 1)%R by (rewrite E, Z.pow_add_r, mult_IZR by lia; reflexivity). apply rnd_int; [|lia]. split; [lia|]. apply Z.pow_lt_mono_r; lia.
    - pose proof (rnd_int w 0 ltac:(lia) Em) as R. rewrite Rmult_1_r in R. exact R. }
  assert (XT : forall k, 0 <= k <= mx -> exactly f (literal f 1 k) (IZR (10 ^ k))).
  { intros k Hk. assert (E : dec 1 k = IZR (10 ^ k)) by (unfold dec; rewrite Rmult_1_l; apply powerRZ_10; lia). rewrite <- E. apply lit_exact; [lia| |rewrite E; apply Bd; pose proof (P10 k Hk); assert (1 <= 2 ^ (mb + 1)) by (pose proof (Z.pow_pos_nonneg 2 (mb + 1)); lia); nia].
    assert (E2 : dec 1 k = (IZR (5 ^ k) * bpow radix2 k)%R) by (rewrite E, bpow2, <- mult_IZR, <- Z.pow_mul_l by lia; reflexivity). rewrite E2. apply rnd_int; [|lia]. split; [apply Z.pow_nonneg; lia|]. eapply Z.le_lt_trans; [|apply (c_five b C3)]. fold mx. apply Z.pow_le_mono_r; lia. }
  assert (Fin : forall v, nearest f false (dec w q) v -> neg_if b (negative num) v = bits_of b (negative num) (literal f w q)).
  { intros v Hv. pose proof (literal_nearest f false w q ltac:(lia)) as L. cbn [b2z] in L. rewrite Z.mul_0_l, Z.add_0_l in L. rewrite (nearest_unique f false _ _ _ Hv L). unfold neg_if, bits_of. destruct (negative num); cbn [b2z]; [|lia].
    pose proof (literal_range f w q ltac:(lia)) as LR. pose proof (inf_lt f) as IL. rewrite (c_sign b C). unfold fneg. set (x := literal f w q) in *. rewrite Z.mul_1_l, (Z.add_comm (ew f)), (Z.add_comm (2 ^ _)). symmetry. apply Z.add_nocarry_lxor. pose proof (mw_pos f). pose proof (ew_pos f). apply land_bit_zero; lia. }
  rewrite (c_of b C3). destruct (Z.ltb_spec q 0) as [L|L].
  - rewrite Tab by lia. cbn [bind]. f_equal. apply Fin. assert (E : dec w q = (IZR w / IZR (10 ^ (- q)))%R). { unfold dec, Rdiv. f_equal. rewrite <- powerRZ_10 by lia. rewrite <- powerRZ_neg'. now rewrite Z.opp_involutive. }
    rewrite E. pose proof (P10 (- q) ltac:(lia)) as Q1. assert (Q2 : (1 <= IZR (10 ^ (- q)))%R) by (apply IZR_le; lia). apply div_near; [exact Hb|exact XW|apply XT; lia|lra|]. apply rnd_small. assert (W0 : (0 <= IZR w <= bpow radix2 (2 ^ (ew f - 1) - 1))%R) by (apply Bd; pose proof (P10 mx ltac:(lia)); nia).
    assert (I : (0 < / IZR (10 ^ (- q)) <= 1)%R) by (split; [apply Rinv_0_lt_compat; lra|rewrite <- Rinv_1; apply Rinv_le_contravar; lra]). unfold Rdiv. split; [apply Rmult_le_pos; lra|]. nra.
  - rewrite Tab by lia. cbn [bind]. f_equal. apply Fin. assert (E : dec w q = (IZR w * IZR (10 ^ q))%R) by (unfold dec; now rewrite powerRZ_10 by lia). rewrite E. apply mul_near; [exact Hb|exact XW|apply XT; lia|]. apply rnd_small. rewrite <- mult_IZR. apply Bd. pose proof (P10 q ltac:(lia)). nia.
Qed.

(** ** The slow path *)
Lemma compute_float_total t q w : 0 <= w < 2 ^ 64 -> exists am, compute_float t b q w = Ok am /\ (packs b am (literal f w q) \/ (0 < w /\ estimate b w q am)).
Proof.
  intro Hw. pose proof (c_mb b C). pose proof (c_infr b C) as If. assert (P : 0 < 2 ^ mb) by (apply Z.pow_pos_nonneg; lia).
  destruct (Z.eq_dec w 0) as [->|W0].
  { exists (AM 0 0). split; [reflexivity|]. left. replace (literal f 0 q) with 0; [apply (pack_fields b 0 0 C); lia|]. symmetry. apply RyuCvt.lit_zero. }
  assert (Hw' : 0 < w < 2 ^ 64) by lia.
  destruct (Z.lt_ge_cases q (smallest_power_of_ten b)) as [Lo|Lo].
  { exists (AM 0 0). split. { unfold compute_float. replace (w =? 0) with false by lia. replace (q <? smallest_power_of_ten b) with true by lia. reflexivity. }
    left. rewrite (underflow b q w Hb Hw' Lo). apply (pack_fields b 0 0 C); lia. }
  destruct (Z.lt_ge_cases (largest_power_of_ten b) q) as [Up|Up].
  { exists (AM 0 (infinite_power b)). split. { unfold compute_float. replace (w =? 0) with false by lia. replace (q <? smallest_power_of_ten b) with false by lia. cbn [orb]. replace (largest_power_of_ten b <? q) with true by lia. reflexivity. }
    left. rewrite (overflow b q w Hb Hw' Up). unfold inf_pattern. rewrite <- (c_inf b C), (c_mw b C). replace (infinite_power b * 2 ^ mb) with (infinite_power b * 2 ^ mb + 0) by lia. apply (pack_fields b 0 _ C); lia. }
  destruct (compute_float_ok t b q w Hb Hw' ltac:(lia)) as (am & E & [A|A]); exists am; (split; [exact E|]); [now left|right; split; [lia|exact A]].
Qed.
Lemma packs_same am x y : packs b am x -> packs b am y -> x = y.
Proof. intros [_ H1] [_ H2]. specialize (H1 false). specialize (H2 false). unfold bits_of in *. cbn [b2z] in *. lia. Qed.
Lemma compute_float_far t q w w' : 0 < w -> 0 < w' -> ~ (smallest_power_of_ten b <= q <= largest_power_of_ten b) -> compute_float t b q w = compute_float t b q w'.
Proof.
  intros H H' N. unfold compute_float. replace (w =? 0) with false by lia. replace (w' =? 0) with false by lia. cbn [orb]. destruct (Z.ltb_spec q (smallest_power_of_ten b)); [reflexivity|]. replace (largest_power_of_ten b <? q) with true by lia. reflexivity.
Qed.
Lemma am_eqb_eq a c : am_eqb a c = true -> a = c.
Proof. unfold am_eqb. destruct a, c. cbn. rewrite andb_true_iff, !Z.eqb_eq. intros [-> ->]. reflexivity. Qed.
Lemma am_eqb_refl a : am_eqb a a = true.
Proof. unfold am_eqb. now rewrite !Z.eqb_refl. Qed.

Lemma slow_path_ok t num neg int fr x rest : scanned num neg int fr x rest -> Forall dig int -> Forall dig (fdigits fr) ->
  slow_path t b num = Ok (bits_of b neg (literal f (digit_val (int ++ fdigits fr)) (x - len (fdigits fr)))).
Proof.
  intros (S1 & S2 & S3 & S4 & S5 & S6 & S7) F1 F2. set (N := digit_val (int ++ fdigits fr)) in *. set (e := x - len (fdigits fr)) in *. unfold slow_path. rewrite S3.
  assert (N0 : 0 <= N) by (apply dv_bound, Forall_app; now split). assert (T19 : 10 ^ 19 < 2 ^ 64) by reflexivity.
  assert (Wr : 0 <= mantissa_ num < 10 ^ 19). { destruct (too_many_digits num); [destruct (S7 eq_refl) as (k & _ & _ & H & _); lia|destruct (S6 eq_refl) as (-> & H & _); lia]. }
  assert (RD : 0 < mantissa_ num -> reads num int fr e).
  { intro W0. split; try assumption; [split; [exact W0|apply Wr]|]. fold N. destruct (too_many_digits num); [destruct (S7 eq_refl) as (k & K1 & K2 & K3 & K4); exists k; repeat split; try assumption; try apply K4; right; apply K3|].
    destruct (S6 eq_refl) as (E & H & Q). exists 0. rewrite E. change (10 ^ 0) with 1. split; [lia|]. split; [lia|]. split; [lia|now left]. }
  assert (DC : forall am, 0 < mantissa_ num -> estimate b (mantissa_ num) (exponent_ num) am -> (am0 <- (if am_power2 am <? 0 then digit_comp t b num am else Ok am) ;; Ok (to_float b neg am0)) = Ok (bits_of b neg (literal f N e))).
  { intros am W0 Es. assert (am_power2 am <? 0 = true) as -> by (destruct Es as (_ & Es & _); lia). destruct (digit_comp_ok b Hb t num am int fr e (RD W0) Es) as (am' & -> & PK). cbn [bind]. now rewrite (proj2 PK). }
  destruct (compute_float_total t (exponent_ num) (mantissa_ num) ltac:(lia)) as (am & Ea & A). rewrite Ea. cbn [bind]. destruct (too_many_digits num) eqn:TM; cbn [andb].
  - destruct (S7 eq_refl) as (k & K1 & K2 & K3 & K4). assert (W0 : 0 < mantissa_ num) by lia. destruct A as [PK|[_ Es]].
    + replace (0 <=? am_power2 am) with true by (destruct PK; lia). assert (U : u64 (mantissa_ num + 1) = mantissa_ num + 1) by (unfold u64; apply Z.mod_small; lia). rewrite U.
      destruct (compute_float_total t (exponent_ num) (mantissa_ num + 1) ltac:(lia)) as (am2 & Ea2 & A2). rewrite Ea2. cbn [bind]. destruct (am_eqb am am2) eqn:EQ; cbn [negb].
      * apply am_eqb_eq in EQ. subst am2. destruct A2 as [PK2|[_ Es2]]; [|destruct PK as [PK _], Es2 as (_ & Es2 & _); lia]. cbn [bind]. replace (am_power2 am <? 0) with false by (destruct PK; lia). cbn [bind]. rewrite (proj2 PK). do 2 f_equal. symmetry.
        apply lit_between with (w2 := mantissa_ num + 1) (q2 := exponent_ num); [nia|lia|lia| |now apply (packs_same am)]. rewrite K2, !dec_shift by exact K1. split; apply dec_le; lia.
      * assert (Hq : smallest_power_of_ten b <= exponent_ num <= largest_power_of_ten b).
        { destruct (Z.le_gt_cases (smallest_power_of_ten b) (exponent_ num)) as [L1|L1]; [destruct (Z.le_gt_cases (exponent_ num) (largest_power_of_ten b)) as [L2|L2]; [lia|]|]; exfalso; rewrite (compute_float_far t _ (mantissa_ num) (mantissa_ num + 1)) in Ea by lia; rewrite Ea in Ea2; injection Ea2 as <-; rewrite am_eqb_refl in EQ; discriminate. }
        destruct (compute_error_ok t b (exponent_ num) (mantissa_ num) Hb ltac:(lia) Hq) as (am3 & -> & Es). cbn [bind]. now apply DC.
    + replace (0 <=? am_power2 am) with false by (destruct Es as (_ & Es & _); lia). cbn [bind]. now apply DC.
  - cbn [bind]. destruct (S6 eq_refl) as (E & H & Q). destruct A as [PK|[W0 Es]].
    + replace (am_power2 am <? 0) with false by (destruct PK; lia). cbn [bind]. rewrite (proj2 PK), E, Q. reflexivity.
    + now apply DC.
Qed.
End B.
