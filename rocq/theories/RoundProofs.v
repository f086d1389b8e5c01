(** Proofs about RoundModel. *)
From Coq Require Import ZArith Bool Lia Reals Lra.
From Flocq Require Import Core IEEE754.Binary IEEE754.Bits.
From Verif Require Import Mem FpModel RoundModel.
Open Scope Z_scope.

Section R.
Variable f : fmt.
Notation prec := (mw f + 1).
Notation emax := (2 ^ (ew f - 1)).
Notation float := (binary_float prec emax).
Notation emin := (SpecFloat.emin prec emax).
Notation fexp := (SpecFloat.fexp prec emax).
Variable nan2 : float -> float -> { x : float | is_nan prec emax x = true }.
Variable nan1 : float -> { x : float | is_nan prec emax x = true }.
Existing Instance prec_pos.
Existing Instance prec_emax.

Lemma prec_ge : 2 <= prec. Proof. pose proof (mw_pos f). lia. Qed.
Lemma emin_neg : emin < 0.
Proof. unfold SpecFloat.emin. pose proof (mw_pos f). pose proof (mw_ew f). lia. Qed.

(** Small multiples of a representable exponent are representable. *)
Lemma format_F2R m e : Z.abs m < 2 ^ prec -> emin <= e -> generic_format radix2 fexp (F2R (Float radix2 m e)).
Proof.
  intros Hm He. apply (generic_format_FLT radix2 emin prec).
  exists (Float radix2 m e); [reflexivity|exact Hm|exact He].
Qed.

Lemma normalize_ok m e : Z.abs m < 2 ^ prec -> emin <= e ->
  (Rabs (F2R (Float radix2 m e)) < bpow radix2 emax)%R ->
  let v := binary_normalize prec emax _ _ BinarySingleNaN.mode_NE m e false in
  is_finite _ _ v = true /\ B2R _ _ v = F2R (Float radix2 m e).
Proof.
  intros Hm He Hb v.
  pose proof (binary_normalize_correct prec emax _ _ BinarySingleNaN.mode_NE m e false) as C.
  rewrite (round_generic radix2 fexp _ _ (format_F2R m e Hm He)) in C.
  rewrite Rlt_bool_true in C by exact Hb. destruct C as (C1 & C2 & _). split; [exact C2|exact C1].
Qed.

Lemma bpow_emax_big : (IZR (2 ^ prec) < bpow radix2 emax)%R.
Proof.
  change (IZR (2 ^ prec)) with (IZR (radix_val radix2 ^ prec)). rewrite IZR_Zpower by (pose proof prec_ge; lia).
  apply bpow_lt. pose proof (mw_ew f). lia.
Qed.

Lemma of_int_ok i : Z.abs i < 2 ^ prec -> is_finite _ _ (of_int f i) = true /\ B2R _ _ (of_int f i) = IZR i.
Proof.
  intro H. pose proof emin_neg.
  assert (E : F2R (Float radix2 i 0) = IZR i) by (unfold F2R; cbn; ring).
  rewrite <- E. apply normalize_ok; [exact H|lia|].
  rewrite E, <- abs_IZR. apply Rlt_trans with (2 := bpow_emax_big). now apply IZR_lt.
Qed.

Lemma eps_ok : is_finite _ _ (epsilon f) = true /\ B2R _ _ (epsilon f) = bpow radix2 (- mw f).
Proof.
  assert (E : F2R (Float radix2 1 (- mw f)) = bpow radix2 (- mw f)) by (unfold F2R; cbn; ring).
  rewrite <- E. pose proof (mw_pos f). pose proof (mw_ew f). apply normalize_ok.
  - pose proof prec_ge. change (Z.abs 1) with (2 ^ 0). apply Z.pow_lt_mono_r; lia.
  - unfold SpecFloat.emin. lia.
  - rewrite E, Rabs_pos_eq by apply bpow_ge_0. apply bpow_lt. lia.
Qed.

Lemma ltb_R (a b : float) : is_finite _ _ a = true -> is_finite _ _ b = true -> ltb f a b = Rlt_bool (B2R _ _ a) (B2R _ _ b).
Proof.
  intros Ha Hb. unfold ltb. rewrite Bcompare_correct by assumption.
  destruct (Rcompare_spec (B2R _ _ a) (B2R _ _ b)); symmetry; [apply Rlt_bool_true|apply Rlt_bool_false|apply Rlt_bool_false]; lra.
Qed.

Lemma fabs_R (a : float) : is_finite _ _ a = true ->
  is_finite _ _ (fabs_ f nan1 a) = true /\ B2R _ _ (fabs_ f nan1 a) = Rabs (B2R _ _ a).
Proof.
  intro Ha. unfold fabs_. rewrite ltb_R by auto. cbn [B2R fp_zero].
  destruct (Rlt_bool_spec (B2R _ _ a) 0).
  - split; [now rewrite is_finite_Bopp|]. rewrite B2R_Bopp, Rabs_left; auto.
  - split; [exact Ha|]. now rewrite Rabs_pos_eq.
Qed.

(** A finite value, its truncation and its fractional part are all representable. *)
Lemma trunc_frac (x : float) : is_finite _ _ x = true ->
  exists t : Z, Btrunc _ _ x = t /\ t = Ztrunc (B2R _ _ x) /\
    generic_format radix2 fexp (IZR t) /\
    generic_format radix2 fexp (B2R _ _ x - IZR t) /\
    (B2R _ _ x <> IZR t -> Z.abs t + 1 < 2 ^ prec) /\
    (B2R _ _ x <> IZR t -> (1 <= Rabs (B2R _ _ x))%R -> (bpow radix2 (- mw f) <= Rabs (B2R _ _ x - IZR t))%R).
Proof.
  intro Fx. exists (Btrunc _ _ x). split; [reflexivity|].
  assert (T : Btrunc _ _ x = Ztrunc (B2R _ _ x)).
  { apply eq_IZR. rewrite Btrunc_correct by exact _. unfold round, scaled_mantissa, F2R, cexp, FIX_exp. cbn. now rewrite !Rmult_1_r. }
  split; [exact T|]. rewrite T. clear T.
  destruct x as [s|s|s pl|s m e B]; try discriminate.
  - cbn [B2R]. replace 0%R with (IZR 0) by reflexivity. rewrite Ztrunc_IZR.
    repeat apply conj; try lra; rewrite ?Rminus_0_r; try apply generic_format_0.
  - assert (BB := B). unfold SpecFloat.bounded in BB. apply andb_prop in BB. destruct BB as [CM Le].
    set (sm := cond_Zopp s (Zpos m)). cbn [B2R]. fold sm.
    assert (Hm : Z.abs sm < 2 ^ prec).
    { unfold sm. rewrite abs_cond_Zopp. cbn [Z.abs].
      assert (D : Z.pos (SpecFloat.digits2_pos m) <= prec).
      { assert (B1 := CM). unfold SpecFloat.canonical_mantissa in B1.
        apply Zeq_bool_eq in B1. unfold SpecFloat.fexp in B1. lia. }
      rewrite Digits.Zpos_digits2_pos in D. apply (Digits.Zpower_gt_Zdigits radix2 prec (Zpos m)) in D. exact D. }
    assert (He : emin <= e).
    { unfold SpecFloat.canonical_mantissa in CM. apply Zeq_bool_eq in CM. unfold SpecFloat.fexp in CM. lia. }
    assert (G : generic_format radix2 fexp (F2R (Float radix2 sm e))) by now apply format_F2R.
    destruct (Z.le_gt_cases 0 e) as [E0|E0].
    + (* an integer *)
      assert (EI : F2R (Float radix2 sm e) = IZR (sm * 2 ^ e)).
      { unfold F2R. cbn [Fnum Fexp]. rewrite mult_IZR. f_equal. now rewrite <- IZR_Zpower by lia. }
      rewrite EI in *. rewrite Ztrunc_IZR. repeat apply conj; try lra; auto.
      rewrite Rminus_eq_0. apply generic_format_0.
    + set (k := - e). assert (Hk : 0 < k) by lia. replace e with (- k) in * by lia.
      assert (P : 0 < 2 ^ k) by (apply Z.pow_pos_nonneg; lia).
      assert (PB : bpow radix2 k = IZR (2 ^ k)) by now rewrite <- IZR_Zpower by lia.
      assert (PB0 : (0 < bpow radix2 k)%R) by apply bpow_gt_0.
      assert (EV : F2R (Float radix2 sm (- k)) = (IZR sm / IZR (2 ^ k))%R).
      { unfold F2R. cbn [Fnum Fexp]. rewrite bpow_opp, PB. reflexivity. }
      assert (TQ : Ztrunc (F2R (Float radix2 sm (- k))) = Z.quot sm (2 ^ k)).
      { rewrite EV. apply Ztrunc_div. lia. }
      rewrite TQ. set (q := Z.quot sm (2 ^ k)). set (r := Z.rem sm (2 ^ k)).
      assert (QR : sm = 2 ^ k * q + r) by apply Z.quot_rem'.
      assert (P2 : 2 <= 2 ^ k) by (change 2 with (2 ^ 1) at 1; apply Z.pow_le_mono_r; lia).
      assert (RB : Z.abs r < 2 ^ k) by (unfold r; pose proof (Z.rem_bound_abs sm (2 ^ k)); lia).
      assert (RS : Z.abs r <= Z.abs sm).
      { unfold r. rewrite <- Z.rem_abs by lia. rewrite Z.rem_mod_nonneg by lia. apply Z.mod_le; lia. }
      assert (QS : 2 * Z.abs q <= Z.abs sm).
      { unfold q. rewrite <- Z.quot_abs by lia. rewrite Z.quot_div_nonneg by lia.
        assert (2 ^ k * (Z.abs sm / Z.abs (2 ^ k)) <= Z.abs sm) by (rewrite (Z.abs_eq (2 ^ k)) by lia; apply Z.mul_div_le; lia).
        assert (0 <= Z.abs sm / Z.abs (2 ^ k)) by (apply Z.div_pos; lia). nia. }
      assert (FR : (F2R (Float radix2 sm (- k)) - IZR q)%R = F2R (Float radix2 r (- k))).
      { unfold F2R. cbn [Fnum Fexp]. rewrite bpow_opp, PB. rewrite QR, plus_IZR, mult_IZR.
        field. apply IZR_neq. lia. }
      rewrite FR. pose proof emin_neg. repeat apply conj.
      * replace (IZR q) with (F2R (Float radix2 q 0)) by (unfold F2R; cbn; ring). apply format_F2R; lia.
      * apply format_F2R; lia.
      * intros _. assert (2 ^ prec = 2 * 2 ^ mw f) by (pose proof (mw_pos f); rewrite Z.pow_add_r by lia; lia).
        assert (2 <= 2 ^ mw f) by (pose proof (mw_pos f); change 2 with (2 ^ 1) at 1; apply Z.pow_le_mono_r; lia). lia.
      * intros NE GE.
        assert (R0 : r <> 0).
        { intro Z0. apply NE. assert (X : (F2R (Float radix2 sm (- k)) - IZR q = 0)%R).
          { rewrite FR, Z0. unfold F2R. cbn. ring. } lra. }
        rewrite <- F2R_Zabs. 
        assert (KM : k <= mw f).
        { (* |sm| >= 2^k and |sm| < 2^prec *)
          rewrite EV in GE. unfold Rdiv in GE. rewrite Rabs_mult, (Rabs_pos_eq (/ IZR (2 ^ k))) in GE
            by (left; apply Rinv_0_lt_compat, IZR_lt; lia).
          rewrite <- abs_IZR in GE.
          assert (IZR (2 ^ k) <= IZR (Z.abs sm))%R.
          { apply Rmult_le_reg_r with (/ IZR (2 ^ k))%R; [apply Rinv_0_lt_compat, IZR_lt; lia|].
            rewrite Rinv_r by (apply IZR_neq; lia). exact GE. }
          apply le_IZR in H0.
          assert (2 ^ k < 2 ^ prec) by lia. apply Z.pow_lt_mono_r_iff in H1; pose proof (mw_pos f); lia. }
        apply Rle_trans with (bpow radix2 (- k)); [apply bpow_le; lia|].
        unfold F2R. cbn [Fnum Fexp]. rewrite <- (Rmult_1_l (bpow radix2 (- k))) at 1.
        apply Rmult_le_compat_r; [apply bpow_ge_0|]. apply IZR_le. lia.
Qed.

Lemma minus_exact (a b : float) : is_finite _ _ a = true -> is_finite _ _ b = true ->
  generic_format radix2 fexp (B2R _ _ a - B2R _ _ b) -> (Rabs (B2R _ _ a - B2R _ _ b) < 1)%R ->
  is_finite _ _ (minus f nan2 a b) = true /\ B2R _ _ (minus f nan2 a b) = (B2R _ _ a - B2R _ _ b)%R.
Proof.
  intros Ha Hb G L. pose proof (Bminus_correct prec emax _ _ nan2 BinarySingleNaN.mode_NE a b Ha Hb) as C.
  rewrite (round_generic radix2 fexp _ _ G) in C.
  rewrite Rlt_bool_true in C.
  - destruct C as (C1 & C2 & _). split; [exact C2|exact C1].
  - apply Rlt_le_trans with (1 := L). change 1%R with (bpow radix2 0). apply bpow_le.
    pose proof (mw_pos f). pose proof (mw_ew f). lia.
Qed.

Lemma of_int_format t : generic_format radix2 fexp (IZR t) -> Z.abs t <= 2 ^ 31 ->
  (bpow radix2 31 < bpow radix2 emax)%R ->
  is_finite _ _ (of_int f t) = true /\ B2R _ _ (of_int f t) = IZR t.
Proof.
  intros G H Hb.
  assert (E : F2R (Float radix2 t 0) = IZR t) by (unfold F2R; cbn; ring).
  pose proof (binary_normalize_correct prec emax _ _ BinarySingleNaN.mode_NE t 0 false) as C.
  rewrite E in C. rewrite (round_generic radix2 fexp _ _ G) in C.
  rewrite Rlt_bool_true in C. { destruct C as (C1 & C2 & _). split; [exact C2|exact C1]. }
  apply Rle_lt_trans with (2 := Hb). rewrite <- abs_IZR. 
  change (bpow radix2 31) with (IZR (2 ^ 31)). now apply IZR_le.
Qed.

Hypothesis big : 31 < emax.

Lemma Zceil_frac x t : t = Ztrunc x -> x <> IZR t -> Zceil x = if Rlt_dec 0 x then t + 1 else t.
Proof.
  intros -> N. destruct (Rlt_dec 0 x).
  - rewrite Ztrunc_floor in * by lra. apply Zceil_floor_neq. auto.
  - now rewrite Ztrunc_ceil by lra.
Qed.
Lemma Zfloor_frac x t : t = Ztrunc x -> x <> IZR t -> Zfloor x = if Rlt_dec x 0 then t - 1 else t.
Proof.
  intros -> N. destruct (Rlt_dec x 0).
  - rewrite Ztrunc_ceil in * by lra. rewrite Zceil_floor_neq.
    + lia.
    + intro E. apply N. rewrite <- E at 2. rewrite Zceil_IZR. auto.
  - now rewrite Ztrunc_floor by lra.
Qed.

Lemma trunc_lt x : (Rabs (x - IZR (Ztrunc x)) < 1)%R.
Proof.
  destruct (Rle_or_lt 0 x).
  - rewrite Ztrunc_floor by lra. pose proof (Zfloor_lb x). pose proof (Zfloor_ub x). rewrite Rabs_pos_eq; lra.
  - rewrite Ztrunc_ceil by lra. pose proof (Zceil_ub x). pose proof (Zceil_lb x). rewrite Rabs_left1; lra.
Qed.

Lemma to_int_ok (x : float) : is_finite _ _ x = true -> (-(2147483649) < B2R _ _ x < 2147483648)%R ->
  to_int f x = inl (Ztrunc (B2R _ _ x)) /\ - 2 ^ 31 <= Ztrunc (B2R _ _ x) < 2 ^ 31.
Proof.
  intros Fx Hx. destruct (trunc_frac x Fx) as (t & T & T2 & _). unfold to_int. rewrite Fx, T, T2. cbv zeta.
  assert (- 2 ^ 31 <= Ztrunc (B2R _ _ x) < 2 ^ 31).
  { destruct (Rle_or_lt 0 (B2R _ _ x)).
    - rewrite Ztrunc_floor by lra. split.
      + apply Z.le_trans with 0; [lia|]. apply Zfloor_lub. lra.
      + apply lt_IZR. apply Rle_lt_trans with (1 := Zfloor_lb _). change (IZR (2 ^ 31)) with 2147483648%R. lra.
    - rewrite Ztrunc_ceil by lra. split.
      + assert (-2147483649 < Zceil (B2R _ _ x)); [|lia]. apply lt_IZR. pose proof (Zceil_ub (B2R _ _ x)). 
        replace (IZR (-2147483649)) with (-(2147483649))%R by reflexivity. lra.
      + apply Z.le_lt_trans with 0; [|lia]. apply Zceil_glb. lra. }
  split; [|exact H].
  destruct (Z.leb_spec (- 2 ^ 31) (Ztrunc (B2R _ _ x))); [|lia].
  destruct (Z.ltb_spec (Ztrunc (B2R _ _ x)) (2 ^ 31)); [|lia]. reflexivity.
Qed.

Lemma to_int_bad (x : float) : (is_finite _ _ x = true -> (B2R _ _ x <= -(2147483649))%R \/ (2147483648 <= B2R _ _ x)%R) ->
  to_int f x = inr tt.
Proof.
  intros H. unfold to_int. destruct (is_finite _ _ x) eqn:Fx; [|reflexivity].
  destruct (trunc_frac x Fx) as (t & T & T2 & _). rewrite T, T2. cbv zeta.
  destruct (H eq_refl) as [L|L].
  - assert (Ztrunc (B2R _ _ x) <= -2147483649).
    { rewrite Ztrunc_ceil by lra. apply Zceil_glb. exact L. }
    destruct (Z.leb_spec (- 2 ^ 31) (Ztrunc (B2R _ _ x))); [lia|reflexivity].
  - assert (2147483648 <= Ztrunc (B2R _ _ x)).
    { rewrite Ztrunc_floor by lra. apply Zfloor_lub. exact L. }
    destruct (Z.ltb_spec (Ztrunc (B2R _ _ x)) (2 ^ 31)); [lia|]. now rewrite andb_false_r.
Qed.

Lemma bpow_big : (bpow radix2 31 < bpow radix2 emax)%R.
Proof. apply bpow_lt. exact big. Qed.

Lemma int_arith_ok i : - 2 ^ 31 <= i < 2 ^ 31 -> int_arith i = inl i.
Proof.
  intro H. unfold int_arith. destruct (Z.leb_spec (- 2 ^ 31) i); [|lia]. destruct (Z.ltb_spec i (2 ^ 31)); [reflexivity|lia].
Qed.

Lemma ceil_ok (x : float) : is_finite _ _ x = true -> (-(2147483649) < B2R _ _ x <= 2147483647)%R ->
  exists r, ceil f nan2 nan1 x = inl r /\ is_finite _ _ r = true /\
    B2R _ _ r = if Rlt_dec 0 (B2R _ _ x) then
                  if Rlt_dec (B2R _ _ x) (bpow radix2 (- mw f)) then 0%R else IZR (Zceil (B2R _ _ x))
                else IZR (Zceil (B2R _ _ x)).
Proof.
  intros Fx Hx. destruct (trunc_frac x Fx) as (t & _ & T & Gt & Gd & N1 & N2).
  destruct (to_int_ok x Fx ltac:(lra)) as [I IR]. rewrite <- T in I, IR.
  destruct (of_int_format t Gt ltac:(lia) bpow_big) as [Ft Rt].
  pose proof (trunc_lt (B2R _ _ x)) as L. rewrite <- T in L.
  destruct (minus_exact x (of_int f t) Fx Ft) as [Fd Rd]; [now rewrite Rt|now rewrite Rt|]. rewrite Rt in Rd.
  destruct (fabs_R _ Fd) as [Fa Ra]. destruct eps_ok as [Fe Re].
  pose proof (bpow_gt_0 radix2 (- mw f)) as Epos.
  assert (E1 : (bpow radix2 (- mw f) < 1)%R) by (change 1%R with (bpow radix2 0); apply bpow_lt; pose proof (mw_pos f); lia).
  unfold ceil. rewrite I. rewrite ltb_R, Ra, Rd, Re by assumption.
  destruct (Rlt_bool_spec (Rabs (B2R _ _ x - IZR t)) (bpow radix2 (- mw f))) as [SM|LG].
  - exists (of_int f t). split; [reflexivity|]. split; [exact Ft|]. rewrite Rt.
    destruct (Req_dec (B2R _ _ x) (IZR t)) as [Q|Q].
    { rewrite Q in *. rewrite Zceil_IZR. destruct (Rlt_dec 0 (IZR t)) as [P|P]; [|reflexivity].
      destruct (Rlt_dec (IZR t) (bpow radix2 (- mw f))) as [P2|P2]; [|reflexivity].
      exfalso. apply lt_IZR in P. assert (1 <= IZR t)%R by (apply IZR_le; lia). lra. }
    assert (Lx : (Rabs (B2R _ _ x) < 1)%R).
    { destruct (Rle_or_lt 1 (Rabs (B2R _ _ x))) as [G|G]; [|exact G]. specialize (N2 Q G). lra. }
    assert (T0 : t = 0). { rewrite T. destruct (Rle_or_lt 0 (B2R _ _ x)).
      - rewrite Ztrunc_floor by lra. apply Zfloor_imp. cbn. split; [lra|]. apply Rle_lt_trans with (1 := Rle_abs _). lra.
      - rewrite Ztrunc_ceil by lra. apply Zceil_imp. cbn. rewrite Rabs_left in Lx by lra. lra. }
    rewrite T0 in *. rewrite Rminus_0_r in SM.
    destruct (Rlt_dec 0 (B2R _ _ x)) as [P|P].
    + rewrite Rabs_pos_eq in SM by lra. destruct (Rlt_dec (B2R _ _ x) (bpow radix2 (- mw f))); [reflexivity|lra].
    + rewrite (Zceil_frac (B2R _ _ x) 0 T Q). destruct (Rlt_dec 0 (B2R _ _ x)); [lra|reflexivity].
  - assert (Q : B2R _ _ x <> IZR t).
    { intro Q. rewrite Q, Rminus_eq_0, Rabs_R0 in LG. lra. }
    pose proof (Zceil_frac (B2R _ _ x) t T Q) as ZC.
    assert (GT : gtb f x (fp_zero f) = Rlt_bool 0 (B2R _ _ x)).
    { unfold gtb. rewrite Bcompare_correct by auto. cbn [B2R fp_zero].
      destruct (Rcompare_spec (B2R _ _ x) 0); symmetry; [apply Rlt_bool_false|apply Rlt_bool_false|apply Rlt_bool_true]; lra. }
    rewrite GT. destruct (Rlt_bool_spec 0 (B2R _ _ x)) as [P|P].
    + destruct (Rlt_dec 0 (B2R _ _ x)); [|lra].
      assert (TB : t + 1 < 2 ^ 31).
      { rewrite <- ZC. apply Z.le_lt_trans with 2147483647; [|lia]. apply Zceil_glb. lra. }
      rewrite int_arith_ok by lia.
      specialize (N1 Q). destruct (of_int_ok (t + 1) ltac:(lia)) as [Fr Rr].
      exists (of_int f (t + 1)). split; [reflexivity|]. split; [exact Fr|]. rewrite Rr, ZC.
      destruct (Rlt_dec (B2R _ _ x) (bpow radix2 (- mw f))) as [S|S]; [|reflexivity].
      exfalso. assert (t = 0). { rewrite T, Ztrunc_floor by lra. apply Zfloor_imp. cbn. lra. }
      rewrite H, Rminus_0_r, Rabs_pos_eq in LG by lra. lra.
    + exists (of_int f t). split; [reflexivity|]. split; [exact Ft|]. rewrite Rt, ZC.
      destruct (Rlt_dec 0 (B2R _ _ x)); [lra|reflexivity].
Qed.

Lemma ceil_bad (x : float) : (is_finite _ _ x = true -> (B2R _ _ x <= -(2147483649))%R \/ (2147483647 < B2R _ _ x)%R) ->
  ceil f nan2 nan1 x = inr tt.
Proof.
  intro H. unfold ceil.
  destruct (is_finite _ _ x) eqn:Fx.
  2:{ rewrite to_int_bad; [reflexivity|]. intro; congruence. }
  destruct (Rle_or_lt 2147483648 (B2R _ _ x)) as [G|G].
  { rewrite to_int_bad; [reflexivity|auto]. }
  destruct (H eq_refl) as [G2|G2].
  { rewrite to_int_bad; [reflexivity|auto]. }
  destruct (trunc_frac x Fx) as (t & _ & T & Gt & Gd & N1 & N2).
  destruct (to_int_ok x Fx ltac:(lra)) as [I IR]. rewrite <- T in I, IR.
  assert (T1 : t = 2147483647). { rewrite T, Ztrunc_floor by lra. apply Zfloor_imp. rewrite plus_IZR. lra. }
  destruct (of_int_format t Gt ltac:(lia) bpow_big) as [Ft Rt].
  pose proof (trunc_lt (B2R _ _ x)) as L. rewrite <- T in L.
  destruct (minus_exact x (of_int f t) Fx Ft) as [Fd Rd]; [now rewrite Rt|now rewrite Rt|]. rewrite Rt in Rd.
  destruct (fabs_R _ Fd) as [Fa Ra]. destruct eps_ok as [Fe Re].
  rewrite I. rewrite ltb_R, Ra, Rd, Re by assumption.
  rewrite Rlt_bool_false.
  2:{ apply N2; [rewrite T1; lra|]. rewrite Rabs_pos_eq; lra. }
  assert (GT : gtb f x (fp_zero f) = true).
  { unfold gtb. rewrite Bcompare_correct by auto. cbn [B2R fp_zero]. now rewrite Rcompare_Gt by lra. }
  rewrite GT, T1. reflexivity.
Qed.

Lemma geb_R (x : float) : is_finite _ _ x = true -> geb f x (fp_zero f) = Rle_bool 0 (B2R _ _ x).
Proof.
  intro Fx. unfold geb. rewrite Bcompare_correct by auto. cbn [B2R fp_zero].
  destruct (Rcompare_spec (B2R _ _ x) 0); symmetry; [apply Rle_bool_false|apply Rle_bool_true|apply Rle_bool_true]; lra.
Qed.

Lemma floor_ok (x : float) : is_finite _ _ x = true -> (-(2147483648) <= B2R _ _ x < 2147483648)%R ->
  exists r, floor f nan2 nan1 x = inl r /\ is_finite _ _ r = true /\
    B2R _ _ r = if Rlt_dec (B2R _ _ x) 0 then
                  if Rlt_dec (- bpow radix2 (- mw f)) (B2R _ _ x) then 0%R else IZR (Zfloor (B2R _ _ x))
                else IZR (Zfloor (B2R _ _ x)).
Proof.
  intros Fx Hx. destruct (trunc_frac x Fx) as (t & _ & T & Gt & Gd & N1 & N2).
  destruct (to_int_ok x Fx ltac:(lra)) as [I IR]. rewrite <- T in I, IR.
  destruct (of_int_format t Gt ltac:(lia) bpow_big) as [Ft Rt].
  unfold floor. rewrite geb_R, I by assumption.
  destruct (Rle_bool_spec 0 (B2R _ _ x)) as [P|P].
  { exists (of_int f t). split; [reflexivity|]. split; [exact Ft|]. rewrite Rt.
    destruct (Rlt_dec (B2R _ _ x) 0); [lra|]. now rewrite T, Ztrunc_floor by lra. }
  pose proof (trunc_lt (B2R _ _ x)) as L. rewrite <- T in L.
  assert (Gd' : generic_format radix2 fexp (IZR t - B2R _ _ x)).
  { replace (IZR t - B2R _ _ x)%R with (- (B2R _ _ x - IZR t))%R by ring. now apply generic_format_opp. }
  destruct (minus_exact (of_int f t) x Ft Fx) as [Fd Rd]; [now rewrite Rt|rewrite Rt, Rabs_minus_sym; exact L|].
  rewrite Rt in Rd.
  destruct (fabs_R _ Fd) as [Fa Ra]. destruct eps_ok as [Fe Re].
  pose proof (bpow_gt_0 radix2 (- mw f)) as Epos.
  assert (E1 : (bpow radix2 (- mw f) < 1)%R) by (change 1%R with (bpow radix2 0); apply bpow_lt; pose proof (mw_pos f); lia).
  rewrite ltb_R, Ra, Rd, Re, Rabs_minus_sym by assumption.
  destruct (Rlt_dec (B2R _ _ x) 0) as [_|]; [|lra].
  destruct (Rlt_bool_spec (Rabs (B2R _ _ x - IZR t)) (bpow radix2 (- mw f))) as [SM|LG].
  - exists (of_int f t). split; [reflexivity|]. split; [exact Ft|]. rewrite Rt.
    destruct (Req_dec (B2R _ _ x) (IZR t)) as [Q|Q].
    { rewrite Q in *. rewrite Zfloor_IZR.
      destruct (Rlt_dec (- bpow radix2 (- mw f)) (IZR t)) as [P2|P2]; [|reflexivity].
      exfalso. apply lt_IZR in P. assert (IZR t <= -1)%R by (apply IZR_le; lia). lra. }
    assert (Lx : (Rabs (B2R _ _ x) < 1)%R).
    { destruct (Rle_or_lt 1 (Rabs (B2R _ _ x))) as [G|G]; [|exact G]. specialize (N2 Q G). lra. }
    assert (T0 : t = 0). { rewrite T.
      rewrite Ztrunc_ceil by lra. apply Zceil_imp. cbn. rewrite Rabs_left in Lx by lra. lra. }
    rewrite T0 in *. rewrite Rminus_0_r, Rabs_left in SM by lra.
    destruct (Rlt_dec (- bpow radix2 (- mw f)) (B2R _ _ x)); [reflexivity|lra].
  - assert (Q : B2R _ _ x <> IZR t).
    { intro Q. rewrite Q, Rminus_eq_0, Rabs_R0 in LG. lra. }
    pose proof (Zfloor_frac (B2R _ _ x) t T Q) as ZC.
    destruct (Rlt_dec (B2R _ _ x) 0); [|lra].
    assert (TB : - 2 ^ 31 <= t - 1).
    { rewrite <- ZC. apply Zfloor_lub. change (IZR (- 2 ^ 31)) with (-(2147483648))%R. lra. }
    rewrite int_arith_ok by lia.
    specialize (N1 Q). destruct (of_int_ok (t - 1) ltac:(lia)) as [Fr Rr].
    exists (of_int f (t - 1)). split; [reflexivity|]. split; [exact Fr|]. rewrite Rr, ZC.
    destruct (Rlt_dec (- bpow radix2 (- mw f)) (B2R _ _ x)) as [S|S]; [|reflexivity].
    exfalso. assert (t = 0). { rewrite T, Ztrunc_ceil by lra. apply Zceil_imp. cbn. lra. }
    rewrite H, Rminus_0_r, Rabs_left in LG by lra. lra.
Qed.

Lemma floor_bad (x : float) : (is_finite _ _ x = true -> (B2R _ _ x < -(2147483648))%R \/ (2147483648 <= B2R _ _ x)%R) ->
  floor f nan2 nan1 x = inr tt.
Proof.
  intro H. unfold floor.
  destruct (is_finite _ _ x) eqn:Fx.
  2:{ rewrite to_int_bad; [now destruct (geb f x (fp_zero f))|]. intro; congruence. }
  rewrite geb_R by assumption.
  destruct (H eq_refl) as [G2|G2].
  2:{ rewrite to_int_bad; [now destruct (Rle_bool 0 (B2R _ _ x))|auto]. }
  destruct (Rle_or_lt (B2R _ _ x) (-(2147483649))) as [G|G].
  { rewrite to_int_bad; [now destruct (Rle_bool 0 (B2R _ _ x))|auto]. }
  rewrite Rle_bool_false by lra.
  destruct (trunc_frac x Fx) as (t & _ & T & Gt & Gd & N1 & N2).
  destruct (to_int_ok x Fx ltac:(lra)) as [I IR]. rewrite <- T in I, IR.
  assert (T1 : t = -2147483648). { rewrite T, Ztrunc_ceil by lra. apply Zceil_imp. rewrite minus_IZR. lra. }
  destruct (of_int_format t Gt ltac:(lia) bpow_big) as [Ft Rt].
  pose proof (trunc_lt (B2R _ _ x)) as L. rewrite <- T in L.
  assert (Gd' : generic_format radix2 fexp (IZR t - B2R _ _ x)).
  { replace (IZR t - B2R _ _ x)%R with (- (B2R _ _ x - IZR t))%R by ring. now apply generic_format_opp. }
  destruct (minus_exact (of_int f t) x Ft Fx) as [Fd Rd]; [now rewrite Rt|rewrite Rt, Rabs_minus_sym; exact L|].
  rewrite Rt in Rd.
  destruct (fabs_R _ Fd) as [Fa Ra]. destruct eps_ok as [Fe Re].
  rewrite I. rewrite ltb_R, Ra, Rd, Re, Rabs_minus_sym by assumption.
  rewrite Rlt_bool_false.
  2:{ apply N2; [rewrite T1; lra|]. rewrite Rabs_left; lra. }
  rewrite T1. reflexivity.
Qed.
End R.

(** ** sqrt special values *)
From Verif Require Import FpProofs.

Lemma b32_val x : is_nan _ _ (val float32 (bits_of_b32 x)) = is_nan _ _ x.
Proof. unfold val, bits_of_b32. rewrite binary_float_of_bits_of_binary_float. reflexivity. Qed.

Lemma nan_mul (a b : binary32) : is_nan _ _ a = true -> is_nan _ _ (b32_mult BinarySingleNaN.mode_NE a b) = true.
Proof. destruct a; try discriminate. intros _. destruct b; reflexivity. Qed.

Lemma mulf_nan a b : isnan float32 a = true -> isnan float32 (mulf a b) = true.
Proof.
  rewrite !isnan_spec. unfold mulf. intro H. etransitivity; [apply b32_val|]. apply nan_mul. exact H.
Qed.

Lemma one_not_nan : isnan float32 0x3f800000 = false. Proof. reflexivity. Qed.

Lemma sqrt_special x : pattern float32 x ->
  (is_zero_ float32 x = true -> sqrt x = x) /\
  (signbit float32 x = 1 -> is_zero_ float32 x = false -> isfinite float32 x = true -> isnan float32 (sqrt x) = true) /\
  (isnan float32 x = true -> isnan float32 (sqrt x) = true) /\
  (signbit float32 x = 1 -> isinf float32 x = true -> sqrt x = x).
Proof.
  intro Hx. unfold sqrt.
  assert (ONE : signbit float32 x = 1 -> (x =? 0x3f800000) = false).
  { intro S. destruct (Z.eqb_spec x 0x3f800000); [subst; discriminate|reflexivity]. }
  repeat apply conj.
  - intros ->. reflexivity.
  - intros S Z0 F. rewrite Z0, ONE by exact S. rewrite !lt_zero by exact Hx.
    rewrite Z0, (fin_nan _ _ F). rewrite sgn_bit in S by exact Hx. destruct (sgn float32 x); [|discriminate].
    cbn [andb negb]. unfold isfinite in F. unfold isinf. destruct (exponent float32 x =? 2 ^ ew float32 - 1); [discriminate|].
    reflexivity.
  - intros N.
    assert (Z0 : is_zero_ float32 x = false).
    { rewrite iszero_spec. rewrite isnan_spec in N. destruct (val float32 x); try discriminate; reflexivity. }
    rewrite Z0. destruct (Z.eqb_spec x 0x3f800000) as [->|]; [rewrite one_not_nan in N; discriminate|].
    rewrite !lt_zero, N by exact Hx. cbn [negb]. rewrite andb_false_r. cbn [andb].
    cbv zeta. apply mulf_nan, mulf_nan, N.
  - intros S I.
    assert (Z0 : is_zero_ float32 x = false).
    { rewrite iszero_spec. rewrite isinf_spec in I. destruct (val float32 x); try discriminate; reflexivity. }
    assert (N : isnan float32 x = false).
    { rewrite isnan_spec. rewrite isinf_spec in I. destruct (val float32 x); try discriminate; reflexivity. }
    rewrite Z0, ONE by exact S. rewrite !lt_zero, Z0, N, I by exact Hx.
    rewrite sgn_bit in S by exact Hx. destruct (sgn float32 x); [|discriminate]. reflexivity.
Qed.
