(** pow: the sign of negative bases and error bounds. *)
From Coq Require Import ZArith Bool Lia Reals Lra Psatz.
From Flocq Require Import Core IEEE754.Binary IEEE754.Bits.
From Interval Require Import Tactic.
From Verif Require Import Mem AlgoModel FpModel FpProofs RoundModel LitModel LimModel FmathModel FmathReal FmathStep FmathExp FmathLog FmathTrig2 FmathHyp FmathSqrt FmathCbrt.
Open Scope R_scope.

(** ** The sign *)
Definition f_mone : Z := 0xbf800000.

Lemma ybits_fields y : pattern float32 y ->
  Z.land (FloatToInt y) 0x7fffffff = (exponent float32 y * 2 ^ 23 + mantissa float32 y)%Z /\
  (0 <= exponent float32 y < 256)%Z /\ (0 <= mantissa float32 y < 2 ^ 23)%Z.
Proof.
  intro P. unfold pattern in P. change (2 ^ (mw float32 + ew float32 + 1))%Z with (2 ^ 32)%Z in P.
  change 0x7fffffff%Z with (Z.ones 31). rewrite Z.land_ones by lia.
  unfold exponent, mantissa. change (mw float32) with 23%Z. change (ew float32) with 8%Z.
  assert (E : (FloatToInt y mod 2 ^ 31 = y mod 2 ^ 31)%Z).
  { unfold FloatToInt. destruct (y <? 2 ^ 31)%Z; [reflexivity|]. replace (y - 2 ^ 32)%Z with (y + (-2) * 2 ^ 31)%Z by lia. apply Z.mod_add. lia. }
  rewrite E. change (2 ^ 31)%Z with (2 ^ 23 * 2 ^ 8)%Z. rewrite Z.rem_mul_r by lia.
  assert (B1 := Z.mod_pos_bound (y / 2 ^ 23) (2 ^ 8) ltac:(lia)). assert (B2 := Z.mod_pos_bound y (2 ^ 23) ltac:(lia)). lia.
Qed.

Lemma odd_sign j : IntToFloat (Z.lor 0x3f800000 (Z.shiftl j 31)) = if Z.even j then f_one else f_mone.
Proof.
  unfold IntToFloat. rewrite <- Z.land_ones by lia. rewrite Z.land_lor_distr_l.
  assert (E : Z.land (Z.shiftl j 31) (Z.ones 32) = Z.shiftl (Z.b2z (Z.odd j)) 31).
  { rewrite Z.land_ones, !Z.shiftl_mul_pow2 by lia. replace (2 ^ 32)%Z with (2 * 2 ^ 31)%Z by lia. rewrite Z.mul_mod_distr_r by lia. now rewrite Zmod_odd, <- Z.bit0_odd; destruct (Z.testbit j 0). }
  rewrite E. rewrite <- Z.negb_odd. destruct (Z.odd j); reflexivity.
Qed.

Lemma V_abs_fields y : pattern float32 y -> exponent float32 y <> 0%Z -> exponent float32 y <> 255%Z ->
  Rabs (V y) = IZR (mantissa float32 y + 2 ^ 23) * bpow radix2 (exponent float32 y - 150).
Proof.
  intros P E1 E2. destruct (ybits_fields y P) as (_ & _ & M). rewrite (V_fields y E1 E2), Rabs_mult.
  rewrite (Rabs_pos_eq (IZR _ * _)). 2:{ apply Rmult_le_pos; [apply IZR_le; lia|apply bpow_ge_0]. }
  destruct (sgn float32 y); [rewrite Rabs_left by lra|rewrite Rabs_pos_eq by lra]; ring.
Qed.

Lemma small_exp y : pattern float32 y -> fin y -> (exponent float32 y < 127)%Z -> Rabs (V y) < 1.
Proof.
  intros P F H. destruct (Rlt_dec (Rabs (V y)) 1) as [L|L]; [exact L|exfalso].
  destruct (fabs_fin y P F) as (a & EA & Pa & Fa & Va).
  assert (K : (0 + 127 <= exponent float32 a)%Z). { apply (V_binade a 0); try assumption; [change (bpow radix2 0) with 1; lra|lia]. }
  assert (exponent float32 a = exponent float32 y); [|lia].
  rewrite <- EA. unfold fabs. destruct (flt float32 y fzero); [|reflexivity]. apply (fneg_fields float32 y P).
Qed.

Lemma pow_sign_spec y : pattern float32 y -> fin y -> V y <> 0 ->
  (forall n, V y = IZR n -> pow_sign y = Some (if Z.even n then f_one else f_mone)) /\
  ((forall n, V y <> IZR n) -> pow_sign y = None).
Proof.
  intros P F N. destruct (ybits_fields y P) as (YB & BE & BM).
  assert (E2 : exponent float32 y <> 255%Z).
  { intro H. apply fin_val in F. unfold isfinite in F. change (2 ^ ew float32 - 1)%Z with 255%Z in F. rewrite H in F. discriminate F. }
  unfold pow_sign. rewrite YB. set (E := exponent float32 y) in *. set (M := mantissa float32 y) in *. cbv zeta.
  assert (AV : E <> 0%Z -> Rabs (V y) = IZR (M + 2 ^ 23) * bpow radix2 (E - 150)) by (intro; now apply V_abs_fields).
  assert (absint : forall n, V y = IZR n -> Rabs (V y) = IZR (Z.abs n)) by (intros n ->; now rewrite abs_IZR).
  assert (evabs : forall n, Z.even (Z.abs n) = Z.even n) by (intros []; reflexivity).
  destruct (Z.leb_spec 0x4b800000 (E * 2 ^ 23 + M)) as [L1|L1].
  - assert (HE : (151 <= E)%Z) by lia. specialize (AV ltac:(lia)).
    assert (I : Rabs (V y) = IZR ((M + 2 ^ 23) * 2 ^ (E - 150))).
    { rewrite AV, mult_IZR. f_equal. rewrite (IZR_Zpower radix2) by lia. reflexivity. }
    split.
    + intros n En. rewrite (absint n En) in I. apply eq_IZR in I. rewrite <- (evabs n), I, Z.even_mul.
      replace (E - 150)%Z with (Z.succ (E - 151)) by lia. rewrite Z.pow_succ_r by lia. rewrite (Z.even_mul 2). cbn [Z.even orb]. now rewrite orb_true_r.
    + intro NI. exfalso. destruct (Rle_dec 0 (V y)) as [Y|Y].
      * rewrite Rabs_pos_eq in I by exact Y. exact (NI _ I).
      * rewrite Rabs_left in I by lra. apply (NI (- ((M + 2 ^ 23) * 2 ^ (E - 150)))%Z). rewrite opp_IZR. lra.
  - destruct (Z.leb_spec 0x3f800000 (E * 2 ^ 23 + M)) as [L2|L2].
    + assert (HE : (127 <= E <= 150)%Z) by lia. specialize (AV ltac:(lia)).
      assert (K : (Z.shiftr (E * 2 ^ 23 + M) 23 = E)%Z).
      { rewrite Z.shiftr_div_pow2 by lia. rewrite Z.div_add_l by lia. rewrite Z.div_small by lia. lia. }
      rewrite K. replace (23 - (E - 127))%Z with (150 - E)%Z by lia. set (s := (150 - E)%Z) in *.
      rewrite Z.shiftr_div_pow2, Z.shiftl_mul_pow2 by lia.
      assert (S2 : (2 ^ 23 = 2 ^ (23 - s) * 2 ^ s)%Z) by (rewrite <- Z.pow_add_r by lia; f_equal; lia).
      assert (SP : (0 < 2 ^ s)%Z) by (apply Z.pow_pos_nonneg; lia). assert (SQ : (0 < 2 ^ (23 - s))%Z) by (apply Z.pow_pos_nonneg; lia).
      set (p := (2 ^ s)%Z) in *. set (q := (2 ^ (23 - s))%Z) in *.
      assert (J : ((E * 2 ^ 23 + M) / p = E * q + M / p)%Z) by (rewrite S2, Z.mul_assoc; apply Z.div_add_l; lia).
      assert (DM := Z.div_mod M p ltac:(lia)).
      assert (AV' : Rabs (V y) * IZR p = IZR (M + 2 ^ 23)).
      { rewrite AV, Rmult_assoc. replace (IZR p) with (bpow radix2 s) by (unfold p; rewrite (IZR_Zpower radix2) by lia; reflexivity).
        rewrite <- bpow_plus. replace (E - 150 + s)%Z with 0%Z by lia. cbn. ring. }
      rewrite J. destruct (Z.eqb_spec ((E * q + M / p) * p) (E * 2 ^ 23 + M)) as [D|D].
      * assert (M0 : (M mod p = 0)%Z) by (rewrite S2, Z.mul_add_distr_r, Z.mul_assoc in D; lia).
        assert (I : Rabs (V y) = IZR (M / p + q)).
        { apply Rmult_eq_reg_r with (IZR p); [|apply IZR_neq; lia]. rewrite AV', <- mult_IZR. f_equal. rewrite S2, Z.mul_add_distr_r. lia. }
        split.
        -- intros n En. rewrite (absint n En) in I. apply eq_IZR in I. rewrite odd_sign. rewrite <- (evabs n), I. f_equal.
           assert (EV : Z.even (E * q + M / p) = Z.even (M / p + q)); [|now rewrite EV].
           destruct (Z.eq_dec s 23) as [S23|S23].
           ++ assert (E = 127%Z) by lia. assert (q = 1%Z) by (unfold q; rewrite S23; reflexivity). rewrite H, H0, !Z.even_add. cbn [Z.even Z.mul]. now rewrite xorb_comm || destruct (Z.even (M / p)).
           ++ assert (Z.even q = true). { unfold q. replace (23 - s)%Z with (Z.succ (22 - s)) by lia. rewrite Z.pow_succ_r by lia. rewrite Z.even_mul. reflexivity. }
              rewrite !Z.even_add, Z.even_mul, H, orb_true_r. now destruct (Z.even (M / p)).
        -- intro NI. exfalso. destruct (Rle_dec 0 (V y)) as [Y|Y].
           ++ rewrite Rabs_pos_eq in I by exact Y. exact (NI _ I).
           ++ rewrite Rabs_left in I by lra. apply (NI (- (M / p + q))%Z). rewrite opp_IZR. lra.
      * split; [|reflexivity]. intros n En. exfalso. apply D.
        rewrite (absint n En), <- mult_IZR in AV'. apply eq_IZR in AV'.
        assert (M mod p = 0)%Z. { replace M with ((Z.abs n - q) * p)%Z by (rewrite Z.mul_sub_distr_r; lia). apply Z.mod_mul. lia. }
        rewrite S2, Z.mul_add_distr_r, Z.mul_assoc. lia.
    + assert (HE : (E < 127)%Z) by lia. assert (A := small_exp y P F HE). split; [|reflexivity]. intros n En. exfalso.
      rewrite (absint n En) in A. assert (Z.abs n < 1)%Z by (apply lt_IZR; exact A). apply N. rewrite En. replace n with 0%Z by lia. reflexivity.
Qed.

(** ** 2^t *)
Lemma pow2_pos t : 0 < pow2 t.
Proof. unfold pow2. apply exp_pos. Qed.

Lemma pow2_shift r m T d : Rabs (r - pow2 m) <= 15 / 1000000 * pow2 m -> Rabs (m - T) <= d -> d <= 1 / 1000 ->
  Rabs (r - pow2 T) <= (15 / 1000000 + 6947 / 10000 * d) * pow2 T.
Proof.
  intros E D B. assert (D0 := Rabs_pos (m - T)).
  assert (L2 : 69 / 100 <= ln 2 <= 6932 / 10000) by (split; interval).
  assert (DX : Rabs (m * ln 2 - T * ln 2) <= d * (6932 / 10000)).
  { rewrite <- Rmult_minus_distr_r, Rabs_mult. apply Rmult_le_compat; [apply Rabs_pos|apply Rabs_pos|exact D|]. rewrite Rabs_pos_eq; lra. }
  assert (XE := exp_sub_1 _ _ DX ltac:(lra)). assert (PT := pow2_pos T). assert (PM := pow2_pos m).
  apply Rabs_rel; [exact PT|].
  apply (rel_trans _ (pow2 m) _ (15 / 1000000) (d * (6932 / 10000) * (1002 / 1000))); try lra.
  - apply Rabs_rel; assumption.
  - replace (pow2 m / pow2 T) with (exp (m * ln 2 - T * ln 2)) by (unfold pow2, Rminus; rewrite exp_plus, exp_Ropp; reflexivity). exact XE.
Qed.

(** ** x^y = 2^(y log2 x) for positive x *)
Lemma pow_arg y l L : fin y -> fin l -> Rabs (V l - L) <= 6 / 10000000 + 6 / 100000000 * Rabs L -> Rabs (V y) <= 1000 -> Rabs (V y * L) <= 12499 / 100 ->
  fin (mulf y l) /\ -125 <= V (mulf y l) <= 125 /\
  Rabs (V (mulf y l) - V y * L) <= 6001 / 10000000000 * Rabs (V y) + 12 / 100000000 * Rabs (V y * L) + eta.
Proof.
  intros Fy Fl E1 By BL.
  set (T := V y * L) in *. set (ay := Rabs (V y)) in *. set (aT := Rabs T) in *.
  assert (A0 : 0 <= ay) by apply Rabs_pos. assert (T0 : 0 <= aT) by apply Rabs_pos.
  assert (D1 : Rabs (V y * V l - T) <= 6 / 10000000 * ay + 6 / 100000000 * aT).
  { unfold T. replace (V y * V l - V y * L) with (V y * (V l - L)) by ring. rewrite Rabs_mult. fold ay.
    apply Rle_trans with (ay * (6 / 10000000 + 6 / 100000000 * Rabs L)); [apply Rmult_le_compat_l; assumption|].
    unfold aT, T. rewrite Rabs_mult. fold ay. lra. }
  assert (D2 : Rabs (V y * V l) <= aT + (6 / 10000000 * ay + 6 / 100000000 * aT)).
  { replace (V y * V l) with (T + (V y * V l - T)) by ring. apply Rle_trans with (1 := Rabs_triang _ _). fold aT. lra. }
  destruct (mul_ok y l Fy Fl) as [Fm Vm]; [apply (le127 _ 1000); lra|].
  assert (RE := rnd_err' _ _ D2). rewrite <- Vm in RE. assert (ES := eta_small). assert (E0 : 0 < eta) by (unfold eta; lra).
  revert Fm Vm RE. generalize (mulf y l). intros m Fm Vm RE.
  assert (D : Rabs (V m - T) <= 6001 / 10000000000 * ay + 12 / 100000000 * aT + eta).
  { replace (V m - T) with ((V m - V y * V l) + (V y * V l - T)) by ring. apply Rle_trans with (1 := Rabs_triang _ _). lra. }
  split; [exact Fm|]. split; [|exact D].
  assert (H1 := BL). unfold aT in H1. apply Rabs_le_inv in H1. apply Rabs_le_inv in D. lra.
Qed.

Lemma pow_core x y : pattern float32 x -> fin x -> bpow radix2 (-126) <= V x -> fin y -> Rabs (V y) <= 1000 ->
  Rabs (V y * log2 (V x)) <= 12499 / 100 ->
  exists e, fast_exp2 (mulf y (fast_log2 x)) = Ok e /\ pattern float32 e /\ fin e /\
    Rabs (V e - pow2 (V y * log2 (V x))) <= (16 / 1000000 + 42 / 100000000 * Rabs (V y) + 9 / 100000000 * Rabs (V y * log2 (V x))) * pow2 (V y * log2 (V x)).
Proof.
  intros P F B Fy By BL. destruct (log2_ok x P F B) as (Fl & E1 & _ & _).
  destruct (pow_arg y _ _ Fy Fl E1 By BL) as (Fm & BM & D). assert (Pm := pat_mul y (fast_log2 x)).
  revert Fm BM D Pm. generalize (mulf y (fast_log2 x)) (V y * log2 (V x)) BL. clear - By. intros m T BL Fm BM D Pm.
  destruct (exp2_ok m Pm Fm ltac:(lra)) as (r & Q & Pr & Fr & _ & E2). specialize (E2 (proj1 BM)).
  exists r. split; [exact Q|]. split; [exact Pr|]. split; [exact Fr|]. clear Q.
  assert (ES := eta_small). assert (T0 := Rabs_pos T). assert (Y0 := Rabs_pos (V y)).
  apply Rle_trans with (1 := pow2_shift _ _ _ _ E2 D ltac:(lra)). apply Rmult_le_compat_r; [left; apply pow2_pos|]. lra.
Qed.

Lemma pow2_log2 t : 0 < t -> pow2 (log2 t) = t.
Proof. intro H. unfold pow2, log2. replace (ln t / ln 2 * ln 2) with (ln t); [now apply exp_ln|]. field. assert (0 < ln 2) by interval. lra. Qed.

Lemma rpower_pow2 t u : Rpower t u = pow2 (u * log2 t).
Proof. unfold Rpower, pow2, log2. f_equal. field. assert (0 < ln 2) by interval. lra. Qed.

Lemma pow2_near0 T : Rabs T <= 2 / 100000 -> Rabs (1 - pow2 T) <= 16 / 1000000 * pow2 T.
Proof.
  intro H. assert (P : 0 < pow2 T) by (unfold pow2; apply exp_pos). apply Rabs_rel; [exact P|].
  assert (L2 : 69 / 100 <= ln 2 <= 6932 / 10000) by (split; interval).
  assert (D : Rabs (- (T * ln 2)) <= 2 / 100000 * (6932 / 10000)).
  { rewrite Rabs_Ropp, Rabs_mult. apply Rmult_le_compat; [apply Rabs_pos|apply Rabs_pos|exact H|]. rewrite Rabs_pos_eq; lra. }
  assert (XE := exp_sub_1 _ _ D ltac:(lra)). rewrite exp_Ropp in XE. unfold pow2. unfold Rdiv at 1. rewrite Rmult_1_l. apply Rle_trans with (1 := XE). lra.
Qed.

Lemma mul_sign s e : fin e -> (s = f_one -> V (mulf s e) = V e /\ fin (mulf s e)) /\ (s = f_mone -> V (mulf s e) = - V e /\ fin (mulf s e)).
Proof.
  intro F. destruct one_ok as (_ & Fo & VO). getc HM f_mone. destruct HM as (_ & Fm & VM).
  assert (A : Rabs (V e) < bpow radix2 128) by (apply (abs_B2R_lt_emax 24 128)).
  split; intros ->.
  - destruct (FmathTrig2.mul_ok128 f_one e Fo F) as [G W]; [rewrite VO, Rmult_1_l, rnd_V; exact A|]. split; [|exact G]. rewrite W, VO, Rmult_1_l. apply rnd_V.
  - assert (VM' : V f_mone * V e = - V e) by (rewrite VM; lra).
    destruct (FmathTrig2.mul_ok128 f_mone e Fm F) as [G W]; [rewrite VM', rnd_opp, rnd_V, Rabs_Ropp; exact A|]. split; [|exact G]. rewrite W, VM', rnd_opp. f_equal. apply rnd_V.
Qed.

(** The tests at the start of pow *)
Lemma pow_guards x y : pattern float32 x -> fin x -> pattern float32 y -> fin y ->
  pow_ x y =
  if Rlt_bool (Rabs (V y)) (bpow radix2 (-23)) then Ok f_one
  else if Rlt_bool (Rabs (V x)) (bpow radix2 (-23)) then Ok fzero
  else if Req_bool (V y) 1 then Ok x
  else if Req_bool (V y) 2 then Ok (min_ (flt float32) (mulf x x) lim_max)
  else match (if Rlt_bool (V x) 0 then pow_sign y else Some f_one) with
       | None => Ok fzero
       | Some sign => e <- fast_exp2 (mulf y (fast_log2 (fabs float32 x))) ;; Ok (mulf sign e)
       end.
Proof.
  intros Px Fx Py Fy. unfold pow_. destruct (fabs_ok' x Px Fx) as (_ & Fa & Va). destruct (fabs_ok' y Py Fy) as (_ & Fb & Vb).
  destruct eps_ok as (_ & Fe & Ve). destruct one_ok as (_ & Fo & VO). destruct two_ok as (_ & Ft & VT). destruct fin_zero as [F0 V0].
  rewrite (flt_ok _ _ Fb Fe), (flt_ok _ _ Fa Fe), (feq_ok _ _ Fy Fo), (feq_ok _ _ Fy Ft), (flt_ok x fzero Fx F0), Va, Vb, Ve, VO, VT.
  change (V fzero) with (V 0). rewrite V0. reflexivity.
Qed.

(** ** y = 2 *)
Lemma mul_self_inf x : fin x -> ~ Rabs (rnd (V x * V x)) < bpow radix2 128 -> mulf x x = 0x7f800000%Z.
Proof.
  intros Fx H.
  pose proof (Bmult_correct 24 128 eq_refl eq_refl binop_nan_pl32 BinarySingleNaN.mode_NE (b32_of_bits x) (b32_of_bits x)) as C.
  change (round radix2 (SpecFloat.fexp 24 128) (BinarySingleNaN.round_mode BinarySingleNaN.mode_NE) (B2R 24 128 (b32_of_bits x) * B2R 24 128 (b32_of_bits x)))
    with (rnd (V x * V x)) in C.
  rewrite Rlt_bool_false in C by lra.
  unfold BinarySingleNaN.binary_overflow in C. cbn [BinarySingleNaN.overflow_to_inf] in C. rewrite xorb_nilpotent in C.
  assert (D : Bmult 24 128 eq_refl eq_refl binop_nan_pl32 BinarySingleNaN.mode_NE (b32_of_bits x) (b32_of_bits x) = B754_infinity 24 128 false).
  { apply B2FF_inj. rewrite C. reflexivity. }
  replace (mulf x x) with (bits_of_b32 (B754_infinity 24 128 false)); [reflexivity|]. unfold mulf. f_equal. symmetry. exact D.
Qed.

Lemma pow_sq x : fin x ->
  let r := min_ (flt float32) (mulf x x) lim_max in
  fin r /\ V r = if Rlt_bool (rnd (V x * V x)) (bpow radix2 128) then rnd (V x * V x) else bpow radix2 128 - bpow radix2 104.
Proof.
  intros F r. subst r. unfold min_. destruct lim_max_ok as (_ & Fm & Vm).
  assert (S0 : 0 <= rnd (V x * V x)) by (rewrite <- rnd_0; apply rnd_le; apply Rle_0_sqr).
  destruct (Rlt_bool_spec (rnd (V x * V x)) (bpow radix2 128)) as [L|L].
  - destruct (FmathTrig2.mul_ok128 x x F F) as [G W]; [rewrite Rabs_pos_eq; assumption|].
    rewrite (flt_ok _ _ Fm G), Rlt_bool_false; [split; assumption|]. rewrite Vm. apply Rle_trans with (1 := Rle_abs _). apply V_max. exact G.
  - rewrite (mul_self_inf x F) by (rewrite Rabs_pos_eq; lra).
    replace (flt float32 lim_max 0x7f800000) with true by (vm_compute; reflexivity). cbn [negb]. split; assumption.
Qed.

(** ** Positive bases *)
Lemma pow_pos_ok x y : pattern float32 x -> fin x -> pattern float32 y -> fin y -> bpow radix2 (-23) <= V x -> Rabs (V y) <= 1000 ->
  Rabs (V y * log2 (V x)) <= 12499 / 100 ->
  exists r, pow_ x y = Ok r /\ fin r /\
    Rabs (V r - pow2 (V y * log2 (V x))) <= (16 / 1000000 + 42 / 100000000 * Rabs (V y) + 9 / 100000000 * Rabs (V y * log2 (V x))) * pow2 (V y * log2 (V x)).
Proof.
  intros Px Fx Py Fy Bx By BL. assert (K23 : 0 < bpow radix2 (-23)) by apply bpow_gt_0.
  assert (Bx' : bpow radix2 (-126) <= V x) by (apply Rle_trans with (2 := Bx); apply bpow_le; lia).
  destruct (log2_ok x Px Fx Bx') as (_ & _ & _ & L128).
  rewrite pow_guards by assumption.
  assert (wk : forall r c, Rabs (V r - pow2 (V y * log2 (V x))) <= c * pow2 (V y * log2 (V x)) -> c <= 16 / 1000000 ->
    Rabs (V r - pow2 (V y * log2 (V x))) <= (16 / 1000000 + 42 / 100000000 * Rabs (V y) + 9 / 100000000 * Rabs (V y * log2 (V x))) * pow2 (V y * log2 (V x))).
  { intros r c H C. apply Rle_trans with (1 := H). apply Rmult_le_compat_r; [left; apply pow2_pos|]. assert (A := Rabs_pos (V y)). assert (D := Rabs_pos (V y * log2 (V x))). lra. }
  destruct (Rlt_bool_spec (Rabs (V y)) (bpow radix2 (-23))) as [Y|Y].
  { destruct one_ok as (_ & Fo & VO). exists f_one. split; [reflexivity|]. split; [exact Fo|]. apply (wk _ (16 / 1000000)); [|lra]. rewrite VO. apply pow2_near0.
    rewrite Rabs_mult. apply Rle_trans with (/ 8388608 * 128); [|lra]. apply Rmult_le_compat; try apply Rabs_pos; [|exact L128].
    replace (/ 8388608) with (bpow radix2 (-23)) by (cbn; lra). lra. }
  rewrite Rlt_bool_false by (rewrite Rabs_pos_eq; lra).
  destruct (Req_bool_spec (V y) 1) as [Y1|Y1].
  { exists x. split; [reflexivity|]. split; [exact Fx|]. apply (wk _ 0); [|lra]. rewrite Y1, Rmult_1_l, pow2_log2 by lra. rewrite Rminus_diag_eq, Rabs_R0 by reflexivity. lra. }
  destruct (Req_bool_spec (V y) 2) as [Y2|Y2].
  { eexists. split; [reflexivity|]. destruct (pow_sq x Fx) as [G W]. cbv zeta in G, W. split; [exact G|]. apply (wk _ (/ 16777216)); [|lra].
    assert (SQ : pow2 (V y * log2 (V x)) = V x * V x). { rewrite Y2. replace (2 * log2 (V x)) with (log2 (V x) + log2 (V x)) by ring. rewrite pow2_plus, pow2_log2 by lra. reflexivity. }
    assert (S1 : V x * V x <= bpow radix2 125).
    { rewrite <- SQ, <- (pow2_bpow 125). apply pow2_le. apply Rabs_le_inv in BL. lra. }
    assert (S2 : bpow radix2 (-46) <= V x * V x). { replace (-46)%Z with (-23 + -23)%Z by reflexivity. rewrite bpow_plus. apply Rmult_le_compat; lra. }
    rewrite Rlt_bool_true in W. 2:{ apply Rle_lt_trans with (bpow radix2 125); [|apply bpow_lt; lia]. rewrite <- (rnd_bpow 125) by lia. now apply rnd_le. }
    rewrite W, SQ. destruct (rel24 (V x * V x) (bpow radix2 (-46))) as (e & E & Q); [apply bpow_le; lia|exact S2|].
    rewrite Q. replace (V x * V x * (1 + e) - V x * V x) with (e * (V x * V x)) by ring. rewrite Rabs_mult, (Rabs_pos_eq (V x * V x)) by (assert (K := bpow_gt_0 radix2 (-46)); lra).
    apply Rmult_le_compat_r; [assert (K := bpow_gt_0 radix2 (-46)); lra|exact E]. }
  rewrite Rlt_bool_false by lra. destruct (fabs_fin x Px Fx) as (a & -> & Pa & Fa & Va). rewrite Rabs_pos_eq in Va by lra.
  destruct (pow_core a y Pa Fa ltac:(lra) Fy By ltac:(rewrite Va; exact BL)) as (e & Q & Pe & Fe & E). rewrite Va in E.
  exists (mulf f_one e). rewrite Q. cbn [bind]. split; [reflexivity|]. destruct (proj1 (mul_sign f_one e Fe) eq_refl) as [W G]. split; [exact G|]. rewrite W. exact E.
Qed.

(** ** Negative bases *)
Lemma pow_neg x y : pattern float32 x -> fin x -> pattern float32 y -> fin y -> V x < 0 -> bpow radix2 (-23) <= Rabs (V x) -> bpow radix2 (-23) <= Rabs (V y) ->
  (forall n, V y = IZR n -> exists r r', pow_ x y = Ok r /\ pow_ (fabs float32 x) y = Ok r' /\ V r = if Z.even n then V r' else - V r') /\
  ((forall n, V y <> IZR n) -> pow_ x y = Ok fzero).
Proof.
  intros Px Fx Py Fy Nx Bx By. destruct (fabs_fin x Px Fx) as (a & EA & Pa & Fa & Va). rewrite EA.
  rewrite !pow_guards by assumption. rewrite !(Rlt_bool_false (Rabs (V y))) by lra. rewrite !(Rlt_bool_false (Rabs (V x))) by lra.
  rewrite Va, Rabs_Rabsolu, (Rlt_bool_false (Rabs (V x)) (bpow _ _)) by lra. rewrite (Rlt_bool_false (Rabs (V x)) 0) by apply Rabs_pos. rewrite (Rlt_bool_true (V x)) by lra.
  rewrite EA. assert (EA2 : fabs float32 a = a).
  { unfold fabs. destruct fin_zero as [F0 V0]. rewrite (flt_ok a fzero Fa F0). change (V fzero) with (V 0). rewrite V0, Rlt_bool_false; [reflexivity|]. rewrite Va. apply Rabs_pos. }
  rewrite EA2.
  assert (Y0 : V y <> 0). { intro Z. rewrite Z, Rabs_R0 in By. assert (K := bpow_gt_0 radix2 (-23)). lra. }
  destruct (pow_sign_spec y Py Fy Y0) as [PS1 PS2].
  destruct (Req_bool_spec (V y) 1) as [Y1|Y1].
  { split.
    - intros n En. exists x, a. split; [reflexivity|]. split; [reflexivity|]. rewrite Y1 in En. apply (eq_IZR 1) in En. rewrite <- En. cbn [Z.even]. rewrite Va, Rabs_left; lra.
    - intro NI. elim (NI 1%Z). exact Y1. }
  destruct (Req_bool_spec (V y) 2) as [Y2|Y2].
  { split.
    - intros n En. eexists _, _. split; [reflexivity|]. split; [reflexivity|]. rewrite Y2 in En. apply (eq_IZR 2) in En. rewrite <- En. cbn [Z.even].
      destruct (pow_sq x Fx) as [_ W1], (pow_sq a Fa) as [_ W2]. cbv zeta in W1, W2. rewrite W1, W2. replace (V a * V a) with (V x * V x); [reflexivity|].
      rewrite Va, <- Rabs_mult, Rabs_pos_eq; [reflexivity|apply Rle_0_sqr].
    - intro NI. elim (NI 2%Z). exact Y2. }
  split.
  - intros n En. rewrite (PS1 n En). destruct (exp2_total (mulf y (fast_log2 a)) (pat_mul y (fast_log2 a))) as (e & Q & _ & Fe & _). rewrite Q. cbn [bind].
    eexists _, _. split; [reflexivity|]. split; [reflexivity|]. destruct (proj1 (mul_sign f_one e Fe) eq_refl) as [W1 _]. destruct (proj2 (mul_sign f_mone e Fe) eq_refl) as [W2 _].
    rewrite W1. destruct (Z.even n); assumption.
  - intro NI. now rewrite (PS2 NI).
Qed.

Lemma pow_total x y : exists r, pow_ x y = Ok r.
Proof.
  unfold pow_. destruct (flt float32 (fabs float32 y) lim_eps); [eexists; reflexivity|]. destruct (flt float32 (fabs float32 x) lim_eps); [eexists; reflexivity|].
  destruct (feq float32 y f_one); [eexists; reflexivity|]. destruct (feq float32 y f_two); [eexists; reflexivity|].
  destruct (if flt float32 x fzero then pow_sign y else Some f_one) as [s|]; [|eexists; reflexivity].
  destruct (exp2_total (mulf y (fast_log2 (fabs float32 x))) (pat_mul y _)) as (e & Q & _). rewrite Q. eexists. reflexivity.
Qed.

Lemma arg_err y l L : Rabs (l - L) <= 6 / 10000000 + 6 / 100000000 * Rabs L ->
  Rabs (y * l - y * L) <= 6 / 10000000 * Rabs y + 6 / 100000000 * Rabs (y * L).
Proof.
  intro H. replace (y * l - y * L) with (y * (l - L)) by ring. rewrite !Rabs_mult.
  apply Rle_trans with (1 := Rmult_le_compat_l _ _ _ (Rabs_pos y) H). lra.
Qed.

Lemma pow_sat x y : pattern float32 x -> fin x -> pattern float32 y -> fin y -> bpow radix2 (-23) <= V x -> Rabs (V y) <= 1000 -> V y <> 1 -> V y <> 2 ->
  (12601 / 100 <= V y * log2 (V x) -> exists r, pow_ x y = Ok r /\ V r = bpow radix2 126) /\
  (V y * log2 (V x) <= - (12601 / 100) -> exists r, pow_ x y = Ok r /\ V r = bpow radix2 (-126)).
Proof.
  intros Px Fx Py Fy Bx By N1 N2. assert (K23 : 0 < bpow radix2 (-23)) by apply bpow_gt_0.
  assert (Bx' : bpow radix2 (-126) <= V x) by (apply Rle_trans with (2 := Bx); apply bpow_le; lia).
  destruct (fabs_fin x Px Fx) as (a & EA & Pa & Fa & Va). rewrite Rabs_pos_eq in Va by lra.
  destruct (log2_ok a Pa Fa ltac:(lra)) as (Fl & E1 & _ & L128). rewrite Va in E1, L128.
  assert (YY : forall c, 126 <= c -> c <= Rabs (V y * log2 (V x)) -> bpow radix2 (-23) <= Rabs (V y)).
  { intros c C H. rewrite Rabs_mult in H. assert (Y1 : 1 / 2 <= Rabs (V y)). { apply Rnot_lt_le. intro L. assert (Rabs (V y) * Rabs (log2 (V x)) <= 1 / 2 * 128) by (apply Rmult_le_compat; try apply Rabs_pos; lra). lra. }
    apply Rle_trans with (2 := Y1). cbn. lra. }
  remember (fast_log2 a) as l eqn:El. assert (D := arg_err (V y) (V l) (log2 (V x)) E1).
  destruct (mul_sat y l Fy Fl) as [M1 M2].
  rewrite pow_guards by assumption. rewrite EA, <- El. clear El.
  rewrite (Rlt_bool_false (Rabs (V x)) (bpow radix2 (-23))) by (rewrite Rabs_pos_eq; lra). rewrite (Rlt_bool_false (V x) 0) by lra. rewrite (Req_bool_false _ _ N1), (Req_bool_false _ _ N2).
  destruct one_ok as (_ & Fo & VO).
  split; intro H.
  - assert (AH := Rle_abs (V y * log2 (V x))). rewrite Rlt_bool_false by (apply (YY (12601 / 100)); lra).
    rewrite (Rabs_pos_eq (V y * log2 (V x))) in D by lra. apply Rabs_le_inv in D.
    rewrite exp2_sat_hi by (apply M1; lra). cbn [bind]. eexists. split; [reflexivity|]. destruct big_const as (_ & Fb & Wb). destruct (proj1 (mul_sign f_one _ Fb) eq_refl) as [W _]. rewrite W. exact Wb.
  - rewrite Rlt_bool_false by (apply (YY (12601 / 100)); [lra|rewrite Rabs_left1; lra]).
    rewrite (Rabs_left1 (V y * log2 (V x))) in D by lra. apply Rabs_le_inv in D.
    destruct M2 as [M3 M4]; [lra|]. rewrite exp2_sat_lo by assumption. cbn [bind]. eexists. split; [reflexivity|]. destruct small_const as (_ & Fb & Wb). destruct (proj1 (mul_sign f_one _ Fb) eq_refl) as [W _]. rewrite W. exact Wb.
Qed.
