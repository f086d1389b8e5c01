(** LitModel is Flocq's rounding to nearest even; exact values of patterns. *)
From Coq Require Import ZArith Bool Lia Reals Lra.
From Flocq Require Import Core IEEE754.Binary IEEE754.Bits.
From Verif Require Import FpModel FpProofs LitModel.
Open Scope Z_scope.

(** Magnitude of a finite pattern in units of 2^emin. *)
Definition units (f : fmt) (x : Z) : Z :=
  if exponent f x =? 0 then mantissa f x else (mantissa f x + 2 ^ mw f) * 2 ^ (exponent f x - 1).

Lemma rne_nearest n d : 0 < d -> ZnearestE (IZR n / IZR d) = div_rne n d.
Proof.
  intro Hd. unfold Znearest, div_rne. rewrite Zfloor_div by lia.
  pose proof (Z.div_mod n d ltac:(lia)) as E. pose proof (Z.mod_pos_bound n d Hd) as B.
  set (q := n / d) in *. set (r := n mod d) in *.
  assert (Pd : (0 < IZR d)%R) by now apply IZR_lt.
  assert (X : (IZR n / IZR d = IZR q + IZR r / IZR d)%R).
  { rewrite E, plus_IZR, mult_IZR. field. lra. }
  assert (C : Zceil (IZR n / IZR d) = if r =? 0 then q else q + 1).
  { destruct (Z.eqb_spec r 0) as [Z0|N].
    - rewrite X, Z0. replace (IZR q + 0 / IZR d)%R with (IZR q) by (field; lra). apply Zceil_IZR.
    - rewrite Zceil_floor_neq; rewrite Zfloor_div by lia; [reflexivity|]. fold q. rewrite X. intro K.
      assert (IZR r / IZR d = 0)%R by lra. apply N. apply eq_IZR.
      apply (Rmult_eq_reg_r (/ IZR d)); [|apply Rinv_neq_0_compat; lra]. unfold Rdiv in H. rewrite H. ring. }
  rewrite C, X. replace (IZR q + IZR r / IZR d - IZR q)%R with (IZR r / IZR d)%R by ring.
  assert (Y : forall c, (2 * r ?= d) = c -> Rcompare (IZR r / IZR d) (/ 2) = c).
  { intros c <-. rewrite <- (Rcompare_mult_r (2 * IZR d)) by lra.
    replace (IZR r / IZR d * (2 * IZR d))%R with (IZR (2 * r)) by (rewrite mult_IZR; field; lra).
    replace (/ 2 * (2 * IZR d))%R with (IZR d) by field. apply Rcompare_IZR. }
  rewrite (Y _ eq_refl). destruct (Z.compare_spec (2 * r) d) as [H|H|H].
  - destruct (Z.ltb_spec d (2 * r)); [lia|]. destruct (Z.eqb_spec (2 * r) d); [|lia]. cbn [orb andb].
    rewrite <- Z.negb_even. destruct (Z.even q); cbn [negb]; [reflexivity|].
    destruct (Z.eqb_spec r 0); [lia|reflexivity].
  - destruct (Z.ltb_spec d (2 * r)); [lia|]. destruct (Z.eqb_spec (2 * r) d); [lia|]. reflexivity.
  - destruct (Z.ltb_spec d (2 * r)); [|lia]. cbn [orb]. destruct (Z.eqb_spec r 0); [lia|reflexivity].
Qed.

Lemma bpow2 k : 0 <= k -> bpow radix2 k = IZR (2 ^ k).
Proof. intro H. rewrite <- IZR_Zpower by exact H. reflexivity. Qed.

(** n/d against powers of two, in integers *)
Definition ge2 (n d k : Z) : Prop := if 0 <=? k then d * 2 ^ k <= n else d <= n * 2 ^ (- k).

Lemma ge2_R n d k : 0 < d -> ge2 n d k <-> (bpow radix2 k <= IZR n / IZR d)%R.
Proof.
  intros Hd. unfold ge2. assert (Pd : (0 < IZR d)%R) by now apply IZR_lt.
  assert (S : (bpow radix2 k <= IZR n / IZR d)%R <-> (bpow radix2 k * IZR d <= IZR n)%R).
  { split; intro H.
    - apply (Rmult_le_compat_r (IZR d)) in H; [|lra]. replace (IZR n / IZR d * IZR d)%R with (IZR n) in H by (field; lra). exact H.
    - apply (Rmult_le_reg_r (IZR d)); [lra|]. replace (IZR n / IZR d * IZR d)%R with (IZR n) by (field; lra). exact H. }
  rewrite S. destruct (Z.leb_spec 0 k) as [K|K].
  - rewrite bpow2 by exact K. rewrite <- mult_IZR. split; intro H; [apply IZR_le|apply le_IZR in H]; lia.
  - rewrite <- (Z.opp_involutive k) at 2. rewrite bpow_opp, bpow2 by lia.
    assert (P : (0 < IZR (2 ^ (- k)))%R) by (apply IZR_lt, Z.pow_pos_nonneg; lia).
    split; intro H.
    + apply IZR_le in H. rewrite mult_IZR in H. apply (Rmult_le_reg_r (IZR (2 ^ (- k)))); [exact P|].
      replace (/ IZR (2 ^ - k) * IZR d * IZR (2 ^ - k))%R with (IZR d) by (field; lra). exact H.
    + apply (Rmult_le_compat_r (IZR (2 ^ (- k)))) in H; [|lra].
      replace (/ IZR (2 ^ - k) * IZR d * IZR (2 ^ - k))%R with (IZR d) in H by (field; lra).
      rewrite <- mult_IZR in H. now apply le_IZR.
Qed.

Lemma log2_ratio_spec n d : 0 < n -> 0 < d ->
  (bpow radix2 (log2_ratio n d) <= IZR n / IZR d < bpow radix2 (log2_ratio n d + 1))%R.
Proof.
  intros Hn Hd. unfold log2_ratio. set (k := Z.log2 n - Z.log2 d).
  pose proof (Z.log2_spec n Hn) as [N1 N2]. pose proof (Z.log2_spec d Hd) as [D1 D2].
  pose proof (Z.log2_nonneg n) as LN. pose proof (Z.log2_nonneg d) as LD.
  unfold Z.succ in *.
  assert (Pd : (0 < IZR d)%R) by now apply IZR_lt.
  assert (Pn : (0 < IZR n)%R) by now apply IZR_lt.
  apply IZR_le in N1. apply IZR_lt in N2. apply IZR_le in D1. apply IZR_lt in D2.
  rewrite <- bpow2 in N1 by lia. rewrite <- bpow2 in N2 by lia. rewrite <- bpow2 in D1 by lia. rewrite <- bpow2 in D2 by lia.
  assert (U : (IZR n / IZR d < bpow radix2 (k + 1))%R).
  { apply (Rmult_lt_reg_r (IZR d)); [exact Pd|]. replace (IZR n / IZR d * IZR d)%R with (IZR n) by (field; lra).
    apply Rlt_le_trans with (1 := N2). replace (Z.log2 n + 1) with (k + 1 + Z.log2 d) by (unfold k; lia).
    rewrite bpow_plus. apply Rmult_le_compat_l; [apply bpow_ge_0|exact D1]. }
  assert (L : (bpow radix2 (k - 1) <= IZR n / IZR d)%R).
  { apply (Rmult_le_reg_r (IZR d)); [exact Pd|]. replace (IZR n / IZR d * IZR d)%R with (IZR n) by (field; lra).
    apply Rle_trans with (2 := N1). replace (Z.log2 n) with (k - 1 + (Z.log2 d + 1)) at 1 by (unfold k; lia).
    rewrite bpow_plus. apply Rmult_le_compat_l; [apply bpow_ge_0|]. lra. }
  pose proof (ge2_R n d k Hd) as G. unfold ge2 in G.
  assert (B : forall b : bool, (b = true <-> (bpow radix2 k <= IZR n / IZR d)%R) ->
    (bpow radix2 (if b then k else k - 1) <= IZR n / IZR d < bpow radix2 ((if b then k else k - 1) + 1))%R).
  { intros [] H; split; try assumption.
    - now apply H.
    - replace (k - 1 + 1) with k by lia. apply Rnot_le_lt. intro K. apply H in K. discriminate. }
  apply B. rewrite <- G. destruct (0 <=? k); apply Z.leb_le.
Qed.

Section F.
Variable f : fmt.
Notation prec := (mw f + 1).
Notation emax := (2 ^ (ew f - 1)).
Notation emin := (femin f).

Lemma femin_eq : SpecFloat.emin prec emax = emin. Proof. reflexivity. Qed.

(** a pattern from its fields *)
Lemma mk_fields E M : 0 <= E < 2 ^ ew f -> 0 <= M < 2 ^ mw f ->
  exponent f (E * 2 ^ mw f + M) = E /\ mantissa f (E * 2 ^ mw f + M) = M.
Proof.
  intros HE HM. unfold exponent, mantissa. pose proof (mwp f).
  assert (D : (E * 2 ^ mw f + M) / 2 ^ mw f = E) by (rewrite Z.div_add_l by lia; rewrite Z.div_small; lia).
  assert (R : (E * 2 ^ mw f + M) mod 2 ^ mw f = M) by (rewrite Z.add_comm, Z.mod_add by lia; now apply Z.mod_small).
  rewrite D, R. split; [now apply Z.mod_small|reflexivity].
Qed.

(** any non-negative pattern below infinity *)
Lemma split_pattern x : 0 <= x < inf_pattern f ->
  x = exponent f x * 2 ^ mw f + mantissa f x /\ exponent f x < 2 ^ ew f - 1.
Proof.
  unfold inf_pattern. intros [H0 H1]. pose proof (mwp f). pose proof (ewp f).
  assert (Q : x / 2 ^ mw f < 2 ^ ew f - 1) by (apply Z.div_lt_upper_bound; nia).
  assert (Q0 : 0 <= x / 2 ^ mw f) by (apply Z.div_pos; lia).
  unfold exponent, mantissa. rewrite (Z.mod_small (x / 2 ^ mw f)) by lia.
  split; [|lia]. pose proof (Z.div_mod x (2 ^ mw f) ltac:(lia)). lia.
Qed.

Lemma units_nonneg x : 0 <= units f x.
Proof.
  unfold units. pose proof (mant_range f x). pose proof (mwp f). pose proof (expo_range f x).
  destruct (Z.eqb_spec (exponent f x) 0); [lia|]. apply Z.mul_nonneg_nonneg; [lia|]. apply Z.pow_nonneg. lia.
Qed.

Lemma units_R x : isfinite f x = true -> Rabs (B2R _ _ (val f x)) = (IZR (units f x) * bpow radix2 emin)%R.
Proof.
  unfold isfinite. rewrite negb_true_iff, Z.eqb_neq. intro H. unfold units.
  destruct (Z.eqb_spec (exponent f x) 0) as [E|E].
  - rewrite (abs_R_sub f x E). reflexivity.
  - rewrite (abs_R_norm f x E H). rewrite femin_eq, mult_IZR. pose proof (expo_range f x).
    rewrite <- bpow2 by lia. rewrite Rmult_assoc, <- bpow_plus. do 2 f_equal. lia.
Qed.

Lemma sgn_pos x : 0 <= x < inf_pattern f -> sgn f x = false.
Proof. unfold sgn, inf_pattern. intros H. apply Z.leb_gt. pose proof (mwp f). nia. Qed.

Lemma finite_pos x : 0 <= x < inf_pattern f -> isfinite f x = true.
Proof.
  intro H. destruct (split_pattern x H) as [_ K]. unfold isfinite. rewrite negb_true_iff, Z.eqb_neq. lia.
Qed.

Lemma units_R_pos x : 0 <= x < inf_pattern f -> B2R _ _ (val f x) = (IZR (units f x) * bpow radix2 emin)%R.
Proof.
  intro H. rewrite <- (units_R x (finite_pos x H)). symmetry. apply Rabs_right.
  rewrite val_R, aux_cases, (sgn_pos x H). destruct (split_pattern x H) as [_ K].
  pose proof (mant_range f x). pose proof (mwp f).
  destruct (Z.eqb_spec (exponent f x) 0).
  - destruct (mantissa f x); cbn [FF2R SpecFloat.cond_Zopp]; try lra. apply Rle_ge, F2R_ge_0. cbn. lia.
  - destruct (Z.eqb_spec (exponent f x) (2 ^ ew f - 1)); [lia|]. cbn [FF2R cond_Zopp]. apply Rle_ge, F2R_ge_0. cbn. lia.
Qed.

(** mantissa m at exponent k above the minimum *)
Lemma units_mk k m : 0 <= k -> 0 <= m <= 2 ^ (mw f + 1) -> (2 ^ mw f <= m \/ k = 0) ->
  k * 2 ^ mw f + m < inf_pattern f -> units f (k * 2 ^ mw f + m) = m * 2 ^ k.
Proof.
  intros Hk Hm Hn Hi. pose proof (mwp f) as P. pose proof (mw_pos f). unfold inf_pattern in Hi.
  rewrite Z.pow_add_r in Hm by lia. change (2 ^ 1) with 2 in Hm.
  destruct (Z.lt_ge_cases m (2 ^ mw f)) as [Lt|Ge].
  - assert (k = 0) by lia. subst k. cbn [Z.mul Z.add]. rewrite Z.mul_1_r. unfold units.
    destruct (mk_fields 0 m) as [A B]; [pose proof (ewp f); lia|lia|]. cbn [Z.mul Z.add] in A, B. now rewrite A, B.
  - destruct (Z.eq_dec m (2 * 2 ^ mw f)) as [->|N].
    + replace (k * 2 ^ mw f + 2 * 2 ^ mw f) with ((k + 2) * 2 ^ mw f + 0) in * by ring. unfold units.
      destruct (mk_fields (k + 2) 0) as [A B]; [nia|lia|]. rewrite A, B. destruct (Z.eqb_spec (k + 2) 0); [lia|].
      replace (k + 2 - 1) with (k + 1) by lia. rewrite Z.pow_add_r by lia. ring.
    + replace (k * 2 ^ mw f + m) with ((k + 1) * 2 ^ mw f + (m - 2 ^ mw f)) in * by ring. unfold units.
      destruct (mk_fields (k + 1) (m - 2 ^ mw f)) as [A B]; [nia|lia|]. rewrite A, B.
      destruct (Z.eqb_spec (k + 1) 0); [lia|]. f_equal; [lia|]. f_equal. lia.
Qed.

(** units is strictly increasing on finite non-negative patterns *)
Lemma units_mono x y : 0 <= x -> x < y -> y < inf_pattern f -> units f x < units f y.
Proof.
  intros H0 H1 H2.
  destruct (split_pattern x ltac:(lia)) as [Ex Fx]. destruct (split_pattern y ltac:(lia)) as [Ey Fy].
  pose proof (mant_range f x) as Mx. pose proof (mant_range f y) as My.
  pose proof (expo_range f x) as Rx. pose proof (expo_range f y) as Ry. pose proof (mwp f) as P.
  unfold units. set (a := exponent f x) in *. set (b := exponent f y) in *.
  set (p := mantissa f x) in *. set (q := mantissa f y) in *. set (T := 2 ^ mw f) in *.
  assert (O : a < b \/ (a = b /\ p < q)) by nia.
  destruct (Z.eqb_spec a 0) as [A|A], (Z.eqb_spec b 0) as [B|B].
  - nia.
  - assert (1 <= 2 ^ (b - 1)) by (apply (Z.pow_le_mono_r 2 0); lia). nia.
  - lia.
  - destruct O as [O|[-> O]].
    + replace (b - 1) with ((a - 1) + 1 + (b - a - 1)) by lia. rewrite Z.pow_add_r, (Z.pow_add_r 2 (a - 1) 1) by lia.
      assert (1 <= 2 ^ (b - a - 1)) by (apply (Z.pow_le_mono_r 2 0); lia).
      assert (0 < 2 ^ (a - 1)) by (apply Z.pow_pos_nonneg; lia). change (2 ^ 1) with 2.
      assert (p + T < 2 * T) by lia.
      assert ((p + T) * 2 ^ (a - 1) < 2 * T * 2 ^ (a - 1)) by nia.
      assert (2 * T * 2 ^ (a - 1) * 1 <= (q + T) * 2 * 2 ^ (a - 1) * 2 ^ (b - a - 1)) by (apply Z.mul_le_mono_nonneg; nia). lia.
    + assert (0 < 2 ^ (b - 1)) by (apply Z.pow_pos_nonneg; lia). nia.
Qed.

Variables n d : Z.
Hypothesis Hn : 0 < n.
Hypothesis Hd : 0 < d.
Notation e := (round_exp f n d).
Notation m := (round_man f n d).
Notation v := (IZR n / IZR d)%R.
Notation fexp := (FLT_exp emin prec).

Lemma v_pos : (0 < v)%R.
Proof. apply Rmult_lt_0_compat; [now apply IZR_lt|]. apply Rinv_0_lt_compat. now apply IZR_lt. Qed.

Lemma v_mag : (mag radix2 v : Z) = log2_ratio n d + 1.
Proof.
  apply mag_unique_pos. replace (log2_ratio n d + 1 - 1) with (log2_ratio n d) by lia. now apply log2_ratio_spec.
Qed.

Lemma v_cexp : cexp radix2 fexp v = e.
Proof. unfold cexp. rewrite v_mag. unfold FLT_exp, round_exp. lia. Qed.

Lemma scaled_eq : scaled_mantissa radix2 fexp v = (IZR (scale_num n e) / IZR (scale_den d e))%R.
Proof.
  unfold scaled_mantissa. rewrite v_cexp. unfold scale_num, scale_den.
  assert (Pd : (0 < IZR d)%R) by now apply IZR_lt.
  destruct (Z.leb_spec 0 e) as [K|K].
  - rewrite bpow_opp, bpow2, mult_IZR by exact K. assert (0 < IZR (2 ^ e))%R by (apply IZR_lt, Z.pow_pos_nonneg; lia). field. lra.
  - rewrite bpow2, mult_IZR by lia. field. lra.
Qed.

Lemma den_pos : 0 < scale_den d e.
Proof.
  unfold scale_den. destruct (Z.leb_spec 0 e); [|exact Hd]. apply Z.mul_pos_pos; [exact Hd|]. apply Z.pow_pos_nonneg; lia.
Qed.

Lemma round_F2R : round radix2 fexp ZnearestE v = (IZR m * bpow radix2 e)%R.
Proof.
  unfold round. rewrite scaled_eq, v_cexp. rewrite rne_nearest by apply den_pos. unfold F2R. cbn [Fnum Fexp]. reflexivity.
Qed.

Lemma sm_eq : scaled_mantissa radix2 fexp v = (v * bpow radix2 (- e))%R.
Proof. unfold scaled_mantissa. now rewrite v_cexp. Qed.

Lemma m_as_nearest : m = ZnearestE (v * bpow radix2 (- e)).
Proof. rewrite <- sm_eq, scaled_eq. rewrite rne_nearest by apply den_pos. reflexivity. Qed.

Lemma m_upper : m <= 2 ^ prec.
Proof.
  rewrite m_as_nearest. rewrite <- (Zrnd_IZR ZnearestE (2 ^ prec)). apply Zrnd_le; [apply valid_rnd_N|].
  rewrite <- bpow2 by (pose proof (mw_pos f); lia).
  pose proof (log2_ratio_spec n d Hn Hd) as [_ U]. apply Rlt_le.
  apply (Rmult_lt_reg_r (bpow radix2 e)); [apply bpow_gt_0|]. rewrite Rmult_assoc, <- !bpow_plus.
  replace (- e + e) with 0 by lia. cbn [bpow]. rewrite Rmult_1_r. apply Rlt_le_trans with (1 := U). apply bpow_le.
  unfold round_exp. lia.
Qed.

Lemma m_nonneg : 0 <= m.
Proof.
  rewrite m_as_nearest. rewrite <- (Zrnd_IZR ZnearestE 0). apply Zrnd_le; [apply valid_rnd_N|].
  apply Rmult_le_pos; [apply Rlt_le, v_pos|apply bpow_ge_0].
Qed.

Lemma m_lower : emin < e -> 2 ^ mw f <= m.
Proof.
  intro K. rewrite m_as_nearest. rewrite <- (Zrnd_IZR ZnearestE (2 ^ mw f)). apply Zrnd_le; [apply valid_rnd_N|].
  rewrite <- bpow2 by (pose proof (mw_pos f); lia).
  pose proof (log2_ratio_spec n d Hn Hd) as [U _].
  apply (Rmult_le_reg_r (bpow radix2 e)); [apply bpow_gt_0|]. rewrite Rmult_assoc, <- !bpow_plus.
  replace (- e + e) with 0 by lia. cbn [bpow]. rewrite Rmult_1_r. apply Rle_trans with (2 := U). apply bpow_le.
  unfold round_exp in *. lia.
Qed.

Lemma e_ge : emin <= e. Proof. unfold round_exp. lia. Qed.

Notation x := ((e - emin) * 2 ^ mw f + m).

Lemma x_nonneg : 0 <= x.
Proof. pose proof e_ge. pose proof m_nonneg. pose proof (mwp f). nia. Qed.

Lemma x_R : x < inf_pattern f -> B2R _ _ (val f x) = round radix2 fexp ZnearestE v.
Proof.
  intro H. pose proof x_nonneg. rewrite units_R_pos by lia. rewrite round_F2R.
  pose proof e_ge. rewrite units_mk.
  - rewrite mult_IZR, <- bpow2 by lia. rewrite Rmult_assoc, <- bpow_plus. do 2 f_equal. lia.
  - lia.
  - split; [apply m_nonneg|apply m_upper].
  - destruct (Z.eq_dec e emin); [right; lia|left; apply m_lower; lia].
  - exact H.
Qed.

Lemma emax_emin : emax - emin = 2 ^ ew f - 2 + mw f.
Proof.
  unfold femin. pose proof (ew_pos f). replace (ew f) with (ew f - 1 + 1) at 3 by lia.
  rewrite Z.pow_add_r by lia. change (2 ^ 1) with 2. ring.
Qed.

Lemma units_bound y : 0 <= y < inf_pattern f -> (IZR (units f y) * bpow radix2 emin < bpow radix2 emax)%R.
Proof.
  intro H. destruct (split_pattern y H) as [E K]. pose proof (mant_range f y) as M. pose proof (expo_range f y) as R.
  replace emax with ((emax - emin) + emin) by lia. rewrite bpow_plus. apply Rmult_lt_compat_r; [apply bpow_gt_0|].
  rewrite emax_emin. pose proof (mw_pos f). rewrite bpow2 by lia. apply IZR_lt.
  unfold units. destruct (Z.eqb_spec (exponent f y) 0) as [Z0|N].
  - apply Z.lt_le_trans with (2 ^ mw f); [lia|]. apply Z.pow_le_mono_r; lia.
  - apply Z.lt_le_trans with (2 ^ (mw f + 1) * 2 ^ (exponent f y - 1)).
    + apply Z.mul_lt_mono_pos_r; [apply Z.pow_pos_nonneg; lia|]. rewrite Z.pow_add_r by lia. change (2 ^ 1) with 2. lia.
    + rewrite <- Z.pow_add_r by lia. apply Z.pow_le_mono_r; lia.
Qed.

Lemma x_over : inf_pattern f <= x -> (bpow radix2 emax <= round radix2 fexp ZnearestE v)%R.
Proof.
  intro H. rewrite round_F2R. pose proof m_upper as U. pose proof e_ge. pose proof m_nonneg.
  unfold inf_pattern in H. pose proof (mwp f) as P. pose proof (mw_pos f). pose proof emax_emin as X. pose proof (ewp f).
  rewrite Z.pow_add_r in U by lia. change (2 ^ 1) with 2 in U.
  assert (C : (2 ^ mw f <= m /\ 2 ^ ew f - 2 <= e - emin) \/ (m = 2 * 2 ^ mw f /\ 2 ^ ew f - 3 <= e - emin) ).
  { destruct (Z.eq_dec m (2 * 2 ^ mw f)).
    - right. split; [assumption|]. nia.
    - left. assert (e - emin > 2 ^ ew f - 3) by nia. split; [|lia].
      destruct (Z.eq_dec e emin) as [Q|Q]; [|apply m_lower; lia]. rewrite Q, Z.sub_diag in H. nia. }
  destruct C as [[C1 C2]|[C1 C2]].
  - apply IZR_le in C1. rewrite <- bpow2 in C1 by lia.
    apply Rle_trans with (bpow radix2 (mw f) * bpow radix2 e)%R; [|apply Rmult_le_compat_r; [apply bpow_ge_0|exact C1]].
    rewrite <- bpow_plus. apply bpow_le. lia.
  - rewrite C1, mult_IZR. rewrite <- bpow2 by lia. change 2%R with (bpow radix2 1). rewrite <- !bpow_plus. apply bpow_le. lia.
Qed.

End F.

(** The conversion is the IEEE-754 one. *)
Lemma round_ratio_ok f n d : 0 <= n -> 0 < d ->
  let r := round radix2 (FLT_exp (femin f) (mw f + 1)) ZnearestE (IZR n / IZR d) in
  ((r < bpow radix2 (2 ^ (ew f - 1)))%R /\ 0 <= round_ratio f n d < inf_pattern f /\ B2R _ _ (val f (round_ratio f n d)) = r) \/
  ((bpow radix2 (2 ^ (ew f - 1)) <= r)%R /\ round_ratio f n d = inf_pattern f).
Proof.
  intros Hn Hd r. unfold round_ratio. pose proof (mwp f) as P. pose proof (ewp f).
  destruct (Z.eqb_spec n 0) as [->|N].
  - left. assert (r = 0%R) by (unfold r; unfold Rdiv; rewrite Rmult_0_l; apply round_0; apply valid_rnd_N).
    rewrite H0. split; [apply bpow_gt_0|]. split; [unfold inf_pattern; nia|].
    change 0 with fzero. rewrite val_zero. reflexivity.
  - assert (Hn' : 0 < n) by lia.
    destruct (Z.lt_ge_cases ((round_exp f n d - femin f) * 2 ^ mw f + round_man f n d) (inf_pattern f)) as [K|K].
    + left. rewrite Z.min_r by lia. pose proof (x_nonneg f n d Hn' Hd) as X0.
      rewrite (x_R f n d Hn' Hd K). fold r. split; [|split; [lia|reflexivity]].
      unfold r. rewrite <- (x_R f n d Hn' Hd K). rewrite units_R_pos by lia. apply units_bound; lia.
    + right. rewrite Z.min_l by lia. split; [|reflexivity]. now apply x_over.
Qed.
