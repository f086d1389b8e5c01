(** The parsers' conversion of m * 10^e to a bit pattern is correctly rounded. *)
From Coq Require Import ZArith List Bool Lia Reals Lra.
From Flocq Require Import Core IEEE754.Binary IEEE754.Bits.
From Verif Require Import Mem FpModel FpProofs LitModel LitProofs LimProps RyuTables RyuModel RyuArith RyuTab RyuCertOk RyuParseModel.
Open Scope Z_scope.

Lemma s32_id x : - 2 ^ 31 <= x < 2 ^ 31 -> s32 x = x.
Proof. intro H. unfold s32. rewrite Z.mod_small by (change (2 ^ 31) with 2147483648 in *; change (2 ^ 32) with 4294967296; lia). lia. Qed.

(** ** floor_log2 *)
Lemma log2_div x k : 0 <= k -> 0 < x / 2 ^ k -> 0 < x -> Z.log2 (x / 2 ^ k) = Z.log2 x - k.
Proof.
  intros Hk H Hx. rewrite <- Z.shiftr_div_pow2 by exact Hk. rewrite Z.log2_shiftr by exact Hx. apply Z.max_r.
  assert (2 ^ k <= x). { apply Z.nlt_ge. intro Q. rewrite Z.div_small in H; lia. }
  assert (k <= Z.log2 x); [|lia]. apply Z.log2_le_pow2; assumption.
Qed.

Lemma clz_step n0 x0 k : 0 < k -> 0 < x0 < 2 ^ (2 * k) ->
  let '(n1, x1) := if negb (x0 / 2 ^ k =? 0) then (n0 - k, x0 / 2 ^ k) else (n0, x0) in
  0 < x1 < 2 ^ k /\ Z.log2 x1 - n1 = Z.log2 x0 - n0.
Proof.
  intros Hk Hx. assert (P : 0 < 2 ^ k) by (apply Z.pow_pos_nonneg; lia). pose proof (Z.div_pos x0 (2 ^ k) ltac:(lia) P).
  destruct (Z.eqb_spec (x0 / 2 ^ k) 0) as [E|E]; cbn [negb].
  - split; [|lia]. split; [lia|]. apply Z.div_small_iff in E; lia.
  - split; [|rewrite log2_div by lia; lia]. split; [lia|]. apply Z.div_lt_upper_bound; [exact P|]. rewrite <- Z.pow_add_r by lia. replace (k + k) with (2 * k) by lia. lia.
Qed.

Lemma floor_log2_32_eq x : 0 < x < 2 ^ 32 -> floor_log2_32 x = Ok (Z.log2 x).
Proof.
  intro H. unfold floor_log2_32. replace (x =? 0) with false by lia. f_equal. unfold myclzi. replace (x =? 0) with false by lia. cbv zeta.
  pose proof (clz_step 32 x 16 ltac:(lia) H) as S. destruct (if negb (x / 2 ^ 16 =? 0) then _ else _) as (n1, x1). destruct S as (X1 & E1).
  pose proof (clz_step n1 x1 8 ltac:(lia) X1) as S. destruct (if negb (x1 / 2 ^ 8 =? 0) then _ else _) as (n2, x2). destruct S as (X2 & E2).
  pose proof (clz_step n2 x2 4 ltac:(lia) X2) as S. destruct (if negb (x2 / 2 ^ 4 =? 0) then _ else _) as (n3, x3). destruct S as (X3 & E3).
  pose proof (clz_step n3 x3 2 ltac:(lia) X3) as S. destruct (if negb (x3 / 2 ^ 2 =? 0) then _ else _) as (n4, x4). destruct S as (X4 & E4).
  change (2 ^ 2) with 4 in X4. assert (B : 0 <= Z.log2 x < 32) by (split; [apply Z.log2_nonneg|apply Z.log2_lt_pow2; lia]).
  destruct (Z.eqb_spec (x4 / 2) 0) as [E|E]; cbn [negb].
  - assert (x4 = 1) by (Z.to_euclidean_division_equations; lia). subst x4. change (Z.log2 1) with 0 in E4.
    rewrite s32_id by (change (2 ^ 31) with 2147483648; lia). rewrite u32_id by (change (2 ^ 32) with 4294967296; lia). lia.
  - assert (L : Z.log2 x4 = 1). { assert (C : x4 = 2 \/ x4 = 3) by (Z.to_euclidean_division_equations; lia). destruct C as [-> | ->]; reflexivity. }
    rewrite u32_id by (change (2 ^ 32) with 4294967296; lia). lia.
Qed.

Lemma land_top x : 0 <= x < 2 ^ 64 -> (Z.land x (2 ^ 63) =? 0) = (x <? 2 ^ 63).
Proof.
  intro H. assert (T : Z.testbit x 63 = negb (x <? 2 ^ 63)).
  { rewrite Z.testbit_eqb by lia. change (2 ^ 64) with (2 * 2 ^ 63) in H. set (P := 2 ^ 63) in *. assert (0 < P) by reflexivity.
    destruct (Z.ltb_spec x P).
    - rewrite Z.div_small by lia. reflexivity.
    - replace (x / P) with 1; [reflexivity|]. apply Z.div_unique with (x - P); lia. }
  destruct (Z.eqb_spec (Z.land x (2 ^ 63)) 0) as [E|E].
  - assert (Q : Z.testbit (Z.land x (2 ^ 63)) 63 = false) by (rewrite E; apply Z.bits_0).
    rewrite Z.land_spec, Z.pow2_bits_true, andb_true_r, T in Q by lia. now destruct (x <? 2 ^ 63).
  - destruct (x <? 2 ^ 63); [|reflexivity]. exfalso. apply E. apply Z.bits_inj'. intros n Hn.
    rewrite Z.land_spec, Z.pow2_bits_eqb, Z.bits_0 by lia. destruct (Z.eqb_spec 63 n) as [<-|N]; [now rewrite T|apply andb_false_r].
Qed.

Lemma myclzll_loop_eq fuel : forall x r, 0 < x < 2 ^ 64 -> 2 ^ 63 <= x * 2 ^ Z.of_nat fuel ->
  myclzll_loop fuel x r = Ok (r + 63 - Z.log2 x).
Proof.
  induction fuel as [|n IH]; intros x r Hx Hf; cbn [myclzll_loop]; rewrite land_top by lia.
  - cbn in Hf. rewrite Z.mul_1_r in Hf. replace (x <? 2 ^ 63) with false by lia. cbn [negb]. f_equal.
    assert (Z.log2 x = 63) by (apply Z.log2_unique; lia). lia.
  - destruct (Z.ltb_spec x (2 ^ 63)) as [L|L]; cbn [negb].
    + rewrite u64_id by (change (2 ^ 64) with (2 ^ 63 * 2); lia). rewrite IH.
      * f_equal. rewrite Z.mul_comm, Z.log2_double by lia. lia.
      * change (2 ^ 64) with (2 ^ 63 * 2). lia.
      * rewrite Nat2Z.inj_succ, Z.pow_succ_r in Hf by lia. lia.
    + f_equal. assert (Z.log2 x = 63) by (apply Z.log2_unique; lia). lia.
Qed.
Lemma floor_log2_64_eq x : 0 < x < 2 ^ 64 -> floor_log2_64 x = Ok (Z.log2 x).
Proof.
  intro H. unfold floor_log2_64, myclzll. replace (x =? 0) with false by lia.
  rewrite myclzll_loop_eq. 2: exact H. 2:{ change (Z.of_nat 64) with 64. change (2 ^ 64) with (2 ^ 63 * 2). set (P := 2 ^ 63). assert (0 < P) by reflexivity. nia. }
  cbn [bind]. assert (B : 0 <= Z.log2 x < 64) by (split; [apply Z.log2_nonneg|apply Z.log2_lt_pow2; lia]).
  rewrite u32_id by (change (2 ^ 32) with 4294967296; lia). f_equal. lia.
Qed.

(** ** Rounding a truncated quotient *)
Lemma land_1 x : Z.land x 1 = x mod 2.
Proof. change 1 with (2 ^ 1 - 1) at 1. rewrite land_mask by lia. reflexivity. Qed.

Definition round_up (A s : Z) (exact : bool) : bool :=
  negb (Z.land (A / 2 ^ (s - 1)) 1 =? 0) && (negb (exact && (Z.land A (2 ^ (s - 1) - 1) =? 0)) || negb (Z.land (A / 2 ^ s) 1 =? 0)).

Lemma rne_floor n d s : 0 <= n -> 0 < d -> 1 <= s ->
  div_rne n (d * 2 ^ s) = n / d / 2 ^ s + b2z (round_up (n / d) s (n mod d =? 0)).
Proof.
  intros Hn Hd Hs. unfold round_up. rewrite !land_1, land_mask by lia.
  set (A := n / d). set (r := n mod d). pose proof (Z.div_mod n d ltac:(lia)) as En. fold A r in En.
  pose proof (Z.mod_pos_bound n d Hd) as Rn. fold r in Rn.
  assert (E2 : 2 ^ s = 2 ^ (s - 1) * 2) by (replace s with (Z.succ (s - 1)) at 1 by lia; rewrite Z.pow_succ_r by lia; ring).
  rewrite E2. set (P := 2 ^ (s - 1)) in *. assert (P0 : 0 < P) by (apply Z.pow_pos_nonneg; lia). clearbody P. clear E2 s Hs.
  rewrite <- !Z.div_div by lia. set (B := A / P). set (c := A mod P). pose proof (Z.div_mod A P ltac:(lia)) as EA. fold B c in EA.
  pose proof (Z.mod_pos_bound A P P0) as RA. fold c in RA.
  set (Q := B / 2). set (b := B mod 2). pose proof (Z.div_mod B 2 ltac:(lia)) as EB. fold Q b in EB.
  pose proof (Z.mod_pos_bound B 2 ltac:(lia)) as RB. fold b in RB.
  assert (EN : n = (d * (P * 2)) * Q + (d * (P * b + c) + r)) by (rewrite En, EA, EB; ring).
  assert (RN : 0 <= d * (P * b + c) + r < d * (P * 2)) by nia.
  unfold div_rne. assert (Dv : n / (d * (P * 2)) = Q) by (symmetry; apply Z.div_unique with (d * (P * b + c) + r); [left; exact RN|exact EN]).
  assert (Md : n mod (d * (P * 2)) = d * (P * b + c) + r) by (symmetry; apply Z.mod_unique with Q; [left; exact RN|exact EN]).
  rewrite Dv, Md. assert (OQ : Z.odd Q = negb (Q mod 2 =? 0)).
  { rewrite Zmod_odd. now destruct (Z.odd Q). }
  rewrite OQ. assert (C : b = 0 \/ b = 1) by lia. destruct C as [Eb|Eb]; rewrite Eb in *.
  - change (0 =? 0) with true. cbn [negb andb b2z]. replace (d * (P * 2) <? 2 * (d * (P * 0 + c) + r)) with false by nia.
    replace (2 * (d * (P * 0 + c) + r) =? d * (P * 2)) with false by nia. cbn [orb andb]. lia.
  - change (1 =? 0) with false. cbn [negb andb].
    destruct (Z.eqb_spec r 0) as [Er|Er], (Z.eqb_spec c 0) as [Ec|Ec]; cbn [andb negb orb].
    + replace (d * (P * 2) <? 2 * (d * (P * 1 + c) + r)) with false by nia. replace (2 * (d * (P * 1 + c) + r) =? d * (P * 2)) with true by nia.
      cbn [orb andb]. destruct (Q mod 2 =? 0); cbn; lia.
    + replace (d * (P * 2) <? 2 * (d * (P * 1 + c) + r)) with true by nia. reflexivity.
    + replace (d * (P * 2) <? 2 * (d * (P * 1 + c) + r)) with true by nia. reflexivity.
    + replace (d * (P * 2) <? 2 * (d * (P * 1 + c) + r)) with true by nia. reflexivity.
Qed.

(** n'/d' = N/D * 2^-e2 *)
Definition same_ratio (n' d' N D e2 : Z) : Prop := n' * scale_den D e2 = scale_num N e2 * d'.

Lemma scale_den_pos D e : 0 < D -> 0 < scale_den D e.
Proof. intro H. unfold scale_den. destruct (Z.leb_spec 0 e); [|exact H]. apply Z.mul_pos_pos; [exact H|]. apply Z.pow_pos_nonneg; lia. Qed.

Lemma same_ratio_R n' d' N D e2 : 0 < D -> 0 < d' -> same_ratio n' d' N D e2 ->
  (IZR N / IZR D = IZR n' / IZR d' * bpow radix2 e2)%R.
Proof.
  intros HD Hd H. pose proof (scale_den_pos D e2 HD) as PD. unfold same_ratio in H. apply (f_equal IZR) in H. rewrite !mult_IZR in H.
  assert (D0 : (0 < IZR D)%R) by now apply IZR_lt. assert (d0 : (0 < IZR d')%R) by now apply IZR_lt.
  unfold scale_num, scale_den in H. destruct (Z.leb_spec 0 e2) as [K|K].
  - rewrite mult_IZR, <- bpow2 in H by exact K. apply (Rmult_eq_reg_r (IZR D * IZR d')); [|nra]. field_simplify; [|lra|lra]. rewrite <- H. ring.
  - rewrite mult_IZR, <- bpow2 in H by lia. assert (B : (bpow radix2 (- e2) * bpow radix2 e2 = 1)%R) by (rewrite <- bpow_plus; replace (- e2 + e2) with 0 by lia; reflexivity).
    apply (Rmult_eq_reg_r (IZR D * IZR d')); [|nra]. field_simplify; [|lra|lra].
    transitivity (IZR N * bpow radix2 (- e2) * IZR d' * bpow radix2 e2)%R; [|rewrite <- H; ring].
    transitivity (IZR N * IZR d' * (bpow radix2 (- e2) * bpow radix2 e2))%R; [rewrite B; ring|ring].
Qed.

Section A.
Variable f : fmt.
Notation mb := (mw f). Notation eb := (ew f). Notation W := (mw f + ew f + 1).
Hypothesis Hmb : mw f <= 52.
Hypothesis Heb : 3 <= ew f <= 11.
Variables (fl : Z -> res Z) (neg : bool) (e2 n' d' N D : Z).
Hypothesis HN : 0 < N.
Hypothesis HD : 0 < D.
Hypothesis Hn' : 0 <= n'.
Hypothesis Hd' : 0 < d'.
Hypothesis Heq : same_ratio n' d' N D e2.
Notation m2 := (n' / d').
Hypothesis Hm2 : 2 ^ (mb + 1) <= m2 < 2 ^ (mb + 3).
Hypothesis Hfl : fl m2 = Ok (Z.log2 m2).
Hypothesis He2 : - 2 ^ 20 < e2 < 2 ^ 20.
Hypothesis Hsh : femin f - e2 < W.

Let l := Z.log2 m2.
Let bias := 2 ^ (eb - 1) - 1.

Lemma m2_log : mb + 1 <= l <= mb + 2 /\ 2 ^ l <= m2 < 2 ^ (l + 1).
Proof.
  pose proof (mw_pos f). assert (0 < 2 ^ (mb + 1)) by (apply Z.pow_pos_nonneg; lia). split.
  - split; [apply Z.log2_le_pow2; lia|]. assert (l < mb + 3); [|lia]. apply Z.log2_lt_pow2; lia.
  - pose proof (Z.log2_spec m2 ltac:(lia)) as S. unfold l. now rewrite Z.add_1_r.
Qed.

Lemma ratio_log : log2_ratio N D = e2 + l.
Proof.
  pose proof (v_mag N D HN HD) as V. enough (Q : (mag radix2 (IZR N / IZR D) : Z) = e2 + l + 1) by lia.
  apply mag_unique_pos. destruct m2_log as (Rl & L1 & L2). pose proof (mw_pos f).
  rewrite (same_ratio_R _ _ _ _ _ HD Hd' Heq). replace (e2 + l + 1 - 1) with (l + e2) by lia. replace (e2 + l + 1) with (l + 1 + e2) by lia.
  rewrite !bpow_plus. change (bpow radix2 1) with 2%R. rewrite bpow2 by lia. pose proof (bpow_gt_0 radix2 e2) as B.
  assert (d0 : (0 < IZR d')%R) by now apply IZR_lt. pose proof (Z.div_mod n' d' ltac:(lia)) as DM. pose proof (Z.mod_pos_bound n' d' Hd') as MB.
  rewrite Z.pow_add_r in L2 by lia. change (2 ^ 1) with 2 in L2.
  assert (I1 : 2 ^ l * d' <= n') by nia. assert (I2 : n' < 2 ^ l * 2 * d') by nia. apply IZR_le in I1. apply IZR_lt in I2. rewrite mult_IZR in I1. rewrite 2!mult_IZR in I2.
  split.
  - apply Rmult_le_compat_r; [lra|]. apply (Rmult_le_reg_r (IZR d')); [exact d0|]. replace (IZR n' / IZR d' * IZR d')%R with (IZR n') by (field; lra). exact I1.
  - apply Rmult_lt_compat_r; [exact B|]. apply (Rmult_lt_reg_r (IZR d')); [exact d0|]. replace (IZR n' / IZR d' * IZR d')%R with (IZR n') by (field; lra). exact I2.
Qed.

Lemma round_man_eq s : 1 <= s -> round_exp f N D = e2 + s -> round_man f N D = m2 / 2 ^ s + b2z (round_up m2 s (n' mod d' =? 0)).
Proof.
  intros Hs E. rewrite (m_as_nearest f N D HN HD). rewrite <- rne_floor by assumption.
  assert (P : 0 < 2 ^ s) by (apply Z.pow_pos_nonneg; lia). rewrite <- rne_nearest by nia. f_equal.
  rewrite E, (same_ratio_R _ _ _ _ _ HD Hd' Heq), Rmult_assoc, <- bpow_plus. replace (e2 + - (e2 + s)) with (- s) by lia.
  rewrite bpow_opp, bpow2, mult_IZR by lia. apply IZR_lt in P, Hd'. field. split; lra.
Qed.

Lemma femin_bias : femin f = 1 - bias - mb.
Proof. unfold femin, bias. lia. Qed.

Lemma assemble_ok :
  assemble W mb eb fl neg e2 m2 (n' mod d' =? 0) = Ok (b2z neg * 2 ^ (eb + mb) + round_ratio f N D).
Proof.
  unfold assemble. fold bias. rewrite Hfl. cbn [bind]. fold l.
  destruct m2_log as (Rl & L1 & L2). pose proof ratio_log as RL. pose proof femin_bias as FB. pose proof (mw_pos f) as Mp.
  assert (Eb : 2 ^ eb = 2 * 2 ^ (eb - 1)) by (replace eb with (Z.succ (eb - 1)) at 1 by lia; apply Z.pow_succ_r; lia).
  assert (Bb : 4 <= 2 ^ (eb - 1) <= 1024). { split; [apply (Z.pow_le_mono_r 2 2)|apply (Z.pow_le_mono_r 2 _ 10)]; lia. }
  assert (Hb : bias = 2 ^ (eb - 1) - 1) by reflexivity. clearbody bias.
  change (2 ^ 20) with 1048576 in He2.
  rewrite s32_id by (change (2 ^ 31) with 2147483648; lia). rewrite u32_id by (change (2 ^ 32) with 4294967296; lia).
  pose proof (mwp f) as P. assert (EW : 2 ^ W = 2 * (2 ^ eb * 2 ^ mb)).
  { rewrite <- Z.pow_add_r by lia. replace W with (Z.succ (eb + mb)) by lia. apply Z.pow_succ_r. lia. }
  assert (EbM : 2 ^ (eb + mb) = 2 ^ eb * 2 ^ mb) by (apply Z.pow_add_r; lia).
  assert (S1 : (b2z neg * 2 ^ (eb + mb)) mod 2 ^ W = b2z neg * 2 ^ (eb + mb)).
  { apply Z.mod_small. rewrite EW, EbM. clear - P Bb Eb. assert (0 < 2 ^ eb * 2 ^ mb) by nia. destruct neg; cbn [b2z]; lia. }
  assert (S2 : (b2z neg * 2 ^ eb) mod 2 ^ W = b2z neg * 2 ^ eb).
  { apply Z.mod_small. rewrite EW. clear - P Bb Eb. destruct neg; cbn [b2z]; nia. }
  unfold round_ratio. replace (N =? 0) with false by lia.
  assert (RE : round_exp f N D = Z.max (femin f) (e2 + l - mb)) by (unfold round_exp; now rewrite RL).
  destruct (Z.ltb_spec (2 ^ eb - 2) (Z.max 0 (e2 + bias + l))) as [O|O].
  - rewrite S1. rewrite Z.mod_small by (rewrite EW; clear - P Bb Eb; nia).
    rewrite lor_add by (try lia; rewrite EbM; clear - P Bb Eb; nia). f_equal. f_equal. fold (inf_pattern f). symmetry. apply Z.min_l.
    unfold inf_pattern. pose proof (m_lower f N D HN HD) as ML. rewrite RE in ML. specialize (ML ltac:(lia)). rewrite RE. clear - ML O FB P Hb Eb Bb. nia.
  - set (ie := Z.max 0 (e2 + bias + l)) in *.
    assert (SH : (if ie =? 0 then 1 else ie) - e2 - bias - mb = round_exp f N D - e2).
    { rewrite RE. unfold ie. destruct (Z.eqb_spec (Z.max 0 (e2 + bias + l)) 0); lia. }
    rewrite SH. set (s := round_exp f N D - e2) in *.
    assert (Hs : 1 <= s < W) by (unfold s; rewrite RE; lia).
    rewrite s32_id by (change (2 ^ 31) with 2147483648; lia). rewrite !chk_ok by (rewrite ?andb_true_iff; lia). cbv zeta.
    assert (PW : 2 ^ (s - 1) - 1 < 2 ^ W). { assert (2 ^ (s - 1) < 2 ^ W) by (apply Z.pow_lt_mono_r; lia). lia. }
    assert (PS : 0 < 2 ^ (s - 1)) by (apply Z.pow_pos_nonneg; lia).
    rewrite (Z.mod_small (2 ^ (s - 1) - 1)) by lia. fold (round_up m2 s (n' mod d' =? 0)). set (up := round_up m2 s (n' mod d' =? 0)).
    assert (RM : round_man f N D = m2 / 2 ^ s + b2z up) by (apply round_man_eq; [lia|unfold s; lia]).
    rewrite <- RM. pose proof (m_upper f N D HN HD) as MU. pose proof (m_nonneg f N D HN HD) as M0.
    rewrite (Z.pow_add_r 2 mb 1) in * by lia. change (2 ^ 1) with 2 in *.
    rewrite (Z.mod_small (round_man f N D)) by (rewrite EW; clear - M0 MU P Bb Eb; nia). rewrite chk_ok by lia. rewrite land_mask by lia. rewrite S2.
    assert (IE : 0 <= ie <= 2 ^ eb - 2) by (unfold ie in *; lia).
    assert (Q0 : ie = 0 -> m2 / 2 ^ s < 2 ^ mb).
    { intro Z0. apply Z.div_lt_upper_bound; [apply Z.pow_pos_nonneg; lia|]. apply Z.lt_le_trans with (1 := L2). rewrite <- Z.pow_add_r by lia. apply Z.pow_le_mono_r; [lia|].
      unfold s. rewrite RE. unfold ie in Z0. lia. }
    assert (Q1 : ie <> 0 -> 2 ^ mb <= m2 / 2 ^ s).
    { intro Z0. apply Z.div_le_lower_bound; [apply Z.pow_pos_nonneg; lia|]. apply Z.le_trans with (2 := L1). rewrite <- Z.pow_add_r by lia. apply Z.pow_le_mono_r; [lia|].
      unfold s. rewrite RE. unfold ie in Z0. lia. }
    assert (XE : ie = 0 -> round_exp f N D = femin f) by (unfold ie; rewrite RE; lia).
    assert (XF : ie <> 0 -> round_exp f N D - femin f = ie - 1) by (unfold ie; rewrite RE; lia).
    assert (U01 : 0 <= b2z up <= 1) by (destruct up; cbn; lia).
    assert (FIN : forall E M, 0 <= E < 2 ^ eb -> 0 <= M < 2 ^ mb ->
      Z.lor ((Z.lor (b2z neg * 2 ^ eb) E * 2 ^ mb) mod 2 ^ W) M = b2z neg * 2 ^ (eb + mb) + (E * 2 ^ mb + M)).
    { intros E M HE HM. rewrite lor_add by lia. rewrite Z.mod_small.
      - rewrite lor_add by lia. rewrite EbM. ring.
      - rewrite EW. clear - HE P. assert (E * 2 ^ mb < 2 ^ eb * 2 ^ mb) by (apply Z.mul_lt_mono_pos_r; lia). assert (0 <= E * 2 ^ mb) by (apply Z.mul_nonneg_nonneg; lia). destruct neg; cbn [b2z]; lia. }
    set (rm := round_man f N D) in *. assert (I32 : ie + 1 < 2 ^ 32) by (change (2 ^ 32) with 4294967296; lia).
    f_equal.
    destruct (Z.eq_dec ie 0) as [Z0|Z0].
    + specialize (Q0 Z0). rewrite (XE Z0), Z.sub_diag, Z.mul_0_l, Z.add_0_l. rewrite Z.min_r by (unfold inf_pattern; clear - Q0 RM U01 IE P Bb Eb; nia).
      destruct (Z.eq_dec rm (2 ^ mb)) as [Em|Em].
      * assert (Up : up = true) by (destruct up; [reflexivity|cbn [b2z] in RM; lia]).
        rewrite Em, Z.mod_same by lia. rewrite Up, Z0. change ((0 =? 0) && true) with true. cbv iota. rewrite u32_id by lia. rewrite FIN by lia. lia.
      * rewrite (Z.mod_small rm) by lia.
        replace ((rm =? 0) && up) with false. 2:{ destruct up; [|now rewrite andb_false_r]. cbn [b2z] in RM. assert (0 <= m2 / 2 ^ s) by (apply Z.div_pos; [lia|apply Z.pow_pos_nonneg; lia]). rewrite andb_true_r. lia. }
        rewrite Z0, FIN by lia. lia.
    + specialize (Q1 Z0). rewrite (XF Z0).
      destruct (Z.eq_dec rm (2 ^ mb * 2)) as [Em|Em].
      * assert (Up : up = true). { destruct up; [reflexivity|]. cbn [b2z] in RM. assert (m2 / 2 ^ s < 2 ^ mb * 2); [|lia].
          apply Z.div_lt_upper_bound; [apply Z.pow_pos_nonneg; lia|]. apply Z.lt_le_trans with (1 := L2). replace (2 ^ mb * 2) with (2 ^ (mb + 1)) by (rewrite Z.pow_add_r by lia; reflexivity).
          rewrite <- Z.pow_add_r by lia. apply Z.pow_le_mono_r; [lia|]. unfold s. rewrite RE. unfold ie in Z0. lia. }
        rewrite Em. replace ((2 ^ mb * 2) mod 2 ^ mb) with 0 by (rewrite Z.mul_comm, Z.mod_mul; lia). rewrite Up. change ((0 =? 0) && true) with true. cbv iota.
        rewrite u32_id by lia. rewrite FIN by lia. rewrite Z.min_r by (unfold inf_pattern; clear - IE MU P Z0; nia). ring.
      * assert (Md : rm mod 2 ^ mb = rm - 2 ^ mb) by (symmetry; apply Z.mod_unique with 1; lia). rewrite Md.
        replace ((rm - 2 ^ mb =? 0) && up) with false. 2:{ destruct up; [|now rewrite andb_false_r]. cbn [b2z] in RM. rewrite andb_true_r. lia. }
        rewrite FIN by lia. rewrite Z.min_r by (unfold inf_pattern; clear - IE MU P Z0; nia). ring.
Qed.
End A.
