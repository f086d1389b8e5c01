(** digit_comparison.h: rounding an estimate, its halfway point, and the decision by comparing big
    integers. *)
From Coq Require Import ZArith List Bool Lia Reals Lra.
From Flocq Require Import Core.
From Verif Require Import Mem FpModel FpProofs LitModel LitProofs LimProps RyuText RyuRound RyuArith RyuMul RyuCvt RyuScan FfTable FfModel FfWord FfRound FfPow FfApprox FfCompute FfBig FfScan FfMant.
Import ListNotations.
Open Scope Z_scope.
Local Notation len l := (Z.of_nat (length l)).

(** more constants of the formats *)
Record consts2 (b : bformat) : Prop := {
  c_emask : exponent_mask b = (2 ^ ew (bfmt b) - 1) * 2 ^ explicit_bits b;
  c_mmask : mantissa_mask b = 2 ^ explicit_bits b - 1;
  c_hidden : hidden_bit_mask b = 2 ^ explicit_bits b;
  c_minexp : minimum_exponent b = 1 - 2 ^ (ew (bfmt b) - 1);
  c_maxd : 100 <= max_digits b <= 769;
  c_many : largest_power_of_ten b + 19 < max_digits b;
  c_half : 2 ^ (explicit_bits b + 1) * 5 ^ (- femin (bfmt b)) <= 10 ^ (max_digits b - 1);
  c_huge : 2 ^ (2 ^ (ew (bfmt b) - 1)) <= 10 ^ (max_digits b - 1) }.
Lemma std_consts2 b : std b -> consts2 b.
Proof. intros [-> | ->]; (split; [vm_compute; reflexivity|vm_compute; reflexivity|vm_compute; reflexivity|vm_compute; reflexivity|vm_compute; split; congruence|vm_compute; reflexivity|vm_compute; congruence|vm_compute; congruence]). Qed.

Section B.
Variable b : bformat.
Hypothesis Hb : std b.
Let C := std_consts b Hb.
Let C2 := std_consts2 b Hb.
Notation mb := (explicit_bits b).
Notation f := (bfmt b).
Notation bs := (explicit_bits b - minimum_exponent b).
Notation mshift := (64 - mb - 1).

(** ** Rounding: the shift, the unit's exponent, the quotient *)
Definition near_zero (p2 : Z) : bool := mshift <=? - p2.
Definition rshift (p2 : Z) : Z := if near_zero p2 then Z.min (- p2 + 1) 64 else mshift.
Definition unit_exp (p2 : Z) : Z := if near_zero p2 then femin f else p2 + mshift - bs.
Definition quot (m p2 : Z) : Z := m / 2 ^ rshift p2.

Lemma rshift_range p2 : mshift <= rshift p2 <= 64 /\ (near_zero p2 = true -> mshift + 1 <= rshift p2).
Proof. pose proof (c_mb b C) as Mb. unfold rshift, near_zero. destruct (Z.leb_spec mshift (- p2)); split; intros; try discriminate; lia. Qed.
Lemma quot_range m p2 : 2 ^ 63 <= m < 2 ^ 64 -> 0 <= quot m p2 /\ (near_zero p2 = true -> quot m p2 < 2 ^ mb) /\ (near_zero p2 = false -> 2 ^ mb <= quot m p2 < 2 * 2 ^ mb).
Proof.
  intro Hm. pose proof (c_mb b C) as Mb. destruct (rshift_range p2) as [R1 R2]. unfold quot. assert (P : 0 < 2 ^ rshift p2) by (apply Z.pow_pos_nonneg; lia). split; [apply Z.div_pos; lia|]. split; intro Z.
  - specialize (R2 Z). apply Z.div_lt_upper_bound; [exact P|]. rewrite <- Z.pow_add_r by lia. eapply Z.lt_le_trans; [apply Hm|]. apply Z.pow_le_mono_r; lia.
  - unfold rshift. rewrite Z. split.
    + apply Z.div_le_lower_bound; [apply Z.pow_pos_nonneg; lia|]. rewrite <- Z.pow_add_r by lia. replace (mshift + mb) with 63 by lia. lia.
    + apply Z.div_lt_upper_bound; [apply Z.pow_pos_nonneg; lia|]. rewrite Z.mul_assoc, (Z.mul_comm _ 2), <- Z.mul_assoc, <- Z.pow_add_r by lia. replace (mshift + mb) with 63 by lia. lia.
Qed.
Lemma shift_right_ok m p2 : 2 ^ 63 <= m < 2 ^ 64 -> (if rshift p2 =? 64 then Ok 0 else shr m (rshift p2)) = Ok (quot m p2).
Proof.
  intro Hm. pose proof (c_mb b C) as Mb. destruct (rshift_range p2) as [R1 _]. unfold quot. destruct (Z.eqb_spec (rshift p2) 64) as [->|N]; [rewrite Z.div_small by lia; reflexivity|]. apply shr_ok. lia.
Qed.
Lemma round_down_ok m p2 : 2 ^ 63 <= m < 2 ^ 64 -> - 2 ^ 20 < p2 < 2 ^ 20 -> round_down (AM m p2) (rshift p2) = Ok (AM (quot m p2) (p2 + rshift p2)).
Proof.
  intros Hm Hp. pose proof (c_mb b C) as Mb. destruct (rshift_range p2) as [R1 _]. unfold round_down. cbn [am_mantissa am_power2]. rewrite shift_right_ok by exact Hm. cbn [bind]. rewrite i32_ok by lia. reflexivity.
Qed.
Lemma round_tie_ok cb m p2 : 2 ^ 63 <= m < 2 ^ 64 -> - 2 ^ 20 < p2 < 2 ^ 20 ->
  round_nearest_tie_even cb (AM m p2) (rshift p2) =
  Ok (AM (quot m p2 + b2z (cb (Z.odd (quot m p2)) (m mod 2 ^ rshift p2 =? 2 ^ (rshift p2 - 1)) (2 ^ (rshift p2 - 1) <? m mod 2 ^ rshift p2))) (p2 + rshift p2)).
Proof.
  intros Hm Hp. pose proof (c_mb b C) as Mb. destruct (rshift_range p2) as [R1 _]. destruct (quot_range m p2 Hm) as (Q0 & Q1 & Q2). unfold round_nearest_tie_even. cbn [am_mantissa am_power2].
  assert (M : (if rshift p2 =? 64 then Ok (2 ^ 64 - 1) else x <- shl 1 (rshift p2) ;; Ok (u64 (x - 1))) = Ok (2 ^ rshift p2 - 1)).
  { destruct (Z.eqb_spec (rshift p2) 64) as [->|N]; [reflexivity|]. assert (P : 0 < 2 ^ rshift p2) by (apply Z.pow_pos_nonneg; lia). assert (2 ^ rshift p2 < 2 ^ 64) by (apply Z.pow_lt_mono_r; lia). rewrite shl_ok by lia. cbn [bind]. unfold u64. rewrite Z.mul_1_l, Z.mod_small by lia. reflexivity. }
  rewrite M. cbn [bind]. assert (P1 : 0 < 2 ^ (rshift p2 - 1)) by (apply Z.pow_pos_nonneg; lia). assert (P2 : 2 ^ (rshift p2 - 1) < 2 ^ 64) by (apply Z.pow_lt_mono_r; lia).
  replace (rshift p2 =? 0) with false by lia. rewrite shl_ok by lia. cbn [bind]. rewrite Z.mul_1_l, shift_right_ok by exact Hm. cbn [bind]. rewrite i32_ok by lia. cbn [bind]. rewrite land_mask by lia. rewrite land_bit by exact Q0.
  assert (O : (quot m p2 mod 2 =? 1) = Z.odd (quot m p2)) by (rewrite Zmod_odd; destruct (Z.odd (quot m p2)); reflexivity). rewrite O.
  assert (2 ^ mb <= 2 ^ 52) by (apply Z.pow_le_mono_r; lia). assert (quot m p2 < 2 * 2 ^ 52) by (destruct (near_zero p2); [specialize (Q1 eq_refl)|specialize (Q2 eq_refl)]; lia).
  unfold u64. rewrite Z.mod_small; [reflexivity|]. destruct (cb _ _ _); cbn [b2z]; lia.
Qed.

(** the pattern of the rounded-down estimate, and of the rounded one *)
Lemma down_ok m p2 : 2 ^ 63 <= m < 2 ^ 64 -> - 2 ^ 20 < p2 < 2 ^ 20 ->
  round_with b (AM m p2) round_down = Ok (if near_zero p2 then AM (quot m p2) 0 else if infinite_power b <=? p2 + mshift then AM 0 (infinite_power b) else AM (quot m p2 - 2 ^ mb) (p2 + mshift)).
Proof.
  intros Hm Hp. pose proof (c_mb b C) as Mb. destruct (quot_range m p2 Hm) as (Q0 & Q1 & Q2). pose proof (round_down_ok m p2 Hm Hp) as R. unfold round_with. cbn [am_power2 am_mantissa]. unfold rshift in R. fold (near_zero p2). destruct (near_zero p2) eqn:Z.
  - rewrite R. cbn [bind am_mantissa]. replace (quot m p2 <? 2 ^ mb) with true by lia. reflexivity.
  - rewrite R. cbn [bind am_mantissa am_power2]. specialize (Q2 eq_refl). replace (2 * 2 ^ mb <=? quot m p2) with false by lia. cbn [am_mantissa am_power2]. rewrite clear_bit by lia. destruct (infinite_power b <=? p2 + mshift); reflexivity.
Qed.
Lemma up_ok cb m p2 : 2 ^ 63 <= m < 2 ^ 64 -> - 2 ^ 20 < p2 < 2 ^ 20 ->
  exists am, round_with b (AM m p2) (round_nearest_tie_even cb) = Ok am /\
    packs b am (Z.min (inf_pattern f) ((unit_exp p2 - femin f) * 2 ^ mw f + (quot m p2 + b2z (cb (Z.odd (quot m p2)) (m mod 2 ^ rshift p2 =? 2 ^ (rshift p2 - 1)) (2 ^ (rshift p2 - 1) <? m mod 2 ^ rshift p2))))).
Proof.
  intros Hm Hp. pose proof (c_mb b C) as Mb. pose proof (c_infr b C) as Ir. pose proof (c_min b C) as Mn. destruct (quot_range m p2 Hm) as (Q0 & Q1 & Q2). pose proof (round_tie_ok cb m p2 Hm Hp) as R. set (d := cb _ _ _) in *. assert (D : 0 <= b2z d <= 1) by (destruct d; cbn; lia).
  clearbody d. set (Q := quot m p2) in *. clearbody Q. unfold inf_pattern. rewrite (c_mw b C), <- (c_inf b C). assert (P : 0 < 2 ^ mb) by (apply Z.pow_pos_nonneg; lia).
  unfold round_with. cbn [am_power2 am_mantissa]. unfold rshift in R. fold (near_zero p2). unfold unit_exp. destruct (near_zero p2) eqn:Z.
  - rewrite R. cbn [bind am_mantissa]. specialize (Q1 eq_refl). eexists. split; [reflexivity|]. replace ((femin f - femin f) * 2 ^ mb + (Q + b2z d)) with (Q + b2z d) by ring. rewrite Z.min_r by nia. destruct (Z.ltb_spec (Q + b2z d) (2 ^ mb)) as [L|L].
    + replace (Q + b2z d) with (0 * 2 ^ mb + (Q + b2z d)) at 2 by ring. apply pack_fields; [exact C|lia|lia].
    + replace (Q + b2z d) with (2 ^ mb) by lia. now apply pack_one.
  - rewrite R. cbn [bind am_mantissa am_power2]. specialize (Q2 eq_refl). assert (Zp : 1 <= p2 + mshift) by (unfold near_zero in Z; lia). set (p := p2 + mshift) in *. clearbody p.
    replace ((p - bs - femin f) * 2 ^ mb + (Q + b2z d)) with ((p - 1) * 2 ^ mb + (Q + b2z d)) by (rewrite Mn; f_equal; ring). eexists. split; [reflexivity|]. destruct (Z.leb_spec (2 * 2 ^ mb) (Q + b2z d)) as [L|L]; cbn [am_mantissa am_power2].
    + replace (Q + b2z d) with (2 * 2 ^ mb) by lia. rewrite (clear_bit (2 ^ mb)) by lia. rewrite Z.sub_diag. replace ((p - 1) * 2 ^ mb + 2 * 2 ^ mb) with ((p + 1) * 2 ^ mb + 0) by ring. destruct (Z.leb_spec (infinite_power b) (p + 1)) as [I|I].
      * rewrite Z.min_l by nia. rewrite <- (Z.add_0_r (infinite_power b * 2 ^ mb)). apply pack_fields; [exact C|lia|lia].
      * rewrite Z.min_r by nia. apply pack_fields; [exact C|lia|lia].
    + rewrite clear_bit by lia. replace ((p - 1) * 2 ^ mb + (Q + b2z d)) with (p * 2 ^ mb + (Q + b2z d - 2 ^ mb)) by ring. destruct (Z.leb_spec (infinite_power b) p) as [I|I].
      * rewrite Z.min_l by nia. rewrite <- (Z.add_0_r (infinite_power b * 2 ^ mb)). apply pack_fields; [exact C|lia|lia].
      * rewrite Z.min_r by nia. apply pack_fields; [exact C|lia|lia].
Qed.

(** the halfway point above the rounded-down value *)
Lemma land_fields m p : 0 <= m < 2 ^ mb -> 0 <= p <= infinite_power b -> Z.land (p * 2 ^ mb + m) (exponent_mask b) = p * 2 ^ mb /\ Z.land (p * 2 ^ mb + m) (mantissa_mask b) = m.
Proof.
  intros Hm Hp. pose proof (c_mb b C) as Mb. pose proof (ew_pos f) as Ew. rewrite (c_emask b C2), (c_mmask b C2). rewrite (c_inf b C) in Hp. assert (P : 0 < 2 ^ mb) by (apply Z.pow_pos_nonneg; lia).
  split; [|rewrite land_mask by lia; symmetry; apply Z.mod_unique with p; lia].
  rewrite <- lor_add by lia. rewrite Z.land_lor_distr_l. rewrite <- !Z.shiftl_mul_pow2 by lia. rewrite <- Z.shiftl_land, land_mask by lia. rewrite Z.mod_small by lia.
  replace (Z.land m (Z.shiftl (2 ^ ew f - 1) mb)) with 0; [apply Z.lor_0_r|]. symmetry. apply Z.bits_inj'. intros i Hi. rewrite Z.land_spec, Z.bits_0. destruct (Z.lt_ge_cases i mb) as [L|L].
  - rewrite Z.shiftl_spec_low by lia. apply andb_false_r.
  - replace (Z.testbit m i) with false; [reflexivity|]. symmetry. rewrite <- (Z.mod_small m (2 ^ mb)) by lia. apply Z.mod_pow2_bits_high. lia.
Qed.
Lemma halfway_ok m p : 0 <= m < 2 ^ mb -> 0 <= p <= infinite_power b ->
  to_extended_halfway b (to_float b false (AM m p)) = Ok (if p =? 0 then AM (2 * m + 1) (- bs) else AM (2 * (m + 2 ^ mb) + 1) (p - bs - 1)).
Proof.
  intros Hm Hp. pose proof (c_mb b C) as Mb. destruct (pack_fields b m p C Hm Hp) as [_ ->]. unfold bits_of. cbn [b2z]. rewrite Z.mul_0_l, Z.add_0_l. assert (P : 0 < 2 ^ mb <= 2 ^ 52) by (split; [apply Z.pow_pos_nonneg; lia|apply Z.pow_le_mono_r; lia]).
  unfold to_extended_halfway, to_extended. destruct (land_fields m p Hm Hp) as [-> ->]. destruct (Z.eqb_spec p 0) as [->|N].
  - rewrite Z.mul_0_l. change (0 =? 0) with true. cbn [bind am_mantissa am_power2]. unfold u64. rewrite (Z.mod_small (m * 2)) by lia. rewrite Z.mod_small by lia. f_equal. f_equal; lia.
  - replace (p * 2 ^ mb =? 0) with false by nia. rewrite shr_ok by lia. cbn [bind am_mantissa am_power2]. rewrite Z.div_mul by lia. rewrite (c_hidden b C2). replace (Z.lor m (2 ^ mb)) with (m + 2 ^ mb) by (rewrite <- (Z.mul_1_l (2 ^ mb)) at 2; rewrite lor_disjoint by lia; lia).
    unfold u64. rewrite (Z.mod_small ((m + 2 ^ mb) * 2)) by lia. rewrite Z.mod_small by lia. f_equal. f_equal; lia.
Qed.

(** ** The decision *)
Lemma bp_split x y z : x = y + z -> bpow radix2 x = (bpow radix2 y * bpow radix2 z)%R.
Proof. intros ->. apply bpow_plus. Qed.
(** the unit is at least 2^11 times the estimate's last place *)
Lemma unit_bounds m p2 v : 2 ^ 63 <= m < 2 ^ 64 -> (IZR m * bpow radix2 (p2 - bs) <= v < (IZR m + 32) * bpow radix2 (p2 - bs))%R ->
  (IZR (quot m p2) * bpow radix2 (unit_exp p2) <= v < (IZR (quot m p2) + 1 + / 8) * bpow radix2 (unit_exp p2))%R.
Proof.
  intros Hm [V1 V2]. pose proof (c_mb b C) as Mb. pose proof (c_min b C) as Mn. destruct (rshift_range p2) as [R1 R2]. set (U := bpow radix2 (p2 - bs)) in *. pose proof (bpow_gt_0 radix2 (p2 - bs)) as U0. fold U in U0.
  assert (Cap : (near_zero p2 = true /\ 65 <= - p2 + 1) \/ unit_exp p2 = p2 - bs + rshift p2).
  { unfold unit_exp, rshift. destruct (near_zero p2) eqn:Z; [|right; lia]. destruct (Z.le_gt_cases 65 (- p2 + 1)) as [L|L]; [left; split; [reflexivity|exact L]|right; rewrite Z.min_l by lia; lia]. }
  destruct Cap as [[Z L]|E].
  - assert (Q : quot m p2 = 0). { unfold quot, rshift. rewrite Z, Z.min_r by lia. apply Z.div_small. lia. } rewrite Q, Rmult_0_l, Rplus_0_l. assert (M0 : (0 < IZR m < bpow radix2 64)%R) by (rewrite bpow2 by lia; split; apply IZR_lt; lia).
    split; [apply Rle_trans with (IZR m * U)%R; [nra|exact V1]|]. eapply Rlt_le_trans; [exact V2|]. unfold unit_exp. rewrite Z.
    assert (UE : (U * bpow radix2 65 <= bpow radix2 (femin f))%R) by (unfold U; rewrite <- bpow_plus; apply bpow_le; lia).
    assert (B65 : (IZR m + 32 <= bpow radix2 65)%R) by (rewrite bpow2 by lia; rewrite <- plus_IZR; apply IZR_le; lia). pose proof (bpow_gt_0 radix2 (femin f)).
    apply Rle_trans with (bpow radix2 65 * U)%R; [apply Rmult_le_compat_r; lra|]. lra.
  - rewrite E. rewrite (bp_split _ (p2 - bs) (rshift p2) eq_refl). fold U. rewrite (bpow2 (rshift p2)) by lia. unfold quot. assert (P : 2 ^ 11 <= 2 ^ rshift p2) by (apply Z.pow_le_mono_r; lia).
    pose proof (Z.div_mod m (2 ^ rshift p2) ltac:(lia)) as D. pose proof (Z.mod_pos_bound m (2 ^ rshift p2) ltac:(lia)) as M. set (q := m / 2 ^ rshift p2) in *. set (S := 2 ^ rshift p2) in *. clearbody q S.
    assert (D1 : (IZR q * IZR S <= IZR m)%R) by (rewrite <- mult_IZR; apply IZR_le; lia). assert (D2 : (IZR m < IZR q * IZR S + IZR S)%R) by (rewrite <- mult_IZR, <- plus_IZR; apply IZR_lt; lia). assert (D3 : (2048 <= IZR S)%R) by (apply IZR_le; lia).
    split.
    + apply Rle_trans with (IZR m * U)%R; [|exact V1]. replace (IZR q * (U * IZR S))%R with (IZR q * IZR S * U)%R by ring. apply Rmult_le_compat_r; lra.
    + eapply Rlt_le_trans; [exact V2|]. replace ((IZR q + 1 + / 8) * (U * IZR S))%R with ((IZR q * IZR S + IZR S + / 8 * IZR S) * U)%R by ring. apply Rmult_le_compat_r; lra.
Qed.
Lemma unit_low m p2 v : 2 ^ 63 <= m < 2 ^ 64 -> (IZR m * bpow radix2 (p2 - bs) <= v)%R -> unit_exp p2 = femin f \/ (femin f < unit_exp p2 /\ (bpow radix2 (mb + unit_exp p2) <= v)%R) \/ (femin f <= unit_exp p2 /\ (bpow radix2 (mb + unit_exp p2) <= v)%R).
Proof.
  intros Hm V. pose proof (c_mb b C) as Mb. pose proof (c_min b C) as Mn. unfold unit_exp, near_zero. destruct (Z.leb_spec mshift (- p2)) as [L|L]; [now left|right; right]. split; [lia|]. eapply Rle_trans; [|exact V].
  rewrite (bp_split (mb + (p2 + mshift - bs)) 63 (p2 - bs)) by lia. apply Rmult_le_compat_r; [apply bpow_ge_0|]. rewrite bpow2 by lia. apply IZR_le. lia.
Qed.
Lemma decide n e m p2 d : 0 < n -> 2 ^ 63 <= m < 2 ^ 64 -> (IZR m * bpow radix2 (p2 - bs) <= dec n e < (IZR m + 32) * bpow radix2 (p2 - bs))%R ->
  let h := ((IZR (quot m p2) + / 2) * bpow radix2 (unit_exp p2))%R in
  (near_zero p2 = true \/ p2 + mshift < infinite_power b -> (h < dec n e)%R -> d = true) ->
  (near_zero p2 = true \/ p2 + mshift < infinite_power b -> (dec n e < h)%R -> d = false) ->
  (near_zero p2 = true \/ p2 + mshift < infinite_power b -> dec n e = h -> d = Z.odd (quot m p2)) ->
  literal f n e = Z.min (inf_pattern f) ((unit_exp p2 - femin f) * 2 ^ mw f + (quot m p2 + b2z d)).
Proof.
  intros Hn Hm V h H1 H2 H3. pose proof (c_mb b C) as Mb. pose proof (c_mw b C) as Mw. pose proof (c_min b C) as Mn. pose proof (c_infr b C) as Ir. destruct (quot_range m p2 Hm) as (Q0 & Q1 & Q2). pose proof (unit_bounds m p2 _ Hm V) as UB. pose proof (unit_low m p2 _ Hm (proj1 V)) as UL.
  assert (P : 0 < 2 ^ mb) by (apply Z.pow_pos_nonneg; lia). assert (D01 : 0 <= b2z d <= 1) by (destruct d; cbn; lia).
  assert (UE : femin f <= unit_exp p2) by (unfold unit_exp, near_zero; destruct (Z.leb_spec mshift (- p2)); lia).
  destruct (Z.lt_ge_cases (p2 + mshift) (infinite_power b)) as [Fin|Inf]; [|destruct (near_zero p2) eqn:Z].
  - assert (Hyp : near_zero p2 = true \/ p2 + mshift < infinite_power b) by (now right). specialize (H1 Hyp). specialize (H2 Hyp). specialize (H3 Hyp). clear Hyp Fin.
    set (E := unit_exp p2) in *. set (q := quot m p2) in *. pose proof (bpow_gt_0 radix2 E) as E0. set (w := bpow radix2 E) in *.
    assert (IN : inR (Z.even (q + b2z d)) ((IZR (q + b2z d) - / 2) * w) ((IZR (q + b2z d) + / 2) * w) (dec n e)).
    { destruct (Rlt_le_dec h (dec n e)) as [G|G]; [|destruct (Req_dec (dec n e) h) as [G'|G']].
      - rewrite (H1 G) in *. cbn [b2z] in *. rewrite plus_IZR. unfold h in *. unfold inR. destruct (Z.even (q + 1)); nra.
      - specialize (H3 G'). assert (Ev : Z.even (q + b2z d) = true). { rewrite Z.even_add, H3, <- Z.negb_odd. destruct (Z.odd q); reflexivity. } rewrite Ev. unfold inR. rewrite plus_IZR. unfold h in *. destruct d; cbn [b2z] in *; nra.
      - assert (G2 : (dec n e < h)%R) by lra. rewrite (H2 G2) in *. cbn [b2z] in *. rewrite Z.add_0_r. unfold h in *. unfold inR. destruct (Z.even q); nra. }
    destruct (Rlt_le_dec (dec n e) (bpow radix2 (mw f + 1 + E))) as [L|L].
    + apply lit_at; try assumption. destruct UL as [->|[[_ UL]|[_ UL]]]; [now left|right|right]; rewrite Mw; exact UL.
    + (* carried into the next binade *)
      assert (Qtop : q + b2z d = 2 * 2 ^ mb).
      { assert (T : (2 * IZR (2 ^ mb) <= dec n e / w)%R). { apply Rmult_le_reg_r with w; [exact E0|]. unfold Rdiv. rewrite (Rmult_assoc (dec n e)), Rinv_l, Rmult_1_r by lra. eapply Rle_trans; [|exact L]. rewrite Mw, (bp_split (mb + 1 + E) (mb + 1) E) by lia. fold w. rewrite bpow2 by lia. rewrite Z.pow_add_r by lia. rewrite mult_IZR. change (IZR (2 ^ 1)) with 2%R. lra. }
        assert (T2 : (dec n e / w < IZR q + 1 + / 8)%R). { apply Rmult_lt_reg_r with w; [exact E0|]. unfold Rdiv. rewrite (Rmult_assoc (dec n e)), Rinv_l, Rmult_1_r by lra. lra. }
        assert (Q3 : 2 * 2 ^ mb <= q + 1). { assert (T3 : (IZR (2 * 2 ^ mb) < IZR (q + 2))%R) by (rewrite mult_IZR, plus_IZR; lra). apply lt_IZR in T3. lia. }
        assert (Q4 : q < 2 * 2 ^ mb) by (destruct (near_zero p2); [specialize (Q1 eq_refl)|specialize (Q2 eq_refl)]; lia).
        assert (Ed : d = true). { apply H1. unfold h. assert (Eq : q = 2 * 2 ^ mb - 1) by lia. assert (Rq : IZR q = (2 * IZR (2 ^ mb) - 1)%R) by (rewrite Eq, minus_IZR, mult_IZR; reflexivity). assert (G : (2 * IZR (2 ^ mb) * w <= dec n e)%R). { apply Rmult_le_compat_r with (r := w) in T; [|lra]. unfold Rdiv in T. rewrite (Rmult_assoc (dec n e)), Rinv_l, Rmult_1_r in T by lra. exact T. } rewrite Rq. nra. }
        rewrite Ed. cbn [b2z]. lia. }
      rewrite Qtop in *. rewrite (lit_at f n e (E + 1) (2 ^ mb) Hn ltac:(lia)).
      * f_equal. rewrite Mw. ring.
      * eapply Rlt_le_trans; [apply UB|]. rewrite Mw. rewrite (bp_split (mb + 1 + (E + 1)) (mb + 2) E) by lia. fold w. rewrite bpow2 by lia. apply Rmult_le_compat_r; [lra|]. rewrite Z.pow_add_r by lia. change (2 ^ 2) with 4. rewrite mult_IZR. assert (Rq : (IZR q <= 2 * IZR (2 ^ mb))%R) by (rewrite <- mult_IZR; apply IZR_le; lia). assert (R1 : (2 <= IZR (2 ^ mb))%R) by (apply IZR_le; change 2 with (2 ^ 1) at 1; apply Z.pow_le_mono_r; lia). lra.
      * right. replace (mw f + (E + 1)) with (mw f + 1 + E) by lia. exact L.
      * replace (Z.even (2 ^ mb)) with true by (replace mb with (1 + (mb - 1)) by lia; rewrite Z.pow_add_r by lia; rewrite Z.even_mul; reflexivity). unfold inR. rewrite (bp_split (E + 1) 1 E) by lia. fold w. change (bpow radix2 1) with 2%R.
        assert (Rq : (IZR q <= 2 * IZR (2 ^ mb))%R) by (rewrite <- mult_IZR; apply IZR_le; lia). assert (L' : (2 * IZR (2 ^ mb) * w <= dec n e)%R). { eapply Rle_trans; [|exact L]. rewrite Mw, (bp_split (mb + 1 + E) (mb + 1) E) by lia. fold w. rewrite bpow2 by lia. rewrite Z.pow_add_r by lia. rewrite mult_IZR. change (IZR (2 ^ 1)) with 2%R. lra. }
        assert (Q5 : q <= 2 * 2 ^ mb) by lia. split; [nra|]. assert (Q6 : (IZR q <= 2 * IZR (2 ^ mb) - 1)%R \/ d = false). { destruct d; [left|now right]. cbn [b2z] in Qtop. replace q with (2 * 2 ^ mb - 1) by lia. rewrite minus_IZR, mult_IZR. apply Rle_refl. }
        destruct Q6 as [Q6|Q6]; [nra|]. exfalso. rewrite Q6 in Qtop. cbn [b2z] in Qtop. destruct (near_zero p2); [specialize (Q1 eq_refl)|specialize (Q2 eq_refl)]; lia.
  - exfalso. unfold near_zero in Z. lia.
  - specialize (Q2 eq_refl). rewrite lit_inf; [|exact Hn|].
    + symmetry. apply Z.min_l. unfold inf_pattern, unit_exp. rewrite Z, Mw, <- (c_inf b C), Mn. nia.
    + eapply Rle_trans; [|apply (proj1 V)]. assert (X : (bpow radix2 63 <= IZR m)%R) by (rewrite bpow2 by lia; apply IZR_le; lia). apply Rle_trans with (bpow radix2 63 * bpow radix2 (p2 - bs))%R; [|apply Rmult_le_compat_r; [apply bpow_ge_0|exact X]]. rewrite <- bpow_plus. apply bpow_le.
      pose proof (c_minexp b C2) as Me. rewrite (c_inf b C) in Inf. pose proof (ew_pos f). assert (E2 : 2 ^ ew f = 2 * 2 ^ (ew f - 1)) by (rewrite <- Z.pow_succ_r by lia; f_equal; lia). lia.
Qed.

(** ** Halfway points have at most max_digits digits *)
Lemma dec_lt' x y k : x < y -> (dec x k < dec y k)%R.
Proof. intro H. destruct (Rlt_le_dec (dec x k) (dec y k)) as [L|L]; [exact L|]. apply dec_le_inv in L. lia. Qed.
Lemma dec_grow n k j : 0 <= n -> k <= j -> (dec n k <= dec n j)%R.
Proof. intros Hn H. replace j with (k + (j - k)) by lia. rewrite dec_shift by lia. apply dec_le. assert (1 <= 10 ^ (j - k)) by (pose proof (Z.pow_pos_nonneg 10 (j - k)); lia). nia. Qed.
Lemma five_inv k : 0 <= k -> (IZR (5 ^ k) * powerRZ 5 (- k) = 1)%R.
Proof.
  intro H. replace (IZR (5 ^ k)) with (powerRZ 5 k). 2:{ rewrite <- (Z2Nat.id k H) at 1. rewrite <- pow_powerRZ, pow_IZR, Z2Nat.id by exact H. reflexivity. }
  rewrite <- powerRZ_add by lra. replace (k + - k) with 0 by lia. reflexivity.
Qed.
(** th * 2^te as a decimal with exponent re <= 0, te *)
Lemma bin_dec th te re : re <= 0 -> re <= te -> (IZR th * bpow radix2 te)%R = dec (th * 5 ^ (- re) * 2 ^ (te - re)) re.
Proof.
  intros H1 H2. unfold dec. rewrite ten_split, !mult_IZR, <- (bpow2 (te - re)) by lia. pose proof (five_inv (- re) ltac:(lia)) as F. rewrite Z.opp_involutive in F.
  replace (IZR th * IZR (5 ^ (- re)) * bpow radix2 (te - re) * (powerRZ 5 re * bpow radix2 re))%R with (IZR th * (IZR (5 ^ (- re)) * powerRZ 5 re) * (bpow radix2 (te - re) * bpow radix2 re))%R by ring.
  rewrite F, <- bpow_plus. replace (te - re + re) with te by lia. ring.
Qed.
Lemma gap M E A k : 0 <= M < 2 * 2 ^ mb -> femin f <= E <= 2 ^ (ew f - 1) - mb - 1 -> 10 ^ (max_digits b - 1) <= A ->
  ~ (dec A k < (IZR M + / 2) * bpow radix2 E < dec (A + 1) k)%R.
Proof.
  intros HM HE HA [L U]. pose proof (c_mb b C) as Mb. pose proof (c_half b C2) as Ch. pose proof (c_huge b C2) as Cg. pose proof (c_maxd b C2) as Md.
  assert (A0 : 0 < A) by (pose proof (Z.pow_pos_nonneg 10 (max_digits b - 1)); lia).
  assert (Hh : ((IZR M + / 2) * bpow radix2 E = IZR (2 * M + 1) * bpow radix2 (E - 1))%R) by (rewrite (bp_split E 1 (E - 1)) by lia; change (bpow radix2 1) with 2%R; rewrite plus_IZR, mult_IZR; field).
  assert (P : 0 < 2 ^ mb) by (apply Z.pow_pos_nonneg; lia).
  assert (Hs : ((IZR M + / 2) * bpow radix2 E < bpow radix2 (mb + 1) * bpow radix2 E)%R). { apply Rmult_lt_compat_r; [apply bpow_gt_0|]. rewrite bpow2, Z.pow_add_r by lia. change (2 ^ 1) with 2. assert (X : (IZR M + 1 <= IZR (2 ^ mb * 2))%R) by (rewrite <- plus_IZR; apply IZR_le; lia). lra. }
  destruct (Z.le_gt_cases k 0) as [K0|K0]; [destruct (Z.le_gt_cases k (E - 1)) as [K1|K1]|].
  - rewrite Hh, (bin_dec _ _ k K0 K1) in L, U. apply dec_lt_inv in L, U. lia.
  - assert (X : (dec A E < bpow radix2 (mb + 1) * bpow radix2 E)%R) by (eapply Rle_lt_trans; [apply (dec_grow A E k); lia|]; lra).
    unfold dec in X. rewrite ten_split, <- Rmult_assoc in X. apply Rmult_lt_reg_r in X; [|apply bpow_gt_0]. pose proof (five_inv (- E) ltac:(lia)) as F. rewrite Z.opp_involutive in F. assert (F0 : (0 < IZR (5 ^ (- E)))%R) by (apply IZR_lt, Z.pow_pos_nonneg; lia).
    apply Rmult_lt_compat_r with (r := IZR (5 ^ (- E))) in X; [|exact F0]. rewrite Rmult_assoc, (Rmult_comm (powerRZ 5 E)), F, Rmult_1_r, bpow2, <- mult_IZR in X by lia. apply lt_IZR in X.
    assert (5 ^ (- E) <= 5 ^ (- femin f)) by (apply Z.pow_le_mono_r; lia). assert (0 < 2 ^ (mb + 1)) by (apply Z.pow_pos_nonneg; lia). nia.
  - assert (X : (IZR A < bpow radix2 (2 ^ (ew f - 1)))%R). { eapply Rle_lt_trans; [|eapply Rlt_le_trans; [exact Hs|]]. { apply Rle_trans with (dec A k); [|lra]. replace (IZR A) with (dec A 0) by (unfold dec; cbn; ring). apply dec_grow; lia. } rewrite <- bpow_plus. apply bpow_le. lia. }
    rewrite bpow2 in X by (apply Z.pow_nonneg; lia). apply lt_IZR in X. lia.
Qed.

(** ** The comparison of negative_digit_comp *)
Definition theor (m p2 : Z) : Z * Z :=
  if near_zero p2 then (2 * quot m p2 + 1, - bs)
  else if infinite_power b <=? p2 + mshift then (2 * 2 ^ mb + 1, infinite_power b - bs - 1) else (2 * quot m p2 + 1, p2 + mshift - bs - 1).
Lemma theor_range m p2 : 2 ^ 63 <= m < 2 ^ 64 -> 0 < fst (theor m p2) < 2 ^ 54 + 1 /\ -1075 <= snd (theor m p2) <= 2047.
Proof.
  intro Hm. pose proof (c_mb b C) as Mb. pose proof (c_minr b C) as Mr. pose proof (c_infr b C) as Ir. destruct (quot_range m p2 Hm) as (Q0 & Q1 & Q2). assert (P : 0 < 2 ^ mb <= 2 ^ 52) by (split; [apply Z.pow_pos_nonneg; lia|apply Z.pow_le_mono_r; lia]). unfold theor.
  destruct (near_zero p2) eqn:Z; [specialize (Q1 eq_refl); cbn [fst snd]; lia|]. specialize (Q2 eq_refl). assert (mshift > - p2) by (unfold near_zero in Z; lia). destruct (Z.leb_spec (infinite_power b) (p2 + mshift)); cbn [fst snd]; lia.
Qed.
Lemma theor_ok m p2 : 2 ^ 63 <= m < 2 ^ 64 -> - 2 ^ 20 < p2 < 2 ^ 20 ->
  (am_b <- round_with b (AM m p2) round_down ;; to_extended_halfway b (to_float b false am_b)) = Ok (AM (fst (theor m p2)) (snd (theor m p2))).
Proof.
  intros Hm Hp. pose proof (c_mb b C) as Mb. pose proof (c_infr b C) as Ir. destruct (quot_range m p2 Hm) as (Q0 & Q1 & Q2). assert (P : 0 < 2 ^ mb <= 2 ^ 52) by (split; [apply Z.pow_pos_nonneg; lia|apply Z.pow_le_mono_r; lia]). rewrite down_ok by assumption. cbn [bind]. unfold theor.
  destruct (near_zero p2) eqn:Z; [specialize (Q1 eq_refl); rewrite halfway_ok by lia; reflexivity|]. specialize (Q2 eq_refl). assert (1 <= p2 + mshift) by (unfold near_zero in Z; lia). destruct (Z.leb_spec (infinite_power b) (p2 + mshift)).
  - rewrite halfway_ok by lia. replace (infinite_power b =? 0) with false by lia. reflexivity.
  - rewrite halfway_ok by lia. replace (p2 + mshift =? 0) with false by lia. cbn [fst snd]. f_equal. f_equal. lia.
Qed.
Lemma negative_ok t v n m p2 re : big t v n -> 0 < n -> 2 ^ 63 <= m < 2 ^ 64 -> - 2 ^ 20 < p2 < 2 ^ 20 -> - 2 ^ 20 < re < 0 ->
  let th := fst (theor m p2) in let te := snd (theor m p2) in let room := (2 ^ limb_bits t) ^ capacity t in
  (re < te -> th * 5 ^ (- re) * 2 ^ (te - re) < room) -> th * 5 ^ (- re) < room -> (te < re -> n * 2 ^ (re - te) < room) ->
  exists ord, negative_digit_comp t b v (AM m p2) re = round_with b (AM m p2) (round_nearest_tie_even (fun is_odd _ _ => if 0 <? ord then true else if ord <? 0 then false else is_odd)) /\ ((IZR th * bpow radix2 te < dec n re)%R -> ord = 1) /\ ((dec n re < IZR th * bpow radix2 te)%R -> ord = -1) /\ (dec n re = (IZR th * bpow radix2 te)%R -> ord = 0).
Proof.
  intros Hv Hn Hm Hp Hr th te room R1 R2 R3. destruct (theor_range m p2 Hm) as [T1 T2]. fold th te in T1, T2. pose proof (theor_ok m p2 Hm Hp) as TO. fold th te in TO. unfold negative_digit_comp.
  destruct (round_with b (AM m p2) round_down) as [am_b| |]; cbn [bind] in TO |- *; [|discriminate TO|discriminate TO]. rewrite TO. cbn [bind am_mantissa am_power2]. clear TO. clearbody th te.
  assert (U1 : u32 (- re) = - re) by (unfold u32; apply Z.mod_small; lia). rewrite U1. replace (- re =? 0) with false by lia.
  pose proof (bigint_of_ok t th ltac:(lia)) as B0. assert (P5 : 0 < 5 ^ (- re)) by (apply Z.pow_pos_nonneg; lia). destruct (big_pow5_ok t _ th (- re) B0 ltac:(lia) ltac:(lia) R2) as (r5 & -> & B5). cbn [ff_assert].
  assert (Cmp : forall a c, ((IZR th * bpow radix2 te < dec n re)%R <-> c < a) -> (dec n re = (IZR th * bpow radix2 te)%R <-> a = c) -> ((dec n re < IZR th * bpow radix2 te)%R <-> a < c) ->
    let ord := match a ?= c with Lt => -1 | Eq => 0 | Gt => 1 end in
    ((IZR th * bpow radix2 te < dec n re)%R -> ord = 1) /\ ((dec n re < IZR th * bpow radix2 te)%R -> ord = -1) /\ (dec n re = (IZR th * bpow radix2 te)%R -> ord = 0)).
  { intros a c X1 X2 X3. cbn zeta. destruct (Z.compare_spec a c) as [E|E|E]; split; [intro H; apply X1 in H; lia|split; intro H; [apply X3 in H; lia|reflexivity]|intro H; apply X1 in H; lia|split; intro H; [reflexivity|apply X2 in H; lia]|reflexivity|split; intro H; [apply X3 in H; lia|apply X2 in H; lia]]. }
  assert (DecC : forall a c, (dec c re < dec a re)%R <-> c < a) by (intros a c; split; [apply dec_lt_inv|apply dec_lt']).
  assert (DecE : forall a c, dec a re = dec c re <-> a = c) by (intros a c; split; [intro H; assert (a <= c) by (apply (dec_le_inv a c re); lra); assert (c <= a) by (apply (dec_le_inv c a re); lra); lia|intros ->; reflexivity]).
  destruct (Z.ltb_spec 0 (te - re)) as [L|L]; [|destruct (Z.ltb_spec (te - re) 0) as [L'|L']].
  - assert (U2 : u32 (te - re) = te - re) by (unfold u32; apply Z.mod_small; lia). rewrite U2. destruct (big_shl_ok t r5 _ (te - re) B5 ltac:(nia) ltac:(lia) (R1 ltac:(lia))) as (r & -> & Br). cbn [ff_assert]. rewrite (big_compare_ok t _ _ _ _ Hv Br).
    eexists. split; [reflexivity|]. apply Cmp; rewrite (bin_dec th te re) by lia; [apply DecC|apply DecE|apply DecC].
  - assert (U2 : u32 (- (te - re)) = re - te) by (unfold u32; rewrite Z.mod_small by lia; lia). rewrite U2. destruct (big_shl_ok t v n (re - te) Hv Hn ltac:(lia) (R3 ltac:(lia))) as (r & -> & Br). cbn [ff_assert]. rewrite (big_compare_ok t _ _ _ _ Br B5).
    assert (Sc : (IZR th * bpow radix2 re)%R = dec (th * 5 ^ (- re)) re). { rewrite (bin_dec th re re) by lia. rewrite Z.sub_diag. f_equal. change (2 ^ 0) with 1. lia. }
    assert (Sn : (dec n re * bpow radix2 (re - te))%R = dec (n * 2 ^ (re - te)) re) by (unfold dec; rewrite mult_IZR, <- bpow2 by lia; ring).
    assert (St : (IZR th * bpow radix2 te * bpow radix2 (re - te) = IZR th * bpow radix2 re)%R) by (rewrite Rmult_assoc, <- bpow_plus; do 2 f_equal; lia).
    pose proof (bpow_gt_0 radix2 (re - te)) as W. set (w := bpow radix2 (re - te)) in *.
    eexists. split; [reflexivity|]. apply Cmp; rewrite <- ?DecC, <- ?DecE, <- Sn, <- Sc, <- St.
    + split; intro H; [apply Rmult_lt_compat_r; assumption|now apply Rmult_lt_reg_r in H].
    + split; intro H; [now rewrite H|]. apply Rmult_eq_reg_r in H; [exact H|lra].
    + split; intro H; [apply Rmult_lt_compat_r; assumption|now apply Rmult_lt_reg_r in H].
  - cbn [ff_assert]. rewrite (big_compare_ok t _ _ _ _ Hv B5). assert (E : te = re) by lia. eexists. split; [reflexivity|].
    assert (Sc : (IZR th * bpow radix2 te)%R = dec (th * 5 ^ (- re)) re). { rewrite (bin_dec th te re) by lia. rewrite E, Z.sub_diag. f_equal. change (2 ^ 0) with 1. lia. }
    apply Cmp; rewrite Sc; [apply DecC|apply DecE|apply DecC].
Qed.
End B.
