(** The parsers' conversion: for every significand and exponent the scanner can deliver, the result is
    the correctly rounded pattern. *)
From Coq Require Import ZArith List Bool Lia Reals Lra.
From Flocq Require Import Core.
From Verif Require Import Mem FpModel FpProofs LitModel LitProofs RyuTables RyuModel RyuArith RyuTab RyuCertOk RyuParseModel RyuConv RyuMul.
Open Scope Z_scope.

Lemma literal_ratio f m e : literal f m e = round_ratio f (dnum m e) (dden e).
Proof. unfold literal, dnum, dden. now destruct (0 <=? e). Qed.
Lemma dnum_pos m e : 0 < m -> 0 < dnum m e.
Proof. intro H. unfold dnum. destruct (Z.leb_spec 0 e); [|exact H]. apply Z.mul_pos_pos; [exact H|apply Z.pow_pos_nonneg; lia]. Qed.
Lemma dden_pos e : 0 < dden e.
Proof. unfold dden. destruct (Z.leb_spec 0 e); [reflexivity|apply Z.pow_pos_nonneg; lia]. Qed.

Lemma ew_big f : 2 < 2 ^ (ew f - 1) /\ 2 <= ew f.
Proof.
  pose proof (mw_pos f). pose proof (ew_pos f). pose proof (mw_ew f). split; [lia|].
  destruct (Z.eq_dec (ew f) 1) as [E|E]; [|lia]. rewrite E in H1. change (2 ^ (1 - 1)) with 1 in H1. lia.
Qed.
Lemma femin_neg f : femin f < 0.
Proof. unfold femin. pose proof (mw_pos f). pose proof (ew_big f). lia. Qed.

Lemma ratio_small f N D : 0 < N -> 0 < D -> N * 2 ^ (1 - femin f) < D -> round_ratio f N D = 0.
Proof.
  intros HN HD H. pose proof (femin_neg f) as Fn. pose proof (mw_pos f) as Mp.
  unfold round_ratio. destruct (Z.eqb_spec N 0); [reflexivity|].
  assert (L : log2_ratio N D < femin f).
  { destruct (log2_ratio_spec N D HN HD) as [A _]. apply (lt_bpow radix2). apply Rle_lt_trans with (1 := A).
    assert (0 < IZR D)%R by (apply IZR_lt; lia).
    apply (Rmult_lt_reg_r (IZR D)); [assumption|]. unfold Rdiv. rewrite Rmult_assoc, Rinv_l, Rmult_1_r by lra.
    apply (Rmult_lt_reg_r (bpow radix2 (- femin f))); [apply bpow_gt_0|].
    replace (bpow radix2 (femin f) * IZR D * bpow radix2 (- femin f))%R with (IZR D * (bpow radix2 (femin f) * bpow radix2 (- femin f)))%R by ring.
    rewrite <- bpow_plus, Z.add_opp_diag_r. change (bpow radix2 0) with 1%R. rewrite Rmult_1_r, bpow2, <- mult_IZR by lia.
    apply IZR_lt. rewrite (pow_split (1 - femin f) 1 (- femin f)) in H by lia. change (2 ^ 1) with 2 in H.
    assert (0 < N * 2 ^ (- femin f)) by (apply Z.mul_pos_pos; [lia|apply Z.pow_pos_nonneg; lia]). lia. }
  assert (E : round_exp f N D = femin f) by (unfold round_exp; lia).
  unfold round_man. rewrite E. rewrite Z.sub_diag, Z.mul_0_l, Z.add_0_l.
  unfold scale_num, scale_den. replace (0 <=? femin f) with false by (symmetry; apply Z.leb_gt; lia).
  rewrite (pow_split (1 - femin f) 1 (- femin f)) in H by lia. change (2 ^ 1) with 2 in H.
  set (x := N * 2 ^ (- femin f)) in *. assert (0 <= x) by (apply Z.mul_nonneg_nonneg; [lia|apply Z.pow_nonneg; lia]).
  unfold div_rne. assert (X2 : 2 * x < D) by (unfold x; lia). rewrite Z.div_small, Z.mod_small by lia.
  replace (D <? 2 * x) with false by (symmetry; apply Z.ltb_ge; lia). replace (2 * x =? D) with false by (symmetry; apply Z.eqb_neq; lia). cbn [orb andb].
  apply Z.min_r. unfold inf_pattern. pose proof (ewp f). apply Z.mul_nonneg_nonneg; [lia|apply Z.pow_nonneg; lia].
Qed.

Lemma ratio_large f N D : 0 < D -> D * 2 ^ (2 ^ (ew f - 1)) <= N -> round_ratio f N D = inf_pattern f.
Proof.
  intros HD H. pose proof (mw_pos f) as Mp. destruct (ew_big f) as [Eg Ep]. assert (0 < 2 ^ (ew f - 1)) by lia.
  assert (0 < 2 ^ (2 ^ (ew f - 1))) by (apply Z.pow_pos_nonneg; lia). assert (HN : 0 < N) by nia.
  unfold round_ratio. destruct (Z.eqb_spec N 0); [lia|].
  assert (L : 2 ^ (ew f - 1) <= log2_ratio N D).
  { destruct (log2_ratio_spec N D HN HD) as [_ A]. enough (2 ^ (ew f - 1) < log2_ratio N D + 1) by lia. apply (lt_bpow radix2). apply Rle_lt_trans with (2 := A).
    assert (0 < IZR D)%R by (apply IZR_lt; lia).
    apply (Rmult_le_reg_r (IZR D)); [assumption|]. unfold Rdiv. rewrite Rmult_assoc, Rinv_l, Rmult_1_r by lra.
    rewrite bpow2, <- mult_IZR by lia. apply IZR_le. lia. }
  assert (Ee : 2 ^ ew f = 2 * 2 ^ (ew f - 1)) by (replace (ew f) with (Z.succ (ew f - 1)) at 1 by lia; apply Z.pow_succ_r; lia).
  apply Z.min_l. pose proof (femin_neg f). assert (E : 2 ^ (ew f - 1) - mw f <= round_exp f N D) by (unfold round_exp; lia).
  assert (E1 : 2 ^ ew f - 2 <= round_exp f N D - femin f) by (unfold femin in *; lia).
  pose proof (m_lower f N D HN HD ltac:(lia)) as M. unfold inf_pattern.
  assert (0 < 2 ^ mw f) by (apply Z.pow_pos_nonneg; lia). nia.
Qed.

(** decimal digit counts *)
Definition ndig (m dg : Z) : Prop := 1 <= dg /\ 10 ^ (dg - 1) <= m < 10 ^ dg.

Lemma literal_small f m dg e lo : ndig m dg -> lo <= 0 -> dg + e <= lo -> 2 ^ (1 - femin f) <= 10 ^ (- lo) -> literal f m e = 0.
Proof.
  intros (H1 & H2 & H3) Hlo H C. rewrite literal_ratio. assert (0 < 10 ^ (dg - 1)) by (apply Z.pow_pos_nonneg; lia).
  apply ratio_small; [apply dnum_pos; lia|apply dden_pos|]. unfold dnum, dden. destruct (Z.leb_spec 0 e); [lia|].
  assert (0 < 2 ^ (1 - femin f)) by (pose proof (femin_neg f); apply Z.pow_pos_nonneg; lia).
  apply Z.lt_le_trans with (10 ^ dg * 2 ^ (1 - femin f)); [apply Z.mul_lt_mono_pos_r; lia|].
  apply Z.le_trans with (10 ^ dg * 10 ^ (- lo)); [apply Z.mul_le_mono_nonneg_l; lia|].
  rewrite <- Z.pow_add_r by lia. apply Z.pow_le_mono_r; lia.
Qed.
Lemma literal_large f m dg e hi : ndig m dg -> hi <= dg + e -> 0 <= e -> 1 <= hi -> 2 ^ (2 ^ (ew f - 1)) <= 10 ^ (hi - 1) -> literal f m e = inf_pattern f.
Proof.
  intros (H1 & H2 & H3) H He Hh C. rewrite literal_ratio. apply ratio_large; [apply dden_pos|]. unfold dnum, dden. destruct (Z.leb_spec 0 e); [|lia].
  rewrite Z.mul_1_l. apply Z.le_trans with (1 := C). apply Z.le_trans with (10 ^ (dg - 1) * 10 ^ e).
  - rewrite <- Z.pow_add_r by lia. apply Z.pow_le_mono_r; lia.
  - apply Z.mul_le_mono_nonneg_r; [apply Z.pow_nonneg; lia|exact H2].
Qed.

Lemma ndig_log m dg : ndig m dg -> 3 * (dg - 1) <= Z.log2 m.
Proof.
  intros (H1 & H2 & H3). assert (0 < 10 ^ (dg - 1)) by (apply Z.pow_pos_nonneg; lia). apply Z.log2_le_pow2; [lia|].
  apply Z.le_trans with (2 := H2). rewrite Z.pow_mul_r by lia. apply Z.pow_le_mono_l. change (2 ^ 3) with 8. lia.
Qed.

(** the middle range *)
Lemma mid_ok f fl neg m e o : mw f <= 52 -> 3 <= ew f <= 11 -> 0 < m -> mul_spec (mw f + 1) m e o ->
  (forall x, 2 ^ (mw f + 1) <= x < 2 ^ (mw f + 3) -> fl x = Ok (Z.log2 x)) ->
  - 2 ^ 20 < (if 0 <=? e then Z.log2 m + e + L25 e - (mw f + 1) else Z.log2 m + e - L25 (- e) - 1 - (mw f + 1)) < 2 ^ 20 ->
  femin f - (if 0 <=? e then Z.log2 m + e + L25 e - (mw f + 1) else Z.log2 m + e - L25 (- e) - 1 - (mw f + 1)) < mw f + ew f + 1 ->
  (' (e2, m2, tz) <- o ;; assemble (mw f + ew f + 1) (mw f) (ew f) fl neg e2 m2 tz) = Ok (b2z neg * 2 ^ (ew f + mw f) + literal f m e).
Proof.
  intros Hmw Hew Hm (e2 & n' & d' & -> & Hn & Hd & SR & B & Ee) Hfl H1 H2. cbn [bind]. rewrite <- Ee in H1, H2.
  replace (mw f + 1 + 2) with (mw f + 3) in B by lia.
  rewrite (assemble_ok f Hmw Hew fl neg e2 n' d' (dnum m e) (dden e)); auto using dnum_pos, dden_pos. now rewrite literal_ratio.
Qed.

Lemma lit_zero f e : literal f 0 e = 0.
Proof. unfold literal. destruct (0 <=? e); reflexivity. Qed.

Lemma convert_ok f maxd lo hi fl mul neg m dg e :
  let W := mw f + ew f + 1 in
  0 <= maxd <= 17 -> (m = 0 \/ ndig m dg /\ dg <= maxd /\ - 2 ^ 31 <= dg + e < 2 ^ 31) ->
  lo <= 0 -> maxd < hi -> 2 ^ (1 - femin f) <= 10 ^ (- lo) -> 2 ^ (2 ^ (ew f - 1)) <= 10 ^ (hi - 1) ->
  (m <> 0 -> lo < dg + e < hi -> ndig m dg -> dg <= maxd -> (' (e2, m2, tz) <- mul m e ;; assemble W (mw f) (ew f) fl neg e2 m2 tz)
     = Ok (b2z neg * 2 ^ (ew f + mw f) + literal f m e)) ->
  convert W (mw f) (ew f) lo hi fl mul (Scanned neg m dg e) = Ok (b2z neg * 2 ^ (ew f + mw f) + literal f m e).
Proof.
  intros W Hx Hm Hlo Hhi C1 C2 M. pose proof (mwp f) as P. pose proof (ewp f) as Q. pose proof (mw_pos f) as Mp. pose proof (ew_pos f) as Ep.
  assert (EbM : 2 ^ (ew f + mw f) = 2 ^ ew f * 2 ^ mw f) by (apply Z.pow_add_r; lia).
  assert (EW : 2 ^ W = 2 * (2 ^ ew f * 2 ^ mw f)).
  { rewrite <- EbM. replace W with (Z.succ (ew f + mw f)) by (unfold W; lia). apply Z.pow_succ_r. lia. }
  assert (S1 : (b2z neg * 2 ^ (ew f + mw f)) mod 2 ^ W = b2z neg * 2 ^ (ew f + mw f)).
  { apply Z.mod_small. rewrite EW, EbM. clear - P Q. assert (0 < 2 ^ ew f * 2 ^ mw f) by nia. destruct neg; cbn [b2z]; lia. }
  unfold convert. cbn [signedM m10 m10digits e10]. rewrite S1.
  destruct (Z.eqb_spec m 0) as [->|Nz]; [now rewrite lit_zero, Z.add_0_r|].
  destruct Hm as [?|(D & Dm & R)]; [contradiction|].
  unfold i32. rewrite chk_ok by (apply andb_true_intro; split; [apply Z.leb_le|apply Z.ltb_lt]; lia). cbn [bind].
  rewrite orb_false_r. destruct (Z.leb_spec (dg + e) lo) as [K|K].
  - rewrite (literal_small f m dg e lo) by assumption. now rewrite Z.add_0_r.
  - destruct (Z.leb_spec hi (dg + e)) as [K2|K2].
    + rewrite (literal_large f m dg e hi) by (assumption || lia). rewrite Z.mod_small by (rewrite EW; clear - P Q; nia).
      rewrite lor_add by (try lia; rewrite EbM; clear - P Q; nia). reflexivity.
    + now apply M.
Qed.

Lemma s2d_convert_ok neg m dg e : (m = 0 \/ ndig m dg /\ dg <= 17 /\ - 2 ^ 31 <= dg + e < 2 ^ 31) ->
  convert 64 52 11 (-324) 310 floor_log2_64 s2d_mul (Scanned neg m dg e) = Ok (b2z neg * 2 ^ 63 + literal float64 m e).
Proof.
  intro H. apply (convert_ok float64 17 (-324) 310); [lia|exact H|lia|lia|apply Z.leb_le; vm_compute; reflexivity|apply Z.leb_le; vm_compute; reflexivity|].
  intros Nz R D Dm. pose proof (ndig_log m dg D) as LG. destruct D as (D1 & D2 & D3).
  assert (0 < 10 ^ (dg - 1)) by (apply Z.pow_pos_nonneg; lia).
  assert (M17 : m < 10 ^ 17) by (apply Z.lt_le_trans with (1 := D3); apply Z.pow_le_mono_r; lia).
  assert (L57 : Z.log2 m < 57). { apply Z.log2_lt_pow2; [lia|]. apply Z.lt_trans with (1 := M17). reflexivity. }
  apply mid_ok.
  - cbn. lia.
  - cbn. lia.
  - lia.
  - apply (s2d_mul_ok m e); lia.
  - intros x Hx. apply floor_log2_64_eq. cbn [mw float64] in Hx. change (2 ^ (52 + 1)) with 9007199254740992 in Hx. change (2 ^ (52 + 3)) with 36028797018963968 in Hx.
    change (2 ^ 64) with 18446744073709551616. lia.
  - change (mw float64) with 52. change (2 ^ 20) with 1048576. clear - R LG L57 Dm D1. destruct (Z.leb_spec 0 e); unlog.
  - change (mw float64) with 52. change (ew float64) with 11. change (femin float64) with (-1074). clear - R LG L57 Dm D1. destruct (Z.leb_spec 0 e); unlog.
Qed.

Lemma s2f_convert_ok neg m dg e : (m = 0 \/ ndig m dg /\ dg <= 9 /\ - 2 ^ 31 <= dg + e < 2 ^ 31) ->
  convert 32 23 8 (-46) 40 floor_log2_32 s2f_mul (Scanned neg m dg e) = Ok (b2z neg * 2 ^ 31 + literal float32 m e).
Proof.
  intro H. apply (convert_ok float32 9 (-46) 40); [lia|exact H|lia|lia|apply Z.leb_le; vm_compute; reflexivity|apply Z.leb_le; vm_compute; reflexivity|].
  intros Nz R D Dm. pose proof (ndig_log m dg D) as LG. destruct D as (D1 & D2 & D3).
  assert (0 < 10 ^ (dg - 1)) by (apply Z.pow_pos_nonneg; lia).
  assert (M9 : m < 10 ^ 9) by (apply Z.lt_le_trans with (1 := D3); apply Z.pow_le_mono_r; lia).
  assert (L30 : Z.log2 m < 30). { apply Z.log2_lt_pow2; [lia|]. apply Z.lt_trans with (1 := M9). reflexivity. }
  destruct (Z.eq_dec m 614426533) as [Em|Em]; [destruct (Z.eq_dec e (-25)) as [E5|E5]; [|destruct (Z.eq_dec e (-26)) as [E6|E6]]|].
  - subst m e. destruct neg; vm_compute; reflexivity.
  - subst m e. destruct neg; vm_compute; reflexivity.
  - apply mid_ok.
    + cbn. lia.
    + cbn. lia.
    + lia.
    + apply (s2f_mul_ok m e); [lia|lia|]. intros [[?|?] _]; lia.
    + intros x Hx. apply floor_log2_32_eq. cbn [mw float32] in Hx. change (2 ^ (23 + 1)) with 16777216 in Hx. change (2 ^ (23 + 3)) with 67108864 in Hx.
      change (2 ^ 32) with 4294967296. lia.
    + change (mw float32) with 23. change (2 ^ 20) with 1048576. clear - R LG L30 Dm D1. destruct (Z.leb_spec 0 e); unlog.
    + change (mw float32) with 23. change (ew float32) with 8. change (femin float32) with (-149). clear - R LG L30 Dm D1. destruct (Z.leb_spec 0 e); unlog.
  - apply mid_ok.
    + cbn. lia.
    + cbn. lia.
    + lia.
    + apply (s2f_mul_ok m e); [lia|lia|]. intros [_ ?]; lia.
    + intros x Hx. apply floor_log2_32_eq. cbn [mw float32] in Hx. change (2 ^ (23 + 1)) with 16777216 in Hx. change (2 ^ (23 + 3)) with 67108864 in Hx.
      change (2 ^ 32) with 4294967296. lia.
    + change (mw float32) with 23. change (2 ^ 20) with 1048576. clear - R LG L30 Dm D1. destruct (Z.leb_spec 0 e); unlog.
    + change (mw float32) with 23. change (ew float32) with 8. change (femin float32) with (-149). clear - R LG L30 Dm D1. destruct (Z.leb_spec 0 e); unlog.
Qed.
