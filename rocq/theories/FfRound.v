(** Rounding a real to a format, from bounds on it: the shape in which fast_float's algorithms
    establish that their result is correctly rounded. *)
From Coq Require Import ZArith List Bool Lia Reals Lra.
From Flocq Require Import Core.
From Verif Require Import FpModel FpProofs LitModel LitProofs LimProps RyuRound RyuMul RyuCvt RyuConv.
Open Scope Z_scope.

Section R.
Variable f : fmt.
Notation prec := (mw f + 1).
Notation emin := (femin f).

(** the pattern of a positive real known to lie around m * 2^E *)
Lemma rr_at N D E m : 0 < N -> 0 < D -> emin <= E -> let v := (IZR N / IZR D)%R in
  (v < bpow radix2 (prec + E))%R -> (E = emin \/ (bpow radix2 (mw f + E) <= v)%R) ->
  inR (Z.even m) ((IZR m - / 2) * bpow radix2 E) ((IZR m + / 2) * bpow radix2 E) v ->
  round_ratio f N D = Z.min (inf_pattern f) ((E - emin) * 2 ^ mw f + m).
Proof.
  intros HN HD HE v Hu Hl Hm. unfold round_ratio. replace (N =? 0) with false by (symmetry; apply Z.eqb_neq; lia).
  assert (P : (0 < v)%R) by (apply v_pos; assumption).
  assert (C : round_exp f N D = E) by (rewrite <- (v_cexp f N D HN HD); apply cexp_at; assumption).
  rewrite C. do 2 f_equal. rewrite (m_as_nearest f N D HN HD). rewrite C. apply nearestE_iff. fold v.
  pose proof (bpow_gt_0 radix2 E) as Q. assert (I : (bpow radix2 (- E) * bpow radix2 E = 1)%R) by (rewrite <- bpow_plus; replace (- E + E) with 0 by lia; reflexivity).
  unfold inR in *. destruct (Z.even m).
  - destruct Hm as [A B]. split; apply (Rmult_le_reg_r (bpow radix2 E)); try exact Q; rewrite Rmult_assoc, I, Rmult_1_r; assumption.
  - destruct Hm as [A B]. split; apply (Rmult_lt_reg_r (bpow radix2 E)); try exact Q; rewrite Rmult_assoc, I, Rmult_1_r; assumption.
Qed.

Lemma log2_ratio_le n d n' d' : 0 < n -> 0 < d -> 0 < n' -> 0 < d' -> (IZR n / IZR d <= IZR n' / IZR d')%R -> log2_ratio n d <= log2_ratio n' d'.
Proof.
  intros A B A' B' H. pose proof (log2_ratio_spec n d A B) as [L _]. pose proof (log2_ratio_spec n' d' A' B') as [_ U].
  assert (log2_ratio n d < log2_ratio n' d' + 1); [|lia]. apply (lt_bpow radix2). lra.
Qed.

(** rounding is monotone *)
Lemma rr_mono N D N' D' : 0 < N -> 0 < D -> 0 < N' -> 0 < D' -> (IZR N / IZR D <= IZR N' / IZR D')%R -> round_ratio f N D <= round_ratio f N' D'.
Proof.
  intros HN HD HN' HD' H. unfold round_ratio. replace (N =? 0) with false by (symmetry; apply Z.eqb_neq; lia). replace (N' =? 0) with false by (symmetry; apply Z.eqb_neq; lia).
  apply Z.min_le_compat_l. pose proof (log2_ratio_le _ _ _ _ HN HD HN' HD' H) as L.
  assert (E : round_exp f N D <= round_exp f N' D') by (unfold round_exp; lia). pose proof (mwp f) as P.
  destruct (Z.eq_dec (round_exp f N D) (round_exp f N' D')) as [Q|Q].
  - rewrite Q. apply Zplus_le_compat_l. rewrite (m_as_nearest f N D HN HD), (m_as_nearest f N' D' HN' HD'), Q.
    apply Zrnd_le; [apply valid_rnd_N|]. apply Rmult_le_compat_r; [apply bpow_ge_0|exact H].
  - pose proof (m_upper f N D HN HD) as U. pose proof (e_ge f N D) as G. pose proof (m_lower f N' D' HN' HD' ltac:(lia)) as W.
    rewrite Z.pow_add_r in U by (pose proof (mw_pos f); lia). change (2 ^ 1) with 2 in U. nia.
Qed.
Lemma rr_between N D N1 D1 N2 D2 : 0 < N -> 0 < D -> 0 < N1 -> 0 < D1 -> 0 < N2 -> 0 < D2 ->
  (IZR N1 / IZR D1 <= IZR N / IZR D <= IZR N2 / IZR D2)%R -> round_ratio f N1 D1 = round_ratio f N2 D2 -> round_ratio f N D = round_ratio f N1 D1.
Proof.
  intros. pose proof (rr_mono N1 D1 N D ltac:(assumption) ltac:(assumption) ltac:(assumption) ltac:(assumption) ltac:(lra)).
  pose proof (rr_mono N D N2 D2 ltac:(assumption) ltac:(assumption) ltac:(assumption) ltac:(assumption) ltac:(lra)). lia.
Qed.
Lemma rr_same N D N' D' : 0 < N -> 0 < D -> 0 < N' -> 0 < D' -> (IZR N / IZR D = IZR N' / IZR D')%R -> round_ratio f N D = round_ratio f N' D'.
Proof.
  intros A B A' B' H. pose proof (rr_mono N D N' D' A B A' B' ltac:(lra)). pose proof (rr_mono N' D' N D A' B' A B ltac:(lra)). lia.
Qed.

(** half an ulp of zero is exceeded by nothing smaller *)
Lemma rr_zero N D : 0 < N -> 0 < D -> (IZR N / IZR D <= bpow radix2 (emin - 1))%R -> round_ratio f N D = 0.
Proof.
  intros HN HD H. rewrite (rr_at N D emin 0 HN HD ltac:(lia)).
  - pose proof (mwp f). pose proof (ewp f). unfold inf_pattern. nia.
  - eapply Rle_lt_trans; [exact H|]. apply bpow_lt. pose proof (mw_pos f). lia.
  - now left.
  - cbn [Z.even inR]. assert (P : (0 < IZR N / IZR D)%R) by (apply v_pos; assumption).
    unfold Z.sub in H. rewrite bpow_plus in H. change (bpow radix2 (Z.opp 1)) with (/ 2)%R in H. pose proof (bpow_gt_0 radix2 emin). lra.
Qed.
Lemma rr_inf N D : 0 < N -> 0 < D -> (bpow radix2 (2 ^ (ew f - 1)) <= IZR N / IZR D)%R -> round_ratio f N D = inf_pattern f.
Proof.
  intros HN HD H. unfold round_ratio. replace (N =? 0) with false by (symmetry; apply Z.eqb_neq; lia). apply Z.min_l.
  pose proof (log2_ratio_spec N D HN HD) as [_ U]. assert (L : 2 ^ (ew f - 1) < log2_ratio N D + 1) by (apply (lt_bpow radix2); lra).
  pose proof (mw_pos f) as Mp. pose proof (ew_pos f). assert (E2 : 2 ^ ew f = 2 * 2 ^ (ew f - 1)) by (rewrite <- Z.pow_succ_r by lia; f_equal; lia).
  pose proof (mw_ew f). assert (R : round_exp f N D >= 2 ^ (ew f - 1) - mw f) by (unfold round_exp; lia).
  pose proof (m_lower f N D HN HD) as W. assert (K : emin < round_exp f N D) by (unfold femin in *; lia). specialize (W K).
  unfold inf_pattern. pose proof (mwp f). unfold femin in *. nia.
Qed.
End R.

(** the same for a decimal *)
Lemma dec_dnum w q : dec w q = (IZR (dnum w q) / IZR (dden q))%R.
Proof. rewrite dec_ratio. unfold dnum, dden. destruct (0 <=? q); reflexivity. Qed.
Lemma lit_at f w q E m : 0 < w -> femin f <= E ->
  (dec w q < bpow radix2 (mw f + 1 + E))%R -> (E = femin f \/ (bpow radix2 (mw f + E) <= dec w q)%R) ->
  inR (Z.even m) ((IZR m - / 2) * bpow radix2 E) ((IZR m + / 2) * bpow radix2 E) (dec w q) ->
  literal f w q = Z.min (inf_pattern f) ((E - femin f) * 2 ^ mw f + m).
Proof. intros Hw HE. rewrite dec_dnum, literal_ratio. intros. apply rr_at; try assumption; [now apply dnum_pos|apply dden_pos]. Qed.
Lemma lit_zero f w q : 0 < w -> (dec w q <= bpow radix2 (femin f - 1))%R -> literal f w q = 0.
Proof. intros Hw. rewrite dec_dnum, literal_ratio. apply rr_zero; [now apply dnum_pos|apply dden_pos]. Qed.
Lemma lit_inf f w q : 0 < w -> (bpow radix2 (2 ^ (ew f - 1)) <= dec w q)%R -> literal f w q = inf_pattern f.
Proof. intros Hw. rewrite dec_dnum, literal_ratio. apply rr_inf; [now apply dnum_pos|apply dden_pos]. Qed.
Lemma lit_between f w q w1 q1 w2 q2 : 0 < w -> 0 < w1 -> 0 < w2 -> (dec w1 q1 <= dec w q <= dec w2 q2)%R ->
  literal f w1 q1 = literal f w2 q2 -> literal f w q = literal f w1 q1.
Proof. intros ? ? ?. rewrite !dec_dnum, !literal_ratio. apply rr_between; (apply dden_pos || now apply dnum_pos). Qed.
Lemma lit_same f w q w' q' : 0 < w -> 0 < w' -> dec w q = dec w' q' -> literal f w q = literal f w' q'.
Proof. intros ? ?. rewrite !dec_dnum, !literal_ratio. apply rr_same; (apply dden_pos || now apply dnum_pos). Qed.
