(** digit_comparison.h: digit_comp decides every literal exactly. *)
From Coq Require Import ZArith List Bool Lia Reals Lra.
From Flocq Require Import Core.
From Verif Require Import Mem FpModel FpProofs LitModel LitProofs LimProps RyuText RyuRound RyuArith RyuMul RyuCvt RyuScan FfTable FfModel FfWord FfRound FfPow FfApprox FfCompute FfBig FfScan FfMant FfDigit.
Import ListNotations.
Open Scope Z_scope.
Local Notation len l := (Z.of_nat (length l)).

Lemma room_low t : 2 ^ 3968 <= (2 ^ limb_bits t) ^ capacity t.
Proof. unfold capacity, limb_bits. destruct (is_64bit t); rewrite <- Z.pow_mul_r by (vm_compute; discriminate); apply Z.pow_le_mono_r; vm_compute; congruence. Qed.
Lemma mul_lt_pow x y a c e : 0 <= x < 2 ^ a -> 0 <= y < 2 ^ c -> 0 <= a -> 0 <= c -> a + c <= e -> x * y < 2 ^ e.
Proof. intros. apply Z.lt_le_trans with (2 ^ (a + c)); [rewrite Z.pow_add_r by lia; nia|apply Z.pow_le_mono_r; lia]. Qed.
Lemma five_pow k j : 0 <= k <= j -> 0 < 5 ^ k <= 5 ^ j.
Proof. intro H. split; [apply Z.pow_pos_nonneg; lia|apply Z.pow_le_mono_r; lia]. Qed.
(** a bound on the digits kept *)
Definition most : Z := 10 ^ 770.
Lemma five_small k : 0 <= k <= 1111 -> 0 <= 5 ^ k < 2 ^ 2580.
Proof.
  intro H. destruct (five_pow k 1111 H) as [F0 F1]. split; [apply Z.lt_le_incl, F0|]. eapply Z.le_lt_trans; [exact F1|]. vm_compute. reflexivity.
Qed.
Lemma most_small n : 0 <= n <= most -> 0 <= n + 10 < 2 ^ 2558.
Proof. intros [H0 H1]. split; [clear H1; lia|]. apply Z.le_lt_trans with (most + 10); [clear H0; lia|]. vm_compute. reflexivity. Qed.
Lemma cap1 t th re : 0 < th < 2 ^ 54 + 1 -> -1111 <= re <= 0 -> th * 5 ^ (- re) < (2 ^ limb_bits t) ^ capacity t.
Proof. intros H1 H2. pose proof (five_small (- re) ltac:(lia)) as F. eapply Z.lt_le_trans; [|apply room_low]. apply (mul_lt_pow _ _ 55 2580); [clear F; lia|exact F|discriminate|discriminate|discriminate]. Qed.
Lemma cap2 t n te re : 0 < n <= most -> -1075 <= te -> re < 0 -> n * 2 ^ (re - te) < (2 ^ limb_bits t) ^ capacity t.
Proof.
  intros [H0 H1] H2 H3. destruct (most_small n (conj (Z.lt_le_incl _ _ H0) H1)) as [_ F]. clear H1. eapply Z.lt_le_trans; [|apply room_low]. apply (mul_lt_pow _ _ 2558 1076); [split; [apply Z.lt_le_incl, H0|eapply Z.lt_trans; [|exact F]; clear F; lia]|clear F|discriminate|discriminate|discriminate].
  split; [apply Z.pow_nonneg; lia|]. apply Z.le_lt_trans with (2 ^ 1075); [apply Z.pow_le_mono_r; lia|reflexivity].
Qed.
Lemma cap3 t n : 0 < n <= most -> 2 * (n + 10) < (2 ^ limb_bits t) ^ capacity t.
Proof. intros [H0 H1]. pose proof (most_small n (conj (Z.lt_le_incl _ _ H0) H1)) as F. eapply Z.lt_le_trans; [|apply room_low]. apply (mul_lt_pow _ _ 2 2558); [split; [discriminate|reflexivity]|exact F|discriminate|discriminate|discriminate]. Qed.
Lemma cap4 t te re : -1111 <= re <= te -> te <= 0 -> 5 ^ (- re) * 2 ^ (te - re) < (2 ^ limb_bits t) ^ capacity t.
Proof.
  intros H1 H2. pose proof (five_small (- re) ltac:(lia)) as F. eapply Z.lt_le_trans; [|apply room_low]. apply (mul_lt_pow _ _ 2580 1112); [exact F|clear F|discriminate|discriminate|discriminate].
  split; [apply Z.pow_nonneg; lia|]. apply Z.le_lt_trans with (2 ^ 1111); [apply Z.pow_le_mono_r; lia|reflexivity].
Qed.

Section B.
Variable b : bformat.
Hypothesis Hb : std b.
Let C := std_consts b Hb.
Let C2 := std_consts2 b Hb.
Notation mb := (explicit_bits b).
Notation f := (bfmt b).
Notation bs := (explicit_bits b - minimum_exponent b).
Notation mshift := (64 - mb - 1).
Notation near_zero := (near_zero b).
Notation quot := (quot b).
Notation unit_exp := (unit_exp b).
Notation theor := (theor b).
Notation rshift := (rshift b).

(** the halfway point of an estimate is at most twice the value, unless nothing is left of it *)
Lemma theor_value m p2 v : 2 ^ 63 <= m < 2 ^ 64 -> (IZR m * bpow radix2 (p2 - bs) <= v < (IZR m + 32) * bpow radix2 (p2 - bs))%R ->
  let T := (IZR (fst (theor m p2)) * bpow radix2 (snd (theor m p2)))%R in
  (near_zero p2 = true \/ p2 + mshift < infinite_power b -> T = ((IZR (quot m p2) + / 2) * bpow radix2 (unit_exp p2))%R) /\
  ((T <= 2 * v)%R \/ fst (theor m p2) = 1).
Proof.
  intros Hm V T. pose proof (c_mb b C) as Mb. pose proof (c_min b C) as Mn. pose proof (c_infr b C) as Ir. destruct (quot_range b Hb m p2 Hm) as (Q0 & Q1 & Q2). pose proof (unit_bounds b Hb m p2 v Hm V) as UB. assert (P : 0 < 2 ^ mb) by (apply Z.pow_pos_nonneg; lia).
  assert (Half : forall q e, (IZR (2 * q + 1) * bpow radix2 (e - 1) = (IZR q + / 2) * bpow radix2 e)%R) by (intros q e; rewrite (bp_split e 1 (e - 1)) by lia; change (bpow radix2 1) with 2%R; rewrite plus_IZR, mult_IZR; field).
  assert (Fin : T = ((IZR (quot m p2) + / 2) * bpow radix2 (unit_exp p2))%R -> (T <= 2 * v)%R \/ quot m p2 = 0). { intro E. destruct (Z.eq_dec (quot m p2) 0) as [Z|Z]; [now right|left]. rewrite E. pose proof (bpow_gt_0 radix2 (unit_exp p2)). assert (1 <= IZR (quot m p2))%R by (apply IZR_le; lia). nra. }
  unfold T in *. clear T. unfold FfDigit.theor, FfDigit.unit_exp in *. destruct (near_zero p2) eqn:Z; [|destruct (Z.leb_spec (infinite_power b) (p2 + mshift)) as [L|L]]; cbn [fst snd] in *.
  - assert (E : (IZR (2 * quot m p2 + 1) * bpow radix2 (- bs) = (IZR (quot m p2) + / 2) * bpow radix2 (femin f))%R) by (rewrite <- Half; do 2 f_equal; lia). split; [intros _; exact E|]. destruct (Fin E) as [K|K]; [left; exact K|right; lia].
  - split; [intros [K|K]; [discriminate|lia]|]. left. rewrite Half. assert (Lo : (bpow radix2 (mb + (infinite_power b - bs)) <= v)%R). { eapply Rle_trans; [|apply V]. apply Rle_trans with (bpow radix2 63 * bpow radix2 (p2 - bs))%R; [rewrite <- bpow_plus; apply bpow_le; lia|]. apply Rmult_le_compat_r; [apply bpow_ge_0|]. rewrite bpow2 by lia. apply IZR_le. lia. }
    rewrite bpow_plus, bpow2 in Lo by lia. pose proof (bpow_gt_0 radix2 (infinite_power b - bs)). assert (1 <= IZR (2 ^ mb))%R by (apply IZR_le; lia). nra.
  - assert (E : (IZR (2 * quot m p2 + 1) * bpow radix2 (p2 + mshift - bs - 1) = (IZR (quot m p2) + / 2) * bpow radix2 (p2 + mshift - bs))%R) by apply Half. split; [intros _; exact E|]. destruct (Fin E) as [K|K]; [left; exact K|right; lia].
Qed.

(** the real and the truncated decimal lie on the same side of every halfway point *)
Definition same_side (v x : R) : Prop := forall M E, 0 <= M < 2 * 2 ^ mb -> femin f <= E <= 2 ^ (ew f - 1) - mb - 1 ->
  let h := ((IZR M + / 2) * bpow radix2 E)%R in ((h < v)%R -> (h < x)%R) /\ ((v < h)%R -> (x < h)%R) /\ (v = h -> x = h).

Lemma negative_case t v n N e m p2 re : big t v n -> 0 < n <= most -> 0 < N -> 2 ^ 63 <= m < 2 ^ 64 -> - 2 ^ 20 < p2 < 2 ^ 20 -> - 1111 <= re < 0 ->
  (IZR m * bpow radix2 (p2 - bs) <= dec N e < (IZR m + 32) * bpow radix2 (p2 - bs))%R -> (dec N e < dec (n + 10) re)%R -> same_side (dec N e) (dec n re) ->
  exists am, negative_digit_comp t b v (AM m p2) re = Ok am /\ packs b am (literal f N e).
Proof.
  intros Hv Hn HN Hm Hp Hr V Up Side. pose proof (c_mb b C) as Mb. pose proof (c_minr b C) as Mr. pose proof (c_min b C) as Mn. pose proof (c_infr b C) as Ir. pose proof (c_inf b C) as Ii. destruct (theor_range b Hb m p2 Hm) as [T1 T2]. destruct (theor_value m p2 _ Hm V) as [TV TW].
  destruct (negative_ok b Hb t v n m p2 re Hv ltac:(lia) Hm Hp ltac:(lia)) as (ord & E & O1 & O2 & O3).
  - intro L. destruct TW as [TW|TW].
    + apply Z.le_lt_trans with (2 * (n + 10)); [|apply cap3; exact Hn]. apply dec_le_inv with re. rewrite <- bin_dec by lia. eapply Rle_trans; [exact TW|]. unfold dec in *. rewrite mult_IZR. lra.
    + rewrite TW, Z.mul_1_l. destruct (Z.le_gt_cases (snd (theor m p2)) 0) as [S0|S0].
      * apply cap4; lia.
      * exfalso. clear - C TW S0 Hm Mb Mr. pose proof (c_infr b C). unfold FfDigit.theor in *.
        destruct (quot_range b Hb m p2 Hm) as (Q0 & Q1 & Q2). assert (P : 0 < 2 ^ mb) by (apply Z.pow_pos_nonneg; lia). destruct (near_zero p2) eqn:Z; cbn [fst snd] in *; [lia|]. specialize (Q2 eq_refl). destruct (infinite_power b <=? p2 + mshift); cbn [fst snd] in *; lia.
  - apply cap1; [exact T1|lia].
  - intro L. apply cap2; [exact Hn|lia|lia].
  - rewrite E. destruct (up_ok b Hb (fun is_odd _ _ => if 0 <? ord then true else if ord <? 0 then false else is_odd) m p2 Hm Hp) as (am & R & PK). exists am. split; [exact R|]. cbn beta in PK.
    assert (Fin : near_zero p2 = true \/ p2 + mshift < infinite_power b -> 0 <= quot m p2 < 2 * 2 ^ mb /\ femin f <= unit_exp p2 <= 2 ^ (ew f - 1) - mb - 1).
    { intro Fi. destruct (quot_range b Hb m p2 Hm) as (Q0 & Q1 & Q2). assert (P : 0 < 2 ^ mb) by (apply Z.pow_pos_nonneg; lia). pose proof (c_minexp b C2) as Me. assert (Pe : 2 ^ ew f = 2 * 2 ^ (ew f - 1)). { rewrite <- Z.pow_succ_r; [f_equal; lia|]. clear - Hb. destruct Hb as [-> | ->]; vm_compute; congruence. }
      unfold FfDigit.unit_exp. unfold FfDigit.near_zero in *. destruct (Z.leb_spec mshift (- p2)) as [Z|Z]; [specialize (Q1 eq_refl); lia|specialize (Q2 eq_refl)]. destruct Fi as [Fi|Fi]; [discriminate|]. lia. }
    erewrite <- (decide b Hb N e m p2) in PK; [exact PK|exact HN|exact Hm|exact V| | |].
    + intros Fi H. destruct (Fin Fi) as [FM FE]. specialize (TV Fi). destruct (Side _ _ FM FE) as (S1 & S2 & S3). cbn zeta in TV. rewrite <- TV in *. rewrite (O1 (S1 H)). reflexivity.
    + intros Fi H. destruct (Fin Fi) as [FM FE]. specialize (TV Fi). destruct (Side _ _ FM FE) as (S1 & S2 & S3). cbn zeta in TV. rewrite <- TV in *. rewrite (O2 (S2 H)). reflexivity.
    + intros Fi H. destruct (Fin Fi) as [FM FE]. specialize (TV Fi). destruct (Side _ _ FM FE) as (S1 & S2 & S3). cbn zeta in TV. rewrite <- TV in *. rewrite (O3 (S3 H)). reflexivity.
Qed.

(** the top 64 bits of an integer and what is below them *)
Lemma top64_real X : 0 < X -> 2 ^ 63 <= top64 X < 2 ^ 64 /\ exists l, (0 <= l < 1)%R /\ IZR X = ((IZR (top64 X) + l) * bpow radix2 (Z.log2 X + 1 - 64))%R /\ (low_bits X = true <-> (0 < l)%R).
Proof.
  intro H. pose proof (Z.log2_spec X H) as L. pose proof (Z.log2_nonneg X). unfold top64, low_bits. set (g := Z.log2 X) in *. clearbody g. rewrite Z.pow_succ_r in L by lia. destruct (Z.leb_spec (g + 1) 64) as [G|G].
  - assert (P : 2 ^ 63 = 2 ^ g * 2 ^ (64 - (g + 1))) by (rewrite <- Z.pow_add_r by lia; f_equal; lia). assert (0 < 2 ^ (64 - (g + 1))) by (apply Z.pow_pos_nonneg; lia).
    split; [change (2 ^ 64) with (2 * 2 ^ 63); rewrite P; nia|]. exists 0%R. split; [lra|]. split; [|split; [discriminate|lra]]. rewrite Rplus_0_r, mult_IZR, <- bpow2, Rmult_assoc, <- bpow_plus by lia. replace (64 - (g + 1) + (g + 1 - 64)) with 0 by lia. cbn. lra.
  - set (s := g + 1 - 64) in *. assert (P0 : 0 < 2 ^ s) by (apply Z.pow_pos_nonneg; lia). assert (P : 2 ^ g = 2 ^ 63 * 2 ^ s) by (rewrite <- Z.pow_add_r by lia; f_equal; lia). pose proof (Z.div_mod X (2 ^ s) ltac:(lia)) as D. pose proof (Z.mod_pos_bound X (2 ^ s) ltac:(lia)) as M.
    split. { split; [apply Z.div_le_lower_bound; lia|]. apply Z.div_lt_upper_bound; [lia|]. change (2 ^ 64) with (2 * 2 ^ 63). lia. }
    assert (B : (0 < IZR (2 ^ s))%R) by (apply IZR_lt; lia). assert (M0 : (0 <= IZR (X mod 2 ^ s) < IZR (2 ^ s))%R) by (split; [apply IZR_le|apply IZR_lt]; lia).
    exists (IZR (X mod 2 ^ s) / IZR (2 ^ s))%R. split; [split; [apply Rmult_le_pos; [lra|apply Rlt_le, Rinv_0_lt_compat, B]|apply Rmult_lt_reg_r with (IZR (2 ^ s)); [exact B|]; unfold Rdiv; rewrite Rmult_assoc, Rinv_l by lra; lra]|]. split.
    + rewrite D at 1. rewrite plus_IZR, mult_IZR, bpow2 by lia. field. lra.
    + destruct (Z.eqb_spec (X mod 2 ^ s) 0) as [Z|Z]; cbn [negb].
      * rewrite Z. unfold Rdiv. rewrite Rmult_0_l. split; [discriminate|lra].
      * split; [|reflexivity]. intros _. apply Rmult_lt_0_compat; [apply IZR_lt; lia|apply Rinv_0_lt_compat, B].
Qed.

Lemma positive_case t v n N e re : big t v n -> 0 < n -> 0 <= re -> n * 10 ^ re <= most -> 0 < N -> dec N e = dec n re ->
  exists am, positive_digit_comp t b v re = Ok am /\ packs b am (literal f N e).
Proof.
  intros Hv Hn Hr Hm HN Hd. pose proof (c_mb b C) as Mb. pose proof (c_minr b C) as Mr. set (X := n * 10 ^ re) in *. assert (X0 : 0 < X) by (unfold X; assert (0 < 10 ^ re) by (apply Z.pow_pos_nonneg; lia); nia).
  assert (XR : dec N e = IZR X) by (rewrite Hd; unfold dec, X; rewrite powerRZ_10, mult_IZR by exact Hr; reflexivity).
  unfold positive_digit_comp. assert (Rm : X < (2 ^ limb_bits t) ^ capacity t) by (pose proof (cap3 t X (conj X0 Hm)); lia). destruct (big_pow10_ok t v n re Hv Hn Hr Rm) as (r & -> & Br). fold X in Br. cbn [ff_assert]. rewrite (hi64_ok t r X Br X0). cbn [bind]. rewrite (bit_length_ok t r X Br X0). cbn [bind].
  assert (Lg : 0 <= Z.log2 X < 3968). { split; [apply Z.log2_nonneg|]. apply Z.log2_lt_pow2; [exact X0|]. eapply Z.lt_trans with (X + 10); [clear; lia|]. eapply Z.lt_trans; [apply most_small; split; [apply Z.lt_le_incl, X0|exact Hm]|]. vm_compute. reflexivity. }
  clear Hm Rm. destruct (top64_real X X0) as (T & l & L0 & L1 & L2). set (m := top64 X) in *. set (g := Z.log2 X + 1 - 64) in *. rewrite i32_ok by lia. cbn [bind]. set (p2 := g + bs) in *. assert (Ep : p2 - bs = g) by (unfold p2; lia).
  assert (Hp : - 2 ^ 20 < p2 < 2 ^ 20) by lia. destruct (up_ok b Hb (fun is_odd is_halfway is_above => is_above || (is_halfway && low_bits X) || (is_odd && is_halfway)) m p2 T Hp) as (am & R & PK). exists am. split; [exact R|]. cbn beta in PK.
  assert (NZ : near_zero p2 = false) by (unfold FfDigit.near_zero; lia). assert (RS : rshift p2 = mshift) by (unfold FfDigit.rshift; now rewrite NZ). assert (UE : unit_exp p2 = g + mshift) by (unfold FfDigit.unit_exp; rewrite NZ; lia).
  assert (Gd : bpow radix2 mshift = (2 * IZR (2 ^ (mshift - 1)))%R) by (rewrite (bp_split mshift 1 (mshift - 1)), (bpow2 (mshift - 1)) by lia; reflexivity).
  pose proof (Z.div_mod m (2 ^ mshift) ltac:(apply Z.pow_nonzero; lia)) as DM. assert (QE : m / 2 ^ mshift = quot m p2) by (unfold FfDigit.quot; now rewrite RS). rewrite QE in DM. rewrite RS in PK. set (rr := m mod 2 ^ mshift) in *. set (hf := 2 ^ (mshift - 1)) in *. set (Q := quot m p2) in *.
  assert (V : dec N e = ((IZR Q + / 2) * bpow radix2 (g + mshift) + (IZR rr - IZR hf + l) * bpow radix2 g)%R). { rewrite XR, L1, DM, (bp_split (g + mshift) mshift g) by lia. rewrite plus_IZR, mult_IZR, <- (bpow2 mshift), Gd by lia. field. }
  pose proof (bpow_gt_0 radix2 g) as G0. set (u := bpow radix2 g) in *.
  assert (Cases : (rr < hf /\ (IZR rr + 1 <= IZR hf)%R) \/ (rr = hf) \/ (hf < rr /\ (IZR hf + 1 <= IZR rr)%R)). { destruct (Z.lt_trichotomy rr hf) as [K|[K|K]]; [left|right; left|right; right]; try exact K; split; [exact K|rewrite <- plus_IZR; apply IZR_le; lia|exact K|rewrite <- plus_IZR; apply IZR_le; lia]. }
  set (h := ((IZR Q + / 2) * bpow radix2 (g + mshift))%R) in *.
  erewrite <- (decide b Hb N e m p2) in PK; [exact PK|exact HN|exact T| | | |]; fold Q; rewrite ?UE, ?Ep; fold h; fold u.
  - rewrite XR, L1. fold u. split; apply Rmult_le_compat_r || apply Rmult_lt_compat_r; lra.
  - intros _ H. destruct Cases as [[K1 K2]|[K|[K1 K2]]].
    + exfalso. assert ((IZR rr - IZR hf + l) * u <= 0)%R by nra. lra.
    + rewrite K, Rminus_diag_eq, Rplus_0_l in V by reflexivity. assert (LB : low_bits X = true) by (apply L2; nra). rewrite LB, K, Z.eqb_refl. replace (hf <? hf) with false by lia. reflexivity.
    + replace (hf <? rr) with true by lia. reflexivity.
  - intros _ H. destruct Cases as [[K1 K2]|[K|[K1 K2]]].
    + replace (hf <? rr) with false by lia. replace (rr =? hf) with false by lia. cbn. now rewrite andb_false_r.
    + exfalso. rewrite K, Rminus_diag_eq, Rplus_0_l in V by reflexivity. nra.
    + exfalso. assert (0 <= (IZR rr - IZR hf + l) * u)%R by nra. lra.
  - intros _ H. destruct Cases as [[K1 K2]|[K|[K1 K2]]].
    + exfalso. assert ((IZR rr - IZR hf + l) * u < 0)%R by nra. lra.
    + rewrite K, Rminus_diag_eq, Rplus_0_l in V by reflexivity. assert (LB : low_bits X = false). { destruct (low_bits X); [|reflexivity]. destruct L2 as [L2 _]. specialize (L2 eq_refl). exfalso. assert (0 < l * u)%R by nra. lra. } rewrite LB, K, Z.eqb_refl. replace (hf <? hf) with false by lia. cbn. now rewrite andb_true_r.
    + exfalso. assert (0 < (IZR rr - IZR hf + l) * u)%R by nra. lra.
Qed.

Lemma pow10_lt_inv x y : 0 <= y -> 10 ^ x < 10 ^ y -> x < y.
Proof. intros H L. apply Z.pow_lt_mono_r_iff in L; lia. Qed.
Lemma pow_most x n : n < 10 ^ x -> x <= 770 -> n <= most.
Proof. intros L H. apply Z.lt_le_incl. eapply Z.lt_le_trans; [exact L|]. unfold most. apply Z.pow_le_mono_r; [reflexivity|exact H]. Qed.

(** what digit_comp is given: digits N * 10^e, read off as at most 19 digits w and a power q *)
Record reads (num : parsed) (int : list Z) (fr : option (list Z)) (e : Z) : Prop := {
  rd_int : integer num = ascii int;
  rd_fr : fraction num = option_map ascii fr;
  rd_dint : Forall dig int;
  rd_dfr : Forall dig (fdigits fr);
  rd_w : 0 < mantissa_ num < 10 ^ 19;
  rd_k : exists k, 0 <= k /\ exponent_ num = e + k /\ mantissa_ num * 10 ^ k <= digit_val (int ++ fdigits fr) < (mantissa_ num + 1) * 10 ^ k /\ (k = 0 \/ 10 ^ 18 <= mantissa_ num) }.

Lemma digit_comp_ok t num am int fr e : reads num int fr e -> estimate b (mantissa_ num) (exponent_ num) am ->
  exists am', digit_comp t b num am = Ok am' /\ packs b am' (literal f (digit_val (int ++ fdigits fr)) e).
Proof.
  intros [E1 E2 F1 F2 Hw (k & K0 & Eq & HN & Hk)] (Hm & Hp & Hq & V). cbn zeta in V. pose proof (c_mb b C) as Mb. pose proof (c_minr b C) as Mr. pose proof (c_range b C) as [Cr1 Cr2]. pose proof (c_maxd b C2) as Md. pose proof (c_many b C2) as Mm.
  set (w := mantissa_ num) in *. set (q := exponent_ num) in *. set (N := digit_val (int ++ fdigits fr)) in *. set (m := am_mantissa am) in *. set (p2 := am_power2 am - invalid_am_bias) in *. assert (Hp2 : - 2 ^ 20 < p2 < 2 ^ 20) by (unfold p2, invalid_am_bias; lia).
  assert (W64 : w < 2 ^ 64) by (eapply Z.lt_trans; [apply Hw|reflexivity]). assert (Pk : 0 < 10 ^ k) by (apply Z.pow_pos_nonneg; lia). assert (N0 : 0 < N) by nia.
  assert (V' : (IZR m * bpow radix2 (p2 - bs) <= dec N e < (IZR m + 32) * bpow radix2 (p2 - bs))%R).
  { assert (D1 : (dec w q <= dec N e)%R) by (rewrite Eq, dec_shift by exact K0; apply dec_le; apply HN). split; [eapply Rle_trans; [apply V|exact D1]|].
    assert (D2 : (dec N e < dec (w + 1) q)%R) by (rewrite Eq, dec_shift by exact K0; apply dec_lt'; apply HN). pose proof (bpow_gt_0 radix2 (p2 - bs)) as U0. set (U := bpow radix2 (p2 - bs)) in *. destruct Hk as [-> | Hk].
    - assert (Ew : N = w) by (change (10 ^ 0) with 1 in HN; lia). rewrite Ew in *. rewrite Z.add_0_r in Eq. rewrite <- Eq. eapply Rlt_le_trans; [apply V|]. apply Rmult_le_compat_r; lra.
    - eapply Rlt_le_trans; [exact D2|]. assert (T : (IZR (10 ^ 18) * dec 1 q <= dec w q)%R). { replace (IZR (10 ^ 18) * dec 1 q)%R with (dec (10 ^ 18) q) by (unfold dec; rewrite Rmult_1_l; reflexivity). apply dec_le, Hk. }
      assert (M64 : (IZR m <= IZR (2 ^ 64))%R) by (apply IZR_le; lia). assert (A1 : dec (w + 1) q = (dec w q + dec 1 q)%R) by (unfold dec; rewrite plus_IZR; ring). rewrite A1. destruct V as [_ V]. assert (IZR (10 ^ 18) * dec 1 q < (IZR (2 ^ 64) + 4) * U)%R by nra. change (10 ^ 18) with 1000000000000000000 in H. change (2 ^ 64) with 18446744073709551616 in H. change (2 ^ 64) with 18446744073709551616 in M64. clear - H V M64 U0. nra. }
  clear V. unfold digit_comp. fold p2. rewrite i32_ok by lia. cbn [bind]. fold m. destruct (scientific_ok num ltac:(fold w; lia) ltac:(fold q; lia)) as (j & J0 & J1 & ->). cbn [bind]. fold w in J1. fold q.
  assert (J18 : j < 19) by (apply pow10_lt_inv; lia). set (s := sig (int ++ fdigits fr)) in *. assert (FD : Forall dig (int ++ fdigits fr)) by (apply Forall_app; now split). pose proof (sig_dig _ FD) as FS. fold s in FS. assert (SV : digit_val s = N) by apply sig_val.
  assert (Snil : s <> []) by (intro X; rewrite X in SV; cbn in SV; lia). pose proof (sig_low _ FD Snil) as SL. fold s N in SL. pose proof (dv_bound s FS) as [_ SU]. rewrite SV in SU.
  assert (SS : len s = j + k + 1). { assert (0 < len s) by (destruct s; [contradiction|cbn; lia]). assert (X1 : 10 ^ (j + k) <= N) by (rewrite Z.pow_add_r by lia; nia). assert (X2 : N < 10 ^ (j + k + 1)) by (replace (j + k + 1) with (j + 1 + k) by lia; rewrite Z.pow_add_r by lia; nia).
    assert (len s - 1 < j + k + 1) by (apply pow10_lt_inv; lia). assert (j + k < len s) by (apply pow10_lt_inv; lia). lia. }
  destruct (parse_mantissa_ok t (max_digits b) ltac:(lia) num int fr E1 E2 F1 F2) as (v & n & d & -> & Bv & a & c & Es & La & Lc & Kd). cbn [bind]. fold s in Es.
  assert (Sl : len s = len a + len c) by (rewrite Es, app_length; lia). assert (Sdv : N = digit_val a * 10 ^ len c + digit_val c) by (rewrite <- SV, Es; apply dv_app). rewrite Es in FS. apply Forall_app in FS. destruct FS as [Fa Fc]. pose proof (dv_bound a Fa) as Ba. pose proof (dv_bound c Fc) as Bc.
  set (re := q + j + 1 - d). rewrite i32_ok by (unfold re; destruct Kd as [(_ & _ & ->)|(_ & _ & ->)]; lia). cbn [bind]. assert (Pc : 0 < 10 ^ len c) by (apply Z.pow_pos_nonneg; lia).
  destruct Kd as [(C0 & En & Ed)|(C0 & En & Ed)].
  - assert (Er : re = e + len c) by (unfold re; lia). assert (Dd : dec N e = dec n re) by (rewrite Er, dec_shift by lia; f_equal; rewrite Sdv, C0, En; lia). assert (n0 : 0 < n) by (rewrite En; nia). destruct (Z.leb_spec 0 re) as [R|R].
    + apply positive_case with (n := n); try assumption. apply pow_most with (len a + re); [|lia]. rewrite Z.pow_add_r by lia. assert (0 < 10 ^ re) by (apply Z.pow_pos_nonneg; lia). rewrite En. clear - Ba H. nia.
    + apply negative_case with (n := n); try assumption; [split; [exact n0|apply pow_most with (len a); [lia|lia]]|unfold re; lia|rewrite Dd; apply dec_lt'; lia|]. rewrite Dd. intros M E _ _ h. repeat split; auto.
  - assert (Cn : c <> []) by (intro X; rewrite X in C0; cbn in C0; lia). specialize (Lc Cn). assert (Er : re = e + len c - 1) by (unfold re; lia). replace (0 <=? re) with false by lia. set (A := digit_val a) in *.
    assert (HA : 10 ^ (max_digits b - 1) <= A). { assert (Sa : sig a = a). { destruct a as [|x a']; [cbn in Lc; lia|]. pose proof (sig_head _ _ _ Es) as X. destruct x; [contradiction|reflexivity|reflexivity]. } pose proof (sig_low a Fa) as X. rewrite Sa in X. rewrite Lc in X. apply X. intros ->. cbn in Lc. lia. }
    assert (A0 : 0 < A) by (pose proof (Z.pow_pos_nonneg 10 (max_digits b - 1)); lia).
    assert (K1 : forall x, dec x (e + len c) = dec (x * 10) re) by (intro x; replace (e + len c) with (re + 1) by lia; rewrite dec_shift by lia; reflexivity).
    assert (K2 : forall x, dec x (e + len c) = dec (x * 10 ^ len c) e) by (intro x; apply dec_shift; lia).
    assert (L1 : (dec A (e + len c) < dec N e)%R) by (rewrite K2; apply dec_lt'; lia). assert (L2 : (dec N e < dec (A + 1) (e + len c))%R) by (rewrite K2; apply dec_lt'; lia).
    assert (L3 : (dec A (e + len c) < dec n re)%R) by (rewrite K1; apply dec_lt'; lia). assert (L4 : (dec n re < dec (A + 1) (e + len c))%R) by (rewrite K1; apply dec_lt'; lia).
    apply negative_case with (n := n); try assumption.
    + split; [lia|]. apply pow_most with (len a + 1); [|lia]. rewrite Z.pow_add_r by lia. change (10 ^ 1) with 10. lia.
    + unfold re. lia.
    + eapply Rlt_le_trans; [exact L2|]. rewrite K1. apply dec_le. lia.
    + intros M E HM HE h. pose proof (gap b Hb M E A (e + len c) HM HE HA) as G. fold h in G. assert (G' : (h <= dec A (e + len c) \/ dec (A + 1) (e + len c) <= h)%R) by lra. clear G. destruct G' as [G|G]; (split; [lra|split; [lra|lra]]).
Qed.
End B.
