(** f2d and the decimal used by d2s return the shortest round-trip decimal, the closest one of that length. *)
From Coq Require Import ZArith List Bool Lia Reals Lra.
From Flocq Require Import Core IEEE754.Binary IEEE754.Bits.
From Verif Require Import Mem FpModel FpProofs LitModel LitProofs LimProps RyuModel RyuArith RyuShort RyuOpt RyuStep RyuF2d RyuD2d RyuRound.
Open Scope Z_scope.

(** [d * 10^k] reads back as [v]; every decimal that does has at least as many digits, and those
    with the same number of digits are not closer to [v]. *)
Definition shortest_decimal (f : fmt) (v : R) (d k : Z) : Prop :=
  rnd f (dec d k) = v /\
  exists p, digits d p /\
    forall n j q, digits n q -> rnd f (dec n j) = v ->
      p <= q /\ (q = p -> (Rabs (dec d k - v) <= Rabs (dec n j - v))%R).

Lemma dec_le_bin a x b y : 0 <= x -> 0 <= y -> a * 2 ^ y <= b * 10 ^ x -> (dec a (- x) <= IZR b * bpow radix2 (- y))%R.
Proof.
  intros Hx Hy H. apply IZR_le in H. rewrite !mult_IZR, <- bpow2, <- powerRZ_10 in H by lia.
  assert (A : (bpow radix2 y * bpow radix2 (- y) = 1)%R) by (rewrite <- bpow_plus; replace (y + - y) with 0 by lia; reflexivity).
  assert (B : (powerRZ 10 x * powerRZ 10 (- x) = 1)%R) by (rewrite <- powerRZ_add by lra; replace (x + - x) with 0 by lia; reflexivity).
  pose proof (bpow_gt_0 radix2 (- y)). pose proof (pow10_gt (- x)). unfold dec.
  replace (IZR a * powerRZ 10 (- x))%R with (IZR a * bpow radix2 y * (bpow radix2 (- y) * powerRZ 10 (- x)))%R by (transitivity (IZR a * powerRZ 10 (- x) * (bpow radix2 y * bpow radix2 (- y)))%R; [ring|rewrite A; ring]).
  replace (IZR b * bpow radix2 (- y))%R with (IZR b * powerRZ 10 x * (bpow radix2 (- y) * powerRZ 10 (- x)))%R by (transitivity (IZR b * bpow radix2 (- y) * (powerRZ 10 x * powerRZ 10 (- x)))%R; [ring|rewrite B; ring]).
  apply Rmult_le_compat_r; [|exact H]. apply Rmult_le_pos; lra.
Qed.
Lemma dec_lt_bin a x b y : 0 <= x -> 0 <= y -> a * 2 ^ y < b * 10 ^ x -> (dec a (- x) < IZR b * bpow radix2 (- y))%R.
Proof.
  intros Hx Hy H. apply IZR_lt in H. rewrite !mult_IZR, <- bpow2, <- powerRZ_10 in H by lia.
  assert (A : (bpow radix2 y * bpow radix2 (- y) = 1)%R) by (rewrite <- bpow_plus; replace (y + - y) with 0 by lia; reflexivity).
  assert (B : (powerRZ 10 x * powerRZ 10 (- x) = 1)%R) by (rewrite <- powerRZ_add by lra; replace (x + - x) with 0 by lia; reflexivity).
  pose proof (bpow_gt_0 radix2 (- y)). pose proof (pow10_gt (- x)). unfold dec.
  replace (IZR a * powerRZ 10 (- x))%R with (IZR a * bpow radix2 y * (bpow radix2 (- y) * powerRZ 10 (- x)))%R by (transitivity (IZR a * powerRZ 10 (- x) * (bpow radix2 y * bpow radix2 (- y)))%R; [ring|rewrite A; ring]).
  replace (IZR b * bpow radix2 (- y))%R with (IZR b * powerRZ 10 x * (bpow radix2 (- y) * powerRZ 10 (- x)))%R by (transitivity (IZR b * bpow radix2 (- y) * (powerRZ 10 x * powerRZ 10 (- x)))%R; [ring|rewrite B; ring]).
  apply Rmult_lt_compat_r; [|exact H]. apply Rmult_lt_0_compat; lra.
Qed.

Lemma dec1_lt_inv a b : (dec 1 a < dec 1 b)%R -> a < b.
Proof.
  intro H. apply Z.nle_gt. intro L. replace a with (b + (a - b)) in H by lia. rewrite dec_shift in H by lia.
  assert (1 <= 10 ^ (a - b)) by (apply (Z.pow_le_mono_r 10 0); lia). apply dec_lt_inv in H. lia.
Qed.
(** the exponent of the leading digit *)
Lemma sci_range o k p lo hi a b : digits o p -> (a <= dec o k <= b)%R -> (dec 1 lo < a)%R -> (b < dec 1 (hi + 1))%R ->
  lo <= k + p - 1 <= hi.
Proof.
  intros (P & D) (A & B) L H. split.
  - assert (lo < k + p); [|lia]. apply dec1_lt_inv. apply Rlt_le_trans with (1 := L). apply Rle_trans with (1 := A). rewrite dec_shift by lia. apply dec_le. lia.
  - assert (k + (p - 1) < hi + 1); [|lia]. apply dec1_lt_inv. apply Rle_lt_trans with (2 := H). apply Rle_trans with (2 := B). rewrite dec_shift by lia. apply dec_le. lia.
Qed.
Lemma interval_bounds m s e E0 W T : 1 <= m -> 4 * m + 2 <= 2 ^ W -> 0 <= s <= 1 -> E0 <= e <= T - W -> 0 <= W ->
  (2 * bpow radix2 E0 <= IZR (4 * m - 1 - s) * bpow radix2 e)%R /\ (IZR (4 * m + 2) * bpow radix2 e <= bpow radix2 T)%R.
Proof.
  intros Hm Hw Hs He HW. pose proof (bpow_gt_0 radix2 E0). pose proof (bpow_gt_0 radix2 e). split.
  - apply Rmult_le_compat; [lra|lra|apply IZR_le; lia|apply bpow_le; lia].
  - replace T with (W + (T - W)) by lia. rewrite bpow_plus, (bpow2 W) by exact HW.
    apply Rmult_le_compat; [apply IZR_le; lia|lra|now apply IZR_le|apply bpow_le; lia].
Qed.

Section G.
Variable f : fmt.
(** the exponent of the unit of the significand *)
Definition uexp (E : Z) : Z := femin f + Z.max E 1 - 1.

Lemma val_fields M E : 0 <= M < 2 ^ mw f -> 0 <= E < 2 ^ ew f - 1 ->
  B2R _ _ (val f (E * 2 ^ mw f + M)) = (IZR (if (E =? 0)%Z then M else 2 ^ mw f + M) * bpow radix2 (uexp E))%R.
Proof.
  intros HM HE. destruct (mk_fields f E M) as [A B]; [lia|lia|].
  rewrite units_R_pos. 2:{ unfold inf_pattern. pose proof (mwp f). nia. }
  unfold units, uexp. rewrite A, B. destruct (Z.eqb_spec E 0) as [->|N].
  - do 2 f_equal. cbn [Z.max]. lia.
  - rewrite (Z.add_comm M), mult_IZR, <- bpow2, Rmult_assoc, <- bpow_plus by lia. do 2 f_equal. lia.
Qed.

Lemma sig_ok_fields M E : 0 <= M < 2 ^ mw f -> 0 <= E -> M <> 0 \/ E <> 0 ->
  sig_ok f (if E =? 0 then M else 2 ^ mw f + M) (fshift M E) (uexp E).
Proof.
  intros HM HE Hnz. unfold sig_ok, fshift, uexp. pose proof (mw_pos f). rewrite Z.pow_add_r by lia. change (2 ^ 1) with 2.
  destruct (Z.eqb_spec E 0) as [->|NE].
  - split; [lia|]. left. split; [lia|]. rewrite orb_true_r. reflexivity.
  - split; [lia|]. destruct (Z.leb_spec E 1).
    + left. split; [lia|]. rewrite orb_true_r. reflexivity.
    + right. destruct (Z.eqb_spec M 0) as [->|]; cbn [negb orb b2z]; [right|left]; lia.
Qed.

Lemma quarter m E : (IZR m * bpow radix2 E = IZR (4 * m) * bpow radix2 (E - 2))%R.
Proof. rewrite (bpow_quarter E), mult_IZR. ring. Qed.

Lemma digits_exist n : 1 <= n -> exists p, digits n p.
Proof.
  intro H. assert (G : forall t, 0 <= t -> n < 10 ^ t -> exists p, digits n p).
  { intros t Ht. pattern t. apply natlike_ind; [|intros x Hx IH L|exact Ht].
    - change (10 ^ 0) with 1. lia.
    - destruct (Z.lt_ge_cases n (10 ^ x)) as [A|A]; [now apply IH|]. exists (Z.succ x). unfold digits.
      replace (Z.succ x - 1) with x by lia. lia. }
  apply (G n); [lia|]. apply Z.pow_gt_lin_r; lia.
Qed.

Lemma optimal_shortest M E s o k : 0 <= M < 2 ^ mw f -> 0 <= E -> M <> 0 \/ E <> 0 ->
  let m := if E =? 0 then M else 2 ^ mw f + M in let v := (IZR m * bpow radix2 (uexp E))%R in
  s = fshift M E -> optimal m s (uexp E - 2) o k ->
  (m <= 9 -> (dec 19 (k - 1) <= 2 * v)%R \/ (dec 9 (k - 1) < IZR (4 * m - 1 - s) * bpow radix2 (uexp E - 2))%R) ->
  9 < 2 ^ mw f ->
  shortest_decimal f v o k /\ 1 <= o /\ o * (3 + s) <= 10 * (4 * m + 2) /\
  (IZR (4 * m - 1 - s) * bpow radix2 (uexp E - 2) <= dec o k <= IZR (4 * m + 2) * bpow radix2 (uexp E - 2))%R.
Proof.
  intros HM HE Hnz m v Es Opt Small Big. pose proof (sig_ok_fields M E HM HE Hnz) as S. fold m in S. rewrite <- Es in S.
  pose proof S as (Hm & Hk). assert (Hs : s = 0 \/ s = 1) by lia.
  pose proof (opt_real m s (uexp E - 2) o k Opt) as (O1 & O2 & _).
  destruct (digits_exist o O1) as [p Po].
  split; [|split; [exact O1|split; [apply (opt_digits m s (uexp E - 2) o k); [lia|exact Hs|exact Opt]|now apply inR_bounds in O2]]].
  assert (Vq : v = (IZR (4 * m) * bpow radix2 (uexp E - 2))%R) by apply quarter.
  split; [apply (rnd_iff f m s (uexp E) _ S); [apply dec_pos; lia|exact O2]|].
  exists p. split; [exact Po|]. intros n j q Pn Hr.
  assert (Hn : 0 < n) by (destruct Pn as (A & B & _); pose proof (pow10_pos (q - 1) ltac:(lia)); lia).
  apply (rnd_iff f m s (uexp E) _ S) in Hr; [|now apply dec_pos].
  split; [now apply (opt_shortest m s (uexp E - 2) o k Opt n j p q)|]. intros ->. rewrite Vq.
  apply (opt_closest m s (uexp E - 2) o k Hs Opt) with (p := p); [| |exact Po|exact Pn|exact Hr].
  - rewrite <- Vq. exact Small.
  - intro S0. destruct Hk as [[_ K]|[(_ & _ & K)|(_ & K & _)]]; lia.
Qed.
End G.

Ltac nine H := match type of H with ?m <= 9 => 
  assert (m = 1 \/ m = 2 \/ m = 3 \/ m = 4 \/ m = 5 \/ m = 6 \/ m = 7 \/ m = 8 \/ m = 9) as [->|[->|[->|[->|[->|[->|[->|[->| ->]]]]]]]] by lia end.

Theorem f2d_shortest M E : 0 <= M < 2 ^ 23 -> 0 <= E < 255 -> M <> 0 \/ E <> 0 ->
  exists d k, f2d M E = Ok (d, k) /\ 1 <= d < 10 ^ 9 /\ (forall p, digits d p -> -46 <= k + p - 1 <= 38) /\
    shortest_decimal float32 (B2R _ _ (val float32 (E * 2 ^ 23 + M))) d k.
Proof.
  intros HM HE Hnz. destruct (f2d_optimal M E HM HE Hnz) as (o & k & R & Opt). exists o, k. split; [exact R|].
  change (E * 2 ^ 23 + M) with (E * 2 ^ mw float32 + M). rewrite (val_fields float32 M E HM HE).
  destruct (optimal_shortest float32 M E (fshift M E) o k HM ltac:(lia) Hnz eq_refl) as (Sh & O1 & O2 & Iv).
  - change (mw float32) with 23. fold (fsig M E). replace (uexp float32 E - 2) with (fexp2 E) by (unfold uexp, fexp2; change (femin float32) with (-149); lia). exact Opt.
  - change (mw float32) with 23. intro M9. assert (E0 : E = 0) by (destruct (Z.eqb_spec E 0); [assumption|change (2 ^ 23) with 8388608 in *; lia]).
    subst E. change (0 =? 0) with true in *. cbv iota in *. change (uexp float32 0) with (-149). change (fshift M 0) with (b2z (negb (M =? 0) || true)). rewrite orb_true_r. cbn [b2z].
    assert (M1 : 1 <= M) by lia. clear - R M9 M1.
    assert (K : k = match f2d M 0 with Ok (_, k) => k | _ => 0 end) by now rewrite R. clear R.
    nine M9; vm_compute in K; subst k;
    first [ left; match goal with |- (dec 19 ?k <= 2 * (IZR ?m * bpow radix2 ?e))%R =>
              replace (2 * (IZR m * bpow radix2 e))%R with (IZR (2 * m) * bpow radix2 e)%R by (rewrite mult_IZR; ring);
              apply (dec_le_bin 19 (- k) (2 * m) (- e)); vm_compute; discriminate end
          | right; match goal with |- (dec 9 ?k < IZR ?m * bpow radix2 ?e)%R => apply (dec_lt_bin 9 (- k) m (- e)); vm_compute; first [discriminate|reflexivity] end ].
  - reflexivity.
  - split; [|split; [|exact Sh]]; cycle 1.
    { intros p Dp. change (mw float32) with 23 in Iv. fold (fsig M E) in Iv. pose proof (fsig_ok M E HM ltac:(lia) Hnz) as (F & _).
      destruct (interval_bounds (fsig M E) (fshift M E) (uexp float32 E - 2) (-151) 26 128) as [B1 B2].
      + lia.
      + change (2 ^ 26) with (4 * 2 ^ 24). lia.
      + unfold fshift. destruct (negb (M =? 0) || (E <=? 1)); cbn [b2z]; lia.
      + unfold uexp. change (femin float32) with (-149). lia.
      + lia.
      + refine (sci_range o k p (-46) 38 _ _ Dp Iv _ _).
        * apply Rlt_le_trans with (2 := B1). apply (dec_lt_bin 1 46 2 151); [lia|lia|vm_compute; reflexivity].
        * apply Rle_lt_trans with (1 := B2). unfold dec. rewrite powerRZ_10, bpow2, <- mult_IZR by lia. apply IZR_lt. vm_compute. reflexivity. }
    split; [exact O1|]. change (mw float32) with 23 in O2. fold (fsig M E) in O2.
    pose proof (fsig_ok M E HM ltac:(lia) Hnz) as (F & _). change (2 ^ 24) with 16777216 in F.
    unfold fshift in O2. destruct (negb (M =? 0) || (E <=? 1)); cbn [b2z] in O2; change (10 ^ 9) with 1000000000; lia.
Qed.

Theorem d2s_decimal_shortest M E : 0 <= M < 2 ^ 52 -> 0 <= E < 2047 -> M <> 0 \/ E <> 0 ->
  exists d k, d2s_decimal M E = Ok (d, k) /\ 1 <= d < 10 ^ 17 /\ (forall p, digits d p -> -324 <= k + p - 1 <= 308) /\
    shortest_decimal float64 (B2R _ _ (val float64 (E * 2 ^ 52 + M))) d k.
Proof.
  intros HM HE Hnz. destruct (d2s_decimal_optimal M E HM HE Hnz) as (o & k & R & Opt). exists o, k. split; [exact R|].
  change (E * 2 ^ 52 + M) with (E * 2 ^ mw float64 + M). rewrite (val_fields float64 M E HM HE).
  destruct (optimal_shortest float64 M E (fshift M E) o k HM ltac:(lia) Hnz eq_refl) as (Sh & O1 & O2 & Iv).
  - change (mw float64) with 52. fold (dsig M E). replace (uexp float64 E - 2) with (dexp2 E) by (unfold uexp, dexp2; change (femin float64) with (-1074); lia). exact Opt.
  - change (mw float64) with 52. intro M9. assert (E0 : E = 0) by (destruct (Z.eqb_spec E 0); [assumption|change (2 ^ 52) with 4503599627370496 in *; lia]).
    subst E. change (0 =? 0) with true in *. cbv iota in *. change (uexp float64 0) with (-1074). change (fshift M 0) with (b2z (negb (M =? 0) || true)). rewrite orb_true_r. cbn [b2z].
    assert (M1 : 1 <= M) by lia. clear - R M9 M1.
    assert (K : k = match d2s_decimal M 0 with Ok (_, k) => k | _ => 0 end) by now rewrite R. clear R.
    nine M9; vm_compute in K; subst k;
    first [ left; match goal with |- (dec 19 ?k <= 2 * (IZR ?m * bpow radix2 ?e))%R =>
              replace (2 * (IZR m * bpow radix2 e))%R with (IZR (2 * m) * bpow radix2 e)%R by (rewrite mult_IZR; ring);
              apply (dec_le_bin 19 (- k) (2 * m) (- e)); vm_compute; discriminate end
          | right; match goal with |- (dec 9 ?k < IZR ?m * bpow radix2 ?e)%R => apply (dec_lt_bin 9 (- k) m (- e)); vm_compute; first [discriminate|reflexivity] end ].
  - reflexivity.
  - split; [|split; [|exact Sh]]; cycle 1.
    { intros p Dp. change (mw float64) with 52 in Iv. fold (dsig M E) in Iv. pose proof (dsig_ok M E HM ltac:(lia) Hnz) as (F & _).
      destruct (interval_bounds (dsig M E) (fshift M E) (uexp float64 E - 2) (-1076) 55 1024) as [B1 B2].
      + lia.
      + change (2 ^ 55) with (4 * 2 ^ 53). lia.
      + unfold fshift. destruct (negb (M =? 0) || (E <=? 1)); cbn [b2z]; lia.
      + unfold uexp. change (femin float64) with (-1074). lia.
      + lia.
      + refine (sci_range o k p (-324) 308 _ _ Dp Iv _ _).
        * apply Rlt_le_trans with (2 := B1). apply (dec_lt_bin 1 324 2 1076); [lia|lia|vm_compute; reflexivity].
        * apply Rle_lt_trans with (1 := B2). unfold dec. rewrite powerRZ_10, bpow2, <- mult_IZR by lia. apply IZR_lt. vm_compute. reflexivity. }
    split; [exact O1|]. change (mw float64) with 52 in O2. fold (dsig M E) in O2.
    pose proof (dsig_ok M E HM ltac:(lia) Hnz) as (F & F2). change (2 ^ 53) with 9007199254740992 in F. change (2 ^ 52) with 4503599627370496 in F2.
    destruct F2 as [F2|[F2 F3]]; rewrite F2 in O2; change (10 ^ 17) with 100000000000000000; lia.
Qed.
