(** From the integer statement of RyuStep ([optimal]) to real numbers and Flocq's rounding. *)
From Coq Require Import ZArith List Bool Lia Reals Lra.
From Flocq Require Import Core.
From Verif Require Import FpModel LitModel LitProofs LimProps RyuShort RyuOpt RyuStep.
Open Scope Z_scope.

(** correctly rounded value (ties to even) in the format, unbounded above *)
Definition rnd (f : fmt) (x : R) : R := round radix2 (FLT_exp (femin f) (mw f + 1)) ZnearestE x.

Definition inR (acc : bool) (lo hi x : R) : Prop := if acc then (lo <= x <= hi)%R else (lo < x < hi)%R.

Lemma nearestE_iff x m : ZnearestE x = m <-> inR (Z.even m) (IZR m - / 2) (IZR m + / 2) x.
Proof.
  split.
  - intro E. pose proof (Znearest_half (fun t => negb (Z.even t)) x) as H. rewrite E in H. apply Rabs_le_inv in H.
    unfold inR. destruct (Z.even m) eqn:Ev; [lra|].
    assert (N1 : x <> (IZR m + / 2)%R).
    { intros ->. unfold Znearest in E. rewrite (Zfloor_imp m) in E by (rewrite plus_IZR; lra).
      replace (IZR m + / 2 - IZR m)%R with (/ 2)%R in E by ring. rewrite Rcompare_Eq in E by reflexivity. rewrite Ev in E. cbn in E.
      rewrite (Zceil_imp (m + 1)) in E; [lia|]. rewrite minus_IZR, plus_IZR. lra. }
    assert (N2 : x <> (IZR m - / 2)%R).
    { intros ->. unfold Znearest in E. rewrite (Zfloor_imp (m - 1)) in E by (rewrite plus_IZR, minus_IZR; lra).
      replace (IZR m - / 2 - IZR (m - 1))%R with (/ 2)%R in E by (rewrite minus_IZR; lra). rewrite Rcompare_Eq in E by reflexivity.
      replace (Z.even (m - 1)) with true in E by (rewrite Z.even_sub, Ev; reflexivity). cbn in E. lia. }
    lra.
  - unfold inR. intro H.
    assert (C : (Rabs (x - IZR m) < / 2)%R \/ (Z.even m = true /\ (x = IZR m + / 2 \/ x = IZR m - / 2)%R)).
    { destruct (Z.even m); [|left; apply Rabs_lt; lra].
      destruct (Req_dec x (IZR m + / 2)) as [A|A]; [right; tauto|]. destruct (Req_dec x (IZR m - / 2)) as [B|B]; [right; tauto|].
      left. apply Rabs_lt. lra. }
    destruct C as [C|(Ev & [-> | ->])].
    + now apply Znearest_imp.
    + unfold Znearest. rewrite (Zfloor_imp m) by (rewrite plus_IZR; lra).
      replace (IZR m + / 2 - IZR m)%R with (/ 2)%R by ring. rewrite Rcompare_Eq by reflexivity. rewrite Ev. reflexivity.
    + unfold Znearest. rewrite (Zfloor_imp (m - 1)) by (rewrite plus_IZR, minus_IZR; lra).
      replace (IZR m - / 2 - IZR (m - 1))%R with (/ 2)%R by (rewrite minus_IZR; lra). rewrite Rcompare_Eq by reflexivity.
      replace (Z.even (m - 1)) with false by (rewrite Z.even_sub, Ev; reflexivity). cbn.
      apply Zceil_imp. rewrite minus_IZR. lra.
Qed.

Section I.
Variable f : fmt.
Notation emin := (femin f).
Notation prec := (mw f + 1).
Notation fexp := (FLT_exp emin prec).

(** a significand with its exponent; [s] tells whether the lower gap is a full unit *)
Definition sig_ok (m s E : Z) : Prop :=
  0 < m < 2 ^ prec /\
  (E = emin /\ s = 1 \/ emin < E /\ 2 ^ mw f < m /\ s = 1 \/ emin < E /\ m = 2 ^ mw f /\ s = 0).

Lemma prec_pos : 0 < prec. Proof. pose proof (mw_pos f). lia. Qed.
Instance prec_gt : Prec_gt_0 prec. Proof. exact prec_pos. Qed.

Lemma rnd_pow k : emin <= k -> rnd f (bpow radix2 k) = bpow radix2 k.
Proof. intro H. unfold rnd. apply round_generic; [apply valid_rnd_N|]. apply generic_format_bpow. unfold FLT_exp. pose proof prec_pos. lia. Qed.

(** rounding at a known exponent *)
Lemma rnd_at x E m : cexp radix2 fexp x = E ->
  (rnd f x = (IZR m * bpow radix2 E)%R <-> inR (Z.even m) ((IZR m - / 2) * bpow radix2 E) ((IZR m + / 2) * bpow radix2 E) x).
Proof.
  intro H. unfold rnd, round, scaled_mantissa, F2R. cbn [Fnum Fexp]. rewrite H.
  pose proof (bpow_gt_0 radix2 E) as P. set (y := (x * bpow radix2 (- E))%R).
  assert (Ex : x = (y * bpow radix2 E)%R). { unfold y. rewrite Rmult_assoc, <- bpow_plus. replace (- E + E) with 0 by lia. cbn. ring. }
  transitivity (ZnearestE y = m).
  - split; [|now intros ->]. intro Q. apply Rmult_eq_reg_r in Q; [|lra]. now apply eq_IZR.
  - rewrite nearestE_iff. unfold inR. rewrite Ex at 1 2. rewrite Ex. destruct (Z.even m); split; intros [A B]; split.
    all: try (apply Rmult_le_compat_r; lra). all: try (apply Rmult_lt_compat_r; lra).
    all: try (now apply (Rmult_le_reg_r (bpow radix2 E))). all: try (now apply (Rmult_lt_reg_r (bpow radix2 E))).
Qed.

Lemma cexp_at x E : (0 < x)%R -> emin <= E -> (x < bpow radix2 (prec + E))%R ->
  (E = emin \/ (bpow radix2 (mw f + E) <= x)%R) -> cexp radix2 fexp x = E.
Proof.
  intros Hx HE Hu Hl. unfold cexp, FLT_exp.
  assert (U : mag radix2 x <= prec + E) by (apply mag_le_bpow; [lra|rewrite Rabs_pos_eq by lra; exact Hu]).
  destruct Hl as [->|Hl]; [lia|].
  assert (L : mw f + E < mag radix2 x) by (apply mag_gt_bpow; rewrite Rabs_pos_eq by lra; exact Hl). lia.
Qed.

Lemma bpow_quarter E : bpow radix2 E = (4 * bpow radix2 (E - 2))%R.
Proof. replace E with (2 + (E - 2)) at 1 by lia. rewrite bpow_plus. reflexivity. Qed.

Lemma inR_ext acc a b a' b' x : a = a' -> b = b' -> inR acc a b x <-> inR acc a' b' x.
Proof. intros -> ->. reflexivity. Qed.
Lemma inR_bounds acc a b x : inR acc a b x -> (a <= x <= b)%R.
Proof. unfold inR. destruct acc; lra. Qed.

(** the rounding interval: exactly the reals that round to m * 2^E *)
Theorem rnd_iff m s E x : sig_ok m s E -> (0 < x)%R ->
  (rnd f x = (IZR m * bpow radix2 E)%R <->
   inR (Z.even m) (IZR (4 * m - 1 - s) * bpow radix2 (E - 2)) (IZR (4 * m + 2) * bpow radix2 (E - 2)) x).
Proof.
  intros (Hm & Hk) Hx. pose proof (bpow_gt_0 radix2 (E - 2)) as P. pose proof (mw_pos f) as Pw.
  assert (HE : emin <= E) by lia.
  assert (M1 : (IZR m + 1 <= IZR (2 ^ prec))%R) by (rewrite <- plus_IZR; apply IZR_le; lia).
  assert (M0 : (1 <= IZR m)%R) by (apply IZR_le; lia).
  assert (Hi : (IZR (4 * m + 2) * bpow radix2 (E - 2) = (IZR m + / 2) * bpow radix2 E)%R).
  { rewrite (bpow_quarter E), plus_IZR, mult_IZR. field. }
  assert (Lo : s = 1 -> (IZR (4 * m - 1 - s) * bpow radix2 (E - 2) = (IZR m - / 2) * bpow radix2 E)%R).
  { intros ->. rewrite (bpow_quarter E), !minus_IZR, mult_IZR. field. }
  assert (Top : (bpow radix2 (prec + E) = IZR (2 ^ prec) * bpow radix2 E)%R) by (rewrite bpow_plus, bpow2 by lia; reflexivity).
  assert (PE := bpow_gt_0 radix2 E).
  destruct (Rlt_le_dec x (bpow radix2 (prec + E))) as [U|U].
  2:{ (* above the binade *)
    assert (V : (IZR m * bpow radix2 E < bpow radix2 (prec + E))%R) by (rewrite Top; apply Rmult_lt_compat_r; lra).
    split.
    - intro Q. assert (W : (rnd f (bpow radix2 (prec + E)) <= rnd f x)%R) by (apply round_le; [apply FLT_exp_valid; exact (prec_gt)|apply valid_rnd_N|exact U]).
      rewrite rnd_pow in W by lia. lra.
    - intro Q. apply inR_bounds in Q. rewrite Hi in Q. exfalso.
      assert ((IZR m + / 2) * bpow radix2 E < IZR (2 ^ prec) * bpow radix2 E)%R by (apply Rmult_lt_compat_r; lra). lra. }
  assert (At : E = emin \/ (bpow radix2 (mw f + E) <= x)%R -> s = 1 ->
     (rnd f x = (IZR m * bpow radix2 E)%R <-> inR (Z.even m) (IZR (4 * m - 1 - s) * bpow radix2 (E - 2)) (IZR (4 * m + 2) * bpow radix2 (E - 2)) x)).
  { intros C Es. rewrite (rnd_at x E m (cexp_at x E Hx HE U C)). apply inR_ext; [symmetry; now apply Lo|now symmetry]. }
  assert (Bot : (bpow radix2 (mw f + E) = IZR (2 ^ mw f) * bpow radix2 E)%R) by (rewrite bpow_plus, bpow2 by lia; reflexivity).
  destruct Hk as [[HE0 Hs]|[(HE0 & Hm2 & Hs)|(HE0 & Hm2 & Hs)]].
  - apply At; [now left|exact Hs].
  - destruct (Rle_lt_dec (bpow radix2 (mw f + E)) x) as [L|L]; [apply At; [now right|exact Hs]|].
    assert (M2 : (IZR (2 ^ mw f) + 1 <= IZR m)%R) by (rewrite <- plus_IZR; apply IZR_le; lia).
    split.
    + intro Q. assert (W : (rnd f x <= rnd f (bpow radix2 (mw f + E)))%R) by (apply round_le; [apply FLT_exp_valid; exact (prec_gt)|apply valid_rnd_N|lra]).
      rewrite rnd_pow in W by lia. rewrite Q, Bot in W. apply Rmult_le_reg_r in W; [lra|exact PE].
    + intro Q. apply inR_bounds in Q. rewrite (Lo Hs) in Q. exfalso.
      assert (IZR (2 ^ mw f) * bpow radix2 E < (IZR m - / 2) * bpow radix2 E)%R by (apply Rmult_lt_compat_r; lra). lra.
  - (* the binade boundary: half the gap below *)
    assert (Ev : Z.even m = true) by (rewrite Hm2, Z.even_pow by lia; reflexivity).
    assert (Em : (IZR m = IZR (2 ^ mw f))%R) by now rewrite Hm2.
    destruct (Rle_lt_dec (bpow radix2 (mw f + E)) x) as [L|L].
    + rewrite (rnd_at x E m (cexp_at x E Hx HE U (or_intror L))). unfold inR. rewrite Ev, Hi.
      rewrite Bot, <- Em in L. assert (Lq : (IZR (4 * m - 1 - s) * bpow radix2 (E - 2) <= IZR m * bpow radix2 E)%R).
      { rewrite (bpow_quarter E), <- Rmult_assoc. apply Rmult_le_compat_r; [lra|]. rewrite Hs, !minus_IZR, mult_IZR. lra. }
      assert ((IZR m - / 2) * bpow radix2 E <= IZR m * bpow radix2 E)%R by (apply Rmult_le_compat_r; lra).
      split; intros [A B]; split; lra.
    + assert (Half : (bpow radix2 E = 2 * bpow radix2 (E - 1))%R) by (replace E with (1 + (E - 1)) at 1 by lia; rewrite bpow_plus; reflexivity).
      assert (Quart : (bpow radix2 (E - 1) = 2 * bpow radix2 (E - 2))%R) by (replace (E - 1) with (1 + (E - 2)) at 1 by lia; rewrite bpow_plus; reflexivity).
      destruct (Rle_lt_dec (bpow radix2 (mw f + (E - 1))) x) as [L'|L'].
      * assert (C : cexp radix2 fexp x = E - 1).
        { apply cexp_at; [exact Hx|lia|replace (prec + (E - 1)) with (mw f + E) by lia; exact L|now right]. }
        replace (IZR m * bpow radix2 E)%R with (IZR (2 * m) * bpow radix2 (E - 1))%R by (rewrite Half, mult_IZR; ring).
        rewrite (rnd_at x (E - 1) (2 * m) C). replace (Z.even (2 * m)) with true by (rewrite Z.even_mul; reflexivity). rewrite Ev.
        unfold inR. rewrite Hi. replace ((IZR (2 * m) - / 2) * bpow radix2 (E - 1))%R with (IZR (4 * m - 1 - s) * bpow radix2 (E - 2))%R
          by (rewrite Quart, Hs, !minus_IZR, !mult_IZR; field).
        rewrite Bot, <- Em in L.
        assert (IZR m * bpow radix2 E <= (IZR m + / 2) * bpow radix2 E)%R by (apply Rmult_le_compat_r; lra).
        assert (IZR m * bpow radix2 E <= (IZR (2 * m) + / 2) * bpow radix2 (E - 1))%R.
        { rewrite Half, mult_IZR. pose proof (bpow_gt_0 radix2 (E - 1)). lra. }
        split; intros [A B]; split; lra.
      * assert (V : (bpow radix2 (mw f + (E - 1)) = / 2 * (IZR m * bpow radix2 E))%R).
        { rewrite bpow_plus, bpow2 by lia. rewrite <- Em, Half. field. }
        assert (P2 : (0 < IZR m * bpow radix2 E)%R) by (apply Rmult_lt_0_compat; lra).
        split.
        -- intro Q. assert (W : (rnd f x <= rnd f (bpow radix2 (mw f + (E - 1))))%R) by (apply round_le; [apply FLT_exp_valid; exact (prec_gt)|apply valid_rnd_N|lra]).
           rewrite rnd_pow in W by lia. rewrite Q in W. lra.
        -- intro Q. apply inR_bounds in Q. exfalso. destruct Q as [Q _]. rewrite V in L'.
           assert (IZR (4 * m - 1 - s) * bpow radix2 (E - 2) < / 2 * (IZR m * bpow radix2 E))%R by lra.
           rewrite (bpow_quarter E) in H. rewrite Hs, !minus_IZR, mult_IZR in H.
           assert (H' : ((4 * IZR m - 1 - 0) * bpow radix2 (E - 2) < (2 * IZR m) * bpow radix2 (E - 2))%R) by lra.
           apply Rmult_lt_reg_r in H'; [lra|exact P].
Qed.
End I.

(** ** Decimals *)
Lemma pow10_gt k : (0 < powerRZ 10 k)%R. Proof. apply powerRZ_lt. lra. Qed.
Lemma dec_pos n k : 0 < n -> (0 < dec n k)%R.
Proof. intro H. unfold dec. apply Rmult_lt_0_compat; [now apply IZR_lt|apply pow10_gt]. Qed.
Lemma powerRZ_10 k : 0 <= k -> powerRZ 10 k = IZR (10 ^ k).
Proof. intro H. rewrite <- (Z2Nat.id k H) at 1. rewrite <- pow_powerRZ, pow_IZR, Z2Nat.id by exact H. reflexivity. Qed.
Lemma dec_shift n k t : 0 <= t -> dec n (k + t) = dec (n * 10 ^ t) k.
Proof. intro H. unfold dec. rewrite powerRZ_add by lra. rewrite (powerRZ_10 t H), mult_IZR. ring. Qed.
Lemma dec_le a b k : a <= b -> (dec a k <= dec b k)%R.
Proof. intro H. unfold dec. apply Rmult_le_compat_r; [apply Rlt_le, pow10_gt|now apply IZR_le]. Qed.
Lemma dec_lt_inv a b k : (dec a k < dec b k)%R -> a < b.
Proof. intro H. apply Rmult_lt_reg_r in H; [now apply lt_IZR|apply pow10_gt]. Qed.
Lemma dec_le_inv a b k : (dec a k <= dec b k)%R -> a <= b.
Proof. intro H. apply Rmult_le_reg_r in H; [now apply le_IZR|apply pow10_gt]. Qed.

(** c / D = 2^e2 / 10^e *)
Lemma scale_R e2 e c D : 0 < D -> scale e2 e c D -> (bpow radix2 e2 = IZR c * (powerRZ 10 e / IZR D))%R.
Proof.
  intros HD H. assert (PD : (0 < IZR D)%R) by now apply IZR_lt.
  destruct H as [(H1 & H2 & H)|(H1 & H2 & H)]; apply (f_equal IZR) in H; rewrite !mult_IZR in H.
  - rewrite bpow2, powerRZ_10 by lia. apply (Rmult_eq_reg_r (IZR D)); [|lra]. rewrite <- H. field. lra.
  - rewrite <- bpow2, <- powerRZ_10 in H by lia.
    assert (A : (bpow radix2 e2 * bpow radix2 (- e2) = 1)%R) by (rewrite <- bpow_plus; replace (e2 + - e2) with 0 by lia; reflexivity).
    assert (B : (powerRZ 10 e * powerRZ 10 (- e) = 1)%R) by (rewrite <- powerRZ_add by lra; replace (e + - e) with 0 by lia; reflexivity).
    apply (Rmult_eq_reg_r (IZR D)); [|lra]. transitivity (IZR c * powerRZ 10 e)%R; [|field; lra].
    transitivity (bpow radix2 e2 * (IZR D * powerRZ 10 (- e)) * powerRZ 10 e)%R; [transitivity (bpow radix2 e2 * IZR D * (powerRZ 10 e * powerRZ 10 (- e)))%R; [rewrite B|]; ring|].
    rewrite <- H. transitivity (IZR c * powerRZ 10 e * (bpow radix2 e2 * bpow radix2 (- e2)))%R; [ring|]. rewrite A. ring.
Qed.

Section O.
Variables (m s e2 o k : Z).
Hypothesis Hm : 0 < m.
Hypothesis Hs : s = 0 \/ s = 1.
Hypothesis Opt : optimal m s e2 o k.
Notation lo := (IZR (4 * m - 1 - s) * bpow radix2 e2)%R.
Notation hi := (IZR (4 * m + 2) * bpow radix2 e2)%R.
Notation v := (IZR (4 * m) * bpow radix2 e2)%R.
Notation I := (inR (Z.even m) lo hi).

(** [optimal] over the reals *)
Lemma opt_real : 1 <= o /\ I (dec o k) /\
  (forall n, I (dec n k) -> (Rabs (dec o k - v) <= Rabs (dec n k - v))%R) /\
  (forall t n, k < t -> ~ I (dec n t)).
Proof.
  destruct Opt as (c & D & r & e & HD & Hc & Sc & Ek & Ho & Hr & B1 & B2 & B3).
  pose proof (scale_R e2 e c D HD Sc) as Es. assert (PD : (0 < IZR D)%R) by now apply IZR_lt.
  set (u := (powerRZ 10 e / IZR D)%R) in *. assert (Pu : (0 < u)%R) by (apply Rdiv_lt_0_compat; [apply pow10_gt|exact PD]).
  assert (S : forall a, (IZR a * bpow radix2 e2 = IZR (a * c) * u)%R) by (intro a; rewrite Es, mult_IZR; ring).
  assert (Dc : forall n t, 0 <= t -> dec n (e + t) = (IZR (n * 10 ^ t * D) * u)%R).
  { intros n t Ht. rewrite dec_shift by exact Ht. unfold dec, u. rewrite (mult_IZR _ D). field. lra. }
  assert (In : forall n t, 0 <= t -> I (dec n (e + t)) <-> inI (Z.even m) ((4 * m - 1 - s) * c) ((4 * m + 2) * c) (n * 10 ^ t * D)).
  { intros n t Ht. rewrite (Dc n t Ht), !S. unfold inR, inI. destruct (Z.even m); split; intros [A B]; split.
    all: try (apply le_IZR, (Rmult_le_reg_r u); assumption). all: try (apply lt_IZR, (Rmult_lt_reg_r u); assumption).
    all: try (apply Rmult_le_compat_r; [lra|apply IZR_le; assumption]). all: try (apply Rmult_lt_compat_r; [lra|apply IZR_lt; assumption]). }
  rewrite Ek. split; [exact Ho|]. split; [now apply In|]. split.
  - intros n Hn. apply In in Hn; [|exact Hr]. specialize (B2 n Hn). rewrite !Dc, S by exact Hr.
    rewrite <- !Rmult_minus_distr_r, !Rabs_mult, <- !minus_IZR, <- !abs_IZR. apply Rmult_le_compat_r; [apply Rabs_pos|]. now apply IZR_le.
  - intros t n Ht Hn. replace t with (e + (t - e)) in Hn by lia. apply In in Hn; [|lia]. apply (B3 (t - e) n); [lia|exact Hn].
Qed.

Lemma I_convex x y z : I x -> I y -> (x <= z <= y)%R -> I z.
Proof. unfold inR. destruct (Z.even m); lra. Qed.

(** The digits cannot be too many: a wide interval would contain a rounder number. *)
Lemma opt_digits : o * (3 + s) <= 10 * (4 * m + 2).
Proof.
  destruct Opt as (c & D & r & e & HD & Hc & Sc & Ek & Ho & Hr & B1 & B2 & B3).
  pose proof (pow10_pos r Hr) as Pr. set (T := 10 ^ (r + 1) * D).
  assert (PT : 0 < T) by (unfold T; apply Z.mul_pos_pos; [apply Z.pow_pos_nonneg; lia|exact HD]).
  assert (W : (3 + s) * c <= T).
  { apply Z.nlt_ge. intro W. set (n := (4 * m - 1 - s) * c / T + 1).
    pose proof (Z.div_mod ((4 * m - 1 - s) * c) T ltac:(lia)) as DM. pose proof (Z.mod_pos_bound ((4 * m - 1 - s) * c) T PT) as MB.
    apply (B3 (r + 1) n); [lia|]. rewrite <- Z.mul_assoc. fold T.
    assert ((4 * m - 1 - s) * c < n * T) by (unfold n; lia).
    assert (n * T < (4 * m + 2) * c) by (unfold n; lia). unfold inI. destruct (Z.even m); lia. }
  assert (U : o * 10 ^ r * D <= (4 * m + 2) * c) by (unfold inI in B1; destruct (Z.even m); lia).
  unfold T in W. rewrite Z.pow_add_r in W by lia. change (10 ^ 1) with 10 in W. set (w := 10 ^ r * D) in *.
  assert (Pw : 0 < w) by (unfold w; nia). replace (o * 10 ^ r * D) with (o * w) in U by (unfold w; ring).
  replace (10 ^ r * 10 * D) with (10 * w) in W by (unfold w; ring).
  assert (A1 : o * w * (3 + s) <= (4 * m + 2) * c * (3 + s)) by (apply Z.mul_le_mono_nonneg_r; lia).
  assert (A2 : (4 * m + 2) * ((3 + s) * c) <= (4 * m + 2) * (10 * w)) by (apply Z.mul_le_mono_nonneg_l; lia).
  apply (Z.mul_le_mono_pos_r _ _ w Pw). lia.
Qed.

(** number of decimal digits *)
Definition digits (n p : Z) : Prop := 1 <= p /\ 10 ^ (p - 1) <= n < 10 ^ p.

Lemma digits_pow n p : digits n p -> 10 ^ (p - 1) <= n <= 10 ^ p.
Proof. intros (A & B). lia. Qed.

(** a decimal of the interval has at least as many digits as [o]; 10^(digits of o - 1 + k) lies between *)
Lemma between n j p q : digits o p -> digits n q -> I (dec n j) -> j < k -> q <= p -> (dec (10 ^ (p - 1)) k <= dec o k)%R /\ (dec n j < dec (10 ^ (p - 1)) k)%R /\ I (dec (10 ^ (p - 1)) k).
Proof.
  intros Po Pn Hn Hj Hq. destruct opt_real as (_ & R1 & _ & _). destruct Po as (P1 & P2), Pn as (Q1 & Q2).
  assert (A : (dec (10 ^ (p - 1)) k <= dec o k)%R) by (apply dec_le; lia).
  assert (B : (dec n j < dec (10 ^ (p - 1)) k)%R).
  { replace k with (j + (k - j)) by lia. rewrite dec_shift by lia. rewrite <- Z.pow_add_r by lia.
    unfold dec. apply Rmult_lt_compat_r; [apply pow10_gt|]. apply IZR_lt. apply Z.lt_le_trans with (10 ^ q); [lia|].
    apply Z.pow_le_mono_r; lia. }
  split; [exact A|]. split; [exact B|]. apply (I_convex (dec n j) (dec o k)); [exact Hn|exact R1|lra].
Qed.

Theorem opt_shortest n j p q : digits o p -> digits n q -> I (dec n j) -> p <= q.
Proof.
  intros Po Pn Hn. destruct (Z.le_gt_cases p q) as [L|L]; [exact L|]. exfalso.
  destruct opt_real as (_ & R1 & _ & R3). pose proof Pn as (Q1 & _).
  destruct (Z.lt_ge_cases k j) as [G|G]; [now apply (R3 j n)|].
  destruct (Z.eq_dec j k) as [->|Nj].
  - (* same exponent, fewer digits: 10^(p-1) between, a multiple of 10^(k+1) *)
    destruct Po as (P1 & P2), Pn as (_ & Q2).
    assert (B : I (dec (10 ^ (p - 1)) k)).
    { apply (I_convex (dec n k) (dec o k)); [exact Hn|exact R1|]. split; apply dec_le; [|lia].
      apply Z.le_trans with (10 ^ q); [lia|]. apply Z.pow_le_mono_r; lia. }
    apply (R3 (k + 1) (10 ^ (p - 2))); [lia|]. rewrite dec_shift by lia. rewrite <- Z.pow_add_r by lia. replace (p - 2 + 1) with (p - 1) by lia. exact B.
  - destruct (between n j p q Po Pn Hn ltac:(lia) ltac:(lia)) as (_ & _ & B).
    apply (R3 (k + 1) (10 ^ (p - 2))); [lia|]. rewrite dec_shift by lia. rewrite <- Z.pow_add_r by lia. replace (p - 2 + 1) with (p - 1) by lia. exact B.
Qed.

(** the finitely many values whose interval reaches from 9*10^(k-1) to 10^k *)
Hypothesis Small : m <= 9 -> (dec 19 (k - 1) <= 2 * v)%R \/ (dec 9 (k - 1) < lo)%R.
Hypothesis Big : s = 0 -> 9 < m.

Theorem opt_closest n j p : digits o p -> digits n p -> I (dec n j) -> (Rabs (dec o k - v) <= Rabs (dec n j - v))%R.
Proof.
  intros Po Pn Hn. destruct opt_real as (_ & R1 & R2 & R3). pose proof Pn as (Q1 & Q2).
  destruct (Z.lt_ge_cases k j) as [G|G]; [exfalso; now apply (R3 j n)|].
  destruct (Z.eq_dec j k) as [->|Nj]; [now apply R2|].
  destruct (between n j p p Po Pn Hn ltac:(lia) ltac:(lia)) as (B1 & B2 & B).
  destruct (Z.eq_dec p 1) as [->|Np].
  2:{ exfalso. apply (R3 (k + 1) (10 ^ (p - 2))); [lia|]. rewrite dec_shift by lia. rewrite <- Z.pow_add_r by (destruct Po; lia). replace (p - 2 + 1) with (p - 1) by lia. exact B. }
  change (10 ^ (1 - 1)) with 1 in *. change (10 ^ 1) with 10 in *.
  pose proof (R2 1 B) as C. apply Rle_trans with (1 := C).
  destruct (Rle_lt_dec (dec 1 k) v) as [V|V].
  - rewrite !Rabs_left1 by lra. lra.
  - (* v < 10^k *)
    assert (Y : (dec n j <= dec 9 (k - 1))%R).
    { replace (k - 1) with (j + (k - 1 - j)) by lia. rewrite dec_shift by lia. apply dec_le.
      assert (1 <= 10 ^ (k - 1 - j)) by (apply (Z.pow_le_mono_r 10 0); lia). lia. }
    assert (T : (dec 1 k = dec 10 (k - 1))%R) by (replace k with (k - 1 + 1) at 1 by lia; rewrite dec_shift by lia; reflexivity).
    pose proof (inR_bounds _ _ _ _ Hn) as [Hn1 _]. pose proof (inR_bounds _ _ _ _ B) as [_ HB].
    assert (M9 : m <= 9).
    { pose proof (bpow_gt_0 radix2 e2) as Pb. set (b := bpow radix2 e2) in *.
      assert (E10 : (dec 10 (k - 1) * 9 = dec 9 (k - 1) * 10)%R) by (unfold dec; ring).
      assert (X : (IZR (4 * m - 1 - s) * 10 * b <= IZR (4 * m + 2) * 9 * b)%R) by lra.
      apply Rmult_le_reg_r in X; [|exact Pb]. rewrite <- !mult_IZR in X. apply le_IZR in X. destruct Hs as [Hs0|Hs1]; [specialize (Big Hs0); lia|lia]. }
    destruct (Small M9) as [S1|S1]; [|lra].
    assert (E19 : (dec 19 (k - 1) = dec 10 (k - 1) + dec 9 (k - 1))%R) by (unfold dec; ring).
    rewrite Rabs_pos_eq by lra. rewrite Rabs_left1; lra.
Qed.
End O.
