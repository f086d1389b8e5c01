(** A fast evaluator for single precision arithmetic on pairs (mantissa, exponent), proved equal to the model's operations,
    for the exhaustive checks of FmathTrig.v. *)
From Coq Require Import ZArith Bool Lia Reals Lra Psatz.
From Flocq Require Import Core IEEE754.Binary IEEE754.Bits.
From Verif Require Import Mem AlgoModel FpModel FpProofs RoundModel RoundProofs LitModel LimModel FmathModel FmathReal FmathStep.
Open Scope Z_scope.

Definition vf (x : Z * Z) : R := (IZR (fst x) * bpow radix2 (snd x))%R.

Definition rne (n s : Z) : Z :=
  let q := Z.shiftr n s in
  match Z.compare (2 * (n - Z.shiftl q s)) (Z.shiftl 1 s) with
  | Lt => q | Gt => q + 1 | Eq => if Z.even q then q else q + 1
  end.

Lemma rne_ok n s : 0 < s -> ZnearestE (IZR n * bpow radix2 (- s)) = rne n s.
Proof.
  intro Hs. unfold rne. rewrite Z.shiftr_div_pow2, !Z.shiftl_mul_pow2, Z.mul_1_l by lia.
  assert (P := Z.pow_pos_nonneg 2 s ltac:(lia) ltac:(lia)).
  assert (E : (IZR n * bpow radix2 (- s) = IZR n / IZR (2 ^ s))%R).
  { rewrite bpow_opp. unfold Rdiv. f_equal. f_equal. rewrite <- IZR_Zpower by lia. reflexivity. }
  assert (Fl : Zfloor (IZR n * bpow radix2 (- s)) = n / 2 ^ s) by (rewrite E; apply Zfloor_div; lia).
  pose proof (Z.div_mod n (2 ^ s) ltac:(lia)) as DM. pose proof (Z.mod_pos_bound n (2 ^ s) P) as MB.
  set (q := n / 2 ^ s) in *. set (r := n mod 2 ^ s) in *.
  assert (PR : (0 < IZR (2 ^ s))%R) by (apply IZR_lt; lia).
  assert (D : (IZR n * bpow radix2 (- s) - IZR q = IZR r / IZR (2 ^ s))%R).
  { rewrite E. rewrite DM at 1. rewrite plus_IZR, mult_IZR. field. lra. }
  assert (C : Zceil (IZR n * bpow radix2 (- s)) = if r =? 0 then q else q + 1).
  { destruct (Z.eqb_spec r 0) as [Z0|Z0].
    - rewrite Z0 in D. unfold Rdiv in D. rewrite Rmult_0_l in D. replace (IZR n * bpow radix2 (- s))%R with (IZR q) by lra. apply Zceil_IZR.
    - rewrite Zceil_floor_neq, Fl; [reflexivity|]. rewrite Fl. intro X. rewrite <- X, Rminus_diag_eq in D by reflexivity.
      assert (0 < IZR r / IZR (2 ^ s))%R by (apply Rdiv_lt_0_compat; [apply IZR_lt; lia|exact PR]). lra. }
  unfold Znearest. rewrite C, Fl, D.
  replace (n - q * 2 ^ s) with r by lia.
  assert (HR : (/ 2 = IZR (2 ^ s) / 2 / IZR (2 ^ s))%R) by (field; lra).
  destruct (Z.compare_spec (2 * r) (2 ^ s)) as [H|H|H].
  - replace (Rcompare (IZR r / IZR (2 ^ s)) (/ 2)) with Eq.
    + destruct (Z.eqb_spec r 0); [lia|]. destruct (Z.even q); reflexivity.
    + symmetry. apply Rcompare_Eq. rewrite <- H, mult_IZR. field. apply not_0_IZR. intro Z0. lia.
  - replace (Rcompare (IZR r / IZR (2 ^ s)) (/ 2)) with Lt; [reflexivity|].
    symmetry. apply Rcompare_Lt. rewrite HR. apply Rmult_lt_compat_r; [now apply Rinv_0_lt_compat|].
    apply IZR_lt in H. rewrite mult_IZR in H. lra.
  - replace (Rcompare (IZR r / IZR (2 ^ s)) (/ 2)) with Gt.
    + destruct (Z.eqb_spec r 0); [lia|]. reflexivity.
    + symmetry. apply Rcompare_Gt. rewrite HR. apply Rmult_lt_compat_r; [now apply Rinv_0_lt_compat|].
      apply IZR_lt in H. rewrite mult_IZR in H. lra.
Qed.

Definition frnd (x : Z * Z) : Z * Z :=
  let '(n, e) := x in
  let s := Z.log2 (Z.abs n) - 23 in
  if s <=? 0 then (n, e) else (rne n s, e + s).

Lemma frnd_ok x : -149 <= snd x -> rnd (vf x) = vf (frnd x).
Proof.
  destruct x as [n e]. cbn [fst snd]. intro He. unfold frnd. destruct (Z.leb_spec (Z.log2 (Z.abs n) - 23) 0) as [H|H].
  - unfold vf; cbn [fst snd]. apply rnd_F2R; [|exact He].
    destruct (Z.eq_dec n 0) as [->|N]; [reflexivity|]. apply Z.log2_lt_pow2; lia.
  - set (s := Z.log2 (Z.abs n) - 23) in *.
    assert (N : n <> 0) by (intros ->; cbn in s; lia).
    unfold vf; cbn [fst snd]. unfold rnd, round.
    assert (CE : cexp radix2 fexp32 (IZR n * bpow radix2 e) = e + s).
    { unfold cexp. rewrite (mag_unique radix2 (IZR n * bpow radix2 e) (Z.log2 (Z.abs n) + 1 + e)).
      - unfold fexp32, FLT_exp. lia.
      - rewrite Rabs_mult, <- abs_IZR, (Rabs_pos_eq (bpow radix2 e)) by apply bpow_ge_0.
        destruct (Z.log2_spec (Z.abs n) ltac:(lia)) as [L1 L2].
        replace (Z.log2 (Z.abs n) + 1 + e - 1) with (Z.log2 (Z.abs n) + e) by lia. rewrite !bpow_plus.
        split; [apply Rmult_le_compat_r; [apply bpow_ge_0|]|apply Rmult_lt_compat_r; [apply bpow_gt_0|]].
        + rewrite <- IZR_Zpower by apply Z.log2_nonneg. apply IZR_le. exact L1.
        + change (bpow radix2 1) with 2%R. rewrite <- IZR_Zpower by apply Z.log2_nonneg. rewrite <- mult_IZR. apply IZR_lt.
          rewrite Z.pow_succ_r in L2 by apply Z.log2_nonneg. change (radix2 : Z) with 2. lia. }
    unfold scaled_mantissa. rewrite CE. unfold F2R; cbn [Fnum Fexp]. f_equal. f_equal.
    rewrite Rmult_assoc, <- bpow_plus. replace (e + - (e + s)) with (- s) by lia. apply rne_ok. lia.
Qed.

Definition okf (x : Z * Z) : bool := (-149 <=? snd x) && (snd x <=? 0) && (Z.abs (fst x) <? 1329227995784915872903807060280344576).

Lemma okf_ok x : okf x = true -> -149 <= snd x /\ (Rabs (vf x) <= bpow radix2 127)%R.
Proof.
  unfold okf. rewrite !andb_true_iff, !Z.leb_le, Z.ltb_lt. intros [[H1 H2] H3]. split; [exact H1|].
  unfold vf. rewrite Rabs_mult, <- abs_IZR, (Rabs_pos_eq (bpow _ _)) by apply bpow_ge_0.
  replace (bpow radix2 127) with (bpow radix2 127 * bpow radix2 0)%R by (apply Rmult_1_r).
  apply Rmult_le_compat; [apply IZR_le; lia|apply bpow_ge_0| |now apply bpow_le].
  rewrite <- IZR_Zpower by lia. apply IZR_le. change (radix2 : Z) with 2. lia.
Qed.

Definition fmul (x y : Z * Z) : option (Z * Z) :=
  let p := (fst x * fst y, snd x + snd y) in if okf p then Some (frnd p) else None.
Definition fadd (x y : Z * Z) : option (Z * Z) :=
  let e := Z.min (snd x) (snd y) in
  let p := (Z.shiftl (fst x) (snd x - e) + Z.shiftl (fst y) (snd y - e), e) in if okf p then Some (frnd p) else None.
Definition fmadd (x y z : Z * Z) : option (Z * Z) := match fmul x y with Some p => fadd p z | None => None end.

Definition rep (a : Z) (x : Z * Z) : Prop := fin a /\ V a = vf x.

Lemma fmul_ok a b x y z : rep a x -> rep b y -> fmul x y = Some z -> rep (mulf a b) z.
Proof.
  intros [Fa Ea] [Fb Eb]. unfold fmul. destruct (okf _) eqn:K; [|discriminate]. intros [= <-]. apply okf_ok in K. destruct K as [K1 K2].
  assert (E : (V a * V b = vf (fst x * fst y, snd x + snd y)%Z)%R).
  { rewrite Ea, Eb. unfold vf. cbn [fst snd]. rewrite mult_IZR, bpow_plus. ring. }
  destruct (mul_ok a b Fa Fb) as [F1 V1]; [now rewrite E|]. split; [exact F1|]. rewrite V1, E. now apply frnd_ok.
Qed.

Lemma fadd_ok a b x y z : rep a x -> rep b y -> fadd x y = Some z -> rep (addf a b) z.
Proof.
  intros [Fa Ea] [Fb Eb]. unfold fadd. set (e := Z.min (snd x) (snd y)). destruct (okf _) eqn:K; [|discriminate]. intros [= <-]. apply okf_ok in K. destruct K as [K1 K2].
  assert (E : (V a + V b = vf (Z.shiftl (fst x) (snd x - e) + Z.shiftl (fst y) (snd y - e), e)%Z)%R).
  { rewrite Ea, Eb. unfold vf. cbn [fst snd]. rewrite !Z.shiftl_mul_pow2 by lia. rewrite plus_IZR, !mult_IZR.
    change 2 with (radix2 : Z). rewrite !IZR_Zpower by lia. rewrite Rmult_plus_distr_r, !Rmult_assoc, <- !bpow_plus.
    f_equal; f_equal; f_equal; lia. }
  destruct (add_ok a b Fa Fb) as [F1 V1]; [now rewrite E|]. split; [exact F1|]. rewrite V1, E. now apply frnd_ok.
Qed.

Lemma fmadd_ok a b c x y z w : rep a x -> rep b y -> rep c z -> fmadd x y z = Some w -> rep (madd a b c) w.
Proof.
  intros A B C. unfold fmadd. destruct (fmul x y) as [p|] eqn:M; [|discriminate]. intro H. unfold madd.
  exact (fadd_ok _ _ _ _ _ (fmul_ok _ _ _ _ _ A B M) C H).
Qed.

Lemma rep_const c n d e : cok c = true -> cnum c = n -> cden c = d -> d = 2 ^ e -> 0 <= e -> rep c (n, - e).
Proof.
  intros K1 K2 K3 -> He. destruct (const_ok c n (2 ^ e) K1 K2 K3) as (_ & F & E). split; [exact F|].
  rewrite E. unfold vf. cbn [fst snd]. rewrite bpow_opp. unfold Rdiv. f_equal. f_equal. rewrite <- IZR_Zpower by lia. reflexivity.
Qed.

Fixpoint all_from (f : Z -> bool) (n : nat) (b : Z) : bool :=
  match n with O => true | S n => f b && all_from f n (b + 1) end.

Lemma all_from_ok f n b x : all_from f n b = true -> b <= x < b + Z.of_nat n -> f x = true.
Proof.
  revert b; induction n as [|n IH]; intros b H L; [lia|]. cbn [all_from] in H. apply andb_true_iff in H. destruct H as [H1 H2].
  destruct (Z.eq_dec x b) as [->|N]; [assumption|]. apply (IH (b + 1) H2). lia.
Qed.
