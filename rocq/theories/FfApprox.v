(** The product approximation of decimal_to_binary.h against the exact product. *)
From Coq Require Import ZArith List Bool Lia Reals Lra Znumtheory.
From Flocq Require Import Core.
From Verif Require Import Mem FpModel FpProofs LitModel LitProofs LimProps RyuRound RyuArith FfTable FfModel FfWord FfPow.
Import ListNotations.
Open Scope Z_scope.

(** ** The product approximation *)
Section A.
Variables (t : target) (p q w : Z).
Hypothesis Hp : 2 <= p < 64.
Hypothesis Hq : -342 <= q <= 308.
Hypothesis Hw : 2 ^ 63 <= w < 2 ^ 64.
Notation X := (IZR w * F5 q)%R.
Let En : entry q := entry_facts q Hq.

(** one product sufficed, or both were used *)
Inductive approx (low high : Z) : Prop :=
  | ap_one : high * 2 ^ 64 + low = w * t0 q -> high mod 2 ^ (64 - p) <> 2 ^ (64 - p) - 1 -> approx low high
  | ap_two : high * 2 ^ 64 + low = w * t0 q + w * t1 q / 2 ^ 64 -> approx low high.

Lemma approx_cases : exists low high, compute_product_approximation t p q w = Ok (low, high) /\
  0 <= low < 2 ^ 64 /\ 2 ^ 62 <= high < 2 ^ 64 /\ approx low high.
Proof.
  pose proof (en_t0 q En) as B0. pose proof (en_t1 q En) as B1.
  unfold compute_product_approximation. destruct (table_t0 q Hq) as [E0 E1]. rewrite E0, E1. cbn [bind].
  rewrite !full_multiplication_ok by lia. replace (p <? 64) with true by lia.
  assert (M : (2 ^ 64 - 1) / 2 ^ p = 2 ^ (64 - p) - 1).
  { symmetry. apply Z.div_unique with (2 ^ p - 1); [left; pose proof (Z.pow_pos_nonneg 2 p); lia|]. rewrite Z.mul_sub_distr_l, <- Z.pow_add_r by lia. replace (p + (64 - p)) with 64 by lia. lia. }
  rewrite M, land_mask by lia. change (2 ^ 64) with 18446744073709551616 in *. change (2 ^ 63) with 9223372036854775808 in *. change (2 ^ 62) with 4611686018427387904 in *.
  set (K := 18446744073709551616) in *. assert (HK : K = 18446744073709551616) by reflexivity.
  pose proof (Z.div_mod (w * t0 q) K ltac:(lia)) as D0. pose proof (Z.mod_pos_bound (w * t0 q) K ltac:(lia)) as R0.
  set (h := w * t0 q / K) in *. set (l := (w * t0 q) mod K) in *.
  assert (P0 : 9223372036854775808 * 9223372036854775808 <= w * t0 q <= (K - 1) * (K - 1)) by nia.
  assert (P1 : 0 <= w * t1 q <= (K - 1) * (K - 1)) by nia.
  assert (Rh : 4611686018427387904 <= h <= K - 2) by nia.
  destruct (Z.eqb_spec (h mod 2 ^ (64 - p)) (2 ^ (64 - p) - 1)) as [C|C].
  - set (s := w * t1 q / K). assert (Rs : 0 <= s <= K - 2) by (unfold s; split; [apply Z.div_pos; lia|apply Z.lt_succ_r; apply Z.div_lt_upper_bound; nia]).
    unfold u64. change (2 ^ 64) with K. exists ((l + s) mod K). exists (if (l + s) mod K <? s then (h + 1) mod K else h). split; [reflexivity|].
    split; [apply Z.mod_pos_bound; lia|]. destruct (Z.lt_ge_cases (l + s) K) as [L|L].
    + rewrite Z.mod_small by lia. replace (l + s <? s) with false by lia. split; [lia|]. apply ap_two. change (2 ^ 64) with K. fold s. lia.
    + assert (E : (l + s) mod K = l + s - K) by (symmetry; apply Z.mod_unique with 1; lia). rewrite E. replace (l + s - K <? s) with true by lia.
      rewrite Z.mod_small by lia. split; [lia|]. apply ap_two. change (2 ^ 64) with K. fold s. lia.
  - exists l, h. split; [reflexivity|]. split; [lia|]. split; [lia|]. apply ap_one; [change (2 ^ 64) with K; lia|exact C].
Qed.

(** a multiple of 2^128 this close to X is X *)
Lemma gap h c : -27 <= q < 0 -> (Rabs (X - IZR h * bpow radix2 128) < c)%R -> (c * IZR (5 ^ (- q)) <= bpow radix2 128)%R -> X = (IZR h * bpow radix2 128)%R.
Proof.
  intros Q A C. destruct (en_neg q En ltac:(lia)) as [N G]. assert (P5 : (0 < IZR (5 ^ (- q)))%R) by (apply IZR_lt, Z.pow_pos_nonneg; lia).
  set (d := w * 2 ^ (- e5 q - 128) - h * 5 ^ (- q)).
  assert (E : ((X - IZR h * bpow radix2 128) * IZR (5 ^ (- q)) = IZR d * bpow radix2 128)%R).
  { unfold d. rewrite minus_IZR, !mult_IZR, <- (bpow2 (- e5 q - 128)) by lia.
    replace ((IZR w * F5 q - IZR h * bpow radix2 128) * IZR (5 ^ (- q)))%R with (IZR w * (F5 q * IZR (5 ^ (- q))) - IZR h * IZR (5 ^ (- q)) * bpow radix2 128)%R by ring.
    rewrite N, <- bpow2 by lia. replace (- e5 q) with (- e5 q - 128 + 128) at 1 by lia. rewrite bpow_plus. ring. }
  pose proof (bpow_gt_0 radix2 128) as P. assert (D0 : d = 0).
  { destruct (Z.eq_dec d 0) as [Z0|Z0]; [exact Z0|]. exfalso. apply (f_equal Rabs) in E. rewrite !Rabs_mult, (Rabs_pos_eq (IZR (5 ^ (- q)))), (Rabs_pos_eq (bpow radix2 128)), <- abs_IZR in E by lra.
    assert (1 <= IZR (Z.abs d))%R by (apply IZR_le; lia). nra. }
  rewrite D0, Rmult_0_l in E. apply Rmult_integral in E. lra.
Qed.

Lemma fives k : 0 <= k <= 27 -> (IZR (5 ^ k) <= IZR (5 ^ 27))%R.
Proof. intro H. apply IZR_le. apply Z.pow_le_mono_r; lia. Qed.
Lemma wR : (bpow radix2 63 <= IZR w < bpow radix2 64)%R.
Proof. rewrite !bpow2 by lia. split; [apply IZR_le|apply IZR_lt]; lia. Qed.

Lemma TR : (IZR w * IZR (T q) = IZR (w * t0 q) * bpow radix2 64 + IZR (w * t1 q))%R.
Proof. unfold T. rewrite bpow2 by lia. rewrite plus_IZR, !mult_IZR. ring. Qed.

(** the high word, cut at [s], is the exact quotient cut there *)
Lemma approx_floor low high s : 0 <= low < 2 ^ 64 -> 0 <= high -> approx low high -> (low = 2 ^ 64 - 1 -> -27 <= q <= 55) -> 64 - p <= s ->
  (IZR (high / 2 ^ s) * bpow radix2 (128 + s) <= X < (IZR (high / 2 ^ s) + 1) * bpow radix2 (128 + s))%R.
Proof.
  intros Hl Hh HA Hf Hs. pose proof (en_t0 q En) as B0. pose proof (en_t1 q En) as B1. pose proof wR as WR. pose proof TR as TT. assert (W0 : (0 < IZR w)%R) by (apply IZR_lt; lia).
  assert (Ps : 0 < 2 ^ s) by (apply Z.pow_pos_nonneg; lia). pose proof (Z.div_mod high (2 ^ s) ltac:(lia)) as Dm. pose proof (Z.mod_pos_bound high (2 ^ s) Ps) as Rm.
  rewrite Z.add_comm, bpow_plus, (bpow2 s) by lia.
  assert (B128 : (bpow radix2 128 = bpow radix2 64 * bpow radix2 64)%R) by (rewrite <- bpow_plus; reflexivity).
  assert (E64 : (bpow radix2 64 = IZR (2 ^ 64))%R) by (now rewrite bpow2 by lia).
  assert (P64 : (0 < bpow radix2 64)%R) by apply bpow_gt_0. assert (P128 : (0 < bpow radix2 128)%R) by apply bpow_gt_0.
  assert (G : (IZR high * bpow radix2 128 <= X)%R /\ exists h', (X < (IZR h') * bpow radix2 128)%R /\ h' <= (high / 2 ^ s + 1) * 2 ^ s).
  { destruct HA as [HA Hm|HA].
    - assert (L : (IZR (w * t0 q) * bpow radix2 64 <= X)%R /\ (X < IZR (w * t0 q) * bpow radix2 64 + bpow radix2 128)%R).
      { assert (W1 : (0 <= IZR w * IZR (t1 q))%R) by (apply Rmult_le_pos; [lra|apply IZR_le; lia]).
        assert (W2 : (IZR w * (IZR (t1 q) + 1) <= IZR w * bpow radix2 64)%R) by (apply Rmult_le_compat_l; [lra|]; rewrite bpow2 by lia; rewrite <- plus_IZR; apply IZR_le; lia).
        assert (W3 : (IZR w * bpow radix2 64 < bpow radix2 128)%R) by (rewrite B128; apply Rmult_lt_compat_r; lra).
        rewrite mult_IZR in TT. destruct (Z_lt_dec q 0) as [Q|Q]; [destruct (Z_lt_dec q (-27)) as [Q2|Q2]|].
        - destruct (en_trunc q En ltac:(lia)) as [C1 C2]. assert (0 <= IZR w)%R by lra. rewrite mult_IZR in *. split; nra.
        - destruct (en_up q En ltac:(lia)) as [[C1 C2] C3]. apply IZR_le in C3. rewrite mult_IZR in *. assert (0 <= IZR w)%R by lra. split; nra.
        - destruct (en_trunc q En ltac:(lia)) as [C1 C2]. assert (0 <= IZR w)%R by lra. rewrite mult_IZR in *. split; nra. }
      destruct L as [L1 L2]. rewrite <- HA, plus_IZR, mult_IZR, <- E64 in L1, L2. assert (0 <= IZR low < bpow radix2 64)%R by (rewrite bpow2 by lia; split; [apply IZR_le|apply IZR_lt]; lia).
      split; [rewrite B128; nra|]. exists (high + 2). split; [rewrite plus_IZR, B128; rewrite B128 in L2; nra|].
      assert (P2 : 0 < 2 ^ (64 - p)) by (apply Z.pow_pos_nonneg; lia).
      assert (N : high mod 2 ^ s <> 2 ^ s - 1).
      { intro C. apply Hm. replace s with ((s - (64 - p)) + (64 - p)) in C by lia. rewrite Z.pow_add_r in C by lia. set (a := 2 ^ (s - (64 - p))) in *. set (c := 2 ^ (64 - p)) in *.
        assert (Pa : 0 < a) by (apply Z.pow_pos_nonneg; lia). symmetry. apply Z.mod_unique with (high / (a * c) * a + (a - 1)); [lia|]. pose proof (Z.div_mod high (a * c) ltac:(nia)) as DM. rewrite C in DM. rewrite DM at 1. ring. }
      lia.
    - assert (DV := Z.div_mod (w * t1 q) (2 ^ 64) ltac:(lia)). pose proof (Z.mod_pos_bound (w * t1 q) (2 ^ 64) ltac:(lia)) as RV.
      set (P := high * 2 ^ 64 + low) in *.
      assert (LP : (IZR P * bpow radix2 64 <= IZR w * IZR (T q) < (IZR P + 1) * bpow radix2 64)%R).
      { rewrite TT, E64, <- plus_IZR, <- !mult_IZR, <- plus_IZR. split; [apply IZR_le|apply IZR_lt]; lia. }
      assert (EP : (IZR P = IZR high * bpow radix2 64 + IZR low)%R) by (unfold P; rewrite E64, plus_IZR, mult_IZR; reflexivity).
      assert (RL : (0 <= IZR low <= bpow radix2 64 - 1)%R) by (rewrite E64; rewrite <- minus_IZR; split; apply IZR_le; lia).
      split.
      + destruct (Z_lt_dec q 0) as [Q|Q]; [destruct (Z_lt_dec q (-27)) as [Q2|Q2]|].
        * destruct (en_trunc q En ltac:(lia)) as [C1 C2]. rewrite B128. nra.
        * destruct (en_up q En ltac:(lia)) as [[C1 C2] C3]. destruct (Rle_lt_dec (IZR high * bpow radix2 128) X) as [Y|Y]; [exact Y|].
          rewrite (gap high (bpow radix2 64)); [apply Rle_refl|lia| |].
          -- rewrite Rabs_left1 by lra. assert (IZR high * bpow radix2 128 <= IZR w * IZR (T q))%R by (rewrite B128; nra). nra.
          -- rewrite B128. apply Rmult_le_compat_l; [lra|]. apply Rle_trans with (IZR (5 ^ 27)); [apply fives; lia|]. rewrite E64. apply IZR_le. vm_compute. discriminate.
        * destruct (en_trunc q En ltac:(lia)) as [C1 C2]. rewrite B128. nra.
      + exists (high + 1). split; [|lia]. rewrite plus_IZR, B128. destruct (Z.eq_dec low (2 ^ 64 - 1)) as [LE|LE].
        * specialize (Hf LE). destruct (Z_lt_dec q 0) as [Q|Q].
          -- destruct (en_up q En ltac:(lia)) as [[C1 C2] C3]. nra.
          -- rewrite (en_exact q En ltac:(lia)). nra.
        * assert (RL2 : (IZR low <= bpow radix2 64 - 2)%R) by (rewrite E64, <- minus_IZR; apply IZR_le; lia).
          assert (C2 : (F5 q < IZR (T q) + 1)%R). { destruct (Z_lt_dec q 0) as [Q|Q]; [destruct (Z_lt_dec q (-27)) as [Q2|Q2]|]; [apply (en_trunc q En); lia|destruct (en_up q En ltac:(lia)); lra|apply (en_trunc q En); lia]. }
          nra. }
  destruct G as [G1 (h' & G2 & G3)]. assert (H1 : high / 2 ^ s * 2 ^ s <= high) by lia. apply IZR_le in H1, G3. rewrite mult_IZR in H1, G3. rewrite plus_IZR in G3. split.
  - eapply Rle_trans; [|exact G1]. rewrite <- Rmult_assoc. apply Rmult_le_compat_r; lra.
  - eapply Rlt_le_trans; [exact G2|]. rewrite <- Rmult_assoc. apply Rmult_le_compat_r; lra.
Qed.
End A.

(** ** Exact halves *)
Lemma rel_odd x j : 0 <= j -> Z.odd x = true -> rel_prime x (2 ^ j).
Proof.
  intros Hj Ho. apply rel_prime_sym. rewrite <- (Z.pow_1_r x). apply Zpow_facts.rel_prime_Zpower; [lia|lia|]. apply prime_rel_prime; [exact prime_2|].
  intros [k E]. rewrite E, Z.odd_mul in Ho. cbn in Ho. rewrite andb_false_r in Ho. discriminate.
Qed.
Lemma odd5 k : 0 <= k -> Z.odd (5 ^ k) = true.
Proof. intro H. destruct (Z.eq_dec k 0) as [->|N]; [reflexivity|]. rewrite Z.odd_pow by lia. reflexivity. Qed.
(** if 2^(n+d) | v t then 2^(d+1) | t, because v < 2^n *)
Lemma div_cancel d t n : 0 <= d -> 0 <= n -> forall v, 0 < v < 2 ^ n -> (2 ^ (n + d) | v * t) -> (2 ^ (d + 1) | t).
Proof.
  intros Hd Hn. pattern n. apply natlike_ind; [| |lia].
  - intros v Hv. cbn in Hv. lia.
  - clear n Hn. intros n Hn IH v Hv Dv. destruct (Z.odd v) eqn:Ov.
    + apply Gauss in Dv; [|apply rel_prime_sym, rel_odd; [lia|exact Ov]]. apply Z.divide_trans with (2 ^ (Z.succ n + d)); [|exact Dv].
      exists (2 ^ n). rewrite <- Z.pow_add_r by lia. f_equal. lia.
    + rewrite <- Z.negb_even, negb_false_iff, Z.even_spec in Ov. destruct Ov as [u ->]. rewrite Z.pow_succ_r in Hv by lia. apply (IH u); [lia|].
      destruct Dv as [k E]. exists k. rewrite Z.add_succ_l, Z.pow_succ_r in E by lia. lia.
Qed.
Lemma inv_unique D i t w : 0 < D -> 0 <= i < D -> 0 <= w < D -> (i * t) mod D = 1 -> (w * t) mod D = 1 -> w = i.
Proof.
  intros HD Hi Hw I C. transitivity (w mod D); [now rewrite Z.mod_small|]. transitivity (i mod D); [|now rewrite Z.mod_small]. transitivity ((w * (i * t)) mod D).
  - rewrite <- Z.mul_mod_idemp_r, I, Z.mul_1_r by lia. reflexivity.
  - replace (w * (i * t)) with (i * (w * t)) by ring. rewrite <- Z.mul_mod_idemp_r, C, Z.mul_1_r by lia. reflexivity.
Qed.
Lemma fake_tie d t w : 0 <= d -> 0 < t -> 0 < w < 2 ^ 64 -> no_fake_tie d t = true -> (w * t) mod 2 ^ (64 + d) <> 0 /\ (w * t) mod 2 ^ (64 + d) <> 1.
Proof.
  intros Hd Ht Hw H. assert (PD : 2 ^ 64 <= 2 ^ (64 + d)) by (apply Z.pow_le_mono_r; lia).
  assert (EvD : Z.even (2 ^ (64 + d)) = true) by (replace (64 + d) with (Z.succ (63 + d)) by lia; rewrite Z.pow_succ_r, Z.even_mul by lia; reflexivity).
  unfold no_fake_tie in H. destruct (Z.odd t) eqn:O.
  - apply andb_true_iff in H. destruct H as [I1 I2]. apply Z.leb_le in I1. apply Z.eqb_eq in I2. split; intro C.
    + apply Z.mod_divide in C; [|lia]. rewrite Z.mul_comm in C. apply Gauss in C; [|apply rel_prime_sym, rel_odd; [lia|exact O]].
      apply Z.divide_pos_le in C; lia.
    + pose proof (inverse_range (2 ^ (64 + d)) t ltac:(lia)) as Ri. pose proof (inv_unique (2 ^ (64 + d)) (inverse (2 ^ (64 + d)) t) t w ltac:(lia) Ri ltac:(lia) I2 C). lia.
  - apply andb_true_iff in H. destruct H as [_ H]. apply negb_true_iff, Z.eqb_neq in H. split; intro C.
    + apply Z.mod_divide in C; [|lia]. apply H. apply Z.mod_divide; [apply Z.pow_nonzero; lia|]. exact (div_cancel d t 64 Hd ltac:(lia) w Hw C).
    + assert (E : Z.even (w * t) = true) by (rewrite Z.even_mul, <- (Z.negb_odd t), O; apply orb_true_r).
      pose proof (Z.div_mod (w * t) (2 ^ (64 + d)) ltac:(lia)) as DM. rewrite C in DM. rewrite DM, Z.even_add, Z.even_mul, EvD in E. discriminate.
Qed.

Section B.
Variables (p q lo hi w0 lz M drop low high : Z).
Hypothesis Hp : 2 <= p < 64.
Hypothesis Hq : -342 <= q <= 308.
Hypothesis Hw0 : 0 < w0 < 2 ^ 64.
Hypothesis Hlz : 0 <= lz.
Notation w := (w0 * 2 ^ lz).
Hypothesis Hw : 2 ^ 63 <= w < 2 ^ 64.
Notation X := (IZR w * F5 q)%R.
Hypothesis Hlo : -27 <= lo < 0.
Hypothesis Hhi : 0 <= hi <= 27.
Hypothesis Hhi2 : 2 ^ (p - 1) <= 5 ^ (hi + 1).
Hypothesis Hlo2 : 2 ^ 64 <= 2 ^ (p - 2) * 5 ^ (1 - lo).
Hypothesis Hfake : forall q, lo <= q < 0 -> no_fake_tie (64 - p) (t0 q) = true.
Hypothesis HM : 2 ^ (p - 2) <= M < 2 ^ (p - 1).
Hypothesis Modd : Z.odd M = true.
Hypothesis Hdrop : 64 - p <= drop.
Notation Mh := (M * 2 ^ drop).
Hypothesis Hl : 0 <= low < 2 ^ 64.
Hypothesis HA : approx p q w low high.
Let En : entry q := entry_facts q Hq.
Let Pd : 0 < 2 ^ drop. Proof. apply Z.pow_pos_nonneg; lia. Qed.

Lemma tie_range : X = (IZR Mh * bpow radix2 128)%R -> lo <= q <= hi.
Proof.
  intro E. assert (PM : 0 < M) by (pose proof (Z.pow_pos_nonneg 2 (p - 2)); lia). destruct (Z_lt_dec q 0) as [Q|Q].
  - destruct (en_neg q En Q) as [N G]. split; [|lia]. destruct (Z.le_gt_cases lo q) as [?|L]; [assumption|exfalso].
    assert (I : Mh * 2 ^ 128 * 5 ^ (- q) = w * 2 ^ (- e5 q)).
    { apply eq_IZR. rewrite !mult_IZR, <- N, <- !bpow2 by lia.
      rewrite !mult_IZR, <- !bpow2 in E by lia. replace (IZR w0 * bpow radix2 lz * (F5 q * IZR (5 ^ - q)))%R with (IZR w0 * bpow radix2 lz * F5 q * IZR (5 ^ - q))%R by ring. rewrite E. ring. }
    assert (Dv : (M * 5 ^ (- q) | 2 ^ (lz - e5 q) * w0)).
    { exists (2 ^ (drop + 128)). rewrite (Z.pow_add_r 2 drop) by lia. replace (lz - e5 q) with (lz + - e5 q) by lia. rewrite Z.pow_add_r by lia. lia. }
    apply Gauss in Dv; [|apply rel_odd; [lia|]; rewrite Z.odd_mul, Modd, odd5 by lia; reflexivity].
    apply Z.divide_pos_le in Dv; [|lia]. assert (5 ^ (1 - lo) <= 5 ^ (- q)) by (apply Z.pow_le_mono_r; lia).
    assert (2 ^ (p - 2) * 5 ^ (1 - lo) <= M * 5 ^ (- q)) by (apply Z.mul_le_mono_nonneg; try lia; apply Z.pow_nonneg; lia). lia.
  - split; [lia|]. destruct (Z.le_gt_cases q hi) as [?|L]; [assumption|exfalso].
    assert (R : 0 <= e5 q + 127) by (unfold e5; assert (q <= 217706 * q / 65536) by (apply Z.div_le_lower_bound; lia); lia).
    assert (I : w * 5 ^ q = Mh * 2 ^ (128 + e5 q)).
    { apply eq_IZR. rewrite !mult_IZR, <- !bpow2 by lia. rewrite !mult_IZR, <- !bpow2 in E by lia. unfold F5 in E. rewrite five_pow in E by lia.
      rewrite bpow_plus. rewrite <- Rmult_assoc, <- E. replace (IZR w0 * bpow radix2 lz * (IZR (5 ^ q) * bpow radix2 (- e5 q)) * bpow radix2 (e5 q))%R with (IZR w0 * bpow radix2 lz * IZR (5 ^ q) * (bpow radix2 (e5 q) * bpow radix2 (- e5 q)))%R by ring. rewrite two_inv. ring. }
    assert (Dv : (5 ^ q | 2 ^ (drop + (128 + e5 q)) * M)). { exists w. rewrite Z.pow_add_r by lia. lia. }
    apply Gauss in Dv; [|apply rel_odd; [lia|apply odd5; lia]]. apply Z.divide_pos_le in Dv; [|lia].
    assert (5 ^ (hi + 1) <= 5 ^ q) by (apply Z.pow_le_mono_r; lia). lia.
Qed.

Lemma tie_fwd : X = (IZR Mh * bpow radix2 128)%R -> lo <= q <= hi /\ low = 0 /\ high = Mh.
Proof.
  intro E. pose proof (tie_range E) as Rq. split; [exact Rq|]. pose proof (en_t0 q En) as B0. pose proof (en_t1 q En) as B1.
  assert (B128 : (bpow radix2 128 = IZR (2 ^ 64) * IZR (2 ^ 64))%R) by (rewrite <- !bpow2, <- bpow_plus by lia; reflexivity).
  pose proof (TR q w) as TT. rewrite bpow2 in TT by lia. destruct (Z_lt_dec q 0) as [Q|Q].
  - destruct (en_up q En ltac:(lia)) as [[C1 C2] C3].
    assert (PW : (0 < IZR w)%R) by (apply IZR_lt; lia).
    assert (R1 : IZR (w * t0 q * 2 ^ 64 + w * t1 q) = (IZR w * IZR (T q))%R) by (rewrite (plus_IZR (w * t0 q * 2 ^ 64)), (mult_IZR (w * t0 q) (2 ^ 64)); symmetry; exact TT).
    assert (R2 : IZR (Mh * 2 ^ 128) = X) by (rewrite (mult_IZR Mh (2 ^ 128)), E, <- (bpow2 128) by lia; reflexivity).
    assert (I1 : Mh * 2 ^ 128 < w * t0 q * 2 ^ 64 + w * t1 q) by (apply lt_IZR; rewrite R1, R2; apply Rmult_lt_compat_l; assumption).
    assert (I2 : w * t0 q * 2 ^ 64 + w * t1 q < Mh * 2 ^ 128 + w) by (apply lt_IZR; rewrite (plus_IZR (Mh * 2 ^ 128)), R1, R2; nra).
    clear R1 R2 TT.
    change (2 ^ 128) with (2 ^ 64 * 2 ^ 64) in *. set (K := 2 ^ 64) in *. assert (HK : K = 18446744073709551616) by reflexivity.
    destruct HA as [A Hm|A].
    + exfalso. apply Hm. assert (H1 : high = Mh - 1) by nia. rewrite H1. assert (P2 : 0 < 2 ^ (64 - p)) by (apply Z.pow_pos_nonneg; lia).
      symmetry. apply Z.mod_unique with (M * 2 ^ (drop - (64 - p)) - 1); [lia|]. replace drop with ((64 - p) + (drop - (64 - p))) at 1 by lia. rewrite Z.pow_add_r by lia. ring.
    + assert (D1 : w * t0 q + w * t1 q / K = Mh * K).
      { assert (w * t1 q / K = Mh * K - w * t0 q); [|lia]. symmetry. apply Z.div_unique with (w * t0 q * K + w * t1 q - Mh * K * K); [left|]; nia. }
      change (2 ^ 64) with K in A. rewrite D1 in A. nia.
  - destruct (en_small q En ltac:(lia)) as [Z1 Ev]. rewrite (en_exact q En ltac:(lia)), TT, Z1, Z.mul_0_r, Rplus_0_r in E.
    assert (I : w * t0 q * 2 ^ 64 = Mh * (2 ^ 64 * 2 ^ 64)) by (apply eq_IZR; rewrite (mult_IZR _ (2 ^ 64)), (mult_IZR _ (2 ^ 64 * 2 ^ 64)), (mult_IZR (2 ^ 64)), E, B128; ring).
    assert (I' : w * t0 q = Mh * 2 ^ 64) by (apply (Z.mul_reg_r _ _ (2 ^ 64)); lia). clear I TT E.
    assert (A : high * 2 ^ 64 + low = w * t0 q) by (destruct HA as [A Hm|A]; [exact A|]; rewrite Z1, Z.mul_0_r in A; change (0 / 2 ^ 64) with 0 in A; lia).
    set (m := Mh) in *. clearbody m. lia.
Qed.

Lemma tie_bwd : lo <= q <= hi -> low <= 1 -> high = Mh -> X = (IZR Mh * bpow radix2 128)%R.
Proof.
  intros Rq Hl1 Hh. pose proof (en_t0 q En) as B0. pose proof (en_t1 q En) as B1.
  assert (B128 : (bpow radix2 128 = IZR (2 ^ 64) * IZR (2 ^ 64))%R) by (rewrite <- !bpow2, <- bpow_plus by lia; reflexivity).
  pose proof (TR q w) as TT. rewrite bpow2 in TT by lia. destruct (Z_lt_dec q 0) as [Q|Q].
  - destruct (en_up q En ltac:(lia)) as [[C1 C2] C3]. assert (PW : (0 < IZR w < IZR (2 ^ 64))%R) by (split; apply IZR_lt; lia). destruct HA as [A Hm|A].
    + exfalso. destruct (fake_tie (64 - p) (t0 q) w ltac:(lia) ltac:(lia) ltac:(lia) (Hfake q ltac:(lia))) as [F0 F1]. rewrite <- A, Hh in F0, F1.
      assert (E : (Mh * 2 ^ 64 + low) mod 2 ^ (64 + (64 - p)) = low).
      { symmetry. apply Z.mod_unique with (M * 2 ^ (drop - (64 - p))). { left. split; [lia|]. apply Z.lt_le_trans with (2 ^ 64); [lia|apply Z.pow_le_mono_r; lia]. }
        replace drop with ((64 - p) + (drop - (64 - p))) at 1 by lia. rewrite !Z.pow_add_r by lia. ring. }
      rewrite E in F0, F1. lia.
    + rewrite Hh in A. pose proof (Z.div_mod (w * t1 q) (2 ^ 64) ltac:(lia)) as DV. pose proof (Z.mod_pos_bound (w * t1 q) (2 ^ 64) ltac:(lia)) as RV.
      assert (LP : (IZR (Mh * 2 ^ 64) * IZR (2 ^ 64) <= IZR w * IZR (T q) < (IZR (Mh * 2 ^ 64) + 2) * IZR (2 ^ 64))%R).
      { rewrite TT, <- plus_IZR, <- !mult_IZR, <- plus_IZR. split; [apply IZR_le|apply IZR_lt]; lia. }
      rewrite (mult_IZR Mh) in LP. apply (gap q w Hq Mh (2 * IZR (2 ^ 64))%R); [lia| |].
      * apply Rabs_def1; rewrite B128; nra.
      * rewrite B128. assert (IZR (5 ^ (- q)) <= IZR (5 ^ 27))%R by (apply IZR_le, Z.pow_le_mono_r; lia). assert (2 * IZR (5 ^ 27) <= IZR (2 ^ 64))%R by (rewrite <- mult_IZR; apply IZR_le; vm_compute; discriminate).
        assert (0 < IZR (2 ^ 64))%R by (apply IZR_lt; reflexivity). nra.
  - destruct (en_small q En ltac:(lia)) as [Z1 Ev]. rewrite (en_exact q En ltac:(lia)), TT, Z1, Z.mul_0_r, Rplus_0_r.
    assert (A : high * 2 ^ 64 + low = w * t0 q) by (destruct HA as [A Hm|A]; [exact A|]; rewrite Z1, Z.mul_0_r in A; change (0 / 2 ^ 64) with 0 in A; lia).
    assert (low = 0). { destruct (Z.eq_dec low 1) as [L1|L1]; [|lia]. exfalso. apply (f_equal Z.even) in A. rewrite L1, Z.even_add, !Z.even_mul, Ev, orb_true_r in A. cbn in A. rewrite orb_true_r in A. discriminate. }
    rewrite <- A, Hh, H, Z.add_0_r, B128, mult_IZR. ring.
Qed.
End B.
