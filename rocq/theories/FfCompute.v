(** compute_float and compute_error (decimal_to_binary.h): either the correctly rounded result or
    an estimate close to the decimal. *)
From Coq Require Import ZArith List Bool Lia Reals Lra Znumtheory.
From Flocq Require Import Core.
From Verif Require Import Mem FpModel FpProofs LitModel LitProofs LimProps RyuRound RyuArith RyuMul RyuCvt FfTable FfModel FfWord FfRound FfPow FfApprox.
Import ListNotations.
Open Scope Z_scope.

(** the two instances of binary_format *)
Definition std (b : bformat) : Prop := b = bdouble \/ b = bfloat.
Notation bias b := (explicit_bits b - minimum_exponent b).

(** bounds on X in every case *)
Lemma approx_bounds p q w low high : 2 <= p < 64 -> -342 <= q <= 308 -> 2 ^ 63 <= w < 2 ^ 64 -> 0 <= low < 2 ^ 64 -> approx p q w low high ->
  (IZR high * bpow radix2 128 <= IZR w * F5 q < (IZR high + 2) * bpow radix2 128)%R.
Proof.
  intros Hp Hq Hw Hl HA. pose proof (entry_facts q Hq) as En. pose proof (en_t0 q En) as B0. pose proof (en_t1 q En) as B1. pose proof (wR w Hw) as WR. pose proof (TR q w) as TT.
  assert (W0 : (0 < IZR w)%R) by (apply IZR_lt; lia).
  assert (B128 : (bpow radix2 128 = bpow radix2 64 * bpow radix2 64)%R) by (rewrite <- bpow_plus; reflexivity).
  assert (E64 : (bpow radix2 64 = IZR (2 ^ 64))%R) by (now rewrite bpow2 by lia).
  assert (P64 : (1 < bpow radix2 64)%R) by (rewrite E64; apply IZR_lt; reflexivity).
  assert (RL : (0 <= IZR low <= bpow radix2 64 - 1)%R) by (rewrite E64, <- minus_IZR; split; apply IZR_le; lia).
  assert (UP : (F5 q < IZR (T q) + 1)%R). { destruct (Z_lt_dec q 0) as [Q|Q]; [destruct (Z_lt_dec q (-27)) as [Q2|Q2]|]; [apply (en_trunc q En); lia|destruct (en_up q En ltac:(lia)); lra|apply (en_trunc q En); lia]. }
  assert (W2 : (IZR w * (IZR (t1 q) + 1) <= IZR w * bpow radix2 64)%R) by (apply Rmult_le_compat_l; [lra|]; rewrite E64; rewrite <- plus_IZR; apply IZR_le; lia).
  assert (W3 : (IZR w * bpow radix2 64 < bpow radix2 128)%R) by (rewrite B128; apply Rmult_lt_compat_r; lra).
  destruct HA as [HA Hm|HA].
  - apply (f_equal IZR) in HA. rewrite plus_IZR, mult_IZR, <- E64 in HA. rewrite (mult_IZR w (t1 q)), <- HA in TT. split.
    + assert (W1 : (0 <= IZR w * IZR (t1 q))%R) by (apply Rmult_le_pos; [lra|apply IZR_le; lia]).
      destruct (Z_lt_dec q 0) as [Q|Q]; [destruct (Z_lt_dec q (-27)) as [Q2|Q2]|].
      * destruct (en_trunc q En ltac:(lia)) as [C1 C2]. rewrite B128. nra.
      * destruct (en_up q En ltac:(lia)) as [[C1 C2] C3]. apply IZR_le in C3. rewrite B128. nra.
      * destruct (en_trunc q En ltac:(lia)) as [C1 C2]. rewrite B128. nra.
    + rewrite B128 in *. nra.
  - pose proof (Z.div_mod (w * t1 q) (2 ^ 64) ltac:(lia)) as DV. pose proof (Z.mod_pos_bound (w * t1 q) (2 ^ 64) ltac:(lia)) as RV.
    set (P := high * 2 ^ 64 + low) in *.
    assert (LP : (IZR P * bpow radix2 64 <= IZR w * IZR (T q) < (IZR P + 1) * bpow radix2 64)%R).
    { rewrite TT, E64, <- plus_IZR, <- !mult_IZR, <- plus_IZR. split; [apply IZR_le|apply IZR_lt]; lia. }
    assert (EP : (IZR P = IZR high * bpow radix2 64 + IZR low)%R) by (unfold P; rewrite E64, plus_IZR, mult_IZR; reflexivity).
    split.
    + destruct (Z_lt_dec q 0) as [Q|Q]; [destruct (Z_lt_dec q (-27)) as [Q2|Q2]|].
      * destruct (en_trunc q En ltac:(lia)) as [C1 C2]. rewrite B128. nra.
      * destruct (en_up q En ltac:(lia)) as [[C1 C2] C3]. destruct (Rle_lt_dec (IZR high * bpow radix2 128) (IZR w * F5 q)) as [Y|Y]; [exact Y|].
        rewrite (gap q w Hq high (bpow radix2 64)); [apply Rle_refl|lia| |].
        -- rewrite Rabs_left1 by lra. assert (IZR high * bpow radix2 128 <= IZR w * IZR (T q))%R by (rewrite B128; nra). nra.
        -- rewrite B128. apply Rmult_le_compat_l; [lra|]. apply Rle_trans with (IZR (5 ^ 27)); [apply fives; lia|]. rewrite E64. apply IZR_le. vm_compute. discriminate.
      * destruct (en_trunc q En ltac:(lia)) as [C1 C2]. rewrite B128. nra.
    + rewrite B128. nra.
Qed.

(** rounding from the integer part of twice the scaled value *)
Lemma half_round v E m tie r : (IZR m * bpow radix2 (E - 1) <= v < (IZR m + 1) * bpow radix2 (E - 1))%R ->
  (tie = true -> m mod 4 = 1 /\ v = (IZR m * bpow radix2 (E - 1))%R) ->
  (tie = false -> m mod 4 = 1 -> v <> (IZR m * bpow radix2 (E - 1))%R) ->
  r = (if tie then m / 2 else (m + m mod 2) / 2) ->
  inR (Z.even r) ((IZR r - / 2) * bpow radix2 E) ((IZR r + / 2) * bpow radix2 E) v.
Proof.
  intros Hv Ht Hf Hr. assert (B2 : (bpow radix2 E = 2 * bpow radix2 (E - 1))%R) by (replace E with (1 + (E - 1)) at 1 by lia; rewrite bpow_plus; reflexivity).
  rewrite B2. pose proof (bpow_gt_0 radix2 (E - 1)) as G. set (u := bpow radix2 (E - 1)) in *. clearbody u. clear B2.
  pose proof (Z.div_mod m 4 ltac:(lia)) as D. pose proof (Z.mod_pos_bound m 4 ltac:(lia)) as R. set (k := m / 4) in *. clearbody k.
  assert (C : m mod 4 = 0 \/ m mod 4 = 1 \/ m mod 4 = 2 \/ m mod 4 = 3) by lia. clear R.
  destruct C as [C|[C|[C|C]]]; rewrite C in *; try (destruct tie; [destruct (Ht eq_refl); discriminate|]).
  - assert (E2 : r = 2 * k) by (rewrite Hr; assert (m mod 2 = 0) as -> by (symmetry; apply Z.mod_unique with (2 * k); lia); symmetry; apply Z.div_unique with 0; lia).
    rewrite E2, D in *. rewrite Z.even_mul. cbn [Z.even orb inR]. rewrite plus_IZR, !mult_IZR in *. split; nra.
  - destruct tie.
    + assert (E2 : r = 2 * k) by (rewrite Hr; symmetry; apply Z.div_unique with 1; lia). rewrite E2, D in *. rewrite Z.even_mul. cbn [Z.even orb inR].
      rewrite plus_IZR, !mult_IZR in *. split; nra.
    + assert (E2 : r = 2 * k + 1) by (rewrite Hr; assert (m mod 2 = 1) as -> by (symmetry; apply Z.mod_unique with (2 * k); lia); symmetry; apply Z.div_unique with 0; lia).
      specialize (Hf eq_refl eq_refl). rewrite E2, D in *. rewrite Z.even_add, Z.even_mul. cbn [Z.even orb Bool.eqb inR].
      rewrite !plus_IZR, !mult_IZR in *. assert (v <> (4 * IZR k + 1) * u)%R by exact Hf. split; nra.
  - assert (E2 : r = 2 * k + 1) by (rewrite Hr; assert (m mod 2 = 0) as -> by (symmetry; apply Z.mod_unique with (2 * k + 1); lia); symmetry; apply Z.div_unique with 0; lia).
    rewrite E2, D in *. rewrite Z.even_add, Z.even_mul. cbn [Z.even orb Bool.eqb inR]. rewrite !plus_IZR, !mult_IZR in *. split; nra.
  - assert (E2 : r = 2 * k + 2) by (rewrite Hr; assert (m mod 2 = 1) as -> by (symmetry; apply Z.mod_unique with (2 * k + 1); lia); symmetry; apply Z.div_unique with 0; lia).
    rewrite E2, D in *. rewrite Z.even_add, Z.even_mul. cbn [Z.even orb Bool.eqb inR]. rewrite !plus_IZR, !mult_IZR in *. split; nra.
Qed.

Lemma shl_ok x s : 0 <= s < 64 -> 0 <= x * 2 ^ s < 2 ^ 64 -> shl x s = Ok (x * 2 ^ s).
Proof. intros Hs Hx. unfold shl. replace ((0 <=? s) && (s <? 64)) with true by lia. unfold u64. now rewrite Z.mod_small. Qed.
Lemma shr_ok x s : 0 <= s < 64 -> shr x s = Ok (x / 2 ^ s).
Proof. intros Hs. unfold shr. replace ((0 <=? s) && (s <? 64)) with true by lia. reflexivity. Qed.
Lemma i32_ok x : - 2 ^ 31 <= x < 2 ^ 31 -> i32 x = Ok x.
Proof. intro H. unfold i32. replace ((- 2 ^ 31 <=? x) && (x <? 2 ^ 31)) with true by lia. reflexivity. Qed.
Lemma norm_w t w : 0 < w < 2 ^ 64 -> exists lz, leading_zeroes t w = Ok lz /\ 0 <= lz <= 63 /\ 2 ^ 63 <= w * 2 ^ lz < 2 ^ 64 /\ shl w lz = Ok (w * 2 ^ lz).
Proof.
  intro H. exists (63 - Z.log2 w). rewrite (leading_zeroes_ok t w H). pose proof (Z.log2_spec w ltac:(lia)) as [L1 L2]. pose proof (Z.log2_nonneg w).
  assert (Z.log2 w < 64) by (apply Z.log2_lt_pow2; lia).
  assert (P : 0 < 2 ^ (63 - Z.log2 w)) by (apply Z.pow_pos_nonneg; lia).
  assert (E : 2 ^ 63 = 2 ^ Z.log2 w * 2 ^ (63 - Z.log2 w)) by (rewrite <- Z.pow_add_r by lia; f_equal; lia).
  rewrite Z.pow_succ_r in L2 by lia. assert (B : 2 ^ 63 <= w * 2 ^ (63 - Z.log2 w) < 2 ^ 64) by (change (2 ^ 64) with (2 * 2 ^ 63); nia).
  split; [reflexivity|]. split; [lia|]. split; [exact B|]. apply shl_ok; lia.
Qed.
Lemma power_ok q : -342 <= q <= 308 -> power q = Ok (e5 q + q + 190).
Proof. intro H. unfold power. rewrite i32_ok by lia. cbn [bind]. f_equal. unfold e5. change (2 ^ 16) with 65536. change (152170 + 65536) with 217706. lia. Qed.
Lemma e5_range q : -342 <= q <= 308 -> -1137 <= e5 q + q + 127 <= 1023.
Proof. intro H. unfold e5. replace (217706 * q / 65536 - q - 127 + q + 127) with (217706 * q / 65536) by lia. split; [apply Z.div_le_lower_bound; lia|apply Z.lt_succ_r; apply Z.div_lt_upper_bound; lia]. Qed.
Lemma ten_split q : powerRZ 10 q = (powerRZ 5 q * bpow radix2 q)%R.
Proof.
  rewrite bpow_powerRZ. cbn [radix_val radix2]. rewrite <- powerRZ_mult. f_equal. lra.
Qed.
Lemma dec_X w q lz : 0 <= lz -> dec w q = (IZR (w * 2 ^ lz) * F5 q * bpow radix2 (q + e5 q - lz))%R.
Proof.
  intro H. unfold dec, F5. rewrite ten_split, mult_IZR, <- bpow2 by exact H. replace (q + e5 q - lz) with (q + (e5 q + - lz)) by lia. rewrite !bpow_plus.
  pose proof (two_inv lz) as I1. pose proof (two_inv (e5 q)) as I2.
  replace (IZR w * bpow radix2 lz * (powerRZ 5 q * bpow radix2 (- e5 q)) * (bpow radix2 q * (bpow radix2 (e5 q) * bpow radix2 (- lz))))%R
    with (IZR w * (powerRZ 5 q * bpow radix2 q) * (bpow radix2 lz * bpow radix2 (- lz)) * (bpow radix2 (e5 q) * bpow radix2 (- e5 q)))%R by ring.
  rewrite I1, I2. ring.
Qed.

(** ** The format's constants *)
Record consts (b : bformat) : Prop := {
  c_mw : mw (bfmt b) = explicit_bits b;
  c_mb : 23 <= explicit_bits b <= 52;
  c_min : femin (bfmt b) = minimum_exponent b + 1 - explicit_bits b;
  c_minr : -1023 <= minimum_exponent b <= -127;
  c_inf : infinite_power b = 2 ^ ew (bfmt b) - 1;
  c_infr : 255 <= infinite_power b <= 2047;
  c_sign : sign_index b = ew (bfmt b) + mw (bfmt b);
  c_signr : 31 <= sign_index b <= 63;
  c_range : -342 <= smallest_power_of_ten b /\ largest_power_of_ten b <= 308;
  c_tie_lo : -27 <= min_exponent_round_to_even b < 0;
  c_tie_hi : 0 <= max_exponent_round_to_even b <= 27;
  c_tie_hi2 : 2 ^ (explicit_bits b + 3 - 1) <= 5 ^ (max_exponent_round_to_even b + 1);
  c_tie_lo2 : 2 ^ 64 <= 2 ^ (explicit_bits b + 3 - 2) * 5 ^ (1 - min_exponent_round_to_even b);
  c_fake : forall q, min_exponent_round_to_even b <= q < 0 -> no_fake_tie (64 - (explicit_bits b + 3)) (t0 q) = true;
  c_under : 2 ^ 64 * 2 ^ (1 - femin (bfmt b)) <= 10 ^ (1 - smallest_power_of_ten b);
  c_over : 2 ^ 2 ^ (ew (bfmt b) - 1) <= 10 ^ (largest_power_of_ten b + 1);
  c_sub : 10 ^ 27 * 2 ^ (explicit_bits b + 1) <= 2 ^ (- femin (bfmt b)) }.
Lemma std_consts b : std b -> consts b.
Proof.
  assert (A : forall q, -4 <= q < 0 -> no_fake_tie 9 (t0 q) = true) by (intros q H; apply (en_tie9 q (entry_facts q ltac:(lia))); exact H).
  assert (B : forall q, -17 <= q < 0 -> no_fake_tie 38 (t0 q) = true) by (intros q H; apply (en_tie38 q (entry_facts q ltac:(lia))); exact H).
  intros [-> | ->]; (split; [vm_compute; reflexivity|vm_compute; split; congruence|vm_compute; reflexivity|vm_compute; split; congruence|vm_compute; reflexivity
   |vm_compute; split; congruence|vm_compute; reflexivity|vm_compute; split; congruence|vm_compute; split; congruence|vm_compute; split; congruence
   |vm_compute; split; congruence|vm_compute; congruence|vm_compute; congruence|assumption|vm_compute; congruence|vm_compute; congruence|vm_compute; congruence]).
Qed.

(** an estimate of a decimal from below: 64 bits, off by less than four units *)
Definition estimate (b : bformat) (w q : Z) (am : adjusted) : Prop :=
  2 ^ 63 <= am_mantissa am < 2 ^ 64 /\ -40000 < am_power2 am < 0 /\ smallest_power_of_ten b <= q <= largest_power_of_ten b /\
  let e := am_power2 am - invalid_am_bias - bias b in
  (IZR (am_mantissa am) * bpow radix2 e <= dec w q < (IZR (am_mantissa am) + 4) * bpow radix2 e)%R.
(** the bits of a result *)
Definition bits_of (b : bformat) (neg : bool) (x : Z) : Z := b2z neg * 2 ^ sign_index b + x.
Definition packs (b : bformat) (am : adjusted) (x : Z) : Prop := 0 <= am_power2 am /\ forall neg, to_float b neg am = bits_of b neg x.

Lemma lor_disjoint a c k : 0 <= k -> 0 <= a < 2 ^ k -> Z.lor a (c * 2 ^ k) = c * 2 ^ k + a.
Proof. intros Hk Ha. rewrite Z.lor_comm. now apply lor_add. Qed.

Lemma pack_fields b m p : consts b -> 0 <= m < 2 ^ explicit_bits b -> 0 <= p <= infinite_power b -> packs b (AM m p) (p * 2 ^ explicit_bits b + m).
Proof.
  intros C Hm Hp. split; [cbn; lia|]. intro neg. unfold to_float, bits_of. cbn [am_mantissa am_power2].
  pose proof (c_mb b C) as Mb. pose proof (c_sign b C) as Sg. pose proof (c_signr b C) as Sr. pose proof (c_inf b C) as If. pose proof (c_mw b C) as Mw. pose proof (ew_pos (bfmt b)) as Ep.
  set (mb := explicit_bits b) in *. set (s := sign_index b) in *. assert (Es : 2 ^ s = 2 ^ ew (bfmt b) * 2 ^ mb) by (rewrite Sg, Mw, Z.pow_add_r by lia; reflexivity).
  assert (P : 0 < 2 ^ mb) by (apply Z.pow_pos_nonneg; lia).
  assert (S64 : 2 ^ s * 2 <= 2 ^ 64) by (rewrite Z.mul_comm, <- Z.pow_succ_r by lia; apply Z.pow_le_mono_r; lia).
  assert (B : 0 <= p * 2 ^ mb + m < 2 ^ s) by nia. unfold u64. rewrite (Z.mod_small (p * 2 ^ mb)) by nia. rewrite (lor_disjoint m p mb) by lia.
  rewrite (Z.pow_add_r 2 s 1) by lia. change (2 ^ 1) with 2. destruct neg; cbn [b2z].
  - assert (E1 : Z.lor (p * 2 ^ mb + m) (2 ^ s) = 1 * 2 ^ s + (p * 2 ^ mb + m)) by (rewrite <- (lor_disjoint (p * 2 ^ mb + m) 1 s) by lia; now rewrite Z.mul_1_l). rewrite E1. rewrite Z.mod_small by lia. ring.
  - rewrite Z.mod_small by nia. ring.
Qed.
Lemma pack_one b : consts b -> packs b (AM (2 ^ explicit_bits b) 1) (2 ^ explicit_bits b).
Proof.
  intros C. pose proof (c_mb b C) as Mb. pose proof (c_infr b C) as Ir. assert (P : 0 < 2 ^ explicit_bits b) by (apply Z.pow_pos_nonneg; lia).
  destruct (pack_fields b 0 1 C ltac:(lia) ltac:(lia)) as [_ H]. split; [cbn; lia|]. intro neg. specialize (H neg). rewrite Z.mul_1_l, Z.add_0_r in H. rewrite <- H.
  unfold to_float. cbn [am_mantissa am_power2]. rewrite !Z.mul_1_l. unfold u64. assert (2 ^ explicit_bits b < 2 ^ 64) by (apply Z.pow_lt_mono_r; lia). rewrite (Z.mod_small (2 ^ explicit_bits b)), Z.lor_diag, Z.lor_0_l by lia. reflexivity.
Qed.

Lemma scaled_ok b q w lz p low high : consts b -> smallest_power_of_ten b <= q <= largest_power_of_ten b -> 2 <= p < 64 -> 0 <= lz <= 63 -> 2 ^ 63 <= w * 2 ^ lz < 2 ^ 64 ->
  0 <= low < 2 ^ 64 -> 2 ^ 62 <= high < 2 ^ 64 -> approx p q (w * 2 ^ lz) low high ->
  exists am, compute_error_scaled b q high lz = Ok am /\ estimate b w q am.
Proof.
  intros C Hq Hp Hlz Hw Hl Hh HA. destruct (c_range b C) as [Q1 Q2]. pose proof (c_mb b C) as Mb. pose proof (c_minr b C) as Mr.
  pose proof (approx_bounds p q (w * 2 ^ lz) low high Hp ltac:(lia) Hw Hl HA) as B. pose proof (e5_range q ltac:(lia)) as Er.
  unfold compute_error_scaled. rewrite power_ok by lia. cbn [bind].
  assert (D : high / 2 ^ 63 = 0 /\ high < 2 ^ 63 \/ high / 2 ^ 63 = 1 /\ 2 ^ 63 <= high).
  { destruct (Z.lt_ge_cases high (2 ^ 63)); [left; rewrite Z.div_small by lia; lia|right; split; [|lia]; symmetry; apply Z.div_unique with (high - 2 ^ 63); lia]. }
  assert (G : forall hilz, 0 <= hilz <= 1 -> 2 ^ 63 <= high * 2 ^ hilz < 2 ^ 64 -> estimate b w q (AM (high * 2 ^ hilz) (e5 q + q + 190 + (explicit_bits b - minimum_exponent b) - hilz - lz - 62 + invalid_am_bias))).
  { intros hz Hz Hm. split; [exact Hm|]. cbn [am_mantissa am_power2]. unfold invalid_am_bias. split; [lia|]. split; [lia|]. cbv zeta.
    replace (e5 q + q + 190 + (explicit_bits b - minimum_exponent b) - hz - lz - 62 + -0x8000 - -0x8000 - (explicit_bits b - minimum_exponent b)) with (128 + (q + e5 q - lz) + - hz) by lia.
    rewrite (dec_X w q lz) by lia. rewrite !bpow_plus, mult_IZR, <- (bpow2 hz) by lia. pose proof (two_inv hz) as I. pose proof (bpow_gt_0 radix2 (q + e5 q - lz)) as G.
    set (u := bpow radix2 (q + e5 q - lz)) in *. clearbody u. set (X := (IZR (w * 2 ^ lz) * F5 q)%R) in *. clearbody X. set (k := bpow radix2 128) in *. clearbody k.
    assert (I2 : (2 <= 4 * bpow radix2 (- hz))%R) by (assert (hz = 0 \/ hz = 1) as [-> | ->] by lia; cbn; lra).
    assert (K : (IZR high * k * u <= X * u < (IZR high + 2) * k * u)%R) by (split; [apply Rmult_le_compat_r; lra|apply Rmult_lt_compat_r; lra]).
    assert (k0 : (0 < k)%R) by nra. split.
    - replace (IZR high * bpow radix2 hz * (k * u * bpow radix2 (- hz)))%R with (IZR high * k * u * (bpow radix2 hz * bpow radix2 (- hz)))%R by ring. rewrite I. lra.
    - apply Rlt_le_trans with ((IZR high + 2) * k * u)%R; [apply K|]. replace ((IZR high * bpow radix2 hz + 4) * (k * u * bpow radix2 (- hz)))%R with (IZR high * k * u * (bpow radix2 hz * bpow radix2 (- hz)) + k * u * (4 * bpow radix2 (- hz)))%R by ring.
      rewrite I. assert (0 < k * u)%R by (apply Rmult_lt_0_compat; lra). nra. }
  destruct D as [[D D2]|[D D2]]; rewrite D.
  - change (Z.lxor 0 1) with 1. rewrite shl_ok by (change (2 ^ 1) with 2; lia). cbn [bind]. rewrite i32_ok by (unfold invalid_am_bias; lia). cbn [bind]. eexists. split; [reflexivity|]. apply G; [lia|]. change (2 ^ 1) with 2. lia.
  - change (Z.lxor 1 1) with 0. rewrite shl_ok by (change (2 ^ 0) with 1; lia). cbn [bind]. rewrite i32_ok by (unfold invalid_am_bias; lia). cbn [bind]. eexists. split; [reflexivity|]. apply G; [lia|]. change (2 ^ 0) with 1. lia.
Qed.

Lemma compute_error_ok t b q w : std b -> 0 < w < 2 ^ 64 -> smallest_power_of_ten b <= q <= largest_power_of_ten b ->
  exists am, compute_error t b q w = Ok am /\ estimate b w q am.
Proof.
  intros Hb Hw Hq. pose proof (std_consts b Hb) as C. destruct (c_range b C). pose proof (c_mb b C). unfold compute_error.
  destruct (norm_w t w Hw) as (lz & E1 & Hlz & Hn & E2). rewrite E1. cbn [bind]. rewrite E2. cbn [bind].
  destruct (approx_cases t (explicit_bits b + 3) q (w * 2 ^ lz) ltac:(lia) ltac:(lia) Hn) as (low & high & E3 & Hl & Hh & HA). rewrite E3. cbn [bind].
  apply (scaled_ok b q w lz (explicit_bits b + 3) low high); try assumption; lia.
Qed.

Section C.
Variables (t : target) (b : bformat) (q w : Z).
Hypothesis Hb : std b.
Hypothesis Hw : 0 < w < 2 ^ 64.
Let C : consts b := std_consts b Hb.
Notation mb := (explicit_bits b).
Notation f := (bfmt b).
Notation v := (dec w q).

Lemma dec_up q' : q <= q' -> (dec w q <= dec w q')%R.
Proof. intro H. replace q' with (q + (q' - q)) by lia. rewrite dec_shift by lia. apply dec_le. assert (1 <= 10 ^ (q' - q)) by (pose proof (Z.pow_pos_nonneg 10 (q' - q)); lia). nia. Qed.
Lemma underflow : q < smallest_power_of_ten b -> literal f w q = 0.
Proof.
  intro H. apply lit_zero; [lia|]. destruct (c_range b C) as [R1 R2]. pose proof (c_under b C) as U.
  set (k := 1 - smallest_power_of_ten b) in *. apply Rle_trans with (dec w (- k)); [apply dec_up; unfold k; lia|].
  assert (K : smallest_power_of_ten b < 0 \/ 0 <= smallest_power_of_ten b) by lia.
  assert (Pk : 0 <= k). { destruct (Z.lt_ge_cases k 0) as [L|]; [|assumption]. rewrite (Z.pow_neg_r 10 k L) in U. pose proof (femin_neg f). pose proof (Z.pow_pos_nonneg 2 (1 - femin f)). lia. }
  unfold dec. assert (I : (powerRZ 10 (- k) * IZR (10 ^ k) = 1)%R) by (rewrite <- powerRZ_10 by lia; rewrite <- powerRZ_add by lra; replace (- k + k) with 0 by lia; reflexivity).
  pose proof (two_inv (1 - femin f)) as I2. replace (- (1 - femin f)) with (femin f - 1) in I2 by lia.
  apply IZR_le in U. rewrite mult_IZR, <- (bpow2 (1 - femin f)) in U by (pose proof (femin_neg f); lia).
  assert (W : (0 < IZR w <= IZR (2 ^ 64))%R) by (split; [apply IZR_lt|apply IZR_le]; lia). pose proof (pow10_gt (- k)) as G1. pose proof (bpow_gt_0 radix2 (1 - femin f)) as G2.
  apply (Rmult_le_reg_r (bpow radix2 (1 - femin f))); [exact G2|]. rewrite (Rmult_comm (bpow radix2 (femin f - 1))), I2.
  rewrite <- I. rewrite Rmult_assoc. replace (IZR w * (powerRZ 10 (- k) * bpow radix2 (1 - femin f)))%R with (powerRZ 10 (- k) * (IZR w * bpow radix2 (1 - femin f)))%R by ring.
  apply Rmult_le_compat_l; [lra|]. apply Rle_trans with (2 := U). apply Rmult_le_compat_r; lra.
Qed.
Lemma overflow : largest_power_of_ten b < q -> literal f w q = inf_pattern f.
Proof.
  intro H. apply lit_inf; [lia|]. pose proof (c_over b C) as U. set (k := largest_power_of_ten b + 1) in *.
  assert (P : 0 < 2 ^ 2 ^ (ew f - 1)) by (apply Z.pow_pos_nonneg; [lia|apply Z.pow_nonneg; lia]).
  assert (Pk : 0 <= k). { destruct (Z.lt_ge_cases k 0) as [L|]; [|assumption]. rewrite (Z.pow_neg_r 10 k L) in U. lia. }
  apply Rle_trans with (dec 1 k).
  - unfold dec. rewrite Rmult_1_l, powerRZ_10, bpow2 by (try apply Z.pow_nonneg; lia). apply IZR_le. exact U.
  - apply Rle_trans with (dec w k); [apply dec_le; lia|]. unfold dec. apply Rmult_le_compat_l; [apply IZR_le; lia|].
    replace q with (k + (q - k)) by lia. rewrite powerRZ_add by lra. rewrite (powerRZ_10 (q - k)) by (unfold k; lia). pose proof (pow10_gt k).
    assert (1 <= IZR (10 ^ (q - k)))%R by (apply IZR_le; pose proof (Z.pow_pos_nonneg 10 (q - k)); unfold k in *; lia). nra.
Qed.

(** subnormal results are never half-way *)
Lemma no_sub_tie m : q < 0 -> (v < bpow radix2 (mb + 1 + femin f))%R -> Z.odd m = true -> v <> (IZR m * bpow radix2 (femin f - 1))%R.
Proof.
  intros Hq Hv Ho E. pose proof (femin_neg f) as Fn. pose proof (c_mb b C) as Mb. pose proof (c_sub b C) as Sb.
  assert (PP : (powerRZ 10 q * IZR (10 ^ (- q)) = 1)%R) by (rewrite <- powerRZ_10 by lia; rewrite <- powerRZ_add by lra; replace (q + - q) with 0 by lia; reflexivity).
  pose proof (two_inv (1 - femin f)) as I2. replace (- (1 - femin f)) with (femin f - 1) in I2 by lia.
  assert (K : q < -27).
  { destruct (Z.lt_ge_cases q (-27)) as [?|L]; [assumption|exfalso].
    (* v >= 10^-27 *)
    apply (Rlt_irrefl v). apply Rlt_le_trans with (1 := Hv). apply Rle_trans with (dec 1 (-27)).
    - unfold dec. rewrite Rmult_1_l. assert (Q : (powerRZ 10 (-27) * IZR (10 ^ 27) = 1)%R) by (rewrite <- powerRZ_10 by lia; rewrite <- powerRZ_add by lra; reflexivity).
      apply IZR_le in Sb. rewrite mult_IZR, <- (bpow2 (mb + 1)), <- (bpow2 (- femin f)) in Sb by lia. pose proof (two_inv (femin f)) as I3. pose proof (pow10_gt (-27)) as G. pose proof (bpow_gt_0 radix2 (femin f)) as G2.
      rewrite bpow_plus. assert (S2 : (bpow radix2 (femin f) * (IZR (10 ^ 27) * bpow radix2 (mb + 1)) <= 1)%R) by (rewrite <- I3; apply Rmult_le_compat_l; lra).
      assert (S3 : (powerRZ 10 (-27) * (bpow radix2 (femin f) * (IZR (10 ^ 27) * bpow radix2 (mb + 1))) <= powerRZ 10 (-27))%R) by nra.
      replace (powerRZ 10 (-27) * (bpow radix2 (femin f) * (IZR (10 ^ 27) * bpow radix2 (mb + 1))))%R with (powerRZ 10 (-27) * IZR (10 ^ 27) * (bpow radix2 (mb + 1) * bpow radix2 (femin f)))%R in S3 by ring. rewrite Q in S3. lra.
    - replace q with (-27 + (q + 27)) by lia. rewrite (dec_shift w) by lia. apply dec_le. assert (1 <= 10 ^ (q + 27)) by (pose proof (Z.pow_pos_nonneg 10 (q + 27)); lia). nia. }
  assert (N : w * 2 ^ (1 - femin f) = m * 10 ^ (- q)).
  { apply eq_IZR. rewrite !mult_IZR, <- (bpow2 (1 - femin f)) by lia. unfold dec in E.
    replace (IZR w) with (IZR w * powerRZ 10 q * IZR (10 ^ (- q)))%R by (rewrite Rmult_assoc, PP; ring). rewrite E.
    replace (IZR m * bpow radix2 (femin f - 1) * IZR (10 ^ - q) * bpow radix2 (1 - femin f))%R with (IZR m * IZR (10 ^ - q) * (bpow radix2 (1 - femin f) * bpow radix2 (femin f - 1)))%R by ring. rewrite I2. ring. }
  assert (Dv : (5 ^ (- q) | 2 ^ (1 - femin f) * w)). { exists (m * 2 ^ (- q)). rewrite Z.mul_comm, N. change 10 with (2 * 5). rewrite Z.pow_mul_l. ring. }
  apply Gauss in Dv; [|apply rel_odd; [lia|apply odd5; lia]]. apply Z.divide_pos_le in Dv; [|lia].
  assert (5 ^ 28 <= 5 ^ (- q)) by (apply Z.pow_le_mono_r; lia). assert (2 ^ 64 <= 5 ^ 28) by (vm_compute; discriminate). lia.
Qed.

(** the half-way adjustment of the mantissa *)
Definition tie_flag (m low high drop : Z) : bool :=
  (low <=? 1) && (min_exponent_round_to_even b <=? q) && (q <=? max_exponent_round_to_even b) && (Z.land m 3 =? 1) && (m * 2 ^ drop =? high).
Lemma land_bit x : 0 <= x -> Z.land x 1 = x mod 2.
Proof. intro H. change 1 with (2 ^ 1 - 1). rewrite land_mask by lia. reflexivity. Qed.
Lemma land_three x : 0 <= x -> Z.land x 3 = x mod 4.
Proof. intro H. change 3 with (2 ^ 2 - 1). rewrite land_mask by lia. reflexivity. Qed.
Lemma land_not1 x : 0 <= x < 2 ^ 64 -> Z.land x (not64 1) = x - x mod 2.
Proof.
  intro H. unfold not64. change (2 ^ 64 - 1 - 1) with ((2 ^ 63 - 1) * 2 ^ 1).
  pose proof (Z.div_mod x 2 ltac:(lia)) as D. pose proof (Z.mod_pos_bound x 2 ltac:(lia)) as R.
  transitivity (Z.shiftl (Z.land (Z.shiftr x 1) (2 ^ 63 - 1)) 1).
  - apply Z.bits_inj'. intros i Hi. rewrite Z.land_spec, Z.shiftl_spec, <- Z.shiftl_mul_pow2, Z.shiftl_spec by lia. destruct (Z.eq_dec i 0) as [->|N]; [rewrite !(Z.testbit_neg_r _ (0 - 1)) by lia; apply andb_false_r|].
    rewrite Z.land_spec, Z.shiftr_spec by lia. now replace (i - 1 + 1) with i by lia.
  - rewrite Z.shiftl_mul_pow2, Z.shiftr_div_pow2, land_mask by lia. change (2 ^ 1) with 2. rewrite Z.mod_small; [lia|]. split; [apply Z.div_pos; lia|apply Z.div_lt_upper_bound; lia].
Qed.
Lemma clear_bit x k : 0 <= k < 64 -> 2 ^ k <= x < 2 * 2 ^ k -> Z.land x (not64 (2 ^ k)) = x - 2 ^ k.
Proof.
  intros Hk Hx. assert (P : 0 < 2 ^ k) by (apply Z.pow_pos_nonneg; lia).
  assert (K64 : 2 ^ 64 = 2 * 2 ^ k * 2 ^ (63 - k)) by (replace 64 with (1 + k + (63 - k)) by lia; rewrite !Z.pow_add_r by lia; f_equal; lia).
  set (y := x - 2 ^ k). assert (Hy : 0 <= y < 2 ^ k) by (unfold y; lia). assert (Ex : x = Z.lor (1 * 2 ^ k) y) by (rewrite lor_add by lia; unfold y; lia).
  rewrite Ex. rewrite Z.land_lor_distr_l. unfold not64. assert (P2 : 0 < 2 ^ (63 - k)) by (apply Z.pow_pos_nonneg; lia).
  assert (M : 2 ^ 64 - 1 - 2 ^ k = Z.lor ((2 ^ (64 - (k + 1)) - 1) * 2 ^ (k + 1)) (2 ^ k - 1)).
  { rewrite lor_add; [|lia|rewrite Z.pow_add_r by lia; lia]. replace (64 - (k + 1)) with (63 - k) by lia. rewrite K64, Z.pow_add_r by lia. change (2 ^ 1) with 2. ring. }
  rewrite M. rewrite !Z.land_lor_distr_r.
  assert (Z1 : forall a, Z.land (1 * 2 ^ k) (a * 2 ^ (k + 1)) = 0).
  { intro a. apply Z.bits_inj'. intros i Hi. rewrite Z.land_spec, Z.bits_0, Z.mul_1_l, Z.pow2_bits_eqb by lia. destruct (Z.eqb_spec k i) as [->|]; [|reflexivity]. rewrite Z.mul_pow2_bits_low by lia. reflexivity. }
  assert (Z2 : Z.land (1 * 2 ^ k) (2 ^ k - 1) = 0) by (rewrite land_mask by lia; rewrite Z.mul_1_l; apply Z.mod_same; lia).
  assert (Z3 : forall a, Z.land y (a * 2 ^ (k + 1)) = 0).
  { intro a. apply Z.bits_inj'. intros i Hi. rewrite Z.land_spec, Z.bits_0. destruct (Z.lt_ge_cases i (k + 1)) as [L|L]; [rewrite Z.mul_pow2_bits_low by lia; apply andb_false_r|].
    assert (T : Z.testbit y i = false); [|now rewrite T]. destruct (Z.eq_dec y 0) as [->|N]; [apply Z.bits_0|]. apply Z.bits_above_log2; [lia|]. apply Z.lt_le_trans with k; [apply Z.log2_lt_pow2; lia|lia]. }
  rewrite Z1, Z2, Z3, land_mask, Z.mod_small by lia. rewrite !Z.lor_0_l. reflexivity.
Qed.

Theorem compute_float_ok : smallest_power_of_ten b <= q <= largest_power_of_ten b ->
  exists am, compute_float t b q w = Ok am /\ (packs b am (literal f w q) \/ estimate b w q am).
Proof.
  intro Hq. destruct (c_range b C) as [Q1 Q2]. pose proof (c_mb b C) as Mb. pose proof (c_minr b C) as Mr. pose proof (c_min b C) as Mi. pose proof (c_mw b C) as Mw. pose proof (c_inf b C) as If. pose proof (c_infr b C) as Ir.
  unfold compute_float. replace (w =? 0) with false by lia. replace (q <? smallest_power_of_ten b) with false by lia. cbn [orb]. replace (largest_power_of_ten b <? q) with false by lia.
  destruct (norm_w t w Hw) as (lz & E1 & Hlz & Hn & E2). rewrite E1. cbn [bind]. rewrite E2. cbn [bind].
  destruct (approx_cases t (mb + 3) q (w * 2 ^ lz) ltac:(lia) ltac:(lia) Hn) as (low & high & E3 & Hl & Hh & HA). rewrite E3. cbn [bind].
  destruct ((low =? 0xFFFFFFFFFFFFFFFF) && negb ((-27 <=? q) && (q <=? 55))) eqn:FB.
  { destruct (scaled_ok b q w lz (mb + 3) low high C Hq ltac:(lia) Hlz Hn Hl Hh HA) as (am & E4 & Es). exists am. split; [exact E4|now right]. }
  assert (Hf : low = 2 ^ 64 - 1 -> -27 <= q <= 55) by (intro; lia). clear FB E1 E2 E3.
  assert (D : exists u, high / 2 ^ 63 = u /\ 0 <= u <= 1 /\ 2 ^ (62 + u) <= high < 2 ^ (63 + u)).
  { destruct (Z.lt_ge_cases high (2 ^ 63)); [exists 0; rewrite Z.div_small by lia; change (62 + 0) with 62; change (63 + 0) with 63; lia|exists 1; change (62 + 1) with 63; change (63 + 1) with 64; split; [|lia]; symmetry; apply Z.div_unique with (high - 2 ^ 63); lia]. }
  destruct D as (u & -> & Hu & Hhu). set (drop := u + 64 - mb - 3). assert (Hd : 0 <= drop < 64) by (unfold drop; lia).
  rewrite (shr_ok high drop Hd). cbn [bind]. rewrite power_ok by lia. cbn [bind]. pose proof (e5_range q ltac:(lia)) as Er. rewrite i32_ok by lia. cbn [bind].
  set (p2 := e5 q + q + 190 + u - lz - minimum_exponent b).
  pose proof (approx_floor (mb + 3) q (w * 2 ^ lz) ltac:(lia) ltac:(lia) Hn low high drop Hl ltac:(lia) HA Hf ltac:(unfold drop; lia)) as Fl.
  set (m := high / 2 ^ drop) in *. assert (Pd : 0 < 2 ^ drop) by (apply Z.pow_pos_nonneg; lia).
  pose proof (Z.div_mod high (2 ^ drop) ltac:(lia)) as Dm. pose proof (Z.mod_pos_bound high (2 ^ drop) Pd) as Rm. fold m in Dm.
  assert (Hm : 2 ^ (mb + 1) <= m < 2 ^ (mb + 2)).
  { assert (F1 : 2 ^ (62 + u) = 2 ^ (mb + 1) * 2 ^ drop) by (rewrite <- Z.pow_add_r by lia; f_equal; unfold drop; lia).
    assert (F2 : 2 ^ (63 + u) = 2 ^ (mb + 2) * 2 ^ drop) by (rewrite <- Z.pow_add_r by lia; f_equal; unfold drop; lia).
    unfold m. split; [apply Z.div_le_lower_bound; lia|apply Z.div_lt_upper_bound; lia]. }
  set (E := p2 + minimum_exponent b - mb).
  assert (V : (IZR m * bpow radix2 (E - 1) <= v < (IZR m + 1) * bpow radix2 (E - 1))%R).
  { rewrite (dec_X w q lz) by lia. replace (E - 1) with ((128 + drop) + (q + e5 q - lz)) by (unfold E, p2, drop; lia). rewrite bpow_plus. pose proof (bpow_gt_0 radix2 (q + e5 q - lz)) as G.
    rewrite <- !Rmult_assoc. split; [apply Rmult_le_compat_r; [lra|apply Fl]|apply Rmult_lt_compat_r; [lra|apply Fl]]. }
  assert (EF : E - femin f = p2 - 1) by (unfold E; lia).
  assert (P52 : 2 ^ (mb + 2) <= 2 ^ 54) by (apply Z.pow_le_mono_r; lia).
  assert (P1 : 2 ^ (mb + 1) = 2 * 2 ^ mb) by (rewrite Z.pow_add_r by lia; lia). assert (P4 : 2 ^ (mb + 2) = 4 * 2 ^ mb) by (rewrite Z.pow_add_r by lia; lia).
  assert (P0 : 2 ^ 23 <= 2 ^ mb) by (apply Z.pow_le_mono_r; lia). change (2 ^ 23) with 8388608 in P0. change (2 ^ 54) with 18014398509481984 in P52.
  assert (Vup : (v < bpow radix2 (mb + 1 + E))%R).
  { replace (mb + 1 + E) with ((mb + 2) + (E - 1)) by lia. rewrite bpow_plus. eapply Rlt_le_trans; [apply V|]. apply Rmult_le_compat_r; [apply bpow_ge_0|]. rewrite bpow2 by lia. rewrite <- plus_IZR. apply IZR_le. lia. }
  assert (Vlo : (bpow radix2 (mb + E) <= v)%R).
  { replace (mb + E) with ((mb + 1) + (E - 1)) by lia. rewrite bpow_plus. eapply Rle_trans; [|apply V]. apply Rmult_le_compat_r; [apply bpow_ge_0|]. rewrite bpow2 by lia. apply IZR_le. lia. }
  destruct (Z.leb_spec p2 0) as [Sub|Nor].
  - (* subnormal *)
    assert (Qn : q < 0).
    { destruct (Z.lt_ge_cases q 0) as [?|L]; [assumption|exfalso]. apply (Rlt_irrefl v). apply Rlt_le_trans with (1 := Vup).
      apply Rle_trans with 1%R; [apply (bpow_le radix2 _ 0); pose proof (c_sub b C) as Sb; pose proof (femin_neg f); assert (mb + 1 < - femin f); [apply (Z.pow_lt_mono_r_iff 2); try lia; change (10 ^ 27) with 1000000000000000000000000000 in Sb; lia|lia]|].
      unfold dec. rewrite powerRZ_10 by lia. rewrite <- mult_IZR. apply IZR_le. pose proof (Z.pow_pos_nonneg 10 q). nia. }
    destruct (Z.leb_spec 64 (- p2 + 1)) as [Far|Near].
    + exists (AM 0 0). split; [reflexivity|]. left. rewrite lit_zero; [apply (pack_fields b 0 0); [exact C|lia|lia]|lia|].
      apply Rlt_le. apply Rlt_le_trans with (1 := Vup). apply bpow_le. lia.
    + rewrite shr_ok by lia. cbn [bind]. set (s := - p2 + 1) in *. set (m2 := m / 2 ^ s).
      assert (Ps : 0 < 2 ^ s) by (apply Z.pow_pos_nonneg; lia). assert (Ps2 : 2 <= 2 ^ s) by (change 2 with (2 ^ 1) at 1; apply Z.pow_le_mono_r; lia).
      pose proof (Z.div_mod m (2 ^ s) ltac:(lia)) as Dm2. pose proof (Z.mod_pos_bound m (2 ^ s) Ps) as Rm2. fold m2 in Dm2.
      assert (Hm2 : 0 <= m2 < 2 ^ (mb + 1)) by (unfold m2; split; [apply Z.div_pos; lia|apply Z.div_lt_upper_bound; [lia|pose proof (Z.mul_le_mono_nonneg_r 2 (2 ^ s) (2 ^ (mb + 1))); lia]]).
      assert (V2 : (IZR m2 * bpow radix2 (femin f - 1) <= v < (IZR m2 + 1) * bpow radix2 (femin f - 1))%R).
      { replace (femin f - 1) with (s + (E - 1)) by (unfold s; lia). rewrite bpow_plus, bpow2 by lia. rewrite <- !Rmult_assoc. rewrite <- plus_IZR, <- !mult_IZR. pose proof (bpow_ge_0 radix2 (E - 1)). split.
        - eapply Rle_trans; [|apply V]. apply Rmult_le_compat_r; [assumption|]. apply IZR_le. lia.
        - eapply Rlt_le_trans; [apply V|]. apply Rmult_le_compat_r; [assumption|]. rewrite <- plus_IZR. apply IZR_le. lia. }
      rewrite land_bit by lia. pose proof (Z.mod_pos_bound m2 2 ltac:(lia)) as Rb. unfold u64. rewrite Z.mod_small by lia.
      set (r := (m2 + m2 mod 2) / 2). assert (Hr : 0 <= r <= 2 ^ mb) by (unfold r; split; [apply Z.div_pos; lia|apply Z.lt_succ_r; apply Z.div_lt_upper_bound; lia]).
      assert (L : literal f w q = r).
      { rewrite (lit_at f w q (femin f) r); [|lia|lia|rewrite Mw; eapply Rlt_le_trans; [exact Vup|]; apply bpow_le; lia|now left|].
        - rewrite Z.sub_diag, Z.mul_0_l, Z.add_0_l. apply Z.min_r. unfold inf_pattern. rewrite Mw, <- If. pose proof (Z.mul_le_mono_nonneg_r 1 (infinite_power b) (2 ^ mb)); lia.
        - apply (half_round v (femin f) m2 false r V2); [discriminate| |reflexivity]. intros _ Hm4. apply no_sub_tie; [lia| |].
          + eapply Rlt_le_trans; [exact Vup|]. apply bpow_le. lia.
          + rewrite Zodd_mod. pose proof (Z.div_mod m2 4 ltac:(lia)). assert (m2 mod 2 = 1) as -> by (symmetry; apply Z.mod_unique with (2 * (m2 / 4)); lia). reflexivity. }
      destruct (Z.ltb_spec r (2 ^ mb)) as [Lt|Ge]; eexists; (split; [reflexivity|]); left; rewrite L.
      * apply (pack_fields b r 0); [exact C|lia|lia].
      * assert (r = 2 ^ mb) as -> by lia. apply pack_one, C.
  - (* normal *)
    assert (Bk : 0 <= m * 2 ^ drop < 2 ^ 64) by (clear - Dm Rm Hh Hm P1 P0 Pd; nia). rewrite shl_ok by assumption. cbn [bind]. fold (tie_flag m low high drop).
    assert (X2 : forall k, (v = IZR k * bpow radix2 (E - 1))%R <-> (IZR (w * 2 ^ lz) * F5 q = IZR (k * 2 ^ drop) * bpow radix2 128)%R).
    { intro k. rewrite (dec_X w q lz) by lia. replace (E - 1) with ((128 + drop) + (q + e5 q - lz)) by (unfold E, p2, drop; lia). rewrite bpow_plus. pose proof (bpow_gt_0 radix2 (q + e5 q - lz)) as G.
      rewrite (mult_IZR k), <- (bpow2 drop) by lia. rewrite bpow_plus. split; intro Y.
      - apply (Rmult_eq_reg_r (bpow radix2 (q + e5 q - lz))); [|lra]. rewrite Y. ring.
      - rewrite Y. ring. }
    assert (Hodd : m mod 4 = 1 -> Z.odd m = true).
    { intro M4. rewrite Zodd_mod. pose proof (Z.div_mod m 4 ltac:(lia)). assert (m mod 2 = 1) as -> by (symmetry; apply Z.mod_unique with (2 * (m / 4)); lia). reflexivity. }
    assert (TF : tie_flag m low high drop = true -> m mod 4 = 1 /\ v = (IZR m * bpow radix2 (E - 1))%R).
    { unfold tie_flag. rewrite !andb_true_iff, !Z.leb_le, !Z.eqb_eq, land_three by lia. intros ((((T1 & T2) & T3) & T4) & T5). split; [exact T4|]. apply X2.
      apply (tie_bwd (mb + 3) q (min_exponent_round_to_even b) (max_exponent_round_to_even b) w lz m drop low high); try assumption; try lia; try apply C; try (replace (mb + 3 - 2) with (mb + 1) by lia; replace (mb + 3 - 1) with (mb + 2) by lia; assumption); try (unfold drop; lia); try now apply Hodd. }
    assert (TB : tie_flag m low high drop = false -> m mod 4 = 1 -> v <> (IZR m * bpow radix2 (E - 1))%R).
    { intros T M4 Y. apply X2 in Y.
      apply (tie_fwd (mb + 3) q (min_exponent_round_to_even b) (max_exponent_round_to_even b) w lz m drop low high) in Y; try assumption; try lia; try apply C; try (replace (mb + 3 - 2) with (mb + 1) by lia; replace (mb + 3 - 1) with (mb + 2) by lia; assumption); try (unfold drop; lia); try now apply Hodd.
      destruct Y as (Y1 & Y2 & Y3). unfold tie_flag in T. rewrite land_three in T by lia. rewrite M4 in T. lia. }
    set (tf := tie_flag m low high drop) in *. clearbody tf.
    set (r := if tf then m / 2 else (m + m mod 2) / 2).
    assert (Rr : forall k, k = (if tf then Z.land m (not64 1) else m) -> u64 (k + Z.land k 1) / 2 = r).
    { intros k ->. pose proof (Z.mod_pos_bound m 2 ltac:(lia)) as R2. pose proof (Z.div_mod m 2 ltac:(lia)) as D2. unfold u64, r. destruct tf.
      - rewrite land_not1 by lia. rewrite land_bit by lia. replace ((m - m mod 2) mod 2) with 0 by (apply Z.mod_unique with (m / 2); lia). rewrite Z.mod_small by lia. symmetry. apply Z.div_unique with 0; lia.
      - rewrite land_bit by lia. rewrite Z.mod_small by lia. reflexivity. }
    rewrite (Rr _ eq_refl). clear Rr.
    assert (Hr : 2 ^ mb <= r <= 2 * 2 ^ mb).
    { pose proof (Z.mod_pos_bound m 2 ltac:(lia)) as R2. unfold r. destruct tf; split; (apply Z.div_le_lower_bound || (apply Z.lt_succ_r; apply Z.div_lt_upper_bound)); lia. }
    assert (L : literal f w q = Z.min (inf_pattern f) ((p2 - 1) * 2 ^ mb + r)).
    { rewrite (lit_at f w q E r); [rewrite EF, Mw; reflexivity|lia|lia|rewrite Mw; exact Vup|right; rewrite Mw; exact Vlo|]. apply (half_round v E m tf r V TF TB eq_refl). }
    unfold inf_pattern in L. rewrite Mw, <- If in L.
    destruct (Z.leb_spec (2 * 2 ^ mb) r) as [Top|Not].
    + rewrite clear_bit by lia. rewrite Z.sub_diag. destruct (Z.leb_spec (infinite_power b) (p2 + 1)) as [I|I]; eexists; (split; [reflexivity|]); left; rewrite L.
      * rewrite Z.min_l by (pose proof (Z.mul_le_mono_nonneg_r (infinite_power b) (p2 + 1) (2 ^ mb)); lia). replace (infinite_power b * 2 ^ mb) with (infinite_power b * 2 ^ mb + 0) by lia. apply pack_fields; [exact C|lia|lia].
      * rewrite Z.min_r by (pose proof (Z.mul_le_mono_nonneg_r (p2 + 2) (infinite_power b) (2 ^ mb)); lia). replace ((p2 - 1) * 2 ^ mb + r) with ((p2 + 1) * 2 ^ mb + 0) by lia. apply pack_fields; [exact C|lia|lia].
    + rewrite clear_bit by lia. destruct (Z.leb_spec (infinite_power b) p2) as [I|I]; eexists; (split; [reflexivity|]); left; rewrite L.
      * rewrite Z.min_l by (pose proof (Z.mul_le_mono_nonneg_r (infinite_power b) p2 (2 ^ mb)); lia). replace (infinite_power b * 2 ^ mb) with (infinite_power b * 2 ^ mb + 0) by lia. apply pack_fields; [exact C|lia|lia].
      * rewrite Z.min_r by (pose proof (Z.mul_le_mono_nonneg_r (p2 + 1) (infinite_power b) (2 ^ mb)); lia). replace ((p2 - 1) * 2 ^ mb + r) with (p2 * 2 ^ mb + (r - 2 ^ mb)) by lia. apply pack_fields; [exact C|lia|lia].
Qed.
End C.
