(** Properties of the decimal conversion code (include/__nanostrutil.h): the integer helpers (C34)
    and the power-of-five tables (C35). *)
From Coq Require Import ZArith List Bool Lia.
From Verif Require Import Mem RyuTables RyuModel RyuArith RyuTab.
Import ListNotations.
Open Scope Z_scope.

(** C34, logarithms.  On the range the code asserts, the fixed-point formulas give the exact floor
    (or ceiling) of the logarithm; outside it the assertion fails. *)
Lemma log_out (e hi : Z) : ~ 0 <= e <= hi -> (0 <=? e) && (e <=? hi) = false.
Proof. intro H. destruct (Z.leb_spec 0 e), (Z.leb_spec e hi); cbn; auto; lia. Qed.

Theorem C34_logarithms :
  (forall e, 0 <= e <= 3528 -> exists n, log2pow5 e = Ok n /\ 2 ^ n <= 5 ^ e < 2 ^ (n + 1)) /\
  (forall e, 0 <= e <= 3528 -> exists n, pow5bits e = Ok n /\ 2 ^ (n - 1) <= 5 ^ e < 2 ^ n) /\
  (forall e, 0 < e <= 3528 -> exists n, ceil_log2pow5 e = Ok n /\ 2 ^ (n - 1) < 5 ^ e <= 2 ^ n) /\
  (forall e, 0 <= e <= 1650 -> exists n, log10Pow2 e = Ok n /\ 10 ^ n <= 2 ^ e < 10 ^ (n + 1)) /\
  (forall e, 0 <= e <= 2620 -> exists n, log10Pow5 e = Ok n /\ 10 ^ n <= 5 ^ e < 10 ^ (n + 1)) /\
  (forall e, ~ 0 <= e <= 3528 -> log2pow5 e = UB BadArith /\ pow5bits e = UB BadArith) /\
  (forall e, ~ 0 <= e <= 1650 -> log10Pow2 e = UB BadArith) /\
  (forall e, ~ 0 <= e <= 2620 -> log10Pow5 e = UB BadArith).
Proof.
  split; [|split; [|split; [|split; [|split; [|split; [|split]]]]]].
  - intros e H. exists (L25 e). split; [now apply log2pow5_eq|]. apply L25_spec. lia.
  - intros e H. exists (L25 e + 1). split; [now apply pow5bits_eq|].
    replace (L25 e + 1 - 1) with (L25 e) by lia. apply L25_spec. lia.
  - intros e H. exists (L25 e + 1). split; [apply ceil_log2pow5_eq; lia|].
    replace (L25 e + 1 - 1) with (L25 e) by lia. pose proof (L25_spec e ltac:(lia)) as [S1 S2].
    split; [|lia]. apply Z.le_neq. split; [exact S1|]. intro E.
    pose proof (L25_nonneg e ltac:(lia)) as [P|P]%Z.le_lteq.
    + assert (O : Z.odd (5 ^ e) = true) by (rewrite Z.odd_pow by lia; reflexivity).
      rewrite <- E, Z.odd_pow in O by lia. discriminate O.
    + rewrite <- P in E. change (2 ^ 0) with 1 in E.
      pose proof (Z.pow_gt_1 5 e ltac:(lia)) as [G _]. specialize (G ltac:(lia)). lia.
  - intros e H. exists (L102 e). split; [now apply log10Pow2_eq|now apply L102_spec].
  - intros e H. exists (L105 e). split; [now apply log10Pow5_eq|now apply L105_spec].
  - intros e H. unfold log2pow5, pow5bits. rewrite log_out by exact H. split; reflexivity.
  - intros e H. unfold log10Pow2. rewrite log_out by exact H. reflexivity.
  - intros e H. unfold log10Pow5. rewrite log_out by exact H. reflexivity.
Qed.
Print Assumptions C34_logarithms.
Example C34_logarithms_case :
  log2pow5 3528 = Ok 8191 /\ pow5bits 342 = Ok 795 /\ log10Pow2 1650 = Ok 496 /\ log10Pow5 2620 = Ok 1831.
Proof. vm_compute. repeat split. Qed.

(** C34, number of decimal digits. *)
Theorem C34_decimal_lengths :
  (forall v, 1 <= v < 10 ^ 9 -> exists n, decimalLength9 v = Ok n /\ 10 ^ (n - 1) <= v < 10 ^ n) /\
  (forall v, 1 <= v < 10 ^ 17 -> exists n, decimalLength17 v = Ok n /\ 10 ^ (n - 1) <= v < 10 ^ n) /\
  (forall v, 10 ^ 9 <= v -> decimalLength9 v = UB BadArith) /\
  (forall v, 10 ^ 17 <= v -> decimalLength17 v = UB BadArith).
Proof.
  split; [|split; [|split]].
  - intros v H. destruct (decimalLength9_eq v H) as (n & E & _ & L). now exists n.
  - intros v H. destruct (decimalLength17_eq v H) as (n & E & _ & L). now exists n.
  - intros v H. unfold decimalLength9, chk. change (10 ^ 9) with 1000000000 in H.
    replace (v <? 1000000000) with false; [reflexivity|]. symmetry. apply Z.ltb_ge. exact H.
  - intros v H. unfold decimalLength17, chk. change (10 ^ 17) with 100000000000000000 in H.
    replace (v <? 100000000000000000) with false; [reflexivity|]. symmetry. apply Z.ltb_ge. exact H.
Qed.
Print Assumptions C34_decimal_lengths.
Example C34_decimal_lengths_case :
  decimalLength9 999999999 = Ok 9 /\ decimalLength17 10000000000000000 = Ok 17 /\ decimalLength17 9999 = Ok 4.
Proof. vm_compute. repeat split. Qed.

(** C34, divisibility by powers of five and two: for every non-zero 32/64-bit value the loops end
    and decide divisibility. *)
Lemma eqb_divide v d : 0 < d -> (v mod d =? 0) = true <-> (d | v).
Proof. intro H. rewrite Z.eqb_eq. apply Z.mod_divide. lia. Qed.

Theorem C34_divisibility :
  (forall v p, 0 < v < 2 ^ 32 -> 0 <= p ->
     exists b, multipleOfPowerOf5_32 v p = Ok b /\ (b = true <-> (5 ^ p | v))) /\
  (forall v p, 0 < v < 2 ^ 64 -> 0 <= p ->
     exists b, multipleOfPowerOf5 v p = Ok b /\ (b = true <-> (5 ^ p | v))) /\
  (forall v p, 0 <= v < 2 ^ 32 -> 0 <= p < 32 ->
     exists b, multipleOfPowerOf2_32 v p = Ok b /\ (b = true <-> (2 ^ p | v))) /\
  (forall v p, 0 < v < 2 ^ 64 -> 0 <= p < 64 ->
     exists b, multipleOfPowerOf2 v p = Ok b /\ (b = true <-> (2 ^ p | v))).
Proof.
  split; [|split; [|split]]; intros v p H Hp.
  - eexists. split; [now apply multipleOfPowerOf5_32_eq|]. apply eqb_divide. apply Z.pow_pos_nonneg; lia.
  - eexists. split; [now apply multipleOfPowerOf5_eq|]. apply eqb_divide. apply Z.pow_pos_nonneg; lia.
  - eexists. split; [now apply multipleOfPowerOf2_32_eq|]. apply eqb_divide. apply Z.pow_pos_nonneg; lia.
  - eexists. split; [apply multipleOfPowerOf2_eq; lia|]. apply eqb_divide. apply Z.pow_pos_nonneg; lia.
Qed.
Print Assumptions C34_divisibility.
Example C34_divisibility_case :
  multipleOfPowerOf5 (7 * 5 ^ 20) 20 = Ok true /\ multipleOfPowerOf5 (7 * 5 ^ 20) 21 = Ok false /\
  multipleOfPowerOf2_32 96 5 = Ok true /\ multipleOfPowerOf2_32 96 6 = Ok false.
Proof. vm_compute. repeat split. Qed.

(** C34, wide multiplication: both halves of the 64 x 64 product, the 128-bit shift, and the
    multiply-and-shift operations, as exact integer arithmetic. *)
Theorem C34_wide_arithmetic :
  (forall a b, 0 <= a < 2 ^ 64 -> 0 <= b < 2 ^ 64 ->
     exists lo hi, umul128 a b = (lo, hi) /\ 0 <= lo < 2 ^ 64 /\ 0 <= hi < 2 ^ 64 /\ hi * 2 ^ 64 + lo = a * b) /\
  (forall lo hi d, 0 <= lo < 2 ^ 64 -> 0 <= hi < 2 ^ 64 -> 0 < d < 64 ->
     shiftright128 lo hi d = Ok (((hi * 2 ^ 64 + lo) / 2 ^ d) mod 2 ^ 64)) /\
  (forall m f s, 0 <= m < 2 ^ 32 -> 0 <= f < 2 ^ 64 -> 32 < s < 96 -> m * f / 2 ^ s < 2 ^ 32 ->
     mulShift32 m f s = Ok (m * f / 2 ^ s)) /\
  (forall m lo hi j, 0 <= m < 2 ^ 64 -> 0 <= lo < 2 ^ 64 -> 0 <= hi < 2 ^ 64 -> 64 < j < 128 ->
     m * (hi * 2 ^ 64 + lo) / 2 ^ j < 2 ^ 64 ->
     mulShift64 m (lo, hi) j = Ok (m * (hi * 2 ^ 64 + lo) / 2 ^ j)).
Proof.
  split; [|split; [|split]].
  - intros a b Ha Hb. exists ((a * b) mod 2 ^ 64), (a * b / 2 ^ 64).
    split; [now apply umul128_eq|]. split; [now apply Z.mod_pos_bound|].
    split; [split; [apply Z.div_pos; nia|apply Z.div_lt_upper_bound; nia]|].
    pose proof (Z.div_mod (a * b) (2 ^ 64) ltac:(lia)). lia.
  - intros lo hi d H1 H2 H3. apply shiftright128_eq; lia.
  - exact mulShift32_eq.
  - intros m lo hi j H1 H2 H3 H4 H5. apply (mulShift64_eq m (lo, hi) j); [assumption|split; assumption|assumption|exact H5].
Qed.
Print Assumptions C34_wide_arithmetic.
Example C34_wide_arithmetic_case :
  umul128 (2 ^ 64 - 1) (2 ^ 64 - 1) = (1, 2 ^ 64 - 2) /\
  mulShift64 (2 ^ 55 - 3) (12345678901234567890, 2 ^ 61 - 1) 120 = Ok 1152921504606846879.
Proof. vm_compute. repeat split. Qed.

(** C34, the 32-bit-platform replacements (multiply by a magic constant) agree with plain division
    for every 64-bit argument, as do the two branches of mulShift32. *)
Theorem C34_platform_variants_agree :
  (forall x, 0 <= x < 2 ^ 64 ->
     div5_32bit x = x / 5 /\ div5 x = x / 5 /\ div10_32bit x = x / 10 /\ div10 x = x / 10 /\
     div100_32bit x = x / 100 /\ div100 x = x / 100 /\
     div1e8_32bit x = x / 10 ^ 8 /\ div1e8 x = x / 10 ^ 8 /\
     div1e9_32bit x = x / 10 ^ 9 /\ div1e9 x = x / 10 ^ 9 /\
     mod1e9_32bit x = x mod 10 ^ 9 /\ mod1e9 x = x mod 10 ^ 9) /\
  (forall m f s, 0 <= m < 2 ^ 32 -> 0 <= f < 2 ^ 64 -> 32 < s < 96 -> m * f / 2 ^ s < 2 ^ 32 ->
     mulShift32_32bit m f s = mulShift32 m f s).
Proof.
  split.
  - intros x H.
    rewrite (div5_32bit_eq x H), (div10_32bit_eq x H), (div100_32bit_eq x H), (div1e8_32bit_eq x H),
      (div1e9_32bit_eq x H), (mod1e9_32bit_eq x H), (mod1e9_eq x H).
    repeat split.
  - intros m f s H1 H2 H3 H4. rewrite mulShift32_eq by assumption. now apply mulShift32_32bit_eq.
Qed.
Print Assumptions C34_platform_variants_agree.
Example C34_platform_variants_case :
  div100_32bit (2 ^ 64 - 1) = 184467440737095516 /\ mod1e9_32bit (2 ^ 64 - 1) = 709551615 /\
  mulShift32_32bit (2 ^ 26 + 5) (2 ^ 60 + 12345) 58 = mulShift32 (2 ^ 26 + 5) (2 ^ 60 + 12345) 58.
Proof. vm_compute. repeat split. Qed.

(** C35: every entry of the two tables.  [b] is the bit length of 5^i, characterised by its
    defining inequality. *)
Lemma bits_unique i b : 0 <= i < 4004 -> 2 ^ (b - 1) <= 5 ^ i < 2 ^ b -> b = L25 i + 1.
Proof.
  intros Hi Hb. pose proof (L25_spec i Hi) as [S1 S2]. pose proof (L25_nonneg i ltac:(lia)).
  assert (0 < 5 ^ i) by (apply Z.pow_pos_nonneg; lia).
  assert (0 <= b). { apply Z.nlt_ge. intro N. rewrite (Z.pow_neg_r 2 b) in Hb by exact N. lia. }
  assert (L25 i < b) by (apply (Z.pow_lt_mono_r_iff 2); lia).
  assert (b - 1 < L25 i + 1) by (apply (Z.pow_lt_mono_r_iff 2); lia). lia.
Qed.

Theorem C35_pow5_table : forall i b, 0 <= i < 326 -> 2 ^ (b - 1) <= 5 ^ i < 2 ^ b ->
  exists lo hi, nth_error DOUBLE_POW5_SPLIT (Z.to_nat i) = Some (lo, hi) /\
    0 <= lo < 2 ^ 64 /\ 0 <= hi < 2 ^ 64 /\ hi * 2 ^ 64 + lo = 5 ^ i * 2 ^ 125 / 2 ^ b.
Proof.
  intros i b Hi Hb. destruct (pow_row i Hi) as ((lo, hi) & E & (R1 & R2) & _ & (G1 & G2) & _).
  cbn [fst snd] in *. exists lo, hi.
  pose proof (bits_unique i b ltac:(lia) Hb) as B.
  split. { unfold tab in E. destruct (0 <=? i) eqn:E0; [|discriminate E]. destruct (nth_error _ _); [|discriminate E]. injection E as ->. reflexivity. }
  split; [exact R1|]. split; [exact R2|]. subst b. unfold row in G1, G2. cbn [fst snd] in G1, G2.
  apply Z.div_unique with (5 ^ i * 2 ^ 125 - (hi * 2 ^ 64 + lo) * 2 ^ (L25 i + 1)); lia.
Qed.
Print Assumptions C35_pow5_table.

Theorem C35_pow5_inverse_table : forall i b, 0 <= i < 342 -> 2 ^ (b - 1) <= 5 ^ i < 2 ^ b ->
  exists lo hi, nth_error DOUBLE_POW5_INV_SPLIT (Z.to_nat i) = Some (lo, hi) /\
    0 <= lo < 2 ^ 64 /\ 0 <= hi < 2 ^ 64 /\ hi * 2 ^ 64 + lo = 2 ^ (b - 1 + 125) / 5 ^ i + 1.
Proof.
  intros i b Hi Hb. destruct (inv_row i Hi) as ((lo, hi) & E & (R1 & R2) & _ & _ & (G1 & G2) & _).
  cbn [fst snd] in *. exists lo, hi.
  pose proof (bits_unique i b ltac:(lia) Hb) as B.
  split. { unfold tab in E. destruct (0 <=? i) eqn:E0; [|discriminate E]. destruct (nth_error _ _); [|discriminate E]. injection E as ->. reflexivity. }
  split; [exact R1|]. split; [exact R2|]. subst b. unfold row in G1, G2. cbn [fst snd] in G1, G2.
  replace (L25 i + 1 - 1 + 125) with (L25 i + 125) by lia.
  enough (2 ^ (L25 i + 125) / 5 ^ i = hi * 2 ^ 64 + lo - 1) by lia.
  symmetry. apply Z.div_unique with (2 ^ (L25 i + 125) - (hi * 2 ^ 64 + lo - 1) * 5 ^ i); lia.
Qed.
Print Assumptions C35_pow5_inverse_table.
Example C35_case :
  2 ^ (755 - 1) <= 5 ^ 325 < 2 ^ 755 /\ length DOUBLE_POW5_SPLIT = 326%nat /\
  length DOUBLE_POW5_INV_SPLIT = 342%nat.
Proof. vm_compute. repeat split; discriminate. Qed.
