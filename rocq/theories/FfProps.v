(** C61-C63: fast_float's word tricks, power-of-five table and Eisel-Lemire conversion. *)
From Coq Require Import ZArith List Bool Lia Reals Lra.
From Flocq Require Import Core IEEE754.Binary IEEE754.Bits.
From Verif Require Import Mem FpModel FpProofs LitModel LitProofs LimProps RyuRound RyuArith RyuCvt RyuParse FfTable FfModel FfWord FfRound FfPow FfApprox FfCompute.
Import ListNotations.
Open Scope Z_scope.
Local Notation len l := (Z.of_nat (length l)).

(** ** C61 *)
(** the number eight decimal digits stand for, most significant first *)
Definition decimal_of (l : list Z) : Z := fold_left (fun a c => 10 * a + (c - 48)) l 0.

(** Eight characters are read as one word whatever the endianness; the bit test tells whether they
    are all digits, and the three multiplications give the number they spell. *)
Theorem C61_eight_digits : forall t l, (8 <= length l)%nat -> Forall (fun c => 0 <= c < 256) l ->
  (is_made_of_eight_digits_fast (read_u64 t l) = true <-> Forall (fun c => 48 <= c <= 57) (firstn 8 l)) /\
  (Forall (fun c => 48 <= c <= 57) (firstn 8 l) -> parse_eight_digits_unrolled (read_u64 t l) = decimal_of (firstn 8 l)).
Proof.
  intros t l L F. assert (F8 : Forall byte (firstn 8 l)) by (apply Forall_forall; intros x Hx; rewrite Forall_forall in F; apply F; rewrite <- (firstn_skipn 8 l); apply in_or_app; now left).
  rewrite read_u64_ok by assumption. split.
  - rewrite eight_test by (try assumption; apply firstn_length_le; exact L). rewrite forallb_forall, Forall_forall. unfold is_integer. split; intros H x Hx; specialize (H x Hx); lia.
  - do 8 (destruct l as [|? l]; [cbn in L; lia|]). cbn [firstn]. intro D.
    repeat match goal with H : Forall _ (_ :: _) |- _ => inversion_clear H end.
    match goal with |- context [le_value [?a; ?b; ?c; ?d; ?e; ?f; ?g; ?h]] =>
      pose proof (swar (a - 48) (b - 48) (c - 48) (d - 48) (e - 48) (f - 48) (g - 48) (h - 48)) as W end.
    cbn [map] in W. repeat match type of W with context [48 + (?x - 48)] => replace (48 + (x - 48)) with x in W by lia end.
    rewrite W by lia. unfold decimal_of. cbn [fold_left]. lia.
Qed.
Print Assumptions C61_eight_digits.

(** leading_zeroes, both the builtin and the portable cascade, and the 64x64-bit product, both the
    wide multiplication and the four 32-bit ones *)
Theorem C61_words : forall t,
  (forall x n, 0 <= n <= 63 -> 2 ^ (63 - n) <= x < 2 ^ (64 - n) -> leading_zeroes t x = Ok n) /\
  (forall a b, 0 <= a < 2 ^ 64 -> 0 <= b < 2 ^ 64 ->
     let (lo, hi) := full_multiplication t a b in hi * 2 ^ 64 + lo = a * b /\ 0 <= lo < 2 ^ 64 /\ 0 <= hi < 2 ^ 64) /\
  (forall l, (8 <= length l)%nat -> Forall (fun c => 0 <= c < 256) l ->
     ((load_u64 t l =? 0x3030303030303030) = true <-> firstn 8 l = repeat 48 8)).
Proof.
  intro t. split; [|split].
  - intros x n Hn Hx. assert (0 < 2 ^ (63 - n)) by (apply Z.pow_pos_nonneg; lia).
    assert (2 ^ (64 - n) <= 2 ^ 64) by (apply Z.pow_le_mono_r; lia). rewrite leading_zeroes_ok by lia. f_equal.
    rewrite (Z.log2_unique x (63 - n)); [lia|lia|]. replace (Z.succ (63 - n)) with (64 - n) by lia. exact Hx.
  - intros a b Ha Hb. rewrite full_multiplication_ok by assumption. pose proof (Z.div_mod (a * b) (2 ^ 64) ltac:(lia)). pose proof (Z.mod_pos_bound (a * b) (2 ^ 64) ltac:(lia)).
    split; [lia|]. split; [assumption|]. split; [apply Z.div_pos; [apply Z.mul_nonneg_nonneg|]; lia|]. apply Z.div_lt_upper_bound; [lia|]. apply Z.mul_lt_mono_nonneg; lia.
  - intros l L F. rewrite load_zeros by assumption. do 8 (destruct l as [|? l]; [cbn in L; lia|]). cbn [firstn forallb repeat]. rewrite !andb_true_iff, !Z.eqb_eq. split.
    + intros (<- & <- & <- & <- & <- & <- & <- & <- & _). reflexivity.
    + intros H. injection H. intros. repeat split; congruence.
Qed.
Print Assumptions C61_words.

(** "20260815", on a big-endian 32-bit and on a little-endian machine; a character just above '9' *)
Example C61_case :
  let l := [50; 48; 50; 54; 48; 56; 49; 53; 99] in
  (is_made_of_eight_digits_fast (read_u64 (Target true false false) l) = true /\
   parse_eight_digits_unrolled (read_u64 (Target true false false) l) = 20260815 /\
   parse_eight_digits_unrolled (read_u64 (Target false true true) l) = 20260815) /\
  is_made_of_eight_digits_fast (read_u64 (Target false true false) [50; 48; 50; 58; 48; 56; 49; 53]) = false /\
  leading_zeroes (Target false true true) (2 ^ 40 + 77) = Ok 23 /\
  full_multiplication (Target false false true) (2 ^ 64 - 1) (2 ^ 64 - 1) = (1, 2 ^ 64 - 2).
Proof. vm_compute. repeat split. Qed.

(** ** C62 *)
Lemma five_odd k b : 0 < k -> 5 ^ k <> 2 ^ b.
Proof.
  intros K E. assert (O : Z.odd (5 ^ k) = true) by (rewrite Z.odd_pow by lia; reflexivity).
  destruct (Z.lt_trichotomy b 0) as [B|[->|B]].
  - rewrite (Z.pow_neg_r 2 b B) in E. rewrite E in O. discriminate O.
  - change (2 ^ 0) with 1 in E. assert (1 < 5 ^ k) by (apply Z.pow_gt_1; lia). lia.
  - rewrite E, (Z.odd_pow 2 b) in O by lia. discriminate O.
Qed.
Lemma quot_is a d x : 0 < d -> x * d <= a < (x + 1) * d -> a / d = x.
Proof. intros D H. symmetry. apply Z.div_unique with (a - x * d); lia. Qed.
(** the value of an entry, [b] the bit length of 5^|q| *)
Lemma table_value q b : -342 <= q <= 308 -> 2 ^ (b - 1) <= 5 ^ Z.abs q < 2 ^ b -> 0 < b ->
  T q = if 0 <=? q then 5 ^ q * 2 ^ 128 / 2 ^ b else 2 ^ (b + 127) / 5 ^ (- q) + (if -27 <=? q then 1 else 0).
Proof.
  intros Hq Hb Pb. pose proof (entries_ok q Hq) as E. unfold entry_ok in E. rewrite !andb_true_iff in E.
  destruct E as ((((((A1 & A2) & A3) & A4) & A5) & _) & _). rewrite Z.leb_le in A1, A3. rewrite Z.ltb_lt in A2, A4.
  assert (T1 : 2 ^ 127 <= T q < 2 ^ 128).
  { unfold T. change (2 ^ 127) with (2 ^ 63 * 2 ^ 64). change (2 ^ 128) with (2 ^ 64 * 2 ^ 64). nia. }
  clear A1 A2 A3 A4. set (e := e5 q) in *. clearbody e. set (x := T q) in *. clearbody x.
  assert (P5 : 0 < 5 ^ Z.abs q) by (apply Z.pow_pos_nonneg; lia).
  assert (LT : forall u v, 2 ^ u < 2 ^ v -> 0 <= v -> u < v) by (intros u v H V; destruct (Z.lt_ge_cases u v); [assumption|]; assert (2 ^ v <= 2 ^ u) by (apply Z.pow_le_mono_r; lia); lia).
  assert (PW : forall u v, 0 <= u -> 0 <= v -> 2 ^ (u + v) = 2 ^ u * 2 ^ v) by (intros; apply Z.pow_add_r; lia).
  destruct (Z.leb_spec 0 q) as [Q|Q].
  - rewrite Z.abs_eq in Hb, P5 by exact Q. rewrite !andb_true_iff in A5. destruct A5 as ((B1 & _) & _).
    assert (P2 : 0 < 2 ^ b) by (apply Z.pow_pos_nonneg; lia).
    destruct (Z.leb_spec 0 e) as [E|E].
    + apply andb_true_iff in B1. rewrite Z.leb_le, Z.ltb_lt in B1. assert (Pe : 0 < 2 ^ e) by (apply Z.pow_pos_nonneg; lia).
      assert (b = e + 128).
      { assert (2 ^ (127 + e) < 2 ^ b) by (rewrite PW by lia; nia). assert (2 ^ (b - 1) < 2 ^ (128 + e)) by (rewrite PW by lia; nia).
        apply LT in H, H0; lia. }
      subst b. rewrite PW by lia. symmetry. apply quot_is; nia.
    + apply Z.eqb_eq in B1. assert (Pe : 0 < 2 ^ (- e)) by (apply Z.pow_pos_nonneg; lia).
      assert (b = 128 + e).
      { assert (b - e < 129). { assert (2 ^ (b - 1 - e) < 2 ^ 128); [|apply LT in H; lia]. replace (b - 1 - e) with (b - 1 + - e) by lia. rewrite PW by lia. nia. }
        assert (127 < b - e). { apply LT; [|lia]. replace (b - e) with (b + - e) by lia. rewrite PW by lia. nia. }
        lia. }
      replace (2 ^ 128) with (2 ^ (- e) * 2 ^ b) by (rewrite <- PW by lia; f_equal; lia). rewrite Z.mul_assoc, Z.div_mul by lia. lia.
  - rewrite Z.abs_neq in Hb, P5 by lia. apply andb_true_iff in A5. destruct A5 as (B0 & B1). apply Z.leb_le in B0.
    set (p := 5 ^ (- q)) in *. set (n := - e) in *.
    assert (NE : p <> 2 ^ (b - 1)) by (apply five_odd; lia).
    assert (Up : forall y, y < 2 ^ 128 + 1 -> 2 ^ n < y * p -> n < 128 + b).
    { intros y Y H. apply LT; [|lia]. rewrite PW by lia. nia. }
    assert (EQ : 2 ^ (126 + b) = 2 ^ 127 * 2 ^ (b - 1)) by (rewrite <- PW by lia; f_equal; lia).
    destruct (Z.ltb_spec q (-27)) as [S|S].
    + apply andb_true_iff in B1. rewrite Z.leb_le, Z.ltb_lt in B1.
      assert (n < 128 + b) by (apply (Up (x + 1)); lia).
      assert (126 + b < n). { apply LT; [|lia]. rewrite EQ. nia. }
      replace (-27 <=? q) with false by lia. replace (b + 127) with n by lia. rewrite Z.add_0_r. symmetry. apply quot_is; lia.
    + rewrite !andb_true_iff, !Z.ltb_lt in B1. destruct B1 as ((B1 & B2) & _).
      assert (n < 128 + b) by (apply (Up x); lia).
      assert (p <= 5 ^ 27) by (apply Z.pow_le_mono_r; lia). assert (5 ^ 27 < 2 ^ 126) by (vm_compute; reflexivity).
      assert (126 + b < n). { apply LT; [|lia]. rewrite EQ. change (2 ^ 127) with (2 * 2 ^ 126) in *. nia. }
      replace (-27 <=? q) with true by lia. replace (b + 127) with n by lia. rewrite (quot_is (2 ^ n) p (x - 1)); lia.
Qed.

(** The 128-bit significand of 5^q: truncated for q >= 0 and q < -27, rounded up for the
    reciprocals that can be exact divisors, -27 <= q < 0.  [b] is the bit length of 5^|q|. *)
Theorem C62_power_of_five_table : length power_of_five_128 = 1302%nat /\
  forall q b, -342 <= q <= 308 -> 2 ^ (b - 1) <= 5 ^ Z.abs q < 2 ^ b ->
  exists hi lo, nth_error power_of_five_128 (Z.to_nat (2 * (q + 342))) = Some hi /\
    nth_error power_of_five_128 (Z.to_nat (2 * (q + 342) + 1)) = Some lo /\
    2 ^ 63 <= hi < 2 ^ 64 /\ 0 <= lo < 2 ^ 64 /\
    hi * 2 ^ 64 + lo = if 0 <=? q then 5 ^ q * 2 ^ 128 / 2 ^ b
                       else 2 ^ (b + 127) / 5 ^ (- q) + (if -27 <=? q then 1 else 0).
Proof.
  split; [exact table_length|]. intros q b Hq Hb.
  assert (P : 0 < 5 ^ Z.abs q) by (apply Z.pow_pos_nonneg; lia).
  assert (Pb : 0 < b). { destruct (Z.lt_ge_cases 0 b) as [?|N]; [assumption|]. destruct (Z.eq_dec b 0) as [->|]; [change (2 ^ 0) with 1 in Hb; lia|]. rewrite (Z.pow_neg_r 2 b) in Hb by lia. lia. }
  pose proof (entry_facts q Hq) as F. exists (t0 q), (t1 q). unfold t0 at 1, t1 at 1.
  split; [apply nth_error_nth'; rewrite table_length; lia|]. split; [apply nth_error_nth'; rewrite table_length; lia|].
  split; [apply (en_t0 q F)|]. split; [apply (en_t1 q F)|]. now apply table_value.
Qed.
Print Assumptions C62_power_of_five_table.
Example C62_case : 2 ^ (3 - 1) <= 5 ^ Z.abs 1 < 2 ^ 3 /\ nth_error power_of_five_128 686 = Some (5 * 2 ^ 61) /\
  2 ^ (3 - 1) <= 5 ^ Z.abs (-1) < 2 ^ 3 /\ nth_error power_of_five_128 682 = Some 14757395258967641292 /\ nth_error power_of_five_128 683 = Some 14757395258967641293.
Proof. vm_compute. repeat split; discriminate. Qed.

(** ** C63 *)
(** the value an invalid adjusted mantissa stands for: mantissa * 2^(power2 + 2^15 - bias) *)
Definition scale (b : bformat) (am : adjusted) : Z := am_power2 am + 2 ^ 15 - (mw (bfmt b) + 2 ^ (ew (bfmt b) - 1) - 1).

Lemma std_bias b : std b -> explicit_bits b - minimum_exponent b = mw (bfmt b) + 2 ^ (ew (bfmt b) - 1) - 1.
Proof. intros [->| ->]; reflexivity. Qed.
Lemma nearest_bits b neg w q : std b -> 0 <= w -> nearest (bfmt b) neg (dec w q) (bits_of b neg (literal (bfmt b) w q)).
Proof.
  intros Hb Hw. pose proof (literal_nearest (bfmt b) neg w q Hw) as N. unfold bits_of. replace (sign_index b) with (ew (bfmt b) + mw (bfmt b)) by (destruct Hb as [->| ->]; reflexivity). exact N.
Qed.

(** compute_float either decides, and then the bits to_float makes of its result are those of the
    nearest float or double (ties to even, gradual underflow, overflow to infinity), or says that it
    could not by a negative exponent, and then its 64-bit estimate is below the decimal by less than
    four units of its last place.  It does so without undefined shifts for every w and q. *)
Theorem C63_compute_float : forall t b q w, b = bdouble \/ b = bfloat -> 0 <= w < 2 ^ 64 ->
  exists am, compute_float t b q w = Ok am /\
    (0 <= am_power2 am -> forall neg, nearest (bfmt b) neg (dec w q) (to_float b neg am)) /\
    (am_power2 am < 0 -> 2 ^ 63 <= am_mantissa am < 2 ^ 64 /\
       (IZR (am_mantissa am) * bpow radix2 (scale b am) <= dec w q < (IZR (am_mantissa am) + 4) * bpow radix2 (scale b am))%R).
Proof.
  intros t b q w Hb Hw.
  assert (G : forall am, packs b am (literal (bfmt b) w q) \/ estimate b w q am ->
    (0 <= am_power2 am -> forall neg, nearest (bfmt b) neg (dec w q) (to_float b neg am)) /\
    (am_power2 am < 0 -> 2 ^ 63 <= am_mantissa am < 2 ^ 64 /\
       (IZR (am_mantissa am) * bpow radix2 (scale b am) <= dec w q < (IZR (am_mantissa am) + 4) * bpow radix2 (scale b am))%R)).
  { intros am [[P0 P]|(E1 & E2 & E3 & E)].
    - split; [|lia]. intros _ neg. rewrite P. apply nearest_bits; [exact Hb|lia].
    - split; [lia|]. intros _. split; [exact E1|]. unfold scale. rewrite <- std_bias by exact Hb. unfold invalid_am_bias in E.
      replace (am_power2 am + 2 ^ 15 - (explicit_bits b - minimum_exponent b)) with (am_power2 am - -0x8000 - (explicit_bits b - minimum_exponent b)) by lia. exact E. }
  pose proof (std_consts b Hb) as C. pose proof (c_mb b C). pose proof (c_infr b C) as If. assert (P : 0 < 2 ^ explicit_bits b) by (apply Z.pow_pos_nonneg; lia).
  destruct (Z.eq_dec w 0) as [->|W0].
  { exists (AM 0 0). split; [reflexivity|]. apply G. left. replace (literal (bfmt b) 0 q) with 0; [apply (pack_fields b 0 0 C); lia|]. symmetry. apply RyuCvt.lit_zero. }
  assert (Hw' : 0 < w < 2 ^ 64) by lia.
  destruct (Z.lt_ge_cases q (smallest_power_of_ten b)) as [Lo|Lo].
  { exists (AM 0 0). split. { unfold compute_float. replace (w =? 0) with false by lia. replace (q <? smallest_power_of_ten b) with true by lia. reflexivity. }
    apply G. left. rewrite (underflow b q w Hb Hw' Lo). apply (pack_fields b 0 0 C); lia. }
  destruct (Z.lt_ge_cases (largest_power_of_ten b) q) as [Up|Up].
  { exists (AM 0 (infinite_power b)). split. { unfold compute_float. replace (w =? 0) with false by lia. replace (q <? smallest_power_of_ten b) with false by lia. cbn [orb]. replace (largest_power_of_ten b <? q) with true by lia. reflexivity. }
    apply G. left. rewrite (overflow b q w Hb Hw' Up). unfold inf_pattern. rewrite <- (c_inf b C), (c_mw b C). replace (infinite_power b * 2 ^ explicit_bits b) with (infinite_power b * 2 ^ explicit_bits b + 0) by lia. apply (pack_fields b 0 _ C); lia. }
  destruct (compute_float_ok t b q w Hb Hw' ltac:(lia)) as (am & E & A). exists am. split; [exact E|now apply G].
Qed.
Print Assumptions C63_compute_float.

(** compute_error gives such an estimate, for every w > 0 and q in range *)
Theorem C63_compute_error : forall t b q w, b = bdouble \/ b = bfloat -> 0 < w < 2 ^ 64 -> smallest_power_of_ten b <= q <= largest_power_of_ten b ->
  exists am, compute_error t b q w = Ok am /\ am_power2 am < 0 /\ 2 ^ 63 <= am_mantissa am < 2 ^ 64 /\
       (IZR (am_mantissa am) * bpow radix2 (scale b am) <= dec w q < (IZR (am_mantissa am) + 4) * bpow radix2 (scale b am))%R.
Proof.
  intros t b q w Hb Hw Hq. destruct (compute_error_ok t b q w Hb Hw Hq) as (am & E & E1 & E2 & E3 & E4). exists am. split; [exact E|]. split; [lia|]. split; [exact E1|].
  unfold scale. rewrite <- std_bias by exact Hb. unfold invalid_am_bias in E4.
  replace (am_power2 am + 2 ^ 15 - (explicit_bits b - minimum_exponent b)) with (am_power2 am - -0x8000 - (explicit_bits b - minimum_exponent b)) by lia. exact E4.
Qed.
Print Assumptions C63_compute_error.

(** 0.1; the tie 9007199254740993 to even; the least subnormal from 5e-324; 1e309; a float *)
Example C63_case : let t := Target false true false in
  compute_float t bdouble (-1) 1 = Ok (AM 0x999999999999a 1019) /\
  compute_float t bdouble 0 9007199254740993 = Ok (AM 0 1076) /\
  compute_float t bdouble (-324) 5 = Ok (AM 1 0) /\
  compute_float t bdouble 309 1 = Ok (AM 0 0x7FF) /\
  compute_float t bfloat (-1) 1 = Ok (AM 0x4ccccd 123) /\
  to_float bfloat true (AM 0x4ccccd 123) = 0xbdcccccd /\
  compute_error t bdouble (-1) 1 = Ok (AM 0xCCCCCCCCCCCCCCCC (-31760)).
Proof. vm_compute. repeat split. Qed.
