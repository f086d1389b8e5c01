(** The integer helpers of include/__nanostrutil.h against their mathematical definitions. *)
From Coq Require Import ZArith List Bool Lia Zpow_facts.
From Verif Require Import Mem RyuModel.
Open Scope Z_scope.

Lemma chk_ok {A} b (k : res A) : b = true -> chk b k = k.
Proof. now intros ->. Qed.

(** ** Logarithm approximations *)

(** If p1/q1 <= C/2^s < p2/q2 are neighbouring fractions and B^p1 <= A^q1, A^q2 < B^p2, then
    multiplying by C/2^s and truncating gives the exact floor of log_B (A^e) for e < q1 + q2. *)
Lemma floor_log A B C s p1 q1 p2 q2 e :
  1 < A -> 1 < B -> 0 <= s -> 0 <= C -> 0 <= p1 -> 0 < q1 -> 0 <= p2 -> 0 < q2 ->
  p2 * q1 - p1 * q2 = 1 -> p1 * 2 ^ s <= C * q1 -> C * q2 < p2 * 2 ^ s ->
  B ^ p1 <= A ^ q1 -> A ^ q2 < B ^ p2 ->
  0 <= e < q1 + q2 ->
  B ^ (e * C / 2 ^ s) <= A ^ e < B ^ (e * C / 2 ^ s + 1).
Proof.
  intros HA HB Hs HC Hp1 Hq1 Hp2 Hq2 Det L U PL PU He.
  assert (P : 0 < 2 ^ s) by (apply Z.pow_pos_nonneg; lia).
  set (n := e * C / 2 ^ s).
  assert (N0 : 0 <= n) by (apply Z.div_pos; nia).
  assert (N1 : n * 2 ^ s <= e * C) by (unfold n; rewrite Z.mul_comm; apply Z.mul_div_le; lia).
  assert (N2 : e * C < (n + 1) * 2 ^ s).
  { unfold n. pose proof (Z.mul_succ_div_gt (e * C) (2 ^ s) P). lia. }
  destruct (Z.eq_dec e 0) as [->|E0].
  { assert (n = 0) by (unfold n; now rewrite Z.mul_0_l, Z.div_0_l by lia).
    rewrite H. rewrite !Z.pow_0_r. replace (0 + 1) with 1 by lia. rewrite Z.pow_1_r. lia. }
  assert (K1 : n * q1 <= p1 * e).
  { apply Z.nlt_ge. intro K.
    assert (n * q2 < p2 * e) by nia.
    assert (n * q1 - p1 * e >= 1) by lia. assert (p2 * e - n * q2 >= 1) by lia.
    assert (e = q2 * (n * q1 - p1 * e) + q1 * (p2 * e - n * q2)) by nia. nia. }
  assert (K2 : p2 * e <= (n + 1) * q2).
  { apply Z.nlt_ge. intro K.
    assert (p1 * e < (n + 1) * q1) by nia.
    assert (e = q2 * ((n + 1) * q1 - p1 * e) + q1 * (p2 * e - (n + 1) * q2)) by nia. nia. }
  split.
  - apply (Z.pow_le_mono_l_iff _ _ q1); [apply Z.pow_nonneg; lia|lia|lia|].
    rewrite <- !Z.pow_mul_r by lia.
    apply Z.le_trans with (B ^ (p1 * e)); [apply Z.pow_le_mono_r; lia|].
    rewrite (Z.mul_comm e q1). rewrite !Z.pow_mul_r by lia. apply Z.pow_le_mono_l.
    split; [apply Z.pow_nonneg; lia|exact PL].
  - apply (Z.pow_lt_mono_l_iff _ _ q2); [apply Z.pow_nonneg; lia|apply Z.pow_nonneg; lia|lia|].
    rewrite <- !Z.pow_mul_r by lia.
    apply Z.lt_le_trans with (B ^ (p2 * e)); [|apply Z.pow_le_mono_r; lia].
    rewrite (Z.mul_comm e q2). rewrite !Z.pow_mul_r by lia. apply Z.pow_lt_mono_l; [lia|].
    split; [apply Z.pow_nonneg; lia|exact PU].
Qed.

Definition L25 (e : Z) : Z := e * 1217359 / 2 ^ 19.
Definition L102 (e : Z) : Z := e * 78913 / 2 ^ 18.
Definition L105 (e : Z) : Z := e * 732923 / 2 ^ 20.

Lemma range_ok (e hi : Z) : 0 <= e <= hi -> (0 <=? e) && (e <=? hi) = true.
Proof. intro H. apply andb_true_intro. split; apply Z.leb_le; lia. Qed.

Lemma log2pow5_eq e : 0 <= e <= 3528 -> log2pow5 e = Ok (L25 e).
Proof.
  intro H. unfold log2pow5. rewrite chk_ok by now apply range_ok. unfold u32, L25.
  rewrite Z.mod_small; [reflexivity|]. change (2 ^ 32) with 4294967296. lia.
Qed.
Lemma pow5bits_eq e : 0 <= e <= 3528 -> pow5bits e = Ok (L25 e + 1).
Proof.
  intro H. unfold pow5bits. rewrite chk_ok by now apply range_ok. unfold u32, L25.
  rewrite Z.mod_small; [reflexivity|]. change (2 ^ 32) with 4294967296. lia.
Qed.
Lemma ceil_log2pow5_eq e : 0 <= e <= 3528 -> ceil_log2pow5 e = Ok (L25 e + 1).
Proof. intro H. unfold ceil_log2pow5. now rewrite log2pow5_eq. Qed.
Lemma log10Pow2_eq e : 0 <= e <= 1650 -> log10Pow2 e = Ok (L102 e).
Proof.
  intro H. unfold log10Pow2. rewrite chk_ok by now apply range_ok. unfold u32, L102.
  rewrite Z.mod_small; [reflexivity|]. change (2 ^ 32) with 4294967296. lia.
Qed.
Lemma log10Pow5_eq e : 0 <= e <= 2620 -> log10Pow5 e = Ok (L105 e).
Proof.
  intro H. unfold log10Pow5. rewrite chk_ok by now apply range_ok. unfold u32, L105.
  rewrite Z.mod_small; [reflexivity|]. change (2 ^ 32) with 4294967296. lia.
Qed.

Lemma le_by (a b : Z) : (a <=? b) = true -> a <= b. Proof. apply Z.leb_le. Qed.
Lemma lt_by (a b : Z) : (a <? b) = true -> a < b. Proof. apply Z.ltb_lt. Qed.

(** closed comparisons by evaluation, the one about [e] by linear arithmetic *)
Local Ltac decide_consts :=
  first [apply le_by; vm_compute; reflexivity | apply lt_by; vm_compute; reflexivity
        | vm_compute; reflexivity | lia].

Lemma L25_spec e : 0 <= e < 4004 -> 2 ^ L25 e <= 5 ^ e < 2 ^ (L25 e + 1).
Proof.
  intro H. apply (floor_log 5 2 1217359 19 7804 3361 1493 643); decide_consts.
Qed.
Lemma L102_spec e : 0 <= e <= 1650 -> 10 ^ L102 e <= 2 ^ e < 10 ^ (L102 e + 1).
Proof.
  intro H. apply (floor_log 2 10 78913 18 351 1166 146 485); decide_consts.
Qed.
Lemma L105_spec e : 0 <= e <= 2620 -> 10 ^ L105 e <= 5 ^ e < 10 ^ (L105 e + 1).
Proof.
  intro H. apply (floor_log 5 10 732923 20 339 485 1493 2136); decide_consts.
Qed.

(** ** Lengths *)
Lemma decimalLength9_eq v : 1 <= v < 1000000000 ->
  exists n, decimalLength9 v = Ok n /\ 1 <= n <= 9 /\ 10 ^ (n - 1) <= v < 10 ^ n.
Proof.
  intro H. unfold decimalLength9. rewrite chk_ok by now apply Z.ltb_lt.
  eexists. split; [reflexivity|].
  repeat (match goal with |- context [if ?a <=? v then _ else _] => destruct (Z.leb_spec a v) end; cbv iota); lia.
Qed.
Lemma decimalLength17_eq v : 1 <= v < 100000000000000000 ->
  exists n, decimalLength17 v = Ok n /\ 1 <= n <= 17 /\ 10 ^ (n - 1) <= v < 10 ^ n.
Proof.
  intro H. unfold decimalLength17. rewrite chk_ok by now apply Z.ltb_lt.
  eexists. split; [reflexivity|].
  repeat (match goal with |- context [if ?a <=? v then _ else _] => destruct (Z.leb_spec a v) end; cbv iota); lia.
Qed.

(** ** Divisibility *)
Lemma pow5f32 fuel v c : 0 < v -> v < 5 ^ Z.of_nat fuel ->
  exists k, pow5factor_32_loop fuel v c = Ok (c + k) /\ 0 <= k /\ (5 ^ k | v) /\ ~ (5 ^ (k + 1) | v).
Proof.
  revert v c. induction fuel as [|n IH]; intros v c Hv Hf; [cbn in Hf; lia|].
  cbn [pow5factor_32_loop]. rewrite chk_ok by (rewrite negb_true_iff; apply Z.eqb_neq; lia).
  destruct (Z.eqb_spec (v mod 5) 0) as [E|E]; cbn [negb].
  - assert (D : v = 5 * (v / 5)) by (pose proof (Z.div_mod v 5 ltac:(lia)); lia).
    destruct (IH (v / 5) (c + 1)) as (k & R & K0 & K1 & K2); [lia| |].
    { rewrite Nat2Z.inj_succ, Z.pow_succ_r in Hf by lia. lia. }
    exists (k + 1). rewrite R. split; [f_equal; lia|]. split; [lia|]. split.
    + rewrite Z.pow_add_r by lia. rewrite D, Z.mul_comm. apply Z.mul_divide_mono_l. exact K1.
    + intro K. apply K2. rewrite D in K. rewrite Z.pow_add_r in K by lia.
      rewrite (Z.mul_comm (5 ^ (k + 1))) in K. change (5 ^ 1) with 5 in K.
      apply Z.mul_divide_cancel_l in K; [exact K|lia].
  - exists 0. split; [f_equal; lia|]. split; [lia|]. split; [apply Z.divide_1_l|].
    change (5 ^ (0 + 1)) with 5. intro K. apply E. apply Z.mod_divide in K; lia.
Qed.

Lemma factor_le k p v : 0 <= k -> 0 <= p -> (5 ^ k | v) -> ~ (5 ^ (k + 1) | v) ->
  (p <=? k) = (v mod 5 ^ p =? 0).
Proof.
  intros K P D N. assert (0 < 5 ^ p) by (apply Z.pow_pos_nonneg; lia).
  destruct (Z.leb_spec p k) as [L|L]; symmetry.
  - apply Z.eqb_eq, Z.mod_divide; [lia|]. apply Z.divide_trans with (5 ^ k); [|exact D].
    exists (5 ^ (k - p)). rewrite <- Z.pow_add_r by lia. f_equal. lia.
  - apply Z.eqb_neq. intro E. apply N. apply Z.mod_divide in E; [|lia].
    apply Z.divide_trans with (5 ^ p); [|exact E].
    exists (5 ^ (p - (k + 1))). rewrite <- Z.pow_add_r by lia. f_equal. lia.
Qed.

Lemma multipleOfPowerOf5_32_eq v p : 0 < v < 2 ^ 32 -> 0 <= p ->
  multipleOfPowerOf5_32 v p = Ok (v mod 5 ^ p =? 0).
Proof.
  intros Hv Hp. unfold multipleOfPowerOf5_32, pow5factor_32.
  destruct (pow5f32 32 v 0) as (k & R & K0 & K1 & K2); [lia| |].
  { apply Z.lt_le_trans with (1 := proj2 Hv). vm_compute. discriminate. }
  rewrite R. cbn [bind]. f_equal. rewrite Z.add_0_l. now apply factor_le.
Qed.

Lemma u32_id x : 0 <= x < 2 ^ 32 -> u32 x = x. Proof. apply Z.mod_small. Qed.
Lemma u64_id x : 0 <= x < 2 ^ 64 -> u64 x = x. Proof. apply Z.mod_small. Qed.
Lemma u32_bound x : 0 <= u32 x < 2 ^ 32. Proof. now apply Z.mod_pos_bound. Qed.
Lemma u64_bound x : 0 <= u64 x < 2 ^ 64. Proof. now apply Z.mod_pos_bound. Qed.

(** the remainder idiom *)
Lemma rem32_eq x n : 0 < n < 2 ^ 32 -> rem32 x n (x / n) = x mod n.
Proof.
  intro H. unfold rem32, u32.
  rewrite Zmult_mod_idemp_r, <- Zminus_mod. rewrite <- (Z.mod_small (x mod n) (2 ^ 32)).
  - f_equal. rewrite Z.mod_eq by lia. reflexivity.
  - pose proof (Z.mod_pos_bound x n). lia.
Qed.

Lemma pow5f64 fuel v c : 0 < v -> v < 5 ^ Z.of_nat fuel ->
  exists k, pow5Factor_loop fuel v c = Ok (c + k) /\ 0 <= k /\ (5 ^ k | v) /\ ~ (5 ^ (k + 1) | v).
Proof.
  intros Hv Hf. destruct (pow5f32 fuel v c Hv Hf) as (k & R & H). exists k. split; [|exact H].
  rewrite <- R. clear. revert v c. induction fuel as [|n IH]; intros v c; [reflexivity|].
  cbn [pow5Factor_loop pow5factor_32_loop]. unfold div5. rewrite rem32_eq by lia. now rewrite IH.
Qed.

Lemma multipleOfPowerOf5_eq v p : 0 < v < 2 ^ 64 -> 0 <= p ->
  multipleOfPowerOf5 v p = Ok (v mod 5 ^ p =? 0).
Proof.
  intros Hv Hp. unfold multipleOfPowerOf5, pow5Factor.
  destruct (pow5f64 64 v 0) as (k & R & K0 & K1 & K2); [lia| |].
  { apply Z.lt_le_trans with (1 := proj2 Hv). vm_compute. discriminate. }
  rewrite R. cbn [bind]. f_equal. rewrite Z.add_0_l. now apply factor_le.
Qed.

Lemma land_mask v p : 0 <= p -> Z.land v (2 ^ p - 1) = v mod 2 ^ p.
Proof. intro H. rewrite <- Z.land_ones by exact H. f_equal. rewrite Z.ones_equiv. lia. Qed.

Lemma multipleOfPowerOf2_32_eq v p : 0 <= p < 32 ->
  multipleOfPowerOf2_32 v p = Ok (v mod 2 ^ p =? 0).
Proof.
  intro H. unfold multipleOfPowerOf2_32. rewrite chk_ok.
  - now rewrite land_mask by lia.
  - apply andb_true_intro. split; [apply Z.leb_le|apply Z.ltb_lt]; lia.
Qed.
Lemma multipleOfPowerOf2_eq v p : v <> 0 -> 0 <= p < 64 ->
  multipleOfPowerOf2 v p = Ok (v mod 2 ^ p =? 0).
Proof.
  intros Hv H. unfold multipleOfPowerOf2. rewrite chk_ok.
  - now rewrite land_mask by lia.
  - apply andb_true_intro. split; [apply andb_true_intro; split|].
    + rewrite negb_true_iff. now apply Z.eqb_neq.
    + apply Z.leb_le; lia.
    + apply Z.ltb_lt; lia.
Qed.

(** ** Wide multiplication *)
Lemma lor_add a b k : 0 <= k -> 0 <= b < 2 ^ k -> Z.lor (a * 2 ^ k) b = a * 2 ^ k + b.
Proof.
  intros Hk Hb.
  assert (D : Z.land (a * 2 ^ k) b = 0).
  { apply Z.bits_inj_0. intro n.
    rewrite Z.land_spec. destruct (Z.ltb_spec n k) as [L|L].
    - rewrite Z.mul_pow2_bits_low by lia. reflexivity.
    - destruct (Z.ltb_spec n 0); [rewrite !Z.testbit_neg_r by lia; reflexivity|].
      destruct (Z.eq_dec b 0) as [->|B]; [rewrite Z.bits_0; apply andb_false_r|].
      rewrite (Z.bits_above_log2 b n); [apply andb_false_r|lia|].
      apply Z.lt_le_trans with k; [|exact L]. apply Z.log2_lt_pow2; lia. }
  rewrite <- Z.lxor_lor by exact D. symmetry. now apply Z.add_nocarry_lxor.
Qed.

(** halves of a 64-bit value *)
Lemma halves x : 0 <= x < 2 ^ 64 ->
  x = u32 (x / 2 ^ 32) * 2 ^ 32 + u32 x /\ 0 <= u32 (x / 2 ^ 32) < 2 ^ 32 /\ 0 <= u32 x < 2 ^ 32.
Proof.
  intro H. split; [|split; apply u32_bound]. unfold u32.
  rewrite (Z.mod_small (x / 2 ^ 32)). 
  - rewrite Z.mul_comm. apply Z.div_mod. lia.
  - split; [apply Z.div_pos; lia|]. apply Z.div_lt_upper_bound; lia.
Qed.

Lemma prod_bound a b : 0 <= a < 2 ^ 32 -> 0 <= b < 2 ^ 32 -> 0 <= a * b <= (2 ^ 32 - 1) * (2 ^ 32 - 1).
Proof. intros. split; [nia|]. apply Z.mul_le_mono_nonneg; lia. Qed.

Lemma umul128_eq a b : 0 <= a < 2 ^ 64 -> 0 <= b < 2 ^ 64 ->
  umul128 a b = ((a * b) mod 2 ^ 64, a * b / 2 ^ 64).
Proof.
  intros Ha Hb. unfold umul128.
  destruct (halves a Ha) as (Ea & Ba1 & Ba0). destruct (halves b Hb) as (Eb & Bb1 & Bb0).
  set (aLo := u32 a) in *. set (aHi := u32 (a / 2 ^ 32)) in *.
  set (bLo := u32 b) in *. set (bHi := u32 (b / 2 ^ 32)) in *.
  pose proof (prod_bound aLo bLo Ba0 Bb0) as P00. pose proof (prod_bound aLo bHi Ba0 Bb1) as P01.
  pose proof (prod_bound aHi bLo Ba1 Bb0) as P10. pose proof (prod_bound aHi bHi Ba1 Bb1) as P11.
  assert (AB : a * b = aHi * bHi * 2 ^ 64 + (aHi * bLo + aLo * bHi) * 2 ^ 32 + aLo * bLo).
  { rewrite Ea, Eb. change (2 ^ 64) with (2 ^ 32 * 2 ^ 32). ring. }
  clear Ea Eb. clearbody aLo aHi bLo bHi.
  rewrite (u64_id (aLo * bLo)) by lia. rewrite (u64_id (aLo * bHi)) by lia.
  rewrite (u64_id (aHi * bLo)) by lia. rewrite (u64_id (aHi * bHi)) by lia.
  set (p00 := aLo * bLo) in *. set (p01 := aLo * bHi) in *.
  set (p10 := aHi * bLo) in *. set (p11 := aHi * bHi) in *. clearbody p00 p01 p10 p11.
  destruct (halves p00 ltac:(lia)) as (E0 & H0 & L0).
  set (h0 := u32 (p00 / 2 ^ 32)) in *. set (l0 := u32 p00) in *. clearbody h0 l0.
  rewrite (u64_id (p10 + h0)) by lia.
  set (mid1 := p10 + h0) in *.
  destruct (halves mid1 ltac:(lia)) as (E1 & H1 & L1).
  set (h1 := u32 (mid1 / 2 ^ 32)) in *. set (l1 := u32 mid1) in *. clearbody h1 l1.
  rewrite (u64_id (p01 + l1)) by lia.
  set (mid2 := p01 + l1) in *.
  destruct (halves mid2 ltac:(lia)) as (E2 & H2 & L2).
  set (h2 := u32 (mid2 / 2 ^ 32)) in *. set (l2 := u32 mid2) in *. clearbody h2 l2.
  rewrite (u64_id (l2 * 2 ^ 32)) by lia.
  rewrite lor_add by lia.
  assert (T : a * b = (p11 + h1 + h2) * 2 ^ 64 + (l2 * 2 ^ 32 + l0)) by (subst mid1 mid2; lia).
  assert (B : 0 <= a * b <= (2 ^ 64 - 1) * (2 ^ 64 - 1)).
  { split; [nia|]. apply Z.mul_le_mono_nonneg; lia. }
  assert (Q : a * b / 2 ^ 64 = p11 + h1 + h2).
  { symmetry. apply (Z.div_unique_pos _ _ _ (l2 * 2 ^ 32 + l0)); lia. }
  assert (R : (a * b) mod 2 ^ 64 = l2 * 2 ^ 32 + l0).
  { symmetry. apply (Z.mod_unique_pos _ _ (p11 + h1 + h2)); lia. }
  rewrite Q, R. f_equal. apply u64_id. lia.
Qed.

Lemma shiftright128_eq lo hi d : 0 <= lo < 2 ^ 64 -> 0 <= hi -> 0 < d < 64 ->
  shiftright128 lo hi d = Ok (u64 ((hi * 2 ^ 64 + lo) / 2 ^ d)).
Proof.
  intros Hlo Hhi Hd. unfold shiftright128. rewrite chk_ok.
  2: { apply andb_true_intro. split; apply Z.ltb_lt; lia. }
  f_equal. assert (P : 0 < 2 ^ d) by (apply Z.pow_pos_nonneg; lia).
  assert (P' : 0 < 2 ^ (64 - d)) by (apply Z.pow_pos_nonneg; lia).
  assert (S : 2 ^ 64 = 2 ^ (64 - d) * 2 ^ d) by (rewrite <- Z.pow_add_r by lia; f_equal; lia).
  assert (E : (hi * 2 ^ 64 + lo) / 2 ^ d = hi * 2 ^ (64 - d) + lo / 2 ^ d).
  { rewrite S. rewrite Z.mul_assoc. rewrite Z.add_comm, Z.div_add by lia. lia. }
  rewrite E. assert (L : 0 <= lo / 2 ^ d < 2 ^ (64 - d)).
  { split; [apply Z.div_pos; lia|]. apply Z.div_lt_upper_bound; [lia|]. rewrite Z.mul_comm, <- S. lia. }
  assert (U : u64 (hi * 2 ^ (64 - d)) = (hi mod 2 ^ d) * 2 ^ (64 - d)).
  { unfold u64. rewrite S, (Z.mul_comm (2 ^ (64 - d))). apply Z.mul_mod_distr_r; lia. }
  rewrite U, lor_add by lia. unfold u64.
  rewrite <- (Z.mod_small (hi mod 2 ^ d * 2 ^ (64 - d) + lo / 2 ^ d) (2 ^ 64)).
  - rewrite <- (Z.add_mod_idemp_l (hi * 2 ^ (64 - d))) by lia. fold (u64 (hi * 2 ^ (64 - d))). rewrite U.
    reflexivity.
  - pose proof (Z.mod_pos_bound hi (2 ^ d) P). rewrite S. nia.
Qed.

(** floor of a truncated quotient *)
Lemma div_div_pow x a b : 0 <= a -> 0 <= b -> x / 2 ^ a / 2 ^ b = x / 2 ^ (a + b).
Proof. intros. rewrite Z.div_div, Z.pow_add_r by (try apply Z.pow_nonzero; try apply Z.pow_pos_nonneg; lia). reflexivity. Qed.

Lemma mulShift32_eq m f s : 0 <= m < 2 ^ 32 -> 0 <= f < 2 ^ 64 -> 32 < s < 96 -> m * f / 2 ^ s < 2 ^ 32 ->
  mulShift32 m f s = Ok (m * f / 2 ^ s).
Proof.
  intros Hm Hf Hs Hr. unfold mulShift32.
  rewrite chk_ok by (apply andb_true_intro; split; apply Z.ltb_lt; lia).
  destruct (halves f Hf) as (E & B1 & B0). set (h := u32 (f / 2 ^ 32)) in *. set (l := u32 f) in *.
  pose proof (prod_bound m l Hm B0). pose proof (prod_bound m h Hm B1).
  rewrite (u64_id (m * l)) by lia. rewrite (u64_id (m * h)) by lia.
  assert (D : m * f / 2 ^ 32 = m * l / 2 ^ 32 + m * h).
  { rewrite E. replace (m * (h * 2 ^ 32 + l)) with (m * h * 2 ^ 32 + m * l) by ring. rewrite Z.div_add_l by lia. lia. }
  assert (0 <= m * l / 2 ^ 32 < 2 ^ 32).
  { split; [apply Z.div_pos; lia|]. apply Z.div_lt_upper_bound; lia. }
  rewrite u64_id by lia. rewrite <- D. rewrite div_div_pow by lia. replace (32 + (s - 32)) with s by lia.
  rewrite chk_ok by (apply Z.leb_le; lia). f_equal. apply u32_id. split; [|exact Hr].
  apply Z.div_pos; [nia|apply Z.pow_pos_nonneg; lia].
Qed.

Lemma mulShift32_32bit_eq m f s : 0 <= m < 2 ^ 32 -> 0 <= f < 2 ^ 64 -> 32 < s < 96 -> m * f / 2 ^ s < 2 ^ 32 ->
  mulShift32_32bit m f s = Ok (m * f / 2 ^ s).
Proof.
  intros Hm Hf Hs Hr. unfold mulShift32_32bit.
  rewrite chk_ok by (apply andb_true_intro; split; apply Z.ltb_lt; lia).
  destruct (halves f Hf) as (E & B1 & B0). set (h := u32 (f / 2 ^ 32)) in *. set (l := u32 f) in *.
  pose proof (prod_bound m l Hm B0) as P0. pose proof (prod_bound m h Hm B1) as P1.
  rewrite (u64_id (m * l)) by lia. rewrite (u64_id (m * h)) by lia.
  assert (D : m * f / 2 ^ 32 = m * l / 2 ^ 32 + m * h).
  { rewrite E. replace (m * (h * 2 ^ 32 + l)) with (m * h * 2 ^ 32 + m * l) by ring. rewrite Z.div_add_l by lia. lia. }
  assert (X : 0 <= m * l / 2 ^ 32 < 2 ^ 32).
  { split; [apply Z.div_pos; lia|]. apply Z.div_lt_upper_bound; lia. }
  rewrite (u32_id (m * l / 2 ^ 32)) by exact X.
  assert (Tot : m * f / 2 ^ s = (m * l / 2 ^ 32 + m * h) / 2 ^ (s - 32)).
  { rewrite <- D, div_div_pow by lia. do 2 f_equal. lia. }
  set (b0 := m * l / 2 ^ 32) in *. set (b1 := m * h) in *. clearbody b0 b1.
  destruct (halves b1 ltac:(lia)) as (E1 & H1 & L1).
  set (h1 := u32 (b1 / 2 ^ 32)) in *. set (l1 := u32 b1) in *. clearbody h1 l1.
  assert (C : exists c, u32 (l1 + b0) = l1 + b0 - c * 2 ^ 32 /\ b2z (u32 (l1 + b0) <? b0) = c /\ 0 <= c <= 1 /\ 0 <= l1 + b0 - c * 2 ^ 32 < 2 ^ 32).
  { unfold u32. destruct (Z.ltb_spec (l1 + b0) (2 ^ 32)) as [S|S].
    - exists 0. rewrite Z.mod_small by lia. replace (l1 + b0 <? b0) with false by (symmetry; apply Z.ltb_ge; lia). cbn [b2z]. lia.
    - exists 1. replace ((l1 + b0) mod 2 ^ 32) with (l1 + b0 - 2 ^ 32).
      + replace (l1 + b0 - 2 ^ 32 <? b0) with true by (symmetry; apply Z.ltb_lt; lia). cbn [b2z]. lia.
      + apply (Z.mod_unique_pos _ _ 1); lia. }
  destruct C as (c & Ec & Eb & C01 & Cb). rewrite Eb. rewrite Ec.
  set (lo := l1 + b0 - c * 2 ^ 32) in *.
  rewrite (u32_id (h1 + c)) by lia.
  assert (Sum : b0 + b1 = (h1 + c) * 2 ^ 32 + lo) by lia.
  destruct (Z.leb_spec 64 s) as [S|S].
  - assert (T : m * f / 2 ^ s = (h1 + c) / 2 ^ (s - 64)).
    { rewrite Tot, Sum. replace (s - 32) with (32 + (s - 64)) by lia. rewrite <- div_div_pow by lia.
      rewrite Z.div_add_l by lia. rewrite (Z.div_small lo) by lia. f_equal. lia. }
    rewrite T in *. f_equal. apply u32_id. split; [apply Z.div_pos; [lia|apply Z.pow_pos_nonneg; lia]|exact Hr].
  - set (k := s - 32) in *. assert (P : 0 < 2 ^ k) by (apply Z.pow_pos_nonneg; lia).
    assert (P' : 0 < 2 ^ (32 - k)) by (apply Z.pow_pos_nonneg; lia).
    assert (Sp : 2 ^ 32 = 2 ^ (32 - k) * 2 ^ k) by (rewrite <- Z.pow_add_r by lia; f_equal; lia).
    assert (T : m * f / 2 ^ s = (h1 + c) * 2 ^ (32 - k) + lo / 2 ^ k).
    { rewrite Tot, Sum, Sp, Z.mul_assoc, Z.div_add_l by lia. reflexivity. }
    rewrite T in *. assert (0 <= lo / 2 ^ k < 2 ^ (32 - k)).
    { split; [apply Z.div_pos; lia|]. apply Z.div_lt_upper_bound; [lia|]. rewrite Z.mul_comm, <- Sp. lia. }
    rewrite u32_id by nia. now rewrite lor_add by lia.
Qed.

(** the 128-bit multiplier of a table row *)
Definition row (r : Z * Z) : Z := snd r * 2 ^ 64 + fst r.
Definition row_ok (r : Z * Z) : Prop := 0 <= fst r < 2 ^ 64 /\ 0 <= snd r < 2 ^ 64.

Lemma mulShift64_eq m r j : 0 <= m < 2 ^ 64 -> row_ok r -> 64 < j < 128 -> m * row r / 2 ^ j < 2 ^ 64 ->
  mulShift64 m r j = Ok (m * row r / 2 ^ j).
Proof.
  intros Hm [R0 R1] Hj Hr. unfold mulShift64. rewrite !umul128_eq by lia. cbv beta iota.
  destruct r as [r0 r1]. cbn [fst snd] in *. unfold row in *. cbn [fst snd] in *.
  set (P := 2 ^ 64) in *. assert (HP : 0 < P) by reflexivity.
  pose proof (Z.mod_pos_bound (m * r1) P HP) as B1.
  assert (B0 : 0 <= m * r0 / P < P).
  { split; [apply Z.div_pos; nia|]. apply Z.div_lt_upper_bound; nia. }
  assert (H1 : 0 <= m * r1 / P < P - 1 \/ m * r1 / P = P - 1 /\ False).
  { left. split; [apply Z.div_pos; nia|]. apply Z.div_lt_upper_bound; nia. }
  destruct H1 as [H1|[_ []]].
  pose proof (Z.div_mod (m * r1) P ltac:(lia)) as D1.
  set (h0 := m * r0 / P) in *. set (lo1 := (m * r1) mod P) in *. set (h1 := m * r1 / P) in *.
  assert (D : m * (r1 * P + r0) / P = m * r1 + h0).
  { replace (m * (r1 * P + r0)) with (m * r1 * P + m * r0) by ring. rewrite Z.div_add_l by lia. reflexivity. }
  assert (C : exists c, u64 (h0 + lo1) = h0 + lo1 - c * P /\ (u64 (h0 + lo1) <? h0) = (c =? 1) /\ 0 <= c <= 1 /\ 0 <= h0 + lo1 - c * P < P).
  { unfold u64. fold P. destruct (Z.ltb_spec (h0 + lo1) P) as [S|S].
    - exists 0. rewrite Z.mod_small by lia. replace (h0 + lo1 <? h0) with false by (symmetry; apply Z.ltb_ge; lia).
      split; [lia|]. split; [reflexivity|lia].
    - exists 1. replace ((h0 + lo1) mod P) with (h0 + lo1 - P).
      + replace (h0 + lo1 - P <? h0) with true by (symmetry; apply Z.ltb_lt; lia). split; [lia|]. split; [reflexivity|lia].
      + apply (Z.mod_unique_pos _ _ 1); lia. }
  destruct C as (c & Ec & Eb & C01 & Cb). rewrite Eb, Ec.
  assert (Hh : (if c =? 1 then u64 (h1 + 1) else h1) = h1 + c).
  { destruct (Z.eqb_spec c 1) as [->|]; [apply u64_id; fold P; lia|lia]. }
  rewrite Hh. rewrite shiftright128_eq by (fold P; lia). fold P.
  assert (T : (h1 + c) * P + (h0 + lo1 - c * P) = m * (r1 * P + r0) / P) by (rewrite D; lia).
  rewrite T. unfold P. rewrite div_div_pow by lia. replace (64 + (j - 64)) with j by lia. fold P.
  f_equal. apply u64_id. split; [|exact Hr]. apply Z.div_pos; [nia|apply Z.pow_pos_nonneg; lia].
Qed.

(** carries and borrows of multi-word arithmetic *)
Lemma carry_add x y : 0 <= x < 2 ^ 64 -> 0 <= y < 2 ^ 64 ->
  exists c, b2z (u64 (x + y) <? x) = c /\ 0 <= c <= 1 /\ u64 (x + y) = x + y - c * 2 ^ 64 /\ 0 <= x + y - c * 2 ^ 64 < 2 ^ 64.
Proof.
  intros Hx Hy. unfold u64. destruct (Z.ltb_spec (x + y) (2 ^ 64)) as [S|S].
  - exists 0. rewrite Z.mod_small by lia. replace (x + y <? x) with false by (symmetry; apply Z.ltb_ge; lia). cbn [b2z]. lia.
  - exists 1. replace ((x + y) mod 2 ^ 64) with (x + y - 2 ^ 64) by (apply (Z.mod_unique_pos _ _ 1); lia).
    replace (x + y - 2 ^ 64 <? x) with true by (symmetry; apply Z.ltb_lt; lia). cbn [b2z]. lia.
Qed.
Lemma borrow_sub x y : 0 <= x < 2 ^ 64 -> 0 <= y < 2 ^ 64 ->
  exists c, b2z (x <? u64 (x - y)) = c /\ 0 <= c <= 1 /\ u64 (x - y) = x - y + c * 2 ^ 64 /\ 0 <= x - y + c * 2 ^ 64 < 2 ^ 64.
Proof.
  intros Hx Hy. unfold u64. destruct (Z.leb_spec y x) as [S|S].
  - exists 0. rewrite Z.mod_small by lia. replace (x <? x - y) with false by (symmetry; apply Z.ltb_ge; lia). cbn [b2z]. lia.
  - exists 1. replace ((x - y) mod 2 ^ 64) with (x - y + 2 ^ 64) by (apply (Z.mod_unique_pos _ _ (-1)); lia).
    replace (x <? x - y + 2 ^ 64) with true by (symmetry; apply Z.ltb_lt; lia). cbn [b2z]. lia.
Qed.

Lemma shift_words lo mid hi N j : N = hi * 2 ^ 64 * 2 ^ 64 + mid * 2 ^ 64 + lo ->
  0 <= lo < 2 ^ 64 -> 0 <= mid < 2 ^ 64 -> 0 <= hi -> 64 < j < 128 -> N / 2 ^ j < 2 ^ 64 ->
  shiftright128 mid hi (j - 64) = Ok (N / 2 ^ j).
Proof.
  intros E Hlo Hmid Hhi Hj Hr. rewrite shiftright128_eq by lia.
  assert (D : N / 2 ^ 64 = hi * 2 ^ 64 + mid).
  { rewrite E. replace (hi * 2 ^ 64 * 2 ^ 64 + mid * 2 ^ 64 + lo) with ((hi * 2 ^ 64 + mid) * 2 ^ 64 + lo) by ring.
    rewrite Z.div_add_l by lia. rewrite (Z.div_small lo) by lia. lia. }
  rewrite <- D, div_div_pow by lia. replace (64 + (j - 64)) with j by lia. f_equal. apply u64_id.
  split; [|exact Hr]. apply Z.div_pos; [nia|apply Z.pow_pos_nonneg; lia].
Qed.

Lemma half_div N j : 1 <= j -> 2 * N / 2 ^ j = N / 2 ^ (j - 1).
Proof.
  intro H. replace j with (1 + (j - 1)) at 1 by lia. rewrite <- div_div_pow by lia. change (2 ^ 1) with 2.
  now rewrite Z.mul_comm, Z.div_mul by lia.
Qed.

Lemma mulShiftAll64_eq m r j s :
  0 < m < 2 ^ 53 -> row_ok r -> snd r < 2 ^ 63 -> 65 < j < 128 -> (s = 0 \/ s = 1) ->
  (4 * m + 2) * row r / 2 ^ j < 2 ^ 64 ->
  (s = 0 -> (2 * m * row r / 2 ^ 64) mod 2 ^ 64 <> 2 ^ 64 - 1) ->
  mulShiftAll64 m r j s =
    Ok (4 * m * row r / 2 ^ j, (4 * m + 2) * row r / 2 ^ j, (4 * m - 1 - s) * row r / 2 ^ j).
Proof.
  intros Hm [R0 R1] Ht Hj Hs Hr Hc. unfold mulShiftAll64. destruct r as [r0 r1]. cbn [fst snd] in *.
  replace (u64 (m * 2)) with (2 * m) by (symmetry; rewrite Z.mul_comm; apply u64_id; lia).
  rewrite !umul128_eq by lia. cbv beta iota zeta.
  assert (RV : row (r0, r1) = r1 * 2 ^ 64 + r0) by reflexivity.
  set (T := row (r0, r1)) in *.
  assert (T0 : 0 <= T) by lia.
  set (N := 2 * m * T) in *.
  (* the product as three words *)
  pose proof (Z.div_mod (2 * m * r0) (2 ^ 64) ltac:(lia)) as D0.
  pose proof (Z.mod_pos_bound (2 * m * r0) (2 ^ 64) ltac:(lia)) as M0.
  pose proof (Z.div_mod (2 * m * r1) (2 ^ 64) ltac:(lia)) as D1.
  pose proof (Z.mod_pos_bound (2 * m * r1) (2 ^ 64) ltac:(lia)) as M1.
  assert (Q0 : 0 <= 2 * m * r0 / 2 ^ 64 < 2 ^ 54).
  { split; [apply Z.div_pos; nia|]. apply Z.div_lt_upper_bound; nia. }
  assert (Q1 : 0 <= 2 * m * r1 / 2 ^ 64 < 2 ^ 54).
  { split; [apply Z.div_pos; nia|]. apply Z.div_lt_upper_bound; nia. }
  set (lo := (2 * m * r0) mod 2 ^ 64) in *. set (tmp := 2 * m * r0 / 2 ^ 64) in *.
  set (lo1 := (2 * m * r1) mod 2 ^ 64) in *. set (hi0 := 2 * m * r1 / 2 ^ 64) in *.
  destruct (carry_add tmp lo1 ltac:(lia) ltac:(lia)) as (c & Ec & C01 & Em & Bm).
  rewrite Ec. rewrite Em. set (mid := tmp + lo1 - c * 2 ^ 64) in *.
  rewrite (u64_id (hi0 + c)) by lia. set (hi := hi0 + c) in *.
  assert (EN : N = hi * 2 ^ 64 * 2 ^ 64 + mid * 2 ^ 64 + lo).
  { unfold N. rewrite RV. unfold hi, mid. nia. }
  assert (Bh : 0 <= hi <= 2 ^ 54) by lia.
  assert (NM : (N / 2 ^ 64) mod 2 ^ 64 = mid).
  { assert (DN : N / 2 ^ 64 = hi * 2 ^ 64 + mid).
    { rewrite EN. replace (hi * 2 ^ 64 * 2 ^ 64 + mid * 2 ^ 64 + lo) with ((hi * 2 ^ 64 + mid) * 2 ^ 64 + lo) by ring.
      rewrite Z.div_add_l by lia. rewrite (Z.div_small lo) by lia. lia. }
    rewrite DN, Z.add_comm, Z.mod_add by lia. apply Z.mod_small. lia. }
  rewrite NM in Hc. clearbody lo mid hi. clear D0 D1 M1 Q0 Q1 Ec Em.
  (* vp *)
  destruct (carry_add lo r0 ltac:(lia) ltac:(lia)) as (c2 & Ec2 & C2 & E2 & B2). rewrite Ec2.
  rewrite <- Z.add_assoc.
  destruct (carry_add mid (r1 + c2) ltac:(lia) ltac:(lia)) as (c3 & Ec3 & C3 & E3 & B3). rewrite Ec3, E3.
  rewrite (u64_id (hi + c3)) by lia.
  assert (VP : N + T = (hi + c3) * 2 ^ 64 * 2 ^ 64 + (mid + (r1 + c2) - c3 * 2 ^ 64) * 2 ^ 64 + (lo + r0 - c2 * 2 ^ 64)) by lia.
  assert (Hp : forall a, 0 <= a <= N + T -> a / 2 ^ (j - 1) < 2 ^ 64).
  { intros a Ha. apply Z.le_lt_trans with (2 := Hr). rewrite <- half_div by lia. apply Z.div_le_mono; [apply Z.pow_pos_nonneg; lia|]. unfold N in Ha. lia. }
  assert (N0 : 0 <= N) by (unfold N; nia).
  replace (j - 64 - 1) with (j - 1 - 64) by lia.
  rewrite (shift_words _ _ _ (N + T) (j - 1) VP) by (try apply Hp; lia).
  cbn [bind].
  rewrite (shift_words lo mid hi N (j - 1) EN) by (try apply Hp; lia).
  assert (VR : 4 * m * T / 2 ^ j = N / 2 ^ (j - 1)).
  { rewrite <- half_div by lia. f_equal. unfold N. ring. }
  assert (VPE : (4 * m + 2) * T / 2 ^ j = (N + T) / 2 ^ (j - 1)).
  { rewrite <- half_div by lia. f_equal. unfold N. ring. }
  rewrite VR, VPE.
  assert (NT : T <= N) by (unfold N; nia).
  destruct Hs as [-> | ->]; cbn [Z.eqb Pos.eqb].
  - specialize (Hc eq_refl).
    destruct (carry_add lo lo ltac:(lia) ltac:(lia)) as (c4 & Ec4 & C4 & E4 & B4). rewrite Ec4, E4.
    assert (C5' : exists c5, b2z (u64 (mid + mid + c4) <? mid) = c5 /\ 0 <= c5 <= 1 /\
              u64 (mid + mid + c4) = mid + mid + c4 - c5 * 2 ^ 64 /\ 0 <= mid + mid + c4 - c5 * 2 ^ 64 < 2 ^ 64).
    { rewrite <- Z.add_assoc. destruct (carry_add mid (mid + c4)) as (c5 & E5 & X1 & X2 & X3); [lia|lia|].
      exists c5. rewrite Z.add_assoc in *. split; [exact E5|]. split; [exact X1|]. split; assumption. }
    destruct C5' as (c5 & Ec5 & C5 & E5 & B5). rewrite Ec5, E5.
    set (lo3 := lo + lo - c4 * 2 ^ 64) in *. set (mid3 := mid + mid + c4 - c5 * 2 ^ 64) in *.
    rewrite (u64_id (hi + hi + c5)) by lia. set (hi3 := hi + hi + c5) in *.
    destruct (borrow_sub lo3 r0 ltac:(lia) ltac:(lia)) as (c6 & Ec6 & C6 & E6 & B6). rewrite Ec6.
    rewrite <- Z.sub_add_distr.
    destruct (borrow_sub mid3 (r1 + c6) ltac:(lia) ltac:(lia)) as (c7 & Ec7 & C7 & E7 & B7). rewrite Ec7, E7.
    assert (VM : 2 * N - T = (hi3 - c7) * 2 ^ 64 * 2 ^ 64 + (mid3 - (r1 + c6) + c7 * 2 ^ 64) * 2 ^ 64 + (lo3 - r0 + c6 * 2 ^ 64)).
    { unfold lo3, mid3, hi3. lia. }
    assert (0 <= hi3 - c7).
    { assert (0 <= 2 * N - T) by lia. nia. }
    rewrite (u64_id (hi3 - c7)) by lia.
    rewrite (shift_words _ _ _ (2 * N - T) j VM); [|lia|lia|lia|lia|].
    + cbn [bind]. do 2 f_equal. unfold N. f_equal. ring.
    + apply Z.le_lt_trans with (2 := Hr). apply Z.div_le_mono; [apply Z.pow_pos_nonneg; lia|]. unfold N. lia.
  - destruct (borrow_sub lo r0 ltac:(lia) ltac:(lia)) as (c6 & Ec6 & C6 & E6 & B6). rewrite Ec6.
    rewrite <- Z.sub_add_distr.
    destruct (borrow_sub mid (r1 + c6) ltac:(lia) ltac:(lia)) as (c7 & Ec7 & C7 & E7 & B7). rewrite Ec7, E7.
    assert (VM : N - T = (hi - c7) * 2 ^ 64 * 2 ^ 64 + (mid - (r1 + c6) + c7 * 2 ^ 64) * 2 ^ 64 + (lo - r0 + c6 * 2 ^ 64)) by lia.
    assert (0 <= hi - c7).
    { assert (0 <= N - T) by lia. nia. }
    rewrite (u64_id (hi - c7)) by lia.
    rewrite (shift_words _ _ _ (N - T) (j - 1) VM); [|lia|lia|lia|lia|].
    + cbn [bind]. do 2 f_equal. rewrite <- half_div by lia. f_equal. unfold N. ring.
    + apply Hp. lia.
Qed.

(** ** Division by constants through multiplication (RYU_32_BIT_PLATFORM) *)
Lemma magic x d c s : 0 < d -> 0 <= s -> 0 <= x < 2 ^ 64 -> 0 <= c ->
  d * c = 2 ^ s + (d * c - 2 ^ s) -> 0 <= d * c - 2 ^ s -> (d * c - 2 ^ s) * (2 ^ 64 - 1) < 2 ^ s ->
  x * c / 2 ^ s = x / d.
Proof.
  intros Hd Hs Hx Hc _ E0 E1. set (e := d * c - 2 ^ s) in *.
  assert (P : 0 < 2 ^ s) by (apply Z.pow_pos_nonneg; lia).
  symmetry. apply (Z.div_unique_pos _ _ _ (x * c - 2 ^ s * (x / d))); [|lia].
  pose proof (Z.div_mod x d ltac:(lia)) as D. pose proof (Z.mod_pos_bound x d Hd) as R.
  set (q := x / d) in *. set (r := x mod d) in *.
  (* d * (x c - 2^s q) = x e + 2^s r *)
  assert (K : d * (x * c - 2 ^ s * q) = x * e + 2 ^ s * r) by (unfold e; nia).
  assert (x * e <= (2 ^ 64 - 1) * e) by nia.
  split; [nia|]. apply (Z.mul_lt_mono_pos_l d); [exact Hd|]. rewrite K.
  assert (2 ^ s * r <= 2 ^ s * (d - 1)) by nia. lia.
Qed.

Lemma umulh_shift x c s : 0 <= x < 2 ^ 64 -> 0 <= c < 2 ^ 64 -> 0 <= s ->
  umulh_32bit x c / 2 ^ s = x * c / 2 ^ (64 + s).
Proof. intros Hx Hc Hs. unfold umulh_32bit. rewrite umul128_eq by assumption. cbn [snd]. now apply div_div_pow. Qed.

Lemma div5_32bit_eq x : 0 <= x < 2 ^ 64 -> div5_32bit x = div5 x.
Proof. intro H. unfold div5_32bit, div5. rewrite umulh_shift by lia. apply magic; lia. Qed.
Lemma div10_32bit_eq x : 0 <= x < 2 ^ 64 -> div10_32bit x = div10 x.
Proof. intro H. unfold div10_32bit, div10. rewrite umulh_shift by lia. apply magic; lia. Qed.
Lemma div100_32bit_eq x : 0 <= x < 2 ^ 64 -> div100_32bit x = div100 x.
Proof.
  intro H. unfold div100_32bit, div100. assert (0 <= x / 2 ^ 2 < 2 ^ 62) by (split; [apply Z.div_pos|apply Z.div_lt_upper_bound]; lia).
  rewrite umulh_shift by lia. change 100 with (2 ^ 2 * 25). rewrite <- (Z.div_div x) by lia.
  set (y := x / 2 ^ 2) in *. clearbody y.
  pose proof (Z.div_mod y 25 ltac:(lia)). pose proof (Z.mod_pos_bound y 25 ltac:(lia)).
  symmetry. apply (Z.div_unique_pos _ _ _ (y * 0x28F5C28F5C28F5C3 - 2 ^ (64 + 2) * (y / 25))); lia.
Qed.
Lemma div1e8_32bit_eq x : 0 <= x < 2 ^ 64 -> div1e8_32bit x = div1e8 x.
Proof. intro H. unfold div1e8_32bit, div1e8. rewrite umulh_shift by lia. apply magic; lia. Qed.
Lemma div1e9_32bit_eq x : 0 <= x < 2 ^ 64 -> div1e9_32bit x = div1e9 x.
Proof.
  intro H. unfold div1e9_32bit, div1e9. assert (0 <= x / 2 ^ 9 < 2 ^ 55) by (split; [apply Z.div_pos|apply Z.div_lt_upper_bound]; lia).
  rewrite umulh_shift by lia. change 1000000000 with (2 ^ 9 * 1953125). rewrite <- (Z.div_div x) by lia.
  set (y := x / 2 ^ 9) in *. clearbody y.
  pose proof (Z.div_mod y 1953125 ltac:(lia)). pose proof (Z.mod_pos_bound y 1953125 ltac:(lia)).
  symmetry. apply (Z.div_unique_pos _ _ _ (y * 0x44B82FA09B5A53 - 2 ^ (64 + 11) * (y / 1953125))); lia.
Qed.
Lemma mod1e9_eq x : 0 <= x < 2 ^ 64 -> mod1e9 x = x mod 1000000000.
Proof.
  intro H. unfold mod1e9, div1e9. pose proof (Z.mod_pos_bound x 1000000000 ltac:(lia)) as B.
  pose proof (Z.div_mod x 1000000000 ltac:(lia)) as D.
  rewrite (u64_id (1000000000 * _)) by lia. rewrite u64_id by lia. rewrite u32_id; lia.
Qed.
Lemma mod1e9_32bit_eq x : 0 <= x < 2 ^ 64 -> mod1e9_32bit x = x mod 1000000000.
Proof. intro H. unfold mod1e9_32bit. rewrite div1e9_32bit_eq by exact H. exact (rem32_eq x 1000000000 ltac:(lia)). Qed.
