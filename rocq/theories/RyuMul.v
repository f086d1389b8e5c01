(** The parsers' table multiplication: an exact floor of m * 10^e scaled by a power of two, and an exact
    "nothing was cut off" flag. *)
From Coq Require Import ZArith List Bool Lia Znumtheory Zpow_facts.
From Verif Require Import Mem LitModel RyuTables RyuModel RyuArith RyuTab RyuCertOk RyuParseModel RyuConv.
Open Scope Z_scope.

Lemma mod0_iff x D y D' : 0 < D -> 0 < D' -> ((D | x) <-> (D' | y)) -> (x mod D =? 0) = (y mod D' =? 0).
Proof.
  intros H H' E. apply eq_true_iff_eq. rewrite !Z.eqb_eq, !Z.mod_divide by lia. exact E.
Qed.
Lemma rp25 i j : 0 <= i -> 0 <= j -> rel_prime (2 ^ i) (5 ^ j).
Proof. intros. apply rel_prime_Zpower; [assumption..|]. apply Zgcd_1_rel_prime. reflexivity. Qed.
Lemma div2_5 k e x : 0 <= k -> 0 <= e -> (2 ^ k | x * 5 ^ e) <-> (2 ^ k | x).
Proof.
  intros Hk He. split; intro H; [|now apply Z.divide_mul_l]. rewrite Z.mul_comm in H. apply (Gauss _ (5 ^ e)); [exact H|]. now apply rp25.
Qed.
Lemma div5_2 k e x : 0 <= k -> 0 <= e -> (5 ^ e | x * 2 ^ k) <-> (5 ^ e | x).
Proof.
  intros Hk He. split; intro H; [|now apply Z.divide_mul_l]. rewrite Z.mul_comm in H. apply (Gauss _ (2 ^ k)); [exact H|]. apply rel_prime_sym. now apply rp25.
Qed.
Lemma div25 k e x : 0 <= k -> 0 <= e -> (5 ^ e * 2 ^ k | x) <-> (2 ^ k | x) /\ (5 ^ e | x).
Proof.
  intros Hk He. split.
  - intros [y ->]. split; [exists (y * 5 ^ e)|exists (y * 2 ^ k)]; ring.
  - intros [[y ->] H]. apply div5_2 in H; [|assumption..]. destruct H as [z ->]. exists z. ring.
Qed.
Lemma pow_split a b c : 0 <= b -> 0 <= c -> a = b + c -> 2 ^ a = 2 ^ b * 2 ^ c.
Proof. intros Hb Hc ->. now apply Z.pow_add_r. Qed.
Lemma scale_mul_div m r s t : 0 <= s -> 0 <= t -> m * r / 2 ^ t = m * 2 ^ s * r / 2 ^ (t + s).
Proof.
  intros Hs Ht. rewrite Z.pow_add_r by assumption. replace (m * 2 ^ s * r) with (m * r * 2 ^ s) by ring. rewrite Z.div_mul_cancel_r; [reflexivity| |];
  apply Z.pow_nonzero; lia.
Qed.

(** the exact value as a ratio *)
Definition dnum (m e : Z) : Z := if 0 <=? e then m * 10 ^ e else m.
Definition dden (e : Z) : Z := if 0 <=? e then 1 else 10 ^ (- e).

Definition mul_spec (P m e : Z) (o : res (Z * Z * bool)) : Prop :=
  exists e2 n' d', o = Ok (e2, n' / d', n' mod d' =? 0) /\ 0 <= n' /\ 0 < d' /\ same_ratio n' d' (dnum m e) (dden e) e2 /\
    2 ^ P <= n' / d' < 2 ^ (P + 2) /\
    e2 = if 0 <=? e then Z.log2 m + e + L25 e - P else Z.log2 m + e - L25 (- e) - 1 - P.

Lemma bracket n d a b : 0 < d -> a * d <= n -> n < b * d -> a <= n / d < b.
Proof. intros Hd H1 H2. split; [apply Z.div_le_lower_bound; lia|apply Z.div_lt_upper_bound; lia]. Qed.
Lemma log2_bound m k : 0 < m < 2 ^ k -> 0 <= Z.log2 m < k /\ 2 ^ Z.log2 m <= m < 2 ^ (Z.log2 m + 1).
Proof.
  intro H. split; [split; [apply Z.log2_nonneg|apply Z.log2_lt_pow2; lia]|]. rewrite Z.add_1_r. apply Z.log2_spec. lia.
Qed.
Lemma ten_pow e : 0 <= e -> 10 ^ e = 2 ^ e * 5 ^ e.
Proof. intro H. change 10 with (2 * 5). now apply Z.pow_mul_l. Qed.

(** m * 2^s fills its top bit *)
Lemma norm_bound m T s : 0 <= s -> s = T - Z.log2 m -> 0 < m -> 2 ^ T <= m * 2 ^ s < 2 ^ (T + 1).
Proof.
  intros Hs -> Hm. pose proof (Z.log2_spec m Hm) as [A B]. rewrite <- Z.add_1_r in B. pose proof (Z.log2_nonneg m).
  replace (2 ^ T) with (2 ^ Z.log2 m * 2 ^ (T - Z.log2 m)) by (rewrite <- Z.pow_add_r by lia; f_equal; lia).
  replace (2 ^ (T + 1)) with (2 ^ (Z.log2 m + 1) * 2 ^ (T - Z.log2 m)) by (rewrite <- Z.pow_add_r by lia; f_equal; lia).
  assert (0 < 2 ^ (T - Z.log2 m)) by (apply Z.pow_pos_nonneg; lia). nia.
Qed.

(** exactness for non-negative exponents *)
Lemma pos_ratio_ok m e T t : 0 < m < 2 ^ (T + 1) -> 0 <= e -> Z.log2 m <= T -> 0 <= t -> t <= T ->
  let L := L25 e in 2 ^ L <= 5 ^ e < 2 ^ (L + 1) -> 0 <= L ->
  let s := T - Z.log2 m in let n' := m * 2 ^ s * 5 ^ e in let d' := 2 ^ (L + t) in
  let e2 := Z.log2 m + e + L - (T - t) in
  same_ratio n' d' (m * 10 ^ e) 1 e2 /\ 2 ^ (T - t) <= n' / d' < 2 ^ (T - t + 2) /\
  (n' mod d' =? 0) = (if e2 <? e then true else m mod 2 ^ (e2 - e) =? 0).
Proof.
  intros Hm He HT Ht HtT L HL HL0 s n' d' e2. pose proof (Z.log2_nonneg m) as H0.
  assert (Pd : 0 < d') by (apply Z.pow_pos_nonneg; lia).
  split; [|split].
  - unfold same_ratio, scale_den, scale_num, n', d'. rewrite ten_pow by lia. destruct (Z.leb_spec 0 e2).
    + rewrite Z.mul_1_l. transitivity (m * 5 ^ e * (2 ^ s * 2 ^ e2)); [ring|]. transitivity (m * 5 ^ e * (2 ^ e * 2 ^ (L + t))); [|ring].
      f_equal. rewrite <- !Z.pow_add_r by lia. f_equal. unfold e2, s. lia.
    + rewrite Z.mul_1_r. transitivity (m * 5 ^ e * 2 ^ s); [ring|]. transitivity (m * 5 ^ e * (2 ^ e * 2 ^ (- e2) * 2 ^ (L + t))); [|ring].
      f_equal. rewrite <- !Z.pow_add_r by lia. f_equal. unfold e2, s. lia.
  - pose proof (norm_bound m T s ltac:(unfold s; lia) eq_refl ltac:(lia)) as [N1 N2].
    assert (P2 : 0 < 2 ^ L) by (apply Z.pow_pos_nonneg; lia). assert (PT : 0 < 2 ^ T) by (apply Z.pow_pos_nonneg; lia).
    apply bracket; [exact Pd| |].
    + unfold d', n'. rewrite <- Z.pow_add_r by lia. replace (T - t + (L + t)) with (T + L) by lia. rewrite Z.pow_add_r by lia.
      apply Z.mul_le_mono_nonneg; lia.
    + unfold d', n'. rewrite <- Z.pow_add_r by lia. replace (T - t + 2 + (L + t)) with (T + 1 + (L + 1)) by lia. rewrite (Z.pow_add_r 2 (T + 1)) by lia.
      apply Z.mul_lt_mono_nonneg; lia.
  - unfold n', d'. destruct (Z.ltb_spec e2 e) as [K|K].
    + rewrite Z.eqb_eq. apply Z.mod_divide; [lia|]. exists (m * 5 ^ e * 2 ^ (s - (L + t))). rewrite (pow_split s (s - (L + t)) (L + t)) by (unfold s, e2 in *; lia). ring.
    + apply mod0_iff; [exact Pd|apply Z.pow_pos_nonneg; lia|].
      rewrite (pow_split (L + t) (e2 - e) s) by (unfold s, e2 in *; lia). replace (m * 2 ^ s * 5 ^ e) with (m * 5 ^ e * 2 ^ s) by ring.
      rewrite Z.mul_divide_cancel_r by (apply Z.pow_nonzero; unfold s; lia). apply div2_5; lia.
Qed.

(** and for negative ones, k = -e *)
Lemma neg_ratio_ok m k T a b : 0 < m < 2 ^ (T + 1) -> 0 <= k -> Z.log2 m <= T -> 0 <= a -> 0 <= b ->
  let L := L25 k in 2 ^ L <= 5 ^ k <= 2 ^ (L + 1) -> 0 <= L ->
  let s := T - Z.log2 m in let P := T + a - b - L - 1 in 0 <= P ->
  let n' := m * 2 ^ s * 2 ^ a in let d' := 5 ^ k * 2 ^ b in
  let e2 := Z.log2 m - k - L - 1 - P in
  same_ratio n' d' m (10 ^ k) e2 /\ 2 ^ P <= n' / d' < 2 ^ (P + 2) /\
  (n' mod d' =? 0) = (if e2 <? - k then true else m mod 2 ^ (e2 + k) =? 0) && (m mod 5 ^ k =? 0).
Proof.
  intros Hm Hk HT Ha Hb L HL HL0 s P HP n' d' e2. pose proof (Z.log2_nonneg m) as H0.
  assert (P5 : 0 < 5 ^ k) by (apply Z.pow_pos_nonneg; lia). assert (Pb : 0 < 2 ^ b) by (apply Z.pow_pos_nonneg; lia).
  assert (Pd : 0 < d') by (unfold d'; lia).
  assert (EE : s + a = b - k - e2) by (unfold s, e2, P; lia).
  split; [|split].
  - unfold same_ratio, scale_den, scale_num, n', d'. rewrite ten_pow by lia. destruct (Z.leb_spec 0 e2).
    + transitivity (m * 5 ^ k * (2 ^ s * 2 ^ a * 2 ^ k * 2 ^ e2)); [ring|]. transitivity (m * 5 ^ k * 2 ^ b); [|ring].
      f_equal. rewrite <- !Z.pow_add_r by (unfold s; lia). f_equal. lia.
    + transitivity (m * 5 ^ k * (2 ^ s * 2 ^ a * 2 ^ k)); [ring|]. transitivity (m * 5 ^ k * (2 ^ (- e2) * 2 ^ b)); [|ring].
      f_equal. rewrite <- !Z.pow_add_r by (unfold s; lia). f_equal. lia.
  - pose proof (norm_bound m T s ltac:(unfold s; lia) eq_refl ltac:(lia)) as [N1 N2].
    assert (Pa : 0 < 2 ^ a) by (apply Z.pow_pos_nonneg; lia). assert (PT : 0 < 2 ^ T) by (apply Z.pow_pos_nonneg; lia).
    assert (P2 : 0 < 2 ^ P) by (apply Z.pow_pos_nonneg; lia). assert (P3 : 0 < 2 ^ (P + 2)) by (apply Z.pow_pos_nonneg; lia).
    apply bracket; [exact Pd| |].
    + unfold d', n'. apply Z.le_trans with (2 ^ T * 2 ^ a); [|apply Z.mul_le_mono_nonneg_r; lia].
      apply Z.le_trans with (2 ^ P * (2 ^ (L + 1) * 2 ^ b)).
      * apply Z.mul_le_mono_nonneg_l; [lia|]. apply Z.mul_le_mono_nonneg_r; lia.
      * rewrite <- !Z.pow_add_r by lia. apply Z.eq_le_incl. f_equal. unfold P. lia.
    + unfold d', n'. apply Z.lt_le_trans with (2 ^ (T + 1) * 2 ^ a); [apply Z.mul_lt_mono_pos_r; lia|].
      apply Z.le_trans with (2 ^ (P + 2) * (2 ^ L * 2 ^ b)).
      * rewrite <- !Z.pow_add_r by lia. apply Z.eq_le_incl. f_equal. unfold P. lia.
      * apply Z.mul_le_mono_nonneg_l; [lia|]. apply Z.mul_le_mono_nonneg_r; lia.
  - unfold n', d'. apply eq_true_iff_eq. rewrite andb_true_iff, !Z.eqb_eq, !Z.mod_divide by lia.
    rewrite div25 by lia. rewrite <- Z.mul_assoc, <- Z.pow_add_r by (unfold s; lia). rewrite EE. rewrite (div5_2 (b - k - e2) k m) by (unfold s in EE; lia).
    apply and_iff_compat_r. destruct (Z.ltb_spec e2 (- k)) as [K|K].
    + split; [reflexivity|]. intros _. apply Z.divide_mul_r. exists (2 ^ (- k - e2)). apply pow_split; lia.
    + rewrite Z.eqb_eq, Z.mod_divide by (apply Z.pow_nonzero; lia).
      rewrite (pow_split b (e2 + k) (b - k - e2)) by (unfold s in EE; lia).
      rewrite Z.mul_divide_cancel_r by (apply Z.pow_nonzero; unfold s in EE; lia). reflexivity.
Qed.

Lemma L25_le e : 0 <= e <= 400 -> 0 <= L25 e <= 928.
Proof. intro H. unlog. Qed.

Lemma tz_eq (B : Z) (g : Z -> Z -> res bool) m d : (0 <= d < B -> g m d = Ok (m mod 2 ^ d =? 0)) -> 0 < m < 2 ^ B -> 0 <= B -> 
  forall e2 e, d = e2 - e ->
  (if e2 <? e then Ok true else if e2 - e <? B then g m (e2 - e) else Ok false) =
  Ok (if e2 <? e then true else m mod 2 ^ (e2 - e) =? 0).
Proof.
  intros G Hm HB e2 e ->. destruct (Z.ltb_spec e2 e); [reflexivity|]. destruct (Z.ltb_spec (e2 - e) B) as [K|K]; [apply G; lia|].
  rewrite Z.mod_small; [|split; [lia|]; apply Z.lt_le_trans with (2 ^ B); [lia|]; apply Z.pow_le_mono_r; lia].
  f_equal. symmetry. apply Z.eqb_neq. lia.
Qed.

Lemma s2d_mul_ok m e : 0 < m < 10 ^ 17 -> -341 <= e <= 309 -> mul_spec 53 m e (s2d_mul m e).
Proof.
  intros Hm He. assert (Hm57 : 0 < m < 2 ^ 57) by (change (10 ^ 17) with 100000000000000000 in Hm; change (2 ^ 57) with 144115188075855872; lia).
  pose proof (log2_bound m 57 Hm57) as [Lb _].
  assert (M64 : 0 < m < 2 ^ 64) by (change (2 ^ 57) with 144115188075855872 in Hm57; change (2 ^ 64) with 18446744073709551616; lia).
  unfold mul_spec, s2d_mul, dnum, dden. rewrite floor_log2_64_eq by exact M64. cbn [bind].
  pose proof (norm_bound m 56 (56 - Z.log2 m) ltac:(lia) eq_refl ltac:(lia)) as NB. change (56 + 1) with 57 in NB.
  destruct (Z.leb_spec 0 e) as [E|E].
  - rewrite log2pow5_eq, ceil_log2pow5_eq by lia. cbn [bind]. pose proof (L25_le e ltac:(lia)) as LL. pose proof (L25_spec e ltac:(lia)) as LS.
    destruct (s2dpow_floor e ltac:(lia)) as (r & Tr & G & FL). destruct G as (RO & RS & _).
    change (52 + 1) with 53. rewrite s32_id by (change (2 ^ 31) with 2147483648; lia). unfold DOUBLE_POW5_BITCOUNT.
    replace (Z.log2 m + e + L25 e - 53 - e - (L25 e + 1) + 125) with (Z.log2 m + 71) by lia.
    rewrite chk_ok by (apply Z.leb_le; lia). rewrite chk_ok by (apply Z.ltb_lt; lia). rewrite Tr. cbn [bind].
    destruct (pos_ratio_ok m e 56 3 Hm57 E ltac:(lia) ltac:(lia) ltac:(lia) LS ltac:(lia)) as (R1 & R2 & R3). cbv zeta in R1, R2, R3.
    change (56 - 3) with 53 in *.
    assert (EQ : m * row r / 2 ^ (Z.log2 m + 71) = m * 2 ^ (56 - Z.log2 m) * 5 ^ e / 2 ^ (L25 e + 3)).
    { rewrite (scale_mul_div m (row r) (56 - Z.log2 m)) by lia. replace (Z.log2 m + 71 + (56 - Z.log2 m)) with 127 by lia.
      apply FL. split; [|lia]. apply Z.lt_le_trans with (2 ^ 56); [reflexivity|lia]. }
    rewrite mulShift64_eq; [|lia|exact RO|lia|rewrite EQ; apply Z.lt_trans with (2 ^ (53 + 2)); [apply R2|reflexivity]].
    cbn [bind]. rewrite EQ. rewrite (tz_eq 64 multipleOfPowerOf2 m (Z.log2 m + e + L25 e - 53 - e)); [|intro; apply multipleOfPowerOf2_eq; lia|lia|lia|reflexivity].
    cbn [bind]. rewrite <- R3. do 3 eexists. split; [reflexivity|]. split; [|split; [|split; [exact R1|split; [exact R2|reflexivity]]]].
    + apply Z.mul_nonneg_nonneg; [lia|apply Z.pow_nonneg; lia].
    + apply Z.pow_pos_nonneg; lia.
  - rewrite ceil_log2pow5_eq by lia. cbn [bind]. pose proof (L25_le (- e) ltac:(lia)) as LL. pose proof (L25_spec (- e) ltac:(lia)) as LS.
    destruct (s2dinv_floor (- e) ltac:(lia)) as (r & Tr & G & FL). destruct G as (RO & RS & _).
    change (52 + 1) with 53. rewrite s32_id by (change (2 ^ 31) with 2147483648; lia). unfold DOUBLE_POW5_INV_BITCOUNT.
    replace (Z.log2 m + e - (L25 (- e) + 1) - 53 - e + (L25 (- e) + 1) - 1 + 125) with (Z.log2 m + 71) by lia.
    rewrite chk_ok by (apply Z.ltb_lt; lia). rewrite Tr. cbn [bind].
    assert (L2 : 2 <= L25 (- e)) by (clear - E He; unlog).
    destruct (neg_ratio_ok m (- e) 56 (L25 (- e) - 2) 0 Hm57 ltac:(lia) ltac:(lia) ltac:(lia) ltac:(lia) ltac:(lia) ltac:(lia) ltac:(lia)) as (R1 & R2 & R3).
    replace (56 + (L25 (- e) - 2) - 0 - L25 (- e) - 1) with 53 in * by lia.
    replace (Z.log2 m - - e - L25 (- e) - 1 - 53) with (Z.log2 m + e - (L25 (- e) + 1) - 53) in * by lia.
    change (2 ^ 0) with 1 in *. rewrite Z.mul_1_r in *.
    assert (EQ : m * row r / 2 ^ (Z.log2 m + 71) = m * 2 ^ (56 - Z.log2 m) * 2 ^ (L25 (- e) - 2) / 5 ^ (- e)).
    { rewrite (scale_mul_div m (row r) (56 - Z.log2 m)) by lia. replace (Z.log2 m + 71 + (56 - Z.log2 m)) with 127 by lia.
      apply FL. split; [|lia]. apply Z.lt_le_trans with (2 ^ 56); [reflexivity|lia]. }
    rewrite mulShift64_eq; [|lia|exact RO|lia|rewrite EQ; apply Z.lt_trans with (2 ^ (53 + 2)); [apply R2|reflexivity]].
    cbn [bind]. rewrite EQ. rewrite multipleOfPowerOf5_eq by lia. cbn [bind].
    do 3 eexists. split; [|split; [|split; [|split; [exact R1|split; [exact R2|lia]]]]].
    + rewrite R3. replace (if _ <? _ then _ else _) with true; [reflexivity|].
      destruct (Z.ltb_spec (Z.log2 m + e - (L25 (- e) + 1) - 53) (- - e)) as [K|K]; [reflexivity|].
      replace (Z.log2 m + e - (L25 (- e) + 1) - 53 + - e) with 0 by lia. rewrite Z.mod_1_r. reflexivity.
    + apply Z.mul_nonneg_nonneg; [lia|apply Z.pow_nonneg; lia].
    + apply Z.pow_pos_nonneg; lia.
Qed.

Lemma s2f_mul_ok m e : 0 < m < 10 ^ 9 -> -55 <= e <= 40 -> ~ s2f_exception (- e) m -> mul_spec 24 m e (s2f_mul m e).
Proof.
  intros Hm He NE. assert (Hm30 : 0 < m < 2 ^ 30) by (change (10 ^ 9) with 1000000000 in Hm; change (2 ^ 30) with 1073741824; lia).
  pose proof (log2_bound m 30 Hm30) as [Lb _].
  assert (M32 : 0 < m < 2 ^ 32) by (change (2 ^ 30) with 1073741824 in Hm30; change (2 ^ 32) with 4294967296; lia).
  unfold mul_spec, s2f_mul, dnum, dden, mulPow5divPow2, mulPow5InvDivPow2. rewrite floor_log2_32_eq by exact M32. cbn [bind].
  pose proof (norm_bound m 29 (29 - Z.log2 m) ltac:(lia) eq_refl ltac:(lia)) as NB. change (29 + 1) with 30 in NB.
  destruct (Z.leb_spec 0 e) as [E|E].
  - rewrite log2pow5_eq, ceil_log2pow5_eq by lia. cbn [bind]. pose proof (L25_le e ltac:(lia)) as LL. pose proof (L25_spec e ltac:(lia)) as LS.
    destruct (s2fpow_floor e ltac:(lia)) as (r & Tr & G & FL). destruct G as (RO & RS & _).
    change (23 + 1) with 24. rewrite s32_id by (change (2 ^ 31) with 2147483648; lia). unfold FLOAT_POW5_BITCOUNT.
    replace (Z.log2 m + e + L25 e - 24 - e - (L25 e + 1) + 61) with (Z.log2 m + 36) by lia.
    rewrite chk_ok by (apply Z.leb_le; lia). rewrite Tr. cbn [bind].
    destruct (pos_ratio_ok m e 29 5 Hm30 E ltac:(lia) ltac:(lia) ltac:(lia) LS ltac:(lia)) as (R1 & R2 & R3). cbv zeta in R1, R2, R3.
    change (29 - 5) with 24 in *.
    assert (EQ : m * snd r / 2 ^ (Z.log2 m + 36) = m * 2 ^ (29 - Z.log2 m) * 5 ^ e / 2 ^ (L25 e + 5)).
    { rewrite (scale_mul_div m (snd r) (29 - Z.log2 m)) by lia. replace (Z.log2 m + 36 + (29 - Z.log2 m)) with 65 by lia.
      apply FL. split; [|lia]. apply Z.lt_le_trans with (2 ^ 29); [reflexivity|lia]. }
    rewrite mulShift32_eq; [|lia|exact (proj2 RO)|lia|rewrite EQ; apply Z.lt_trans with (2 ^ (24 + 2)); [apply R2|reflexivity]].
    cbn [bind]. rewrite EQ. rewrite (tz_eq 32 multipleOfPowerOf2_32 m (Z.log2 m + e + L25 e - 24 - e)); [|intro; apply multipleOfPowerOf2_32_eq; lia|lia|lia|reflexivity].
    cbn [bind]. rewrite <- R3. do 3 eexists. split; [reflexivity|]. split; [|split; [|split; [exact R1|split; [exact R2|reflexivity]]]].
    + apply Z.mul_nonneg_nonneg; [lia|apply Z.pow_nonneg; lia].
    + apply Z.pow_pos_nonneg; lia.
  - rewrite ceil_log2pow5_eq by lia. cbn [bind]. pose proof (L25_le (- e) ltac:(lia)) as LL. pose proof (L25_spec (- e) ltac:(lia)) as LS.
    destruct (s2finv_floor (- e) ltac:(lia)) as (r & Tr & G & FL). destruct G as (RO & RS & _).
    change (23 + 1) with 24. rewrite s32_id by (change (2 ^ 31) with 2147483648; lia). unfold FLOAT_POW5_INV_BITCOUNT.
    replace (Z.log2 m + e - (L25 (- e) + 1) - 24 - e + (L25 (- e) + 1) - 1 + 61) with (Z.log2 m + 36) by lia.
    rewrite Tr. cbn [bind].
    destruct (neg_ratio_ok m (- e) 29 (L25 (- e)) 4 Hm30 ltac:(lia) ltac:(lia) ltac:(lia) ltac:(lia) ltac:(lia) ltac:(lia) ltac:(lia)) as (R1 & R2 & R3).
    replace (29 + L25 (- e) - 4 - L25 (- e) - 1) with 24 in * by lia.
    replace (Z.log2 m - - e - L25 (- e) - 1 - 24) with (Z.log2 m + e - (L25 (- e) + 1) - 24) in * by lia.
    rewrite Z.opp_involutive in R3. replace (Z.log2 m + e - (L25 (- e) + 1) - 24 + - e) with (Z.log2 m + e - (L25 (- e) + 1) - 24 - e) in R3 by lia.
    assert (S1 : 0 <= snd r + 1 < 2 ^ 64).
    { destruct RO. change (2 ^ 61) with 2305843009213693952 in RS. change (2 ^ 64) with 18446744073709551616. lia. }
    rewrite u64_id by exact S1.
    assert (EQ : m * (snd r + 1) / 2 ^ (Z.log2 m + 36) = m * 2 ^ (29 - Z.log2 m) * 2 ^ L25 (- e) / (5 ^ (- e) * 2 ^ 4)).
    { rewrite (scale_mul_div m (snd r + 1) (29 - Z.log2 m)) by lia. replace (Z.log2 m + 36 + (29 - Z.log2 m)) with 65 by lia.
      apply FL. split; [|lia]. apply Z.lt_le_trans with (2 ^ 29); [reflexivity|lia].
      intros [X Y]. apply NE. split; [exact X|]. destruct (Z.eq_dec (29 - Z.log2 m) 0) as [Z0|Z0]; [rewrite Z0 in Y; change (2 ^ 0) with 1 in Y; lia|].
      rewrite (pow_split (29 - Z.log2 m) 1 (29 - Z.log2 m - 1)) in Y by lia. change (2 ^ 1) with 2 in Y. clear - Y. exfalso. lia. }
    rewrite mulShift32_eq; [|lia|exact S1|lia|rewrite EQ; apply Z.lt_trans with (2 ^ (24 + 2)); [apply R2|reflexivity]].
    cbn [bind]. rewrite EQ. rewrite (tz_eq 32 multipleOfPowerOf2_32 m (Z.log2 m + e - (L25 (- e) + 1) - 24 - e)); [|intro; apply multipleOfPowerOf2_32_eq; lia|lia|lia|reflexivity].
    cbn [bind]. do 3 eexists. split; [|split; [|split; [|split; [exact R1|split; [exact R2|lia]]]]].
    + rewrite R3. destruct (if _ <? _ then _ else _); [|reflexivity]. rewrite multipleOfPowerOf5_32_eq by lia. reflexivity.
    + apply Z.mul_nonneg_nonneg; [lia|apply Z.pow_nonneg; lia].
    + apply Z.mul_pos_pos; [apply Z.pow_pos_nonneg; lia|reflexivity].
Qed.
