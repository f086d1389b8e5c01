(** Simple Decimal Conversion: what the lost digits cannot change, and rounding. *)
From Coq Require Import ZArith List Bool Lia Reals Lra.
From Flocq Require Import Core.
From Verif Require Import Mem FpModel FpProofs LitModel LitProofs LimProps RyuText RyuRound FfModel FfRound FfScan FfDigit SdcModel SdcProofs.
Open Scope Z_scope.
Ltac Zify.zify_post_hook ::= idtac.
Local Notation two k := (bpow radix2 k).

Lemma two_add a b : two (a + b) = (two a * two b)%R.
Proof. apply bpow_plus. Qed.
Lemma two_pos k : (0 < two k)%R.
Proof. apply bpow_gt_0. Qed.
Lemma two_Z k : 0 <= k -> two k = IZR (2 ^ k).
Proof. intro H. symmetry. apply (IZR_Zpower radix2 k H). Qed.
Lemma dec_lt a b k : a < b -> (dec a k < dec b k)%R.
Proof. apply dec_lt'. Qed.
Lemma dec_add a k t : 0 <= t -> dec a (k + t) = dec (a * 10 ^ t) k.
Proof. apply dec_shift. Qed.
Lemma ten_down k : dec 1 k = powerRZ 10 k.
Proof. unfold dec. lra. Qed.

(** ** a power of ten below a power of two *)
Lemma ten_two P K : (dec 1 (P - 1) < two K)%R -> (P - 1 <= 0 -> 196 * (P - 1) < 59 * K) /\ (0 <= P - 1 -> 93 * (P - 1) < 28 * K).
Proof.
  intro H. split; intro HP.
  - destruct (Z.lt_ge_cases 0 K) as [L|L]; [lia|]. assert (I : 2 ^ (- K) < 10 ^ (1 - P)).
    { apply lt_IZR. rewrite <- two_Z, <- powerRZ_10, <- ten_down by lia. assert (A : (dec 1 (P - 1) * dec 1 (1 - P) = 1)%R). { rewrite !ten_down, <- powerRZ_add by lra. replace (P - 1 + (1 - P)) with 0 by lia. reflexivity. }
      assert (B : (two K * two (- K) = 1)%R) by (rewrite <- two_add; replace (K + - K) with 0 by lia; reflexivity). pose proof (two_pos (- K)). pose proof (dec_pos 1 (1 - P) ltac:(lia)). pose proof (dec_pos 1 (P - 1) ltac:(lia)). pose proof (two_pos K).
      apply (Rmult_lt_reg_l (two K)); [assumption|]. rewrite B, <- A. apply Rmult_lt_compat_r; assumption. }
    assert (J : 2 ^ (59 * - K) < 2 ^ (196 * (1 - P))).
    { rewrite (Z.mul_comm 59), Z.pow_mul_r by lia. apply Z.lt_le_trans with ((10 ^ (1 - P)) ^ 59); [apply Z.pow_lt_mono_l; [lia|]; split; [apply Z.pow_nonneg; lia|exact I]|]. rewrite <- Z.pow_mul_r, (Z.mul_comm (1 - P)), Z.pow_mul_r, (Z.pow_mul_r 2) by lia. apply Z.pow_le_mono_l. split; [discriminate|]. vm_compute. discriminate. }
    apply Z.pow_lt_mono_r_iff in J; lia.
  - destruct (Z.le_gt_cases K 0) as [L|L].
    { exfalso. assert (two K <= 1)%R by (change 1%R with (two 0); apply bpow_le; exact L). assert (1 <= dec 1 (P - 1))%R. { replace (P - 1) with (0 + (P - 1)) by lia. rewrite dec_add by lia. apply Rle_trans with (dec 1 0); [unfold dec; cbn; lra|]. apply dec_le. pose proof (Z.pow_pos_nonneg 10 (P - 1)). lia. } lra. }
    assert (I : 10 ^ (P - 1) < 2 ^ K). { apply lt_IZR. rewrite <- two_Z, <- powerRZ_10, <- ten_down by lia. exact H. }
    assert (J : 2 ^ (93 * (P - 1)) < 2 ^ (28 * K)).
    { apply Z.le_lt_trans with (10 ^ (28 * (P - 1))); [rewrite !Z.pow_mul_r by lia; apply Z.pow_le_mono_l; split; [discriminate|]; vm_compute; discriminate|]. rewrite (Z.mul_comm 28), Z.pow_mul_r by lia. rewrite (Z.mul_comm 28), (Z.pow_mul_r 2) by lia. apply Z.pow_lt_mono_l; [lia|]. split; [apply Z.pow_nonneg; lia|exact I]. }
    apply Z.pow_lt_mono_r_iff in J; lia.
Qed.
Lemma two_ten P K : (two K < dec 1 P)%R -> (P <= 0 -> 28 * K < 93 * P) /\ (0 <= P -> 59 * K < 196 * P).
Proof.
  intro H. split; intro HP.
  - destruct (Z.le_gt_cases 0 K) as [L|L].
    { exfalso. assert (1 <= two K)%R by (change 1%R with (two 0); apply bpow_le; exact L). assert (dec 1 P <= 1)%R. { replace 1%R with (dec 1 (P + (- P))) by (replace (P + - P) with 0 by lia; unfold dec; cbn; lra). rewrite dec_add by lia. apply dec_le. pose proof (Z.pow_pos_nonneg 10 (- P)). lia. } lra. }
    assert (I : 10 ^ (- P) < 2 ^ (- K)).
    { apply lt_IZR. rewrite <- two_Z, <- powerRZ_10, <- ten_down by lia. assert (A : (dec 1 P * dec 1 (- P) = 1)%R). { rewrite !ten_down, <- powerRZ_add by lra. replace (P + - P) with 0 by lia. reflexivity. }
      assert (B : (two K * two (- K) = 1)%R) by (rewrite <- two_add; replace (K + - K) with 0 by lia; reflexivity). pose proof (two_pos (- K)). pose proof (dec_pos 1 (- P) ltac:(lia)). pose proof (dec_pos 1 P ltac:(lia)). pose proof (two_pos K).
      apply (Rmult_lt_reg_l (dec 1 P)); [assumption|]. rewrite A, <- B. apply Rmult_lt_compat_r; assumption. }
    assert (J : 2 ^ (93 * - P) < 2 ^ (28 * - K)).
    { apply Z.le_lt_trans with (10 ^ (28 * - P)); [rewrite !Z.pow_mul_r by lia; apply Z.pow_le_mono_l; split; [discriminate|]; vm_compute; discriminate|]. rewrite (Z.mul_comm 28), Z.pow_mul_r by lia. rewrite (Z.mul_comm 28), (Z.pow_mul_r 2) by lia. apply Z.pow_lt_mono_l; [lia|]. split; [apply Z.pow_nonneg; lia|exact I]. }
    apply Z.pow_lt_mono_r_iff in J; lia.
  - destruct (Z.lt_ge_cases K 0) as [L|L]; [lia|]. assert (I : 2 ^ K < 10 ^ P). { apply lt_IZR. rewrite <- two_Z, <- powerRZ_10, <- ten_down by lia. exact H. }
    assert (J : 2 ^ (59 * K) < 2 ^ (196 * P)).
    { rewrite (Z.mul_comm 59), Z.pow_mul_r by lia. apply Z.lt_le_trans with ((10 ^ P) ^ 59); [apply Z.pow_lt_mono_l; [lia|]; split; [apply Z.pow_nonneg; lia|exact I]|]. rewrite <- Z.pow_mul_r, (Z.mul_comm P), Z.pow_mul_r, (Z.pow_mul_r 2) by lia. apply Z.pow_le_mono_l. split; [discriminate|]. vm_compute. discriminate. }
    apply Z.pow_lt_mono_r_iff in J; lia.
Qed.

(** The scales at which 768 digits are enough: the value is below 2^K and numbers that matter are multiples of 2^k *)
Definition fits (K k : Z) : Prop := -1085 <= K <= 1100 /\ K - 54 <= k /\ (-1021 <= K \/ -1075 <= k \/ K - 1 <= k).
Lemma fits_digits P K k : (dec 1 (P - 1) < two K)%R -> fits K k -> P + Z.max 0 (- k) <= 768.
Proof.
  intros H (F1 & F2 & F3). destruct (ten_two P K H) as [A B]. clear H. destruct (Z.le_gt_cases (P - 1) 0) as [L|L]; [specialize (A L); clear B|specialize (B ltac:(lia)); clear A]; lia.
Qed.
Lemma fits_point P K : (dec 1 (P - 1) < two K)%R -> (two (K - 1) < dec 1 P)%R -> -1085 <= K <= 1100 -> -330 <= P <= 335.
Proof.
  intros H1 H2 HK. destruct (ten_two P K H1) as [A B]. destruct (two_ten P (K - 1) H2) as [C D]. clear H1 H2. destruct (Z.le_gt_cases (P - 1) 0) as [L|L]; [|specialize (B ltac:(lia)); lia]. destruct (Z.le_gt_cases P 0) as [M|M]; [specialize (C M); lia|lia].
Qed.

Section S.
Variable size range : Z.
Hypothesis size_ok : 768 <= size < 1000000000.
Hypothesis range_ok : 400 <= range.
Notation rep := (rep size). Notation shifted := (shifted size).

(** the value of the digits *)
Definition val (h : decimal) (N : Z) : R := dec N (point h - num_digits h).
(** the digits of h stand for v: they agree unless digits were lost, and on every multiple of 2^k they are on the same side *)
Definition follows (h : decimal) (N : Z) (v : R) (k : Z) : Prop :=
  rep h N /\ (val h N <= v)%R /\ (truncated h = false -> v = val h N) /\ (truncated h = true -> (val h N < v)%R) /\
  forall j, (IZR j * two k <= v)%R -> (IZR j * two k <= val h N)%R.

Lemma val_mag h N : rep h N -> (dec 1 (point h - 1) <= val h N < dec 1 (point h))%R.
Proof.
  intros (R1 & R2 & _). unfold val. set (n := num_digits h) in *. assert (E1 : dec 1 (point h - 1) = dec (10 ^ (n - 1)) (point h - n)) by (replace (point h - 1) with (point h - n + (n - 1)) by lia; rewrite dec_add, Z.mul_1_l by lia; reflexivity).
  assert (E2 : dec 1 (point h) = dec (10 ^ n) (point h - n)) by (replace (point h) with (point h - n + n) at 1 by lia; rewrite dec_add, Z.mul_1_l by lia; reflexivity). rewrite E1, E2. split; [apply dec_le; lia|apply dec_lt; lia].
Qed.

(** cutting digits *)
Lemma cut_follows h' N' T p c t tr v k : rep h' N' -> 0 <= c -> 0 <= t -> N' * 10 ^ t = T / 10 ^ c -> point h' - num_digits h' = p + c + t -> (c = 0 \/ num_digits h' + t = size) ->
  truncated h' = tr || negb (T mod 10 ^ c =? 0) -> (dec T p <= v)%R -> (tr = false -> v = dec T p) -> (tr = true -> (dec T p < v)%R) -> (forall j, (IZR j * two k <= v)%R -> (IZR j * two k <= dec T p)%R) ->
  point h' + Z.max 0 (- k) <= size -> follows h' N' v k.
Proof.
  intros R Hc Ht Ev Ep Hs Etr Lo Ex St Gr Cap.
  assert (EV : val h' N' = dec (T / 10 ^ c) (p + c)) by (unfold val; rewrite Ep, dec_add, Ev by exact Ht; reflexivity).
  pose proof (ten_pos c Hc) as Pc. pose proof (Z.div_mod T (10 ^ c) ltac:(lia)) as DM. pose proof (Z.mod_pos_bound T (10 ^ c) Pc) as BM.
  assert (ET : val h' N' = dec (T / 10 ^ c * 10 ^ c) p) by (rewrite EV, dec_add by exact Hc; reflexivity).
  assert (LT : (val h' N' <= dec T p)%R) by (rewrite ET; apply dec_le; lia).
  split; [exact R|]. split; [lra|]. split; [|split].
  - intro E. rewrite E in Etr. symmetry in Etr. apply orb_false_iff in Etr. destruct Etr as [E1 E2]. rewrite (Ex E1), ET. f_equal. apply negb_false_iff, Z.eqb_eq in E2. lia.
  - intro E. rewrite E in Etr. symmetry in Etr. apply orb_true_iff in Etr. destruct Etr as [E1|E2]; [specialize (St E1); lra|]. apply negb_true_iff, Z.eqb_neq in E2. assert (val h' N' < dec T p)%R by (rewrite ET; apply dec_lt; lia). lra.
  - intros j Hj. specialize (Gr j Hj). destruct Hs as [C0|Hs]; [replace (val h' N') with (dec T p); [exact Gr|]; rewrite ET; f_equal; rewrite C0; change (10 ^ 0) with 1; rewrite Z.div_1_r; lia|].
    set (g := size - point h'). assert (Hg : 0 <= g /\ 0 <= k + g) by lia. assert (Eg : p + c = - g) by lia.
    assert (E2 : (IZR j * two k)%R = dec (j * (2 ^ (k + g) * 5 ^ g)) (- g)).
    { unfold dec. rewrite !mult_IZR. rewrite <- (two_Z (k + g)) by lia. rewrite two_add, two_Z with (k := g) by lia. assert (I : (IZR (2 ^ g) * IZR (5 ^ g) * powerRZ 10 (- g) = 1)%R).
      { rewrite <- mult_IZR, <- Z.pow_mul_l. change (2 * 5) with 10. rewrite <- powerRZ_10, <- powerRZ_add by (lia || lra). replace (g + - g) with 0 by lia. reflexivity. }
      transitivity (IZR j * two k * (IZR (2 ^ g) * IZR (5 ^ g) * powerRZ 10 (- g)))%R; [rewrite I; ring|ring]. }
    rewrite E2 in Gr. rewrite E2, EV, Eg. apply dec_le. set (M := j * (2 ^ (k + g) * 5 ^ g)) in *. replace (- g) with (p + c) in Gr by lia. rewrite dec_add in Gr by exact Hc. apply dec_le_inv in Gr. apply Z.div_le_lower_bound; lia.
Qed.

(** a shift by e *)
Lemma shift_follows h h' N T p e v k K : follows h N v k -> shifted h h' T p -> dec T p = (val h N * two e)%R -> (v * two e < two K)%R -> fits K (k + e) ->
  exists N', follows h' N' (v * two e) (k + e) /\ N' mod 10 <> 0.
Proof.
  intros (R & Lo & Ex & St & Gr) (N' & c & t & R' & NZ & Hc & Ht & Ev & Ep & Hs & Etr & _) ET HK F. exists N'. split; [|exact NZ]. pose proof (two_pos e) as P.
  assert (LV : (val h' N' <= dec T p)%R). { unfold val. rewrite Ep, dec_add, Ev by exact Ht. rewrite dec_add by exact Hc. apply dec_le. pose proof (ten_pos c Hc). pose proof (Z.mul_div_le T (10 ^ c) ltac:(lia)). lia. }
  apply (cut_follows h' N' T p c t (truncated h)); try assumption.
  - rewrite ET. apply Rmult_le_compat_r; lra.
  - intro E. now rewrite ET, (Ex E).
  - intro E. rewrite ET. apply Rmult_lt_compat_r; [exact P|now apply St].
  - intros j Hj. rewrite two_add in *. rewrite ET. replace (IZR j * (two k * two e))%R with (IZR j * two k * two e)%R in * by ring. apply Rmult_le_compat_r; [lra|]. apply Gr. now apply Rmult_le_reg_r in Hj.
  - apply Z.le_trans with 768; [|lia]. apply (fits_digits _ K); [|exact F]. destruct (val_mag h' N' R') as [M _]. eapply Rle_lt_trans; [exact M|]. eapply Rle_lt_trans; [exact LV|]. rewrite ET. eapply Rle_lt_trans; [|exact HK]. apply Rmult_le_compat_r; lra.
Qed.

Lemma left_follows h N s v k K : follows h N v k -> 1 <= s <= 60 -> -1000 <= point h <= 1000 -> (v * two s < two K)%R -> fits K (k + s) ->
  exists h' N', left_shift size h s = Ok h' /\ follows h' N' (v * two s) (k + s) /\ N' mod 10 <> 0.
Proof.
  intros Fo Hs Hp HK F. pose proof Fo as (R & _). destruct (left_ok size ltac:(lia) h N s R Hs ltac:(lia)) as (h' & E & Sh). exists h'. destruct (shift_follows h h' N _ _ s v k K Fo Sh) as (N' & H1 & H2); [|exact HK|exact F|now exists N'].
  unfold val, dec. rewrite mult_IZR, two_Z by lia. ring.
Qed.
Lemma right_follows h N s v k K : follows h N v k -> 1 <= s <= 60 -> -350 <= point h <= 1000 -> (v * two (- s) < two K)%R -> fits K (k + - s) ->
  exists h' N', right_shift size range h s = Ok h' /\ follows h' N' (v * two (- s)) (k + - s) /\ N' mod 10 <> 0.
Proof.
  intros Fo Hs Hp HK F. pose proof Fo as (R & _). destruct (right_ok size range ltac:(lia) h N s R Hs ltac:(lia) ltac:(lia)) as (h' & E & Sh). exists h'. destruct (shift_follows h h' N _ _ (- s) v k K Fo Sh) as (N' & H1 & H2); [|exact HK|exact F|now exists N'].
  unfold val, dec. rewrite mult_IZR. unfold Z.sub at 1. rewrite powerRZ_add by lra. assert (I : (IZR (5 ^ s) * powerRZ 10 (- s) = two (- s))%R).
  { assert (A : (two s * two (- s) = 1)%R) by (rewrite <- two_add; replace (s + - s) with 0 by lia; reflexivity). pose proof (two_pos s). apply (Rmult_eq_reg_l (two s)); [|lra]. rewrite A, two_Z by lia. rewrite <- Rmult_assoc, <- mult_IZR, <- Z.pow_mul_l. change (2 * 5) with 10. rewrite <- powerRZ_10, <- powerRZ_add by (lia || lra). replace (s + - s) with 0 by lia. reflexivity. }
  rewrite <- I. ring.
Qed.

(** ** round *)
Lemma int_part_ok h N : rep h N -> forall f i n, 0 <= i -> i + Z.of_nat f <= 18 -> n = N * 10 ^ i / 10 ^ num_digits h ->
  integer_part size h f i n = Ok (N * 10 ^ (i + Z.of_nat f) / 10 ^ num_digits h).
Proof.
  intros (R1 & R2 & R3). set (m := num_digits h) in *. induction f as [|f IH]; intros i n Hi Hf ->; cbn [integer_part]; [now rewrite Z.add_0_r|]. fold m.
  assert (Bn : 0 <= N * 10 ^ (i + 1) / 10 ^ m < 10 ^ (i + 1)). { pose proof (ten_pos (i + 1) ltac:(lia)). pose proof (ten_pos m ltac:(lia)). pose proof (ten_pos (m - 1) ltac:(lia)). split; [apply Z.div_pos; nia|apply Z.div_lt_upper_bound; nia]. }
  assert (E : exists x, (if i <? m then get size h i else Ok 0) = Ok x /\ 10 * (N * 10 ^ i / 10 ^ m) + x = N * 10 ^ (i + 1) / 10 ^ m).
  { destruct (Z.ltb_spec i m) as [L|L].
    - exists ((N / 10 ^ (m - 1 - i)) mod 10). split; [apply get_in; [lia|]; apply R3; fold m; lia|].
      assert (D : forall a, 0 <= a <= m -> N * 10 ^ a / 10 ^ m = N / 10 ^ (m - a)). { intros a Ha. replace (10 ^ m) with (10 ^ (m - a) * 10 ^ a) by (rewrite <- Z.pow_add_r by lia; f_equal; lia). pose proof (ten_pos a ltac:(lia)). pose proof (ten_pos (m - a) ltac:(lia)). apply Z.div_mul_cancel_r; lia. }
      rewrite !D by lia. replace (m - i) with (m - 1 - i + 1) by lia. rewrite div_ten by lia. replace (m - (i + 1)) with (m - 1 - i) by lia. symmetry. apply Z.div_mod. lia.
    - exists 0. split; [reflexivity|]. assert (D : forall a, m <= a -> N * 10 ^ a / 10 ^ m = N * 10 ^ (a - m)). { intros a Ha. replace (10 ^ a) with (10 ^ (a - m) * 10 ^ m) by (rewrite <- Z.pow_add_r by lia; f_equal; lia). pose proof (ten_pos m ltac:(lia)). rewrite Z.mul_assoc. apply Z.div_mul. lia. }
      rewrite !D by lia. replace (i + 1 - m) with (i - m + 1) by lia. rewrite ten_succ by lia. ring. }
  destruct E as (x & -> & Ex). cbn [bind]. rewrite Ex. rewrite u64_id. 2:{ pose proof (Z.pow_le_mono_r 10 (i + 1) 18 ltac:(lia) ltac:(lia)). assert (10 ^ 18 < 2 ^ 64) by reflexivity. lia. }
  rewrite (IH (i + 1)) by (try reflexivity; lia). do 3 f_equal. f_equal. lia.
Qed.

Lemma round_ok h N v k : follows h N v k -> N mod 10 <> 0 -> k <= -1 -> point h <= 18 -> exists m, round size h = Ok m /\ 0 <= m < 2 ^ 64 /\ inR (Z.even m) (IZR m - / 2) (IZR m + / 2) v.
Proof.
  intros (R & Lo & Ex & St & Gr) NZ Hk Hp. pose proof R as (R1 & R2 & R3). pose proof (val_mag h N R) as [M1 M2]. assert (NP : 0 < N) by (pose proof (ten_pos (num_digits h - 1)); lia).
  assert (VP : (0 < val h N)%R) by (apply dec_pos; exact NP).
  assert (Half : forall a, (IZR a + / 2 <= v)%R -> (IZR a + / 2 <= val h N)%R).
  { intros a Ha. specialize (Gr ((2 * a + 1) * 2 ^ (-1 - k))). rewrite mult_IZR, <- two_Z in Gr by lia. replace (IZR (2 * a + 1) * two (-1 - k) * two k)%R with (IZR a + / 2)%R in Gr; [auto|]. rewrite Rmult_assoc, <- two_add. replace (-1 - k + k) with (-1) by lia. change (two (-1)) with (/ 2)%R. rewrite plus_IZR, mult_IZR. lra. }
  unfold round. replace (num_digits h =? 0) with false by lia. cbn [orb]. destruct (Z.ltb_spec (point h) 0) as [Ln|Gn].
  { exists 0. split; [reflexivity|]. split; [lia|]. cbn [Z.even inR]. assert (val h N < / 2)%R. { eapply Rlt_le_trans; [exact M2|]. apply Rle_trans with (dec 1 (-1)); [apply dec_grow; lia|unfold dec; change (powerRZ 10 (-1)) with (/ (10 * 1))%R; rewrite Rmult_1_r; lra]. } destruct (Rle_lt_dec (0 + / 2) v) as [C|C]; [apply (Half 0) in C; lra|lra]. }
  replace (18 <? point h) with false by lia. rewrite (int_part_ok h N R (Z.to_nat (point h)) 0 0) by (try lia; change (10 ^ 0) with 1; rewrite Z.mul_1_r, Z.div_small by lia; reflexivity). cbn [bind]. rewrite Z.add_0_l, Z2Nat.id by lia.
  set (q := point h) in *. set (m := num_digits h) in *. set (n := N * 10 ^ q / 10 ^ m) in *. pose proof (ten_pos q ltac:(lia)) as Pq. pose proof (ten_pos m ltac:(lia)) as Pm.
  assert (Bn : 0 <= n < 10 ^ 18). { split; [apply Z.div_pos; nia|]. apply Z.lt_le_trans with (10 ^ q); [apply Z.div_lt_upper_bound; nia|apply Z.pow_le_mono_r; lia]. }
  assert (EV : (val h N * IZR (10 ^ m) = IZR (N * 10 ^ q))%R). { unfold val. fold q m. unfold dec. rewrite mult_IZR, <- !powerRZ_10 by lia. rewrite Rmult_assoc, <- powerRZ_add by lra. do 2 f_equal. lia. }
  assert (PmR : (0 < IZR (10 ^ m))%R) by (now apply IZR_lt).
  assert (Cmp : forall a, ((IZR a <= 2 * val h N)%R <-> a * 10 ^ m <= 2 * (N * 10 ^ q))).
  { intro a. split; intro H.
    - apply le_IZR. rewrite (mult_IZR a), (mult_IZR 2), <- EV. apply (Rmult_le_compat_r (IZR (10 ^ m))) in H; lra.
    - apply IZR_le in H. rewrite mult_IZR, (mult_IZR 2), <- EV in H. apply (Rmult_le_reg_r (IZR (10 ^ m))); [exact PmR|lra]. }
  assert (Fl : forall a, ((IZR a + / 2 <= val h N)%R <-> (2 * a + 1) * 10 ^ m <= 2 * (N * 10 ^ q))). { intro a. rewrite <- Cmp. rewrite plus_IZR, mult_IZR. split; intro; lra. }
  pose proof (Z.div_mod (N * 10 ^ q) (10 ^ m) ltac:(lia)) as DM. pose proof (Z.mod_pos_bound (N * 10 ^ q) (10 ^ m) Pm) as BM. fold n in DM. set (r := (N * 10 ^ q) mod 10 ^ m) in *.
  assert (LoN : (IZR n <= val h N)%R). { assert (H : (IZR (2 * n) <= 2 * val h N)%R) by (apply Cmp; lia). rewrite mult_IZR in H. lra. }
  assert (HiN : (v < IZR n + 1 + / 2)%R). { destruct (Rle_lt_dec (IZR (n + 1) + / 2) v) as [C|C]; [apply Half, Fl in C; exfalso; nia|rewrite plus_IZR in C; exact C]. }
  assert (W : 10 ^ 18 + 1 < 2 ^ 64) by reflexivity.
  (* the three outcomes *)
  assert (Down : 2 * r < 10 ^ m -> inR (Z.even n) (IZR n - / 2) (IZR n + / 2) v).
  { intro H. assert (C : (v < IZR n + / 2)%R). { destruct (Rle_lt_dec (IZR n + / 2) v) as [C|C]; [apply Half, Fl in C; exfalso; nia|exact C]. } unfold inR. destruct (Z.even n); lra. }
  assert (Up : 10 ^ m < 2 * r \/ (10 ^ m = 2 * r /\ truncated h = true) -> inR (Z.even (n + 1)) (IZR (n + 1) - / 2) (IZR (n + 1) + / 2) v).
  { intro H. assert (C : (IZR n + / 2 < v)%R). { destruct H as [H|[H T]]; [|specialize (St T); assert (IZR n + / 2 <= val h N)%R by (apply Fl; nia); lra]. assert (C : ~ (2 * val h N <= IZR (2 * n + 1))%R).
        { intro C. apply (Rmult_le_compat_r (IZR (10 ^ m))) in C; [|lra]. rewrite Rmult_assoc, EV, <- (mult_IZR 2), <- mult_IZR in C. apply le_IZR in C. nia. } rewrite plus_IZR, mult_IZR in C. lra. }
    rewrite plus_IZR. unfold inR. destruct (Z.even (n + 1)); lra. }
  assert (Tie : 10 ^ m = 2 * r -> truncated h = false -> v = (IZR n + / 2)%R). { intros H T. rewrite (Ex T). apply (Rmult_eq_reg_r (IZR (10 ^ m))); [|lra]. rewrite EV, DM, H, plus_IZR, !mult_IZR. lra. }
  destruct (Z.ltb_spec q m) as [L|L].
  2:{ cbn [bind]. exists n. split; [reflexivity|]. split; [lia|]. apply Down. replace r with 0; [lia|]. symmetry. unfold r. replace (10 ^ q) with (10 ^ (q - m) * 10 ^ m) by (rewrite <- Z.pow_add_r by lia; f_equal; lia). rewrite Z.mul_assoc. apply Z.mod_mul. lia. }
  pose proof (R3 q ltac:(fold m; lia)) as C. unfold cell in C. fold m in C. rewrite (get_in size h q _ ltac:(lia) C). cbn [bind]. set (x := (N / 10 ^ (m - 1 - q)) mod 10) in *.
  (* the fraction starts with the digit x *)
  set (k1 := m - 1 - q) in *. assert (Hk1 : 0 <= k1) by (unfold k1; lia). pose proof (ten_pos k1 Hk1) as Pk.
  assert (E10 : 10 ^ m = 10 * 10 ^ k1 * 10 ^ q). { rewrite <- ten_succ by exact Hk1. rewrite <- Z.pow_add_r by lia. f_equal. unfold k1. lia. }
  assert (Er : r = (N mod 10 ^ (k1 + 1)) * 10 ^ q). { unfold r. rewrite E10, <- ten_succ by exact Hk1. apply Z.mul_mod_distr_r; [|lia]. pose proof (ten_pos (k1 + 1)). lia. }
  assert (Ef : N mod 10 ^ (k1 + 1) = x * 10 ^ k1 + N mod 10 ^ k1). { rewrite ten_succ, (Z.mul_comm 10), Z.rem_mul_r by lia. unfold x. ring. }
  set (y := N mod 10 ^ k1) in *. assert (By : 0 <= y < 10 ^ k1) by (apply Z.mod_pos_bound; exact Pk). assert (Bx : 0 <= x < 10) by (apply Z.mod_pos_bound; lia). clear C.
  assert (Cm : 2 * r < 10 ^ m <-> 2 * (x * 10 ^ k1 + y) < 10 * 10 ^ k1). { rewrite Er, Ef, E10. clear - Pq. nia. }
  assert (Ce : 10 ^ m = 2 * r <-> 10 * 10 ^ k1 = 2 * (x * 10 ^ k1 + y)). { rewrite Er, Ef, E10. clear - Pq. nia. }
  assert (Cg : 10 ^ m < 2 * r <-> 10 * 10 ^ k1 < 2 * (x * 10 ^ k1 + y)). { rewrite Er, Ef, E10. clear - Pq. nia. }
  destruct (Z.eqb_spec x 5) as [E5|N5].
  - destruct (Z.eqb_spec (q + 1) m) as [Em|Nm]; cbn [andb].
    + assert (k1 = 0) by (unfold k1; lia). assert (T1 : 10 ^ m = 2 * r). { apply Ce. rewrite H in *. change (10 ^ 0) with 1 in *. lia. }
      destruct (truncated h) eqn:T; cbn [bind]; [rewrite u64_id by lia; exists (n + 1); split; [reflexivity|]; split; [lia|]; apply Up; right; now split|].
      specialize (Tie T1 eq_refl). assert (Par : (if 0 <? q then y0 <- get size h (q - 1) ;; Ok (Z.land 1 y0 =? 1) else Ok false) = Ok (Z.odd n)).
      { destruct (Z.ltb_spec 0 q) as [Lq|Lq].
        - pose proof (R3 (q - 1) ltac:(fold m; lia)) as C. unfold cell in C. fold m in C. rewrite (get_in size h (q - 1) _ ltac:(lia) C). cbn [bind]. f_equal.
          assert (En : N / 10 ^ (m - 1 - (q - 1)) = n). { replace (m - 1 - (q - 1)) with (m - q) by lia. unfold n. replace (10 ^ m) with (10 ^ (m - q) * 10 ^ q) by (rewrite <- Z.pow_add_r by lia; f_equal; lia). symmetry. pose proof (ten_pos (m - q) ltac:(lia)). apply Z.div_mul_cancel_r; lia. }
          rewrite En. rewrite Z.land_comm. change 1 with (Z.ones 1) at 1. rewrite Z.land_ones by lia. change (2 ^ 1) with 2. assert (Em2 : (n mod 10) mod 2 = n mod 2). { symmetry. change 10 with (2 * 5). rewrite Z.rem_mul_r by lia. rewrite Z.mul_comm, Z.mod_add by lia. apply eq_sym, Z.mod_mod. lia. } rewrite Em2. rewrite Zmod_odd. destruct (Z.odd n); reflexivity.
        - f_equal. assert (Z0 : n = 0). { unfold n. replace q with 0 by lia. change (10 ^ 0) with 1. rewrite Z.mul_1_r. apply Z.div_small. lia. } rewrite Z0. reflexivity. }
      rewrite Par. cbn [bind]. rewrite <- Z.negb_even. destruct (Z.even n) eqn:Ev; cbn [negb].
      * exists n. split; [reflexivity|]. split; [lia|]. rewrite Ev. cbn [inR]. lra.
      * rewrite u64_id by lia. exists (n + 1). split; [reflexivity|]. split; [lia|]. assert (Ev' : Z.even (n + 1) = true) by (rewrite Z.even_add, Ev; reflexivity). rewrite Ev', plus_IZR. cbn [inR]. lra.
    + cbn [bind]. replace (5 <=? x) with true by lia. rewrite u64_id by lia. exists (n + 1). split; [reflexivity|]. split; [lia|]. apply Up. left. apply Cg.
      assert (Y0 : y <> 0). { intro Y0. apply NZ. unfold y in Y0. apply Z.div_exact in Y0; [|lia]. rewrite Y0. replace k1 with (k1 - 1 + 1) by lia. rewrite ten_succ by (unfold k1; lia). rewrite <- Z.mul_assoc, Z.mul_comm. apply Z.mod_mul. lia. } rewrite E5. clear - By Y0. lia.
  - cbn [andb bind]. destruct (Z.leb_spec 5 x) as [G5|L5].
    + rewrite u64_id by lia. exists (n + 1). split; [reflexivity|]. split; [lia|]. apply Up. left. apply Cg. clear - G5 N5 By Pk. nia.
    + exists n. split; [reflexivity|]. split; [lia|]. apply Down, Cm. clear - L5 By Pk. nia.
Qed.
End S.
