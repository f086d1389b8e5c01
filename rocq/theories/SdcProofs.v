(** The shifts of Simple Decimal Conversion multiply and divide the decimal exactly, except for the digits that do not fit. *)
From Coq Require Import ZArith List Bool Lia.
From Verif Require Import Mem RyuText FfModel FfScan SdcTable SdcModel.
Import ListNotations.
Open Scope Z_scope.
Local Notation len l := (Z.of_nat (length l)).
Ltac Zify.zify_post_hook ::= idtac.

(** ** digits of an integer *)
Lemma ten_pos k : 0 <= k -> 0 < 10 ^ k.
Proof. intro. apply Z.pow_pos_nonneg; lia. Qed.
Lemma ten_succ k : 0 <= k -> 10 ^ (k + 1) = 10 * 10 ^ k.
Proof. intro. rewrite Z.pow_add_r by lia. change (10 ^ 1) with 10. lia. Qed.
Lemma div_ten T k : 0 <= k -> T / 10 ^ (k + 1) = T / 10 ^ k / 10.
Proof. intro H. rewrite ten_succ, Z.mul_comm by exact H. rewrite Z.div_div; [reflexivity| |lia]. pose proof (ten_pos k H). lia. Qed.
Lemma div_div_ten T a b : 0 <= a -> 0 <= b -> T / 10 ^ a / 10 ^ b = T / 10 ^ (a + b).
Proof. intros Ha Hb. rewrite Z.pow_add_r by assumption. pose proof (ten_pos a Ha). pose proof (ten_pos b Hb). rewrite Z.div_div by lia. reflexivity. Qed.
Lemma rem_ten n : n - 10 * (n / 10) = n mod 10.
Proof. pose proof (Z.div_mod n 10). lia. Qed.
Lemma mod_ten_zero T k : 0 <= k -> T mod 10 ^ (k + 1) = 0 <-> T mod 10 ^ k = 0 /\ (T / 10 ^ k) mod 10 = 0.
Proof.
  intro H. rewrite ten_succ by exact H. rewrite Z.mul_comm. pose proof (ten_pos k H) as P. rewrite Z.rem_mul_r by lia. pose proof (Z.mod_pos_bound T (10 ^ k) P). pose proof (Z.mod_pos_bound (T / 10 ^ k) 10 ltac:(lia)). nia.
Qed.

Section S.
Variable size range : Z.
Hypothesis size_ok : 1 <= size < 1000000000.
Notation get := (get size). Notation put := (put size). Notation trim := (trim size). Notation trim_loop := (trim_loop size).

(** digit j from the top of the nd-digit number T *)
Definition cell (h : decimal) (nd T j : Z) : Prop := digits h j = Some ((T / 10 ^ (nd - 1 - j)) mod 10).
(** the array holds the digits of N *)
Definition rep (h : decimal) (N : Z) : Prop :=
  1 <= num_digits h <= size /\ 10 ^ (num_digits h - 1) <= N < 10 ^ num_digits h /\ forall j, 0 <= j < num_digits h -> cell h (num_digits h) N j.
(** h' is h with T * 10^p for a value, cut to as many digits as fit and without final zeros *)
Definition shifted (h h' : decimal) (T p : Z) : Prop :=
  exists N' c t, rep h' N' /\ N' mod 10 <> 0 /\ 0 <= c /\ 0 <= t /\ N' * 10 ^ t = T / 10 ^ c /\ point h' - num_digits h' = p + c + t /\
    (c = 0 \/ num_digits h' + t = size) /\ truncated h' = truncated h || negb (T mod 10 ^ c =? 0) /\ dnegative h' = dnegative h.

Lemma get_in h i x : 0 <= i < size -> digits h i = Some x -> get h i = Ok x.
Proof. intros Hi E. unfold SdcModel.get. replace (0 <=? i) with true by lia. replace (i <? size) with true by lia. cbn [andb]. now rewrite E. Qed.
Lemma put_in h i x : 0 <= i < size -> put h i x = Ok (Decimal (fun j => if j =? i then Some x else digits h j) (num_digits h) (point h) (dnegative h) (truncated h)).
Proof. intros Hi. unfold SdcModel.put. replace (0 <=? i) with true by lia. replace (i <? size) with true by lia. reflexivity. Qed.

Lemma cell_div h nd T j c : 0 <= c -> 0 <= j < nd - c -> cell h nd T j -> cell h (nd - c) (T / 10 ^ c) j.
Proof. intros Hc Hj E. unfold cell in *. rewrite div_div_ten by lia. rewrite E. do 4 f_equal. lia. Qed.

(** ** trim *)
Lemma trim_ok h N : rep h N -> exists h' N' t, trim h = Ok h' /\ rep h' N' /\ N' mod 10 <> 0 /\ 0 <= t /\ N' * 10 ^ t = N /\ num_digits h' + t = num_digits h /\
  point h' = point h /\ truncated h' = truncated h /\ dnegative h' = dnegative h.
Proof.
  unfold SdcModel.trim. remember (Z.to_nat (num_digits h)) as f eqn:Ef. revert h N Ef. induction f as [|f IH]; intros h N Ef R; pose proof R as (R1 & R2 & R3); [lia|].
  cbn [SdcModel.trim_loop]. replace (0 <? num_digits h) with true by lia. pose proof (R3 (num_digits h - 1) ltac:(lia)) as C. unfold cell in C. replace (num_digits h - 1 - (num_digits h - 1)) with 0 in C by lia. change (10 ^ 0) with 1 in C. rewrite Z.div_1_r in C.
  rewrite (get_in h (num_digits h - 1) _ ltac:(lia) C). cbn [bind]. destruct (Z.eqb_spec (N mod 10) 0) as [Z0|NZ].
  - assert (N2 : 2 <= num_digits h). { destruct (Z.eq_dec (num_digits h) 1) as [E|E]; [|lia]. rewrite E in R2. change (10 ^ (1 - 1)) with 1 in R2. change (10 ^ 1) with 10 in R2. rewrite Z.mod_small in Z0 by lia. lia. }
    destruct (IH (set_num h (num_digits h - 1)) (N / 10)) as (h' & N' & t & E & Rp & NZ & T0 & Ev & En & Ep & Et & Eg).
    + cbn [set_num num_digits]. lia.
    + split; [cbn [set_num num_digits]; lia|]. split.
      * cbn [set_num num_digits]. replace (num_digits h) with (num_digits h - 1 + 1) in R2 at 2 by lia. rewrite ten_succ in R2 by lia. replace (num_digits h - 1) with (num_digits h - 1 - 1 + 1) in R2 at 1 by lia. rewrite ten_succ in R2 by lia.
        split; [apply Z.div_le_lower_bound; lia|apply Z.div_lt_upper_bound; lia].
      * cbn [set_num num_digits]. intros j Hj. apply (cell_div (set_num h (num_digits h - 1)) (num_digits h) N j 1); [lia|lia|]. apply R3. lia.
    + cbn [set_num num_digits point truncated dnegative] in *. exists h', N', (t + 1). split; [exact E|]. repeat split; try assumption; try lia; try (apply Rp).
      rewrite ten_succ by lia. pose proof (Z.div_mod N 10 ltac:(lia)). lia.
  - exists h, N, 0. split; [reflexivity|]. change (10 ^ 0) with 1. repeat split; try assumption; try lia. 
Qed.

(** ** the number of new digits *)
Definition entry_ok (s : Z) : bool :=
  let (c, l) := pow5_entry s in
  (digit_val l =? 5 ^ s) && (len l =? s + 1 - c) && forallb (fun x => (0 <=? x) && (x <=? 9)) l && (1 <=? c) && (c <=? 19) && (10 ^ (c - 1) <=? 2 ^ s) && (2 ^ s <? 10 ^ c).
Lemma entries_ok : forallb (fun i => entry_ok (Z.of_nat i)) (seq 1 60) = true.
Proof. vm_compute. reflexivity. Qed.
Lemma entry s : 1 <= s <= 60 -> exists c l, pow5_entry s = (c, l) /\ digit_val l = 5 ^ s /\ len l = s + 1 - c /\ Forall dig l /\ 1 <= c <= 19 /\ 10 ^ (c - 1) <= 2 ^ s < 10 ^ c.
Proof.
  intro Hs. pose proof entries_ok as H. rewrite forallb_forall in H. specialize (H (Z.to_nat s) ltac:(apply in_seq; lia)). rewrite Z2Nat.id in H by lia. unfold entry_ok in H.
  destruct (pow5_entry s) as [c l]. rewrite !andb_true_iff, !Z.eqb_eq, !Z.leb_le, Z.ltb_lt, forallb_forall in H. exists c, l. split; [reflexivity|]. repeat split; try tauto; try lia.
  apply Forall_forall. intros x Hx. destruct H as ((((((_ & _) & F) & _) & _) & _) & _). specialize (F x Hx). unfold dig. lia.
Qed.

Lemma five_odd s : 0 <= s -> 5 ^ s mod 10 <> 0.
Proof.
  intro Hs. assert (E : 5 ^ s mod 2 = 1). { pattern s. apply natlike_ind; [reflexivity| |exact Hs]. intros x Hx E. rewrite Z.pow_succ_r, Z.mul_mod, E by lia. reflexivity. }
  intro Z0. apply Z.div_exact in Z0; [|lia]. rewrite Z0 in E. replace (10 * (5 ^ s / 10)) with (5 * (5 ^ s / 10) * 2) in E by ring. rewrite Z.mod_mul in E by lia. discriminate.
Qed.

(** one step of comparing the digits of N and P from the top *)
Lemma digit_step P k p v : 0 <= k -> 0 <= v < 10 ^ k -> p * 10 ^ k + v = P mod 10 ^ (k + 1) -> P / 10 ^ k = 10 * (P / 10 ^ (k + 1)) + p /\ v = P mod 10 ^ k.
Proof.
  intros Hk Hv E. pose proof (ten_pos k Hk) as Q. pose proof (ten_succ k Hk) as S. pose proof (Z.div_mod P (10 ^ (k + 1))) as DM. rewrite <- E in DM. specialize (DM ltac:(lia)).
  set (q := P / 10 ^ (k + 1)) in *. assert (DM' : P = 10 ^ k * (10 * q + p) + v) by (rewrite DM, S; ring).
  split; [symmetry; now apply Z.div_unique_pos with v|now apply Z.mod_unique_pos with (10 * q + p)].
Qed.
Lemma cmp_lt N P A B D : 0 < A -> 0 < B -> 0 < D -> N / A < P / B -> N * (B * D) < P * (A * D).
Proof.
  intros HA HB HD H. pose proof (Z.div_mod N A ltac:(lia)) as DN. pose proof (Z.mod_pos_bound N A HA). pose proof (Z.div_mod P B ltac:(lia)) as DP. pose proof (Z.mod_pos_bound P B HB). set (a := N / A) in *. set (b := P / B) in *.
  assert (X : N < b * A) by nia. assert (Y : b * B <= P) by nia. assert (N * B < P * A). { apply Z.lt_le_trans with (b * A * B); [now apply Z.mul_lt_mono_pos_r|]. replace (b * A * B) with (b * B * A) by ring. apply Z.mul_le_mono_nonneg_r; lia. }
  replace (N * (B * D)) with (N * B * D) by ring. replace (P * (A * D)) with (P * A * D) by ring. now apply Z.mul_lt_mono_pos_r.
Qed.

Lemma new_loop h N P c : rep h N -> 1 <= c -> c <= 19 -> P mod 10 <> 0 -> forall l i ls, 0 <= i <= num_digits h -> len l = ls - i -> Forall dig l ->
  digit_val l = P mod 10 ^ (ls - i) -> N / 10 ^ (num_digits h - i) = P / 10 ^ (ls - i) -> i <= ls ->
  new_digits_loop size h i c l = Ok (if N * 10 ^ ls <? P * 10 ^ num_digits h then c - 1 else c).
Proof.
  intros R Hc1 Hc2 HP. destruct R as (R1 & _ & R3). assert (Uc : u32 (c - 1) = c - 1) by (unfold u32; apply Z.mod_small; lia). clear Hc1 Hc2.
  induction l as [|p l IH]; intros i ls Hi HL F HD E Hls; cbn [new_digits_loop].
  - assert (ls = i) by (cbn [length] in HL; lia). subst ls. rewrite Z.sub_diag in E. change (10 ^ 0) with 1 in E. rewrite Z.div_1_r in E. pose proof (ten_pos (num_digits h - i) ltac:(lia)) as Q. pose proof (Z.mul_div_le N (10 ^ (num_digits h - i)) Q) as B. rewrite E in B.
    replace (N * 10 ^ i <? P * 10 ^ num_digits h) with false; [reflexivity|]. symmetry. apply Z.ltb_ge. replace (num_digits h) with (num_digits h - i + i) by lia. rewrite Z.pow_add_r by lia. pose proof (ten_pos i ltac:(lia)) as Qi. clear - B Qi Q. nia.
  - assert (LL : len l = ls - i - 1) by (cbn [length] in HL; lia). clear HL. assert (Hk : 0 <= ls - i - 1) by (rewrite <- LL; lia). inversion_clear F as [|? ? Hp F']. destruct (Z.leb_spec (num_digits h) i) as [Ge|Lt].
    + assert (Ei : i = num_digits h) by (clear - Ge Hi; lia). rewrite Uc. clear IH HD. rewrite <- Ei in *. rewrite Z.sub_diag in E. change (10 ^ 0) with 1 in E. rewrite Z.div_1_r in E. assert (Hli : 0 <= ls - i - 1) by exact Hk. clear - E HP Hli Hi.
      replace (ls - i) with (ls - i - 1 + 1) in * by lia. set (k := ls - i - 1) in *. pose proof (ten_pos (k + 1) ltac:(lia)) as Q.
      assert (NZ : P mod 10 ^ (k + 1) <> 0). { intro Z0. apply HP. apply Z.div_exact in Z0; [|lia]. rewrite Z0, ten_succ by lia. rewrite <- Z.mul_assoc, Z.mul_comm. now rewrite Z.mod_mul by lia. }
      pose proof (Z.mod_pos_bound P (10 ^ (k + 1)) Q). pose proof (Z.div_mod P (10 ^ (k + 1)) ltac:(lia)) as DM. rewrite <- E in DM.
      replace (N * 10 ^ ls <? P * 10 ^ i) with true; [reflexivity|]. symmetry. apply Z.ltb_lt. replace ls with (k + 1 + i) by (unfold k; lia). rewrite Z.pow_add_r by lia. pose proof (ten_pos i ltac:(lia)). nia.
    + pose proof (R3 i ltac:(clear - Hi Lt; lia)) as C. unfold cell in C. assert (Hi2 : 0 <= i < size) by (clear - Hi Lt R1; lia). rewrite (get_in h i _ Hi2 C). cbn [bind]. set (x := (N / 10 ^ (num_digits h - 1 - i)) mod 10) in *.
      assert (EN : N / 10 ^ (num_digits h - 1 - i) = 10 * (N / 10 ^ (num_digits h - i)) + x). { replace (num_digits h - i) with (num_digits h - 1 - i + 1) by (clear; lia). rewrite div_ten by (clear - Lt; lia). unfold x. apply Z.div_mod. discriminate. }
      rewrite dv_cons, LL in HD. pose proof (dv_bound l F') as B. rewrite LL in B. remember (ls - i - 1) as k eqn:Ek. replace (ls - i) with (k + 1) in HD, E by (clear - Ek; lia). destruct (digit_step P _ _ _ Hk B HD) as [EP ED]. rewrite <- E in EP.
      assert (Pn : 10 ^ num_digits h = 10 ^ (num_digits h - 1 - i) * 10 ^ (i + 1)) by (rewrite <- Z.pow_add_r by (clear - Lt Hi; lia); f_equal; clear; lia).
      assert (Pl : 10 ^ ls = 10 ^ k * 10 ^ (i + 1)) by (rewrite <- Z.pow_add_r by (clear - Hk Hi; lia); f_equal; clear - Ek; lia).
      pose proof (ten_pos (num_digits h - 1 - i) ltac:(clear - Lt; lia)) as Q1. pose proof (ten_pos k Hk) as Q2. pose proof (ten_pos (i + 1) ltac:(clear - Hi; lia)) as Q3.
      destruct (Z.eqb_spec x p) as [Ex|Ex].
      * apply IH; [clear - Hi Lt; lia|rewrite LL, Ek; clear; lia|exact F'| | |clear - Hk Ek; lia]; replace (ls - (i + 1)) with k by (clear - Ek; lia); [exact ED|]. replace (num_digits h - (i + 1)) with (num_digits h - 1 - i) by (clear; lia). rewrite EN, EP, Ex. reflexivity.
      * destruct (Z.ltb_spec x p) as [Lx|Lx].
        -- rewrite Uc. replace (N * 10 ^ ls <? P * 10 ^ num_digits h) with true; [reflexivity|]. symmetry. apply Z.ltb_lt. rewrite Pn, Pl. apply cmp_lt; try assumption. rewrite EN, EP. clear - Lx. lia.
        -- replace (N * 10 ^ ls <? P * 10 ^ num_digits h) with false; [reflexivity|]. symmetry. apply Z.ltb_ge. rewrite Pn, Pl. apply Z.lt_le_incl, cmp_lt; try assumption. rewrite EN, EP. clear - Lx Ex. lia.
Qed.

Lemma new_digits_ok h N s : rep h N -> 1 <= s <= 60 -> exists new, number_of_digits size h s = Ok new /\ 0 <= new <= 19 /\
  10 ^ (num_digits h + new - 1) <= N * 2 ^ s < 10 ^ (num_digits h + new).
Proof.
  intros R Hs. pose proof R as (R1 & R2 & R3). destruct (entry s Hs) as (c & l & E & Ev & El & F & Hc & Hp). unfold number_of_digits. rewrite Z.land_ones with (n := 6) by lia. change (2 ^ 6) with 64. rewrite Z.mod_small by lia. rewrite E.
  set (n := num_digits h) in *. assert (L0 : 0 <= s + 1 - c) by lia. pose proof (dv_bound l F) as Bd. rewrite Ev, El in Bd.
  rewrite (new_loop h N (5 ^ s) c R ltac:(lia) ltac:(lia) (five_odd s ltac:(lia)) l 0 (s + 1 - c)); try lia; try assumption.
  2:{ rewrite Z.sub_0_r, Z.mod_small by lia. exact Ev. }
  2:{ fold n. rewrite !Z.sub_0_r, !Z.div_small by lia. reflexivity. }
  eexists. split; [reflexivity|]. fold n.
  assert (T5 : 10 ^ s = 2 ^ s * 5 ^ s) by (rewrite <- Z.pow_mul_l; reflexivity). pose proof (Z.pow_pos_nonneg 2 s ltac:(lia) ltac:(lia)) as P2. pose proof (ten_pos (s + 1 - c) L0) as PL. pose proof (ten_pos n ltac:(lia)) as Pn.
  assert (Es : 10 ^ s = 10 ^ (s + 1 - c) * 10 ^ (c - 1)) by (rewrite <- Z.pow_add_r by lia; f_equal; lia).
  assert (Ec : 10 ^ c = 10 * 10 ^ (c - 1)) by (rewrite <- ten_succ by lia; f_equal; lia). assert (En : 10 ^ n = 10 * 10 ^ (n - 1)) by (rewrite <- ten_succ by lia; f_equal; lia).
  pose proof (ten_pos (c - 1) ltac:(lia)) as Pc. pose proof (ten_pos (n - 1) ltac:(lia)) as Pn1.
  destruct (Z.ltb_spec (N * 10 ^ (s + 1 - c)) (5 ^ s * 10 ^ n)) as [Lt|Ge]; split; try lia.
  - split.
    + replace (n + (c - 1) - 1) with ((n - 1) + (c - 1)) by lia. rewrite Z.pow_add_r by lia. nia.
    + rewrite Z.pow_add_r by lia. assert (X : N * 2 ^ s * 10 ^ (s + 1 - c) < 10 ^ n * 10 ^ (c - 1) * 10 ^ (s + 1 - c)).
      { replace (10 ^ n * 10 ^ (c - 1) * 10 ^ (s + 1 - c)) with (10 ^ n * 10 ^ s) by (rewrite Es; ring). rewrite T5. replace (10 ^ n * (2 ^ s * 5 ^ s)) with (2 ^ s * (5 ^ s * 10 ^ n)) by ring. replace (N * 2 ^ s * 10 ^ (s + 1 - c)) with (2 ^ s * (N * 10 ^ (s + 1 - c))) by ring. now apply Z.mul_lt_mono_pos_l. }
      now apply Z.mul_lt_mono_pos_r in X.
  - split.
    + replace (n + c - 1) with (n + (c - 1)) by lia. rewrite Z.pow_add_r by lia. assert (X : 10 ^ n * 10 ^ (c - 1) * 10 ^ (s + 1 - c) <= N * 2 ^ s * 10 ^ (s + 1 - c)).
      { replace (10 ^ n * 10 ^ (c - 1) * 10 ^ (s + 1 - c)) with (10 ^ n * 10 ^ s) by (rewrite Es; ring). rewrite T5. replace (10 ^ n * (2 ^ s * 5 ^ s)) with (2 ^ s * (5 ^ s * 10 ^ n)) by ring. replace (N * 2 ^ s * 10 ^ (s + 1 - c)) with (2 ^ s * (N * 10 ^ (s + 1 - c))) by ring. apply Z.mul_le_mono_pos_l; lia. }
      now apply Z.mul_le_mono_pos_r in X.
    + rewrite Z.pow_add_r by lia. nia.
Qed.
(** ** left shift *)
(** the fields other than the digits and the truncation flag *)
Definition frame (h h' : decimal) : Prop := num_digits h' = num_digits h /\ point h' = point h /\ dnegative h' = dnegative h.
Lemma u32_id x : 0 <= x < 2 ^ 32 -> u32 x = x.
Proof. intro. unfold u32. now apply Z.mod_small. Qed.
Lemma u64_id x : 0 <= x < 2 ^ 64 -> u64 x = x.
Proof. intro. unfold u64. now apply Z.mod_small. Qed.
Lemma shl_ok x s : 0 <= x <= 9 -> 1 <= s <= 60 -> shl x s = Ok (x * 2 ^ s).
Proof.
  intros Hx Hs. unfold shl. replace (0 <=? s) with true by lia. replace (s <? 64) with true by lia. cbn [andb]. rewrite u64_id; [reflexivity|]. pose proof (Z.pow_le_mono_r 2 s 60 ltac:(lia) ltac:(lia)). pose proof (Z.pow_pos_nonneg 2 s ltac:(lia) ltac:(lia)). change (2 ^ 64) with (16 * 2 ^ 60). nia.
Qed.

(** storing the digit of T at position k = nd - 1 - w *)
Lemma store_ok h nd T w : 0 <= w < nd -> exists h', store size h w ((T / 10 ^ (nd - 1 - w)) mod 10) = Ok h' /\ frame h h' /\
  (forall j, j <> w -> digits h' j = digits h j) /\ (w < size -> cell h' nd T w) /\
  truncated h' = truncated h || ((size <=? w) && negb ((T / 10 ^ (nd - 1 - w)) mod 10 =? 0)).
Proof.
  intros Hw. set (d := (T / 10 ^ (nd - 1 - w)) mod 10) in *. assert (Hd : 0 <= d < 10) by (apply Z.mod_pos_bound; lia). unfold store. rewrite (Z.mod_small d) by lia. destruct (Z.ltb_spec w size) as [L|L].
  - rewrite put_in by lia. eexists. split; [reflexivity|]. split; [repeat split|]. cbn [digits truncated]. replace (size <=? w) with false by lia. rewrite orb_false_r. split; [intros j Hj; now replace (j =? w) with false by lia|]. split; [|reflexivity].
    intros _. unfold cell. cbn [digits]. now rewrite Z.eqb_refl.
  - replace (size <=? w) with true by lia. destruct (Z.ltb_spec 0 d) as [P|P].
    + eexists. split; [reflexivity|]. split; [repeat split|]. cbn [set_truncated digits truncated]. replace (d =? 0) with false by lia. cbn [negb andb]. rewrite orb_true_r. repeat split. lia.
    + exists h. split; [reflexivity|]. split; [repeat split|]. replace (d =? 0) with true by lia. cbn [negb andb]. rewrite orb_false_r. repeat split. lia.
Qed.

(** the digits read so far leave this carry *)
Lemma carry_step N s k : 0 <= s -> 0 <= k -> (N mod 10 ^ k * 2 ^ s) / 10 ^ k + (N / 10 ^ k) mod 10 * 2 ^ s = (N mod 10 ^ (k + 1) * 2 ^ s) / 10 ^ k.
Proof.
  intros Hs Hk. pose proof (ten_pos k Hk) as P. rewrite ten_succ, (Z.mul_comm 10), Z.rem_mul_r by lia. rewrite Z.mul_add_distr_r.
  replace (10 ^ k * ((N / 10 ^ k) mod 10) * 2 ^ s) with ((N / 10 ^ k) mod 10 * 2 ^ s * 10 ^ k) by ring. now rewrite Z.div_add by lia.
Qed.
Lemma carry_digit N s k : 0 <= s -> 0 <= k -> ((N mod 10 ^ (k + 1) * 2 ^ s) / 10 ^ k) mod 10 = (N * 2 ^ s / 10 ^ k) mod 10.
Proof.
  intros Hs Hk. pose proof (ten_pos k Hk) as P. pose proof (ten_pos (k + 1) ltac:(lia)) as P1. rewrite (Z.div_mod N (10 ^ (k + 1))) at 2 by lia. rewrite Z.mul_add_distr_r. rewrite ten_succ at 2 by lia.
  replace (10 * 10 ^ k * (N / 10 ^ (k + 1)) * 2 ^ s + N mod 10 ^ (k + 1) * 2 ^ s) with (N mod 10 ^ (k + 1) * 2 ^ s + (N / 10 ^ (k + 1) * 2 ^ s * 10) * 10 ^ k) by ring.
  rewrite Z.div_add by lia. now rewrite Z.mod_add by lia.
Qed.
Lemma carry_bound N s k : 1 <= s <= 60 -> 0 <= k -> 0 <= (N mod 10 ^ k * 2 ^ s) / 10 ^ k < 2 ^ s.
Proof.
  intros Hs Hk. pose proof (ten_pos k Hk) as P. pose proof (Z.mod_pos_bound N (10 ^ k) P). pose proof (Z.pow_pos_nonneg 2 s ltac:(lia) ltac:(lia)).
  split; [apply Z.div_pos; nia|apply Z.div_lt_upper_bound; nia].
Qed.

Lemma word_bound a x s : 1 <= s <= 60 -> 0 <= a < 2 ^ s -> 0 <= x < 10 -> 0 <= a + x * 2 ^ s < 2 ^ 64.
Proof. intros Hs Ha Hx. pose proof (Z.pow_le_mono_r 2 s 60 ltac:(lia) ltac:(lia)). change (2 ^ 64) with (16 * 2 ^ 60). nia. Qed.

(** the flag after the low k digits are processed; c digits do not fit *)
Definition lost (T k c : Z) : bool := negb (T mod 10 ^ Z.min k c =? 0).
Lemma lost_step T k c : 0 <= k -> 0 <= c -> lost T (k + 1) c = lost T k c || ((k <? c) && negb ((T / 10 ^ k) mod 10 =? 0)).
Proof.
  intros Hk Hc. unfold lost. destruct (Z.ltb_spec k c) as [L|L].
  - rewrite (Z.min_l (k + 1)), (Z.min_l k) by lia. cbn [andb]. rewrite <- negb_andb. f_equal. apply Bool.eq_iff_eq_true. rewrite andb_true_iff, !Z.eqb_eq. now apply mod_ten_zero.
  - rewrite !Z.min_r by lia. cbn [andb]. now rewrite orb_false_r.
Qed.

Section Left.
Variables (h0 : decimal) (N s new : Z).
Hypothesis R : rep h0 N.
Hypothesis Hs : 1 <= s <= 60.
Hypothesis Hnew : 0 <= new <= 19.
Notation num := (num_digits h0).
Notation nd := (num_digits h0 + new).
Notation T := (N * 2 ^ s).
Hypothesis Hsize : 10 ^ (nd - 1) <= T < 10 ^ nd.
Notation c := (Z.max 0 (num_digits h0 + new - size)).

Definition lstate (r k : Z) (h : decimal) : Prop :=
  frame h0 h /\ (forall j, 0 <= j < r -> digits h j = digits h0 j) /\ (forall j, nd - k <= j < Z.min nd size -> cell h nd T j) /\ truncated h = truncated h0 || lost T k c.

(** one digit *)
Lemma lstate_step h r k : lstate (r + 1) k h -> 0 <= k -> r <= nd - 1 - k -> 0 <= nd - 1 - k -> exists h', store size h (nd - 1 - k) ((T / 10 ^ k) mod 10) = Ok h' /\ lstate r (k + 1) h'.
Proof.
  intros (F & A & B & Tr) Hk Hr Hw. destruct (store_ok h nd T (nd - 1 - k)) as (h' & E & F' & A' & B' & Tr'); [lia|]. replace (nd - 1 - (nd - 1 - k)) with k in * by lia. exists h'. split; [exact E|]. split; [|split; [|split]].
  - unfold frame in *. intuition congruence.
  - intros j Hj. rewrite A' by lia. apply A. lia.
  - intros j Hj. destruct (Z.eq_dec j (nd - 1 - k)) as [->|Nj]; [apply B'; lia|]. unfold cell. rewrite A' by exact Nj. apply B. lia.
  - rewrite Tr', Tr, lost_step by lia. replace (size <=? nd - 1 - k) with (k <? c); [now rewrite orb_assoc|]. apply Bool.eq_iff_eq_true. rewrite Z.ltb_lt, Z.leb_le. lia.
Qed.

Lemma left_read_ok : forall r h, Z.of_nat r <= num -> lstate (Z.of_nat r) (num - Z.of_nat r) h ->
  exists h', left_read size s r (u32 (Z.of_nat r - 1 + new)) ((N mod 10 ^ (num - Z.of_nat r) * 2 ^ s) / 10 ^ (num - Z.of_nat r)) h = Ok (u32 (new - 1), T / 10 ^ num, h') /\ lstate 0 num h'.
Proof.
  pose proof R as (R1 & R2 & R3). induction r as [|r IH]; intros h Hr L; cbn [left_read].
  - exists h. change (Z.of_nat 0) with 0 in *. rewrite Z.sub_0_r in *. rewrite (Z.mod_small N) by lia. split; [do 4 f_equal; lia|exact L].
  - assert (Hk : 0 <= num - Z.of_nat (S r)) by lia. assert (Er : Z.of_nat (S r) = Z.of_nat r + 1) by lia. assert (Hw : 0 <= Z.of_nat r + new < 2 ^ 32) by (change (2 ^ 32) with 4294967296; lia).
    assert (Hr2 : 0 <= Z.of_nat r < size) by lia. assert (Hr3 : Z.of_nat r <= num) by lia. specialize (IH) as IH'. clear IH.
    assert (Ek : num - Z.of_nat r = num - Z.of_nat (S r) + 1) by lia. assert (Ew : Z.of_nat (S r) - 1 + new = nd - 1 - (num - Z.of_nat (S r))) by lia. assert (Ew' : Z.of_nat r + new = nd - 1 - (num - Z.of_nat (S r))) by lia. assert (Ew2 : nd - 1 - (num - Z.of_nat (S r)) - 1 = Z.of_nat r - 1 + new) by lia. assert (Ew3 : Z.of_nat r <= nd - 1 - (num - Z.of_nat (S r))) by lia. assert (Ew4 : 0 <= nd - 1 - (num - Z.of_nat (S r))) by lia.
    assert (Ej : num - 1 - Z.of_nat r = num - Z.of_nat (S r)) by lia.
    specialize (IH' ) as IH. clear IH'. rewrite Ek in IH. rewrite Er in L at 1. rewrite Ew. set (k := num - Z.of_nat (S r)) in *. clearbody k.
    pose proof L as (F & A & _). assert (C : digits h (Z.of_nat r) = Some ((N / 10 ^ k) mod 10)). { rewrite A by (clear; lia). rewrite (R3 (Z.of_nat r)) by (clear - Hr Er; lia). now rewrite Ej. }
    rewrite (get_in h (Z.of_nat r) _ Hr2 C). cbn [bind]. pose proof (Z.mod_pos_bound (N / 10 ^ k) 10 ltac:(reflexivity)) as Bd. rewrite shl_ok by (clear - Bd Hs; lia). cbn [bind].
    pose proof (carry_bound N s k Hs Hk) as Bc. rewrite u64_id by (now apply word_bound). assert (Hs0 : 0 <= s) by (clear - Hs; lia). rewrite carry_step by assumption.
    rewrite rem_ten, carry_digit by assumption. rewrite u32_id by (rewrite <- Ew'; exact Hw).
    destruct (lstate_step h (Z.of_nat r) k L Hk Ew3 Ew4) as (h' & E & L'). rewrite E. cbn [bind]. rewrite Ew2, <- div_ten by exact Hk. apply IH; [exact Hr3|exact L'].
Qed.

Lemma left_carry_ok : forall f i h, 0 <= i <= new -> Z.of_nat f >= new - i -> lstate 0 (num + i) h ->
  exists h', left_carry size f (u32 (new - 1 - i)) (T / 10 ^ (num + i)) h = Ok h' /\ lstate 0 nd h'.
Proof.
  pose proof R as (R1 & R2 & R3). induction f as [|f IH]; intros i h Hi Hf L.
  - assert (i = new) by lia. subst i. cbn [left_carry]. rewrite Z.div_small by lia. cbn. exists h. split; [reflexivity|exact L].
  - cbn [left_carry]. destruct (Z.eq_dec i new) as [->|Ni]; [rewrite Z.div_small by lia; cbn; exists h; split; [reflexivity|exact L]|].
    assert (P : 0 < T / 10 ^ (num + i)). { apply Z.div_str_pos. split; [apply ten_pos; lia|]. apply Z.le_trans with (10 ^ (nd - 1)); [apply Z.pow_le_mono_r; lia|lia]. }
    replace (T / 10 ^ (num + i) <=? 0) with false by lia. set (n := T / 10 ^ (num + i)) in *. rewrite rem_ten.
    rewrite u32_id by (change (2 ^ 32) with 4294967296; lia). replace (new - 1 - i) with (nd - 1 - (num + i)) by lia.
    destruct (lstate_step h (-1) (num + i)) as (h' & E & L'); [exact L|lia|lia|lia|]. unfold n at 1. rewrite E. cbn [bind].
    replace (nd - 1 - (num + i) - 1) with (new - 1 - (i + 1)) by lia. unfold n. rewrite <- div_ten by lia. replace (num + i + 1) with (num + (i + 1)) by lia. apply IH; [lia|lia|].
    replace (num + (i + 1)) with (num + i + 1) by lia. destruct L' as (F & A & B & Tr). split; [exact F|]. split; [|split; [exact B|exact Tr]]. intros j Hj. lia.
Qed.
End Left.

Lemma left_ok h N s : rep h N -> 1 <= s <= 60 -> - 1000000000 <= point h <= 1000000000 -> exists h', left_shift size h s = Ok h' /\ shifted h h' (N * 2 ^ s) (point h - num_digits h).
Proof.
  intros R Hs Hp. destruct (new_digits_ok h N s R Hs) as (new & En & Hn & Hsz). pose proof R as (R1 & R2 & R3). unfold left_shift. replace (num_digits h =? 0) with false by lia. rewrite En. cbn [bind].
  set (c := Z.max 0 (num_digits h + new - size)).
  destruct (left_read_ok h N s new R Hs Hn Hsz (Z.to_nat (num_digits h)) h) as (h1 & E1 & L1).
  { lia. }
  { rewrite Z2Nat.id by lia. rewrite Z.sub_diag. split; [repeat split|]. split; [reflexivity|]. split; [intros j Hj; lia|]. unfold lost. rewrite Z.min_l by lia. change (10 ^ 0) with 1. rewrite Z.mod_1_r. cbn. now rewrite orb_false_r. }
  rewrite Z2Nat.id in E1 by lia. rewrite Z.sub_diag in E1. change (10 ^ 0) with 1 in E1. rewrite Z.mod_1_r in E1. change (0 * 2 ^ s / 1) with 0 in E1. replace (num_digits h - 1 + new) with (num_digits h - 1 + new) in E1 by lia. rewrite E1. cbn [bind].
  destruct (left_carry_ok h N s new R Hs Hn Hsz 20 0 h1) as (h2 & E2 & L2); [lia|lia|now rewrite Z.add_0_r|]. rewrite Z.sub_0_r, Z.add_0_r in E2. rewrite E2. cbn [bind].
  destruct L2 as ((F1 & F2 & F3) & _ & B & Tr). rewrite F1. rewrite u32_id by (change (2 ^ 32) with 4294967296; lia). cbn [point set_num]. rewrite F2. unfold i32. change (2 ^ 31) with 2147483648. replace (- (2147483648) <=? point h + new) with true by lia. replace (point h + new <? 2147483648) with true by lia. cbn [andb bind].
  set (nd := num_digits h + new) in *. set (T := N * 2 ^ s) in *. replace (if size <? nd then size else nd) with (nd - c) by (destruct (Z.ltb_spec size nd); lia). set (h3 := set_point (set_num h2 (nd - c)) (point h + new)).
  assert (R' : rep h3 (T / 10 ^ c)).
  { split; [cbn; lia|]. assert (C0 : 0 <= c) by lia. pose proof (ten_pos c C0) as Pc. split.
    - cbn [h3 set_point set_num num_digits]. replace (10 ^ (nd - 1)) with (10 ^ (nd - c - 1) * 10 ^ c) in Hsz by (rewrite <- Z.pow_add_r by lia; f_equal; lia). replace (10 ^ nd) with (10 ^ (nd - c) * 10 ^ c) in Hsz by (rewrite <- Z.pow_add_r by lia; f_equal; lia).
      split; [apply Z.div_le_lower_bound; lia|apply Z.div_lt_upper_bound; lia].
    - cbn [h3 set_point set_num num_digits]. intros j Hj. apply cell_div; [lia|lia|]. apply B. lia. }
  destruct (trim_ok h3 (T / 10 ^ c) R') as (h' & N' & t & E & Rp & NZ & T0 & Ev & Enum & Ep & Et & Eg). exists h'. split; [exact E|]. exists N', c, t. cbn [h3 set_point set_num num_digits point truncated dnegative] in *.
  split; [exact Rp|]. split; [exact NZ|]. split; [lia|]. split; [exact T0|]. split; [exact Ev|]. split; [lia|]. split; [lia|]. split; [|congruence]. rewrite Et, Tr. unfold lost. fold c. rewrite Z.min_r by lia. reflexivity.
Qed.
(** ** right shift *)
Section Right.
Variables (h0 : decimal) (N s : Z).
Hypothesis R : rep h0 N.
Hypothesis Hs : 1 <= s <= 60.
Notation num := (num_digits h0).
Notation X := (N * 10 ^ s).
Notation T := (N * 5 ^ s).

Lemma two_s : 2 <= 2 ^ s <= 2 ^ 60.
Proof. split; [change 2 with (2 ^ 1) at 1|]; apply Z.pow_le_mono_r; lia. Qed.
Lemma N_pos : 1 <= N.
Proof. destruct R as (R1 & R2 & _). pose proof (ten_pos (num - 1) ltac:(lia)). lia. Qed.
Lemma X_T : X = T * 2 ^ s.
Proof. replace (10 ^ s) with (5 ^ s * 2 ^ s) by (rewrite <- Z.pow_mul_l; reflexivity). ring. Qed.
Lemma quot m : 0 <= m -> X / 10 ^ m / 2 ^ s = T / 10 ^ m.
Proof.
  intro Hm. pose proof two_s. pose proof (ten_pos m Hm). rewrite Z.div_div by lia. rewrite X_T. apply Z.div_mul_cancel_r; lia.
Qed.
(** the running remainder *)
Definition J (m : Z) : Z := X / 10 ^ m - 10 * 2 ^ s * (T / 10 ^ (m + 1)).
Lemma J_split m : 0 <= m -> J m = 2 ^ s * ((T / 10 ^ m) mod 10) + (X / 10 ^ m) mod 2 ^ s.
Proof.
  intro Hm. pose proof two_s. unfold J. rewrite div_ten by exact Hm. pose proof (Z.div_mod (X / 10 ^ m) (2 ^ s) ltac:(lia)) as E. rewrite quot in E by exact Hm. pose proof (Z.div_mod (T / 10 ^ m) 10 ltac:(lia)) as E'.
  rewrite E at 1. set (r := (X / 10 ^ m) mod 2 ^ s) in *. set (t := T / 10 ^ m) in *. replace (2 ^ s * t) with (2 ^ s * (10 * (t / 10) + t mod 10)) by (now rewrite <- E'). ring.
Qed.
Lemma J_bound m : 0 <= m -> 0 <= J m < 10 * 2 ^ s.
Proof. intro Hm. pose proof two_s. rewrite J_split by exact Hm. pose proof (Z.mod_pos_bound (T / 10 ^ m) 10 ltac:(lia)) as A. pose proof (Z.mod_pos_bound (X / 10 ^ m) (2 ^ s) ltac:(lia)) as B. generalize dependent ((T / 10 ^ m) mod 10). generalize dependent ((X / 10 ^ m) mod 2 ^ s). clear - H. intros. nia. Qed.
Lemma J_div m : 0 <= m -> J m / 2 ^ s = (T / 10 ^ m) mod 10.
Proof. intro Hm. pose proof two_s. rewrite J_split by exact Hm. pose proof (Z.mod_pos_bound (X / 10 ^ m) (2 ^ s) ltac:(lia)). rewrite Z.mul_comm, Z.div_add_l by lia. rewrite (Z.div_small ((X / 10 ^ m) mod 2 ^ s)) by lia. lia. Qed.
Lemma J_mod m : 0 <= m -> Z.land (J m) (2 ^ s - 1) = (X / 10 ^ m) mod 2 ^ s.
Proof.
  intro Hm. pose proof two_s. replace (2 ^ s - 1) with (Z.ones s) by (rewrite Z.ones_equiv; lia). rewrite Z.land_ones by lia. rewrite J_split by exact Hm. rewrite Z.add_comm, (Z.mul_comm (2 ^ s)), Z.mod_add by lia. apply Z.mod_mod. lia.
Qed.
Lemma J_next m : 0 <= m -> 10 * ((X / 10 ^ (m + 1)) mod 2 ^ s) + (X / 10 ^ m) mod 10 = J m.
Proof.
  intro Hm. pose proof two_s. unfold J. pose proof (Z.div_mod (X / 10 ^ m) 10 ltac:(lia)) as E. rewrite <- div_ten in E by exact Hm. pose proof (Z.div_mod (X / 10 ^ (m + 1)) (2 ^ s) ltac:(lia)) as E'. rewrite quot in E' by lia.
  rewrite E at 2. set (a := (X / 10 ^ (m + 1)) mod 2 ^ s) in *. set (b := (X / 10 ^ m) mod 10) in *. rewrite E'. ring.
Qed.
Lemma J_first m : 0 <= m -> X / 10 ^ m < 10 * 2 ^ s -> X / 10 ^ m = J m.
Proof.
  intros Hm H. unfold J. rewrite div_ten, <- quot by exact Hm. pose proof two_s. rewrite (Z.div_small (X / 10 ^ m / 2 ^ s) 10); [lia|]. pose proof N_pos. split; [|apply Z.div_lt_upper_bound; lia].
  pose proof (ten_pos m Hm). pose proof (ten_pos s ltac:(lia)). apply Z.div_pos; [apply Z.div_pos; nia|lia].
Qed.
(** nothing is left *)
Lemma J_zero m : 0 <= m <= s -> J m = 0 -> T mod 10 ^ (m + 1) = 0.
Proof.
  intros Hm H. pose proof two_s. rewrite J_split in H by lia. pose proof (Z.mod_pos_bound (T / 10 ^ m) 10 ltac:(lia)). pose proof (Z.mod_pos_bound (X / 10 ^ m) (2 ^ s) ltac:(lia)). assert (A : (T / 10 ^ m) mod 10 = 0) by nia. assert (B : (X / 10 ^ m) mod 2 ^ s = 0) by nia.
  apply mod_ten_zero; [lia|]. split; [|exact A]. pose proof (ten_pos m ltac:(lia)) as P. apply Z.div_exact in B; [|lia]. rewrite quot in B by lia.
  assert (E : X = X / 10 ^ m * 10 ^ m). { replace (10 ^ s) with (10 ^ (s - m) * 10 ^ m) by (rewrite <- Z.pow_add_r by lia; f_equal; lia). rewrite Z.mul_assoc. rewrite Z.div_mul by lia. reflexivity. }
  rewrite B in E. rewrite X_T in E. assert (E2 : T = T / 10 ^ m * 10 ^ m). { apply (Z.mul_reg_r _ _ (2 ^ s)); [lia|]. rewrite E at 1. ring. } rewrite E2. now apply Z.mod_mul; lia.
Qed.
Lemma X_digit m : 0 <= m < s -> (X / 10 ^ m) mod 10 = 0.
Proof.
  intro Hm. replace (10 ^ s) with (10 ^ (s - m - 1) * 10 * 10 ^ m). 2:{ replace (10 ^ (s - m - 1) * 10) with (10 ^ (s - m - 1 + 1)) by (rewrite ten_succ by lia; lia). rewrite <- Z.pow_add_r by lia. f_equal. lia. }
  rewrite Z.mul_assoc. pose proof (ten_pos m ltac:(lia)). rewrite Z.div_mul by lia. rewrite Z.mul_assoc. apply Z.mod_mul. lia.
Qed.
Lemma X_top r : 0 <= r <= num -> X / 10 ^ (num + s - r) = N / 10 ^ (num - r).
Proof.
  intro Hr. replace (num + s - r) with (num - r + s) by lia. rewrite Z.pow_add_r by lia. pose proof (ten_pos s ltac:(lia)). pose proof (ten_pos (num - r) ltac:(lia)). apply Z.div_mul_cancel_r; lia.
Qed.

(** *** the start *)
Lemma shr_ok n : shr n s = Ok (n / 2 ^ s).
Proof. unfold shr. replace (0 <=? s) with true by lia. replace (s <? 64) with true by lia. reflexivity. Qed.
Lemma ten_word n : 0 <= n < 2 ^ s -> forall x, 0 <= x <= 9 -> 0 <= 10 * n + x < 10 * 2 ^ s /\ u64 (10 * n + x) = 10 * n + x.
Proof. intros Hn x Hx. pose proof two_s. split; [lia|]. apply u64_id. change (2 ^ 64) with (16 * 2 ^ 60). lia. Qed.
Lemma zeros_ok : forall f i, 0 <= i <= s -> N * 10 ^ i < 10 * 2 ^ s -> 2 ^ s <= N * 10 ^ (i + Z.of_nat f) ->
  exists i', right_zeros s f (num + i) (N * 10 ^ i) = Ok (num + i', N * 10 ^ i') /\ i <= i' <= s /\ 2 ^ s <= N * 10 ^ i' < 10 * 2 ^ s.
Proof.
  pose proof two_s as B2. pose proof N_pos as NP. induction f as [|f IH]; intros i Hi Lt Ge; cbn [right_zeros]; rewrite shr_ok; cbn [bind]; pose proof (ten_pos i ltac:(lia)) as Pi.
  - change (Z.of_nat 0) with 0 in Ge. rewrite Z.add_0_r in Ge. assert (Q : 1 <= N * 10 ^ i / 2 ^ s) by (apply Z.div_le_lower_bound; lia). replace (N * 10 ^ i / 2 ^ s =? 0) with false by lia. exists i. split; [reflexivity|]. lia.
  - destruct (Z.eqb_spec (N * 10 ^ i / 2 ^ s) 0) as [Z0|NZ].
    + assert (L2 : N * 10 ^ i < 2 ^ s). { apply Z.div_small_iff in Z0; [|lia]. lia. } destruct (ten_word (N * 10 ^ i)) with (x := 0) as [W1 W2]; [nia|lia|]. rewrite Z.add_0_r in W1, W2. rewrite W2. replace (10 * (N * 10 ^ i)) with (N * 10 ^ (i + 1)) in * by (rewrite ten_succ by lia; ring).
      assert (Is : i <> s). { intros ->. pose proof X_T as XT. assert (1 <= T). { pose proof (Z.pow_pos_nonneg 5 s ltac:(lia) ltac:(lia)). nia. } nia. }
      destruct (IH (i + 1)) as (i' & E & H1 & H2); [lia|lia|replace (i + 1 + Z.of_nat f) with (i + Z.of_nat (S f)) by lia; exact Ge|]. exists i'. replace (num + i + 1) with (num + (i + 1)) by lia. split; [exact E|]. lia.
    + exists i. split; [reflexivity|]. split; [lia|]. split; [|lia]. destruct (Z.lt_ge_cases (N * 10 ^ i) (2 ^ s)) as [L|L]; [|lia]. exfalso. apply NZ. apply Z.div_small. nia.
Qed.
Lemma start_ok : forall f r, 0 <= r <= num -> Z.of_nat f = num - r -> N / 10 ^ (num - r) < 10 * 2 ^ s ->
  exists r', right_start size s h0 f r (N / 10 ^ (num - r)) = Ok (Some (r', X / 10 ^ (num + s - r'))) /\ r <= r' <= num + s /\ 2 ^ s <= X / 10 ^ (num + s - r') < 10 * 2 ^ s.
Proof.
  pose proof two_s as B2. pose proof N_pos as NP. destruct R as (R1 & R2 & R3). induction f as [|f IH]; intros r Hr Ef Lt; cbn [right_start]; rewrite shr_ok; cbn [bind]; assert (Q0 : 0 <= N / 10 ^ (num - r)) by (apply Z.div_pos; [lia|apply ten_pos; lia]).
  - assert (r = num) by lia. subst r. rewrite Z.sub_diag in *. change (10 ^ 0) with 1 in *. rewrite Z.div_1_r in *. destruct (Z.eqb_spec (N / 2 ^ s) 0) as [Z0|NZ].
    + rewrite Z.ltb_irrefl. replace (N =? 0) with false by lia. destruct (zeros_ok 20 0) as (i' & E & H1 & H2); [lia|change (10 ^ 0) with 1; lia|change (10 ^ (0 + Z.of_nat 20)) with (10 ^ 20); assert (2 ^ 60 <= 10 ^ 20) by (vm_compute; discriminate); nia|].
      rewrite Z.add_0_r in E. change (10 ^ 0) with 1 in E. rewrite Z.mul_1_r in E. rewrite E. cbn [bind]. exists (num + i'). assert (EX : X / 10 ^ (num + s - (num + i')) = N * 10 ^ i').
      { replace (num + s - (num + i')) with (s - i') by lia. replace (10 ^ s) with (10 ^ i' * 10 ^ (s - i')) by (rewrite <- Z.pow_add_r by lia; f_equal; lia). rewrite Z.mul_assoc. apply Z.div_mul. pose proof (ten_pos (s - i')). lia. }
      rewrite EX. split; [reflexivity|]. lia.
    + exists num. rewrite X_top by lia. rewrite Z.sub_diag. change (10 ^ 0) with 1. rewrite Z.div_1_r. split; [reflexivity|]. split; [lia|]. split; [|lia]. destruct (Z.lt_ge_cases N (2 ^ s)) as [L|L]; [|lia]. exfalso. apply NZ. apply Z.div_small. lia.
  - destruct (Z.eqb_spec (N / 10 ^ (num - r) / 2 ^ s) 0) as [Z0|NZ].
    + assert (L2 : N / 10 ^ (num - r) < 2 ^ s). { apply Z.div_small_iff in Z0; [|lia]. lia. } replace (r <? num) with true by lia. pose proof (R3 r ltac:(lia)) as C. unfold cell in C. assert (Hr2 : 0 <= r < size) by lia. rewrite (get_in h0 r _ Hr2 C). cbn [bind].
      pose proof (Z.mod_pos_bound (N / 10 ^ (num - 1 - r)) 10 ltac:(lia)) as Bd. destruct (ten_word (N / 10 ^ (num - r)) ltac:(lia) ((N / 10 ^ (num - 1 - r)) mod 10) ltac:(lia)) as [W1 W2]. rewrite W2.
      assert (EN : 10 * (N / 10 ^ (num - r)) + (N / 10 ^ (num - 1 - r)) mod 10 = N / 10 ^ (num - (r + 1))). { replace (num - r) with (num - 1 - r + 1) by lia. rewrite div_ten by lia. replace (num - (r + 1)) with (num - 1 - r) by lia. symmetry. apply Z.div_mod. lia. }
      rewrite EN in *. destruct (IH (r + 1)) as (r' & E & H1 & H2); [clear - Hr Ef; lia|clear - Ef; lia|exact (proj2 W1)|]. clear - E H1 H2. exists r'. split; [exact E|]. lia.
    + exists r. rewrite X_top by lia. split; [reflexivity|]. split; [lia|]. split; [|lia]. destruct (Z.lt_ge_cases (N / 10 ^ (num - r)) (2 ^ s)) as [L|L]; [|lia]. exfalso. apply NZ. apply Z.div_small. lia.
Qed.

(** *** the digits *)
Variable r1 : Z.
Hypothesis Hr1 : 1 <= r1 <= num + s.
Notation nd := (num_digits h0 + s - r1 + 1).
Notation c := (Z.max 0 (num_digits h0 + s - r1 + 1 - size)).

Lemma right_read_ok : forall f r h, r1 <= r <= num -> Z.of_nat f = num - r -> num_digits h = num ->
  (forall j, r <= j < num -> digits h j = digits h0 j) -> (forall j, 0 <= j < r - r1 -> cell h nd T j) ->
  exists h', right_read size s (2 ^ s - 1) f r (r - r1) (J (num + s - r)) h = Ok (num - r1, J s, h') /\ num_digits h' = num /\ point h' = point h /\ dnegative h' = dnegative h /\ truncated h' = truncated h /\
    (forall j, 0 <= j < num - r1 -> cell h' nd T j).
Proof.
  pose proof two_s as B2. destruct R as (R1 & R2 & R3). induction f as [|f IH]; intros r h Hr Ef En A B; cbn [right_read].
  - assert (r = num) by lia. subst r. replace (num + s - num) with s by lia. exists h. split; [reflexivity|]. repeat split; assumption.
  - assert (Hm : 0 <= num + s - r) by lia. rewrite shr_ok. cbn [bind]. rewrite J_div by exact Hm. pose proof (Z.mod_pos_bound (T / 10 ^ (num + s - r)) 10 ltac:(lia)) as Bd. rewrite (Z.mod_small ((T / 10 ^ (num + s - r)) mod 10) 256) by lia.
    assert (C : digits h r = Some ((N / 10 ^ (num - 1 - r)) mod 10)) by (rewrite A by lia; apply (R3 r); lia). assert (Hr2 : 0 <= r < size) by lia. rewrite (get_in h r _ Hr2 C). cbn [bind]. rewrite put_in by lia. cbn [bind].
    rewrite J_mod by exact Hm. assert (EX : (N / 10 ^ (num - 1 - r)) mod 10 = (X / 10 ^ (num + s - (r + 1))) mod 10) by (rewrite X_top by lia; do 3 f_equal; lia). rewrite EX.
    replace (num + s - r) with (num + s - (r + 1) + 1) by lia. rewrite J_next by lia. pose proof (J_bound (num + s - (r + 1)) ltac:(lia)) as Bj. rewrite u64_id by (clear - Bj B2; change (2 ^ 64) with (16 * 2 ^ 60); lia). replace (r - r1 + 1) with (r + 1 - r1) by lia.
    edestruct (IH (r + 1)) as (h' & E & F1 & F2 & F3 & F4 & F5); [clear - Hr Ef; lia|clear - Ef; lia| | | |]; [..|exists h'; split; [exact E|]]; cbn [num_digits digits point dnegative truncated] in *; try assumption.
    + intros j Hj. replace (j =? r - r1) with false by (clear - Hj Hr Hr1; lia). apply A. clear - Hj; lia.
    + intros j Hj. unfold cell. cbn [digits]. destruct (Z.eqb_spec j (r - r1)) as [->|Nj]; [do 4 f_equal; lia|]. apply B. lia.
    + repeat split; assumption.
Qed.

Lemma lost_from T' m c' : 0 <= m -> 0 <= c' -> negb ((T' mod 10 ^ c') / 10 ^ m =? 0) = negb ((T' mod 10 ^ c') / 10 ^ (m + 1) =? 0) || ((m <? c') && negb ((T' / 10 ^ m) mod 10 =? 0)).
Proof.
  intros Hm Hc. pose proof (ten_pos c' Hc) as Pc. pose proof (ten_pos m Hm) as Pm. pose proof (Z.mod_pos_bound T' (10 ^ c') Pc) as B. destruct (Z.ltb_spec m c') as [L|L]; cbn [andb].
  - assert (D : (T' mod 10 ^ c' / 10 ^ m) mod 10 = (T' / 10 ^ m) mod 10).
    { pose proof (Z.div_mod T' (10 ^ c') ltac:(lia)) as E. rewrite E at 2. replace (10 ^ c' * (T' / 10 ^ c') + T' mod 10 ^ c') with (T' mod 10 ^ c' + (T' / 10 ^ c' * 10 ^ (c' - m - 1) * 10) * 10 ^ m).
      - rewrite Z.div_add by lia. now rewrite Z.mod_add by lia.
      - replace (10 ^ c') with (10 ^ (c' - m - 1) * (10 * 10 ^ m)) at 3; [ring|]. rewrite <- ten_succ, <- Z.pow_add_r by lia. f_equal. lia. }
    rewrite <- D, <- negb_andb. f_equal. rewrite div_ten by exact Hm. set (y := T' mod 10 ^ c' / 10 ^ m) in *. pose proof (Z.div_mod y 10 ltac:(lia)). pose proof (Z.mod_pos_bound y 10 ltac:(lia)). apply Bool.eq_iff_eq_true. rewrite andb_true_iff, !Z.eqb_eq. lia.
  - rewrite orb_false_r. rewrite !Z.div_small; [reflexivity| |]; split; try lia; (eapply Z.lt_le_trans; [apply B|apply Z.pow_le_mono_r; lia]).
Qed.

Ltac plia := repeat match goal with [ H : context [Z.pow _ _] |- _ ] => clear H | [ H : forall _ : _, _ |- _ ] => clear H end; lia.
Lemma right_rest_ok : forall f q h, 0 <= q <= Z.min (s + 1) nd -> q <= Z.of_nat f ->
  (forall j, 0 <= j < Z.min (nd - q) size -> cell h nd T j) -> truncated h = truncated h0 || negb ((T mod 10 ^ c) / 10 ^ q =? 0) ->
  exists h' q', right_rest size s (2 ^ s - 1) f (Z.min (nd - q) size) (if q =? 0 then 0 else J (q - 1)) h = Ok (Z.min (nd - q') size, h') /\ 0 <= q' <= q /\ T mod 10 ^ q' = 0 /\
    point h' = point h /\ dnegative h' = dnegative h /\ (forall j, 0 <= j < Z.min (nd - q') size -> cell h' nd T j) /\ truncated h' = truncated h0 || negb ((T mod 10 ^ c) / 10 ^ q' =? 0).
Proof.
  pose proof two_s as B2. assert (Stop : forall q, 0 <= q <= Z.min (s + 1) nd -> (q = 0 \/ J (q - 1) = 0) -> T mod 10 ^ q = 0).
  { intros q Hq [->|Z0]; [change (10 ^ 0) with 1; apply Z.mod_1_r|]. destruct (Z.eq_dec q 0) as [->|Nq]; [change (10 ^ 0) with 1; apply Z.mod_1_r|]. replace q with (q - 1 + 1) by lia. apply J_zero; [lia|exact Z0]. }
  induction f as [|f IH]; intros q h Hq Hf B Tr; cbn [right_rest].
  - assert (q = 0) by lia. subst q. cbn. exists h, 0. split; [reflexivity|]. split; [lia|]. split; [apply (Stop 0); [lia|now left]|]. repeat split; assumption.
  - destruct (Z.eqb_spec q 0) as [->|Nq].
    + cbn. exists h, 0. split; [reflexivity|]. split; [lia|]. split; [apply (Stop 0); [lia|now left]|]. repeat split; assumption.
    + destruct (Z.leb_spec (J (q - 1)) 0) as [Le|Gt].
      * pose proof (J_bound (q - 1) ltac:(lia)). exists h, q. split; [reflexivity|]. split; [lia|]. split; [apply (Stop q); [lia|right; lia]|]. repeat split; assumption.
      * assert (Hm : 0 <= q - 1 /\ q - 1 <= s /\ q - 1 + 1 <= nd) by (clear - Hq Nq; lia). assert (Eq : q = q - 1 + 1) by (clear; lia). destruct Hm as (Hm & Hms & Hmn). clear Stop. remember (q - 1) as m eqn:Em. clear Em. assert (Hfm : m <= Z.of_nat f) by (clear - Eq Hf; lia). clear Hf Hq Nq. assert (c0 : 0 <= c) by (clear; lia). rewrite shr_ok. cbn [bind]. rewrite J_div, J_mod by exact Hm. pose proof (Z.mod_pos_bound (T / 10 ^ m) 10 ltac:(lia)) as Bd. remember ((T / 10 ^ m) mod 10) as d eqn:Ed. rewrite (Z.mod_small d 256) by (clear - Bd; lia).
        pose proof (Z.mod_pos_bound (X / 10 ^ m) (2 ^ s) ltac:(clear - B2; lia)) as Br. rewrite u64_id by (clear - Br B2; change (2 ^ 64) with (16 * 2 ^ 60); lia).
        assert (En : 10 * ((X / 10 ^ m) mod 2 ^ s) = (if m =? 0 then 0 else J (m - 1))).
        { destruct (Z.eqb_spec m 0) as [->|Nm]; [change (10 ^ 0) with 1; rewrite Z.div_1_r, X_T, Z.mod_mul by (clear - B2; lia); reflexivity|]. rewrite <- J_next by (clear - Hm Nm; lia). replace (m - 1 + 1) with m by (clear; lia). rewrite X_digit by (clear - Hm Hms Nm; lia). now rewrite Z.add_0_r. }
        rewrite En. assert (Lf : negb ((T mod 10 ^ c) / 10 ^ m =? 0) = negb ((T mod 10 ^ c) / 10 ^ q =? 0) || ((m <? c) && negb (d =? 0))). { rewrite Ed, Eq. apply lost_from; assumption. }
        clear Br En. 
        destruct (Z.ltb_spec (Z.min (nd - q) size) size) as [L|L].
        -- rewrite put_in by plia. cbn [bind]. replace (Z.min (nd - q) size + 1) with (Z.min (nd - m) size) by plia. edestruct (IH m) as (h' & q' & E & H1 & H2 & H3 & H4 & H5 & H6); [plia|plia| | |exists h', q'; split; [exact E|]]; cbn [num_digits digits point dnegative truncated] in *.
           ++ intros j Hj. unfold cell. cbn [digits]. destruct (Z.eqb_spec j (Z.min (nd - q) size)) as [->|Nj]; [rewrite Ed; do 4 f_equal; plia|]. apply B. plia.
           ++ rewrite Lf. replace (m <? c) with false by plia. cbn [andb]. now rewrite orb_false_r.
           ++ split; [plia|]. repeat split; assumption.
        -- replace (Z.min (nd - q) size) with (Z.min (nd - m) size) by plia. destruct (IH m (if 0 <? d then set_truncated h else h)) as (h' & q' & E & H1 & H2 & H3 & H4 & H5 & H6); [plia|plia| | |exists h', q'; split; [exact E|]].
           ++ intros j Hj. assert (cell h nd T j) as Cj by (apply B; plia). destruct (0 <? d); exact Cj.
           ++ rewrite Lf. replace (m <? c) with true by plia. cbn [andb]. destruct (Z.ltb_spec 0 d) as [Pd|Pd].
              ** cbn [set_truncated truncated]. replace (d =? 0) with false by plia. cbn [negb]. now rewrite !orb_true_r.
              ** replace (d =? 0) with true by plia. cbn [negb]. now rewrite orb_false_r.
           ++ split; [plia|]. split; [exact H2|]. split; [destruct (0 <? d); exact H3|]. split; [destruct (0 <? d); exact H4|]. split; [exact H5|exact H6].
Qed.
End Right.

Lemma rep_cut h nd T c : 0 <= c < nd -> nd - c <= size -> num_digits h = nd - c -> 10 ^ (nd - 1) <= T < 10 ^ nd -> (forall j, 0 <= j < nd - c -> cell h nd T j) -> rep h (T / 10 ^ c).
Proof.
  intros Hc Hsz En HT B. pose proof (ten_pos c ltac:(lia)) as Pc. split; [lia|]. rewrite En. split.
  - replace (10 ^ (nd - 1)) with (10 ^ (nd - c - 1) * 10 ^ c) in HT by (rewrite <- Z.pow_add_r by lia; f_equal; lia). replace (10 ^ nd) with (10 ^ (nd - c) * 10 ^ c) in HT by (rewrite <- Z.pow_add_r by lia; f_equal; lia).
    split; [apply Z.div_le_lower_bound; lia|apply Z.div_lt_upper_bound; lia].
  - intros j Hj. apply cell_div; [lia|lia|]. apply B. lia.
Qed.

Ltac plia := repeat match goal with [ H : context [Z.pow _ _] |- _ ] => clear H | [ H : forall _ : _, _ |- _ ] => clear H end; lia.
Lemma right_ok h N s : rep h N -> 1 <= s <= 60 -> - 1000000000 <= point h <= 1000000000 -> - range <= point h - 20 ->
  exists h', right_shift size range h s = Ok h' /\ shifted h h' (N * 5 ^ s) (point h - num_digits h - s).
Proof.
  intros R Hs Hp Hrg. pose proof R as (R1 & R2 & R3). pose proof (two_s s Hs) as B2. pose proof (N_pos h N R) as NP.
  destruct (start_ok h N s R Hs (Z.to_nat (num_digits h)) 0) as (r1 & E1 & Hr1 & Hn1); [lia|lia|rewrite Z.sub_0_r, Z.div_small by lia; lia|]. rewrite Z.sub_0_r, (Z.div_small N) in E1 by lia.
  unfold right_shift. rewrite E1. cbn [bind]. set (T := N * 5 ^ s) in *. set (m1 := num_digits h + s - r1) in *. assert (Hm1 : 0 <= m1) by (unfold m1; lia). pose proof (ten_pos m1 Hm1) as Pm1.
  assert (Pos1 : 1 <= r1). { destruct (Z.eq_dec r1 0) as [E|]; [|lia]. exfalso. unfold m1 in Hn1. rewrite E in Hn1. rewrite (X_top h N s Hs 0) in Hn1 by lia. rewrite Z.sub_0_r, Z.div_small in Hn1 by lia. lia. }
  assert (R20 : r1 <= 20).
  { assert (L : 10 ^ (r1 - 1) <= N * 10 ^ s / 10 ^ m1). { apply Z.div_le_lower_bound; [exact Pm1|]. rewrite <- Z.pow_add_r by lia. replace (m1 + (r1 - 1)) with (num_digits h - 1 + s) by (unfold m1; lia). rewrite Z.pow_add_r by lia. apply Z.mul_le_mono_nonneg_r; [apply Z.pow_nonneg; lia|lia]. }
    assert (10 ^ (r1 - 1) < 10 ^ 20) by (assert (10 * 2 ^ 60 < 10 ^ 20) by reflexivity; lia). apply Z.pow_lt_mono_r_iff in H; lia. }
  assert (Ep : i32 (point h - (r1 - 1)) = Ok (point h - (r1 - 1))). { unfold i32. change (2 ^ 31) with 2147483648. replace (- (2147483648) <=? point h - (r1 - 1)) with true by lia. replace (point h - (r1 - 1) <? 2147483648) with true by lia. reflexivity. }
  rewrite Ep. cbn [bind]. replace (point h - (r1 - 1) <? - range) with false by lia. rewrite shl_ok by lia. cbn [bind]. rewrite Z.mul_1_l.
  rewrite (J_first h N s R Hs m1 Hm1 (proj2 Hn1)). set (hp := set_point h (point h - (r1 - 1))). set (nd := m1 + 1). set (c := Z.max 0 (nd - size)).
  assert (HT : 10 ^ (nd - 1) <= T < 10 ^ nd).
  { pose proof (quot N s Hs m1 Hm1) as Q. fold T in Q. assert (Q1 : 1 <= T / 10 ^ m1 < 10). { rewrite <- Q. split; [apply Z.div_le_lower_bound; lia|apply Z.div_lt_upper_bound; lia]. }
    unfold nd. replace (m1 + 1 - 1) with m1 by lia. rewrite ten_succ by exact Hm1. pose proof (Z.div_mod T (10 ^ m1) ltac:(lia)) as DM. pose proof (Z.mod_pos_bound T (10 ^ m1) Pm1) as Bm. clear - DM Bm Q1 Pm1. nia. }
  assert (P2 : exists q h1, 0 <= q <= Z.min (s + 1) nd /\ right_read size s (2 ^ s - 1) (Z.to_nat (num_digits h - r1)) r1 0 (J N s m1) hp = Ok (Z.min (nd - q) size, (if q =? 0 then 0 else J N s (q - 1)), h1) /\
            point h1 = point hp /\ dnegative h1 = dnegative h /\ truncated h1 = truncated h /\ c <= q /\ (forall j, 0 <= j < Z.min (nd - q) size -> cell h1 nd T j)).
  { destruct (Z.le_gt_cases r1 (num_digits h)) as [Le|Gt].
    - destruct (right_read_ok h N s R Hs r1 ltac:(lia) (Z.to_nat (num_digits h - r1)) r1 hp) as (h1 & E & F1 & F2 & F3 & F4 & F5); [lia|lia|reflexivity|reflexivity|intros j Hj; lia|]. rewrite Z.sub_diag in E. fold m1 in E. exists (s + 1), h1. replace (s + 1 =? 0) with false by lia. replace (s + 1 - 1) with s by lia. unfold nd, c, m1 in *.
      replace (Z.min (num_digits h + s - r1 + 1 - (s + 1)) size) with (num_digits h - r1) by lia. split; [lia|]. split; [exact E|]. split; [exact F2|]. split; [exact F3|]. split; [exact F4|]. split; [lia|]. exact F5.
    - replace (Z.to_nat (num_digits h - r1)) with 0%nat by lia. cbn [right_read]. exists nd, hp. unfold nd, m1 in *. replace (num_digits h + s - r1 + 1 =? 0) with false by lia. replace (num_digits h + s - r1 + 1 - 1) with (num_digits h + s - r1) by lia. rewrite Z.sub_diag. replace (Z.min 0 size) with 0 by lia. split; [lia|]. split; [reflexivity|]. split; [reflexivity|]. split; [reflexivity|]. split; [reflexivity|]. split; [unfold c, nd, m1; lia|]. intros j Hj. lia. }
  destruct P2 as (q & h1 & Hq & E2 & F1 & F2 & F3 & Fc & F4). rewrite E2. cbn [bind].
  assert (Lc : forall q0, 0 <= q0 -> c <= q0 -> (T mod 10 ^ c) / 10 ^ q0 = 0). { intros q0 H0 H1. apply Z.div_small. pose proof (Z.mod_pos_bound T (10 ^ c) (ten_pos c ltac:(lia))). pose proof (Z.pow_le_mono_r 10 c q0 ltac:(lia) H1). lia. }
  destruct (right_rest_ok h N s Hs r1 64 q h1) as (h2 & q' & E3 & Hq' & Dv & G1 & G2 & G3 & G4); fold m1; fold nd; fold T; [exact Hq|plia|exact F4|fold c; rewrite Lc by plia; cbn; now rewrite orb_false_r, F3|]. fold m1 in E3, G3, G4. fold nd in E3, G3, G4. fold T in E3, G3, G4, Dv. fold c in G4.
  rewrite E3. cbn [bind]. set (c' := Z.max q' c). set (h3 := set_num h2 (Z.min (nd - q') size)).
  assert (Q' : q' < nd). { destruct (Z.lt_ge_cases q' nd) as [L|L]; [exact L|]. exfalso. clear - Dv HT L Hq' Hm1. apply Z.div_exact in Dv; [|pose proof (ten_pos q'); lia]. pose proof (Z.pow_le_mono_r 10 nd q' ltac:(lia) L) as M. rewrite Z.div_small in Dv by lia. pose proof (ten_pos (nd - 1)). lia. }
  assert (C0 : 0 <= c' < nd) by (unfold c', c; plia). assert (En : Z.min (nd - q') size = nd - c') by (unfold c', c; plia).
  assert (R' : rep h3 (T / 10 ^ c')). { apply (rep_cut h3 nd T c'); [exact C0|unfold c', c; plia|exact En|exact HT|]. intros j Hj. apply G3. rewrite En. exact Hj. }
  destruct (trim_ok h3 (T / 10 ^ c') R') as (h' & N' & t & E & Rp & NZ & T0 & Ev & Enum & Ept & Et & Eg). exists h'. split; [exact E|]. exists N', c, (t + (c' - c)). cbn [h3 set_num num_digits point truncated dnegative] in *. rewrite En in Enum.
  assert (Cc : 0 <= c) by (unfold c; plia).
  assert (Div : T / 10 ^ c = T / 10 ^ c' * 10 ^ (c' - c)).
  { destruct (Z.le_gt_cases q' c) as [L|L]; [replace c' with c by (unfold c'; plia); rewrite Z.sub_diag; change (10 ^ 0) with 1; lia|]. replace c' with q' by (unfold c'; plia). apply Z.div_exact in Dv; [|pose proof (ten_pos q' ltac:(plia)) as Pq0; clear - Pq0; lia].
    rewrite Dv at 1. replace (10 ^ q') with (10 ^ (q' - c) * 10 ^ c) at 1 by (rewrite <- Z.pow_add_r by plia; f_equal; plia). pose proof (ten_pos c Cc) as Pc0. replace (10 ^ (q' - c) * 10 ^ c * (T / 10 ^ q')) with (T / 10 ^ q' * 10 ^ (q' - c) * 10 ^ c) by ring. apply Z.div_mul. clear - Pc0; lia. }
  split; [exact Rp|]. split; [exact NZ|]. split; [exact Cc|]. split; [unfold c'; plia|]. split; [rewrite Z.pow_add_r by (unfold c'; plia); rewrite Z.mul_assoc, Ev; symmetry; exact Div|]. split; [rewrite Ept, G1, F1; cbn [hp set_point point]; unfold nd, m1 in *; plia|]. split; [unfold c', c in *; plia|]. split; [|rewrite Eg, G2; exact F2].
  rewrite Et, G4. do 2 f_equal. destruct (Z.le_gt_cases c q') as [L|L].
  - rewrite Lc by plia. apply Z.div_exact in Dv; [|pose proof (ten_pos q' ltac:(plia)) as Pq0; clear - Pq0; lia]. rewrite Dv. replace (10 ^ q') with (10 ^ (q' - c) * 10 ^ c) at 1 by (rewrite <- Z.pow_add_r by plia; f_equal; plia). pose proof (ten_pos c Cc) as Pc0. replace (10 ^ (q' - c) * 10 ^ c * (T / 10 ^ q')) with (T / 10 ^ q' * 10 ^ (q' - c) * 10 ^ c) by ring. rewrite Z.mod_mul by (clear - Pc0; lia). reflexivity.
  - pose proof (ten_pos q' ltac:(lia)) as Pq. assert (D2 : (T mod 10 ^ c) mod 10 ^ q' = 0). { replace (10 ^ c) with (10 ^ q' * 10 ^ (c - q')) by (rewrite <- Z.pow_add_r by plia; f_equal; plia). rewrite Z.rem_mul_r by (first [clear - Pq; lia|apply ten_pos; plia]). rewrite Dv, Z.add_0_l, Z.mul_comm. apply Z.mod_mul. lia. }
    apply Z.div_exact in D2; [|lia]. set (y := T mod 10 ^ c) in *. apply Bool.eq_iff_eq_true. rewrite !Z.eqb_eq. split; intro H0; [rewrite D2, H0; lia|rewrite H0; apply Z.div_0_l; lia].
Qed.
End S.
