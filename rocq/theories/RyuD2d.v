(** d2d: step 3 delivers exact truncations and sound flags, so the result is the optimal decimal. *)
From Coq Require Import ZArith List Bool Lia.
From Verif Require Import Mem RyuTables RyuModel RyuArith RyuTab RyuCertOk RyuShort RyuOpt RyuStep RyuF2d.
Import ListNotations.
Open Scope Z_scope.

(** a mantissa of binary64 and the shift of its lower neighbour *)
Definition dm_ok (m s : Z) : Prop := 0 < m < 2 ^ 53 /\ (s = 1 \/ s = 0 /\ m = 2 ^ 52).

(** one digit fewer than the interval is wide: no separate last digit needed *)
Lemma wide mm mp c D : 0 < D -> 10 * D <= c -> mm + 3 <= mp -> mm * c / D / 10 < (mp * c / D - 1) / 10.
Proof.
  intros HD Hc H.
  assert (A : mm * c / D + 30 <= mp * c / D).
  { rewrite <- Z.div_add by lia. apply Z.div_le_mono; [exact HD|].
    assert ((mm + 3) * c <= mp * c) by (apply Z.mul_le_mono_nonneg_r; lia). lia. }
  Z.to_euclidean_division_equations. lia.
Qed.

Lemma dlast c D q V mm mp : 0 < D -> (q = 0 -> D = 1) -> (q <> 0 -> 10 * D <= c) -> mm + 3 <= mp ->
  0 = (10 * V / D) mod 10 \/ mm * c / D / 10 < (mp * c / D - 1) / 10.
Proof.
  intros HD H0 H1 H. destruct (Z.eq_dec q 0) as [E|N].
  - left. rewrite (H0 E), Z.div_1_r, Z.mul_comm. symmetry. apply Z.mod_mul. lia.
  - right. apply wide; auto.
Qed.

Lemma carry_clause m s r : (s = 1 \/ s = 0 /\ m = 2 ^ 52) -> (row r / 2 ^ 11) mod 2 ^ 64 <> 2 ^ 64 - 1 ->
  s = 0 -> (2 * m * row r / 2 ^ 64) mod 2 ^ 64 <> 2 ^ 64 - 1.
Proof.
  intros [->|[-> ->]] H E; [discriminate E|]. replace (2 * 2 ^ 52 * row r / 2 ^ 64) with (row r / 2 ^ 11); [exact H|].
  replace (2 * 2 ^ 52 * row r) with (row r * 2 ^ 53) by (change (2 * 2 ^ 52) with (2 ^ 53); ring).
  change (2 ^ 64) with (2 ^ 11 * 2 ^ 53). rewrite Z.div_mul_cancel_r; [reflexivity|discriminate|discriminate].
Qed.

Lemma no_pow5_23 q x : 22 <= q -> 0 < x <= 2 ^ 55 -> x <> 5 ^ 23 -> x <> 2 * 5 ^ 23 -> x <> 3 * 5 ^ 23 -> ~ (5 ^ (q + 1) | x).
Proof.
  intros Hq Hx N1 N2 N3 [y ->]. replace (q + 1) with (23 + (q - 22)) in * by lia. rewrite Z.pow_add_r in * by lia.
  pose proof (pow5_pos (q - 22) ltac:(lia)). set (z := 5 ^ (q - 22)) in *.
  change (5 ^ 23) with 11920928955078125 in *. change (2 ^ 55) with 36028797018963968 in *.
  replace (y * (11920928955078125 * z)) with (11920928955078125 * (y * z)) in * by ring. set (w := y * z) in *. clearbody w. lia.
Qed.

Lemma d2d_pos_good e m s acc : 0 <= e <= 970 -> dm_ok m s -> acc = Z.even m ->
  exists o c D, d2d_pos e m (4 * m) s acc = Ok o /\
    good3 (4 * m - 1 - s) (4 * m) (4 * m + 2) e acc o c D /\ vp o < 2 ^ 64 /\ 0 < vm o /\ last0 o = 0.
Proof.
  intros He (Hm & Hs) Hacc. set (q := dqi e). pose proof Hm as Hm'. change (2 ^ 53) with 9007199254740992 in Hm'.
  destruct (dqi_range e He) as (Hq & Hqe & J). fold q in Hq, Hqe, J.
  assert (C : 5 ^ q <= 2 ^ (e - q) < 100 * 5 ^ q /\ (q <> 0 -> 10 * 5 ^ q <= 2 ^ (e - q))).
  { pose proof (L102_spec e ltac:(lia)) as LS. destruct (b2z_lt 3 e) as [[E3 L3]|[E3 L3]].
    - assert (Eq : q = L102 e - 1) by (unfold q, dqi; now rewrite E3).
      replace (L102 e) with (q + 1) in LS by lia. replace (q + 1 + 1) with (q + 2) in LS by lia.
      pose proof (pos_ratio e (q + 1) 1 ltac:(rewrite Eq; clear - L3 He; unlog) ltac:(lia) ltac:(replace (q + 1 + 1) with (q + 2) by lia; exact LS)) as PR.
      replace (5 ^ (q + 1)) with (5 * 5 ^ q) in PR by (rewrite <- Z.pow_succ_r by lia; reflexivity).
      replace (2 ^ (e - q)) with (2 * 2 ^ (e - (q + 1))) by (rewrite <- Z.pow_succ_r by (rewrite Eq; clear - L3 He; unlog); f_equal; lia).
      change (10 ^ 1) with 10 in PR. pose proof (pow5_pos q ltac:(lia)). lia.
    - assert (Eq : q = 0) by (unfold q, dqi; rewrite E3; clear - L3 He; unlog). rewrite Eq. assert (Ee : e = 0 \/ e = 1 \/ e = 2 \/ e = 3) by lia.
      destruct Ee as [->|[->|[->| ->]]]; vm_compute; (split; [split; [discriminate|reflexivity]|intro X; now destruct X]). }
  destruct C as ((Hc1 & Hc2) & Hc3).
  destruct (dinv_floor e He) as (rw & T & G & F). fold q in T, G, F.
  destruct G as (RO & R3 & R4 & _ & R5).
  pose proof (pow5_pos q ltac:(lia)) as PD.
  set (c := 2 ^ (e - q)) in *. set (D := 5 ^ q) in *.
  assert (HB : (4 * m + 2) * c / D < 2 ^ 64).
  { apply Z.lt_le_trans with (100 * (2 ^ 55) + 1); [apply (div_bound _ c D 100); lia|]. discriminate. }
  assert (G1 : (4 * m - 1 - s) * c / D + 3 <= (4 * m + 2) * c / D) by (apply floor_gap; lia).
  assert (G4 : 1 <= (4 * m - 1 - s) * c / D). { pose proof (floor_gap 0 (4 * m - 1 - s) c D 1 PD Hc1 ltac:(lia)) as X. rewrite Z.mul_0_l, Z.div_0_l in X by lia. apply X. lia. }
  assert (M : mulShiftAll64 m rw (- e + q + (L25 q + 125)) s = Ok (4 * m * c / D, (4 * m + 2) * c / D, (4 * m - 1 - s) * c / D)).
  { rewrite mulShiftAll64_eq.
    - rewrite !F by (change (2 ^ 55) with 36028797018963968; lia). reflexivity.
    - exact Hm.
    - exact RO.
    - change (2 ^ 61) with 2305843009213693952 in R3. change (2 ^ 63) with 9223372036854775808. lia.
    - lia.
    - lia.
    - rewrite F by (change (2 ^ 55) with 36028797018963968; lia). exact HB.
    - apply carry_clause; [lia|exact R5]. }
  assert (Hlast : 0 = (10 * (4 * m * c) / D) mod 10 \/ (4 * m - 1 - s) * c / D / 10 < ((4 * m + 2) * c / D - 1) / 10).
  { apply (dlast c D q); [exact PD|intro E; unfold D; rewrite E; reflexivity|exact Hc3|lia]. }
  assert (Hs' : s = 0 \/ s = 1) by lia.
  pose proof (pos_good (q <=? 21) q (e - q) m s acc 0 ltac:(lia) ltac:(lia) Hc1 ltac:(lia) Hs') as PG. cbv zeta in PG.
  fold c D in PG.
  assert (N : (q <=? 21) = false -> (acc = true -> ~ (5 ^ (q + 1) | 4 * m - 1 - s)) /\ (acc = false -> ~ (5 ^ (q + 1) | 4 * m + 2))).
  { intro Q. apply Z.leb_gt in Q. rewrite Hacc. split; intro Ev; (apply no_pow5_23; [lia|change (2 ^ 55) with 36028797018963968; lia|..]);
      change (5 ^ 23) with 11920928955078125.
    - destruct Hs as [->|[-> ->]]; [lia|]. change (2 ^ 52) with 4503599627370496. lia.
    - destruct Hs as [->|[-> ->]]; [|change (2 ^ 52) with 4503599627370496; lia]. apply Z.even_spec in Ev. destruct Ev as [w ->]. lia.
    - destruct Hs as [->|[-> ->]]; [lia|]. change (2 ^ 52) with 4503599627370496. lia.
    - lia.
    - rewrite <- Z.negb_odd in Ev. apply negb_false_iff, Z.odd_spec in Ev. destruct Ev as [w ->]. lia.
    - lia. }
  specialize (PG N Hlast). destruct PG as (PG & P1 & P2 & P3).
  exists (pos_out (q <=? 21) q (4 * m) (4 * m - 1 - s) (4 * m + 2) acc (4 * m * c / D) ((4 * m + 2) * c / D) ((4 * m - 1 - s) * c / D) 0), c, D.
  split; [|replace e with (q + (e - q)) at 1 by lia; split; [exact PG|split; [exact (Z.le_lt_trans _ _ _ P1 HB)|split; [exact P2|exact P3]]]].
  unfold d2d_pos. rewrite log10Pow2_eq by lia. cbn [bind]. change (L102 e - b2z (3 <? e)) with (dqi e). fold q.
  cbv zeta. rewrite u32_id by (change (2 ^ 32) with 4294967296; lia). rewrite pow5bits_eq by lia. cbn [bind].
  unfold DOUBLE_POW5_INV_BITCOUNT. replace (- e + q + (125 + (L25 q + 1) - 1)) with (- e + q + (L25 q + 125)) by lia.
  rewrite T. cbn [bind]. rewrite M. cbn [bind]. unfold pos_out, div5. rewrite rem32_eq by (change (2 ^ 32) with 4294967296; lia).
  rewrite !u64_id by (change (2 ^ 64) with 18446744073709551616; lia).
  destruct (q <=? 21); [|reflexivity].
  destruct (4 * m mod 5 =? 0); [rewrite multipleOfPowerOf5_eq by (change (2 ^ 64) with 18446744073709551616; lia); reflexivity|].
  destruct acc; rewrite multipleOfPowerOf5_eq by (change (2 ^ 64) with 18446744073709551616; lia); cbn [bind]; [reflexivity|].
  rewrite u64_id; [reflexivity|]. destruct ((4 * m + 2) mod 5 ^ q =? 0); cbn [b2z]; lia.
Qed.

Lemma d2d_neg_good n m s acc : 1 <= n <= 1076 -> dm_ok m s ->
  exists o c D, d2d_neg (- n) m (4 * m) s acc = Ok o /\
    good3 (4 * m - 1 - s) (4 * m) (4 * m + 2) (- n) acc o c D /\ vp o < 2 ^ 64 /\ 0 < vm o /\ last0 o = 0.
Proof.
  intros Hn (Hm & Hs). set (q := dqp n). pose proof Hm as Hm'. change (2 ^ 53) with 9007199254740992 in Hm'.
  destruct (dqp_range n Hn) as (Hq & Hqe & J). fold q in Hq, Hqe, J.
  assert (Hi : 1 <= n - q) by (unfold q, dqp; destruct (b2z_lt 1 n) as [[-> L]|[-> L]]; clear - L Hn; unlog).
  assert (C : 2 ^ q <= 5 ^ (n - q) < 100 * 2 ^ q /\ (q <> 0 -> 10 * 2 ^ q <= 5 ^ (n - q))).
  { pose proof (L105_spec n ltac:(lia)) as LS. destruct (b2z_lt 1 n) as [[E3 L3]|[E3 L3]].
    - assert (Eq : q = L105 n - 1) by (unfold q, dqp; now rewrite E3).
      replace (L105 n) with (q + 1) in LS by lia. replace (q + 1 + 1) with (q + 2) in LS by lia.
      pose proof (neg_ratio n (q + 1) 1 ltac:(rewrite Eq; clear - L3 Hn; unlog) ltac:(lia) ltac:(replace (q + 1 + 1) with (q + 2) by lia; exact LS)) as PR.
      replace (2 ^ (q + 1)) with (2 * 2 ^ q) in PR by (rewrite <- Z.pow_succ_r by lia; reflexivity).
      replace (5 ^ (n - q)) with (5 * 5 ^ (n - (q + 1))) by (rewrite <- Z.pow_succ_r by (rewrite Eq; clear - L3 Hn; unlog); f_equal; lia).
      change (10 ^ 1) with 10 in PR. pose proof (pow2_pos q ltac:(lia)). lia.
    - assert (Eq : q = 0) by (unfold q, dqp; rewrite E3; clear - L3 Hn; unlog). rewrite Eq. assert (Ee : n = 1) by lia.
      rewrite Ee; vm_compute; (split; [split; [discriminate|reflexivity]|intro X; now destruct X]). }
  destruct C as ((Hc1 & Hc2) & Hc3).
  destruct (dpow_floor n Hn) as (rw & T & G & F). fold q in T, G, F.
  destruct G as (RO & R3 & _ & R5).
  set (i := n - q) in *.
  pose proof (pow2_pos q ltac:(lia)) as PD.
  set (c := 5 ^ i) in *. set (D := 2 ^ q) in *.
  assert (HB : (4 * m + 2) * c / D < 2 ^ 64).
  { apply Z.lt_le_trans with (100 * (2 ^ 55) + 1); [apply (div_bound _ c D 100); lia|]. discriminate. }
  assert (G1 : (4 * m - 1 - s) * c / D + 3 <= (4 * m + 2) * c / D) by (apply floor_gap; lia).
  assert (G4 : 1 <= (4 * m - 1 - s) * c / D). { pose proof (floor_gap 0 (4 * m - 1 - s) c D 1 PD Hc1 ltac:(lia)) as X. rewrite Z.mul_0_l, Z.div_0_l in X by lia. apply X. lia. }
  assert (M : mulShiftAll64 m rw (q + 125 - (L25 i + 1)) s = Ok (4 * m * c / D, (4 * m + 2) * c / D, (4 * m - 1 - s) * c / D)).
  { rewrite mulShiftAll64_eq.
    - rewrite !F by (change (2 ^ 55) with 36028797018963968; lia). reflexivity.
    - exact Hm.
    - exact RO.
    - change (2 ^ 61) with 2305843009213693952 in R3. change (2 ^ 63) with 9223372036854775808. lia.
    - lia.
    - lia.
    - rewrite F by (change (2 ^ 55) with 36028797018963968; lia). exact HB.
    - apply carry_clause; [lia|exact R5]. }
  assert (Hlast : 0 = (10 * (4 * m * c) / D) mod 10 \/ (4 * m - 1 - s) * c / D / 10 < ((4 * m + 2) * c / D - 1) / 10).
  { apply (dlast c D q); [exact PD|intro E; unfold D; rewrite E; reflexivity|exact Hc3|lia]. }
  assert (Hs' : s = 0 \/ s = 1) by lia.
  set (fr := if q <? 63 then 4 * m mod 2 ^ q =? 0 else false).
  pose proof (neg_good q i m s acc fr 0 ltac:(lia) ltac:(lia) Hc1 ltac:(lia) Hs') as PG. cbv zeta in PG.
  fold c D in PG.
  assert (N : 1 < q -> fr = true -> (D | 4 * m * c) \/ (4 * m * c / D) mod 5 = 2 /\ 2 * (4 * m * c) = (2 * (4 * m * c / D) + 1) * D).
  { intros Q1 Fr. unfold fr in Fr. destruct (q <? 63); [|discriminate Fr]. apply div_mod0 in Fr; [|exact PD].
    left. apply Z.divide_mul_l. exact Fr. }
  specialize (PG N Hlast). destruct PG as (PG & P1 & P2 & P3).
  exists (neg_out q s (- i) acc fr (4 * m * c / D) ((4 * m + 2) * c / D) ((4 * m - 1 - s) * c / D) 0), c, D.
  split; [|replace n with (q + i) at 1 by (unfold i; lia); split; [exact PG|split; [exact (Z.le_lt_trans _ _ _ P1 HB)|split; [exact P2|exact P3]]]].
  unfold d2d_neg. rewrite Z.opp_involutive, log10Pow5_eq by lia. cbn [bind]. change (L105 n - b2z (1 <? n)) with (dqp n). fold q.
  cbv zeta. rewrite u32_id by (change (2 ^ 32) with 4294967296; lia). fold i. rewrite pow5bits_eq by lia. cbn [bind].
  unfold DOUBLE_POW5_BITCOUNT. replace (q - (L25 i + 1 - 125)) with (q + 125 - (L25 i + 1)) by lia.
  rewrite T. cbn [bind]. rewrite M. cbn [bind]. replace (q + - n) with (- i) by (unfold i; lia). unfold neg_out, fr.
  destruct (Z.leb_spec q 1) as [Q1|Q1].
  - destruct acc; [reflexivity|]. rewrite u64_id by lia. reflexivity.
  - destruct (Z.ltb_spec q 63); [|reflexivity]. rewrite multipleOfPowerOf2_eq by lia. reflexivity.
Qed.

Definition dsig (M E : Z) : Z := if E =? 0 then M else 2 ^ 52 + M.
Definition dexp2 (E : Z) : Z := Z.max E 1 - 1077.

Lemma dsig_ok M E : 0 <= M < 2 ^ 52 -> 0 <= E -> M <> 0 \/ E <> 0 -> dm_ok (dsig M E) (fshift M E).
Proof.
  intros HM HE Hnz. unfold dm_ok, dsig, fshift. change (2 ^ 53) with (2 * 4503599627370496). change (2 ^ 52) with 4503599627370496 in *.
  destruct (Z.eqb_spec E 0) as [->|NE].
  - split; [lia|]. left. rewrite orb_true_r. reflexivity.
  - split; [lia|]. destruct (Z.eqb_spec M 0) as [->|]; [|now left]. cbn [negb orb]. destruct (E <=? 1); cbn [b2z]; [now left|right; lia].
Qed.

Lemma d2d_optimal M E : 0 <= M < 2 ^ 52 -> 0 <= E < 2047 -> M <> 0 \/ E <> 0 ->
  exists o k, d2d M E = Ok (o, k) /\ optimal (dsig M E) (fshift M E) (dexp2 E) o k.
Proof.
  intros HM HE Hnz. pose proof (dsig_ok M E HM ltac:(lia) Hnz) as F. pose proof F as ((F1 & F2) & F3).
  unfold d2d. fold (fshift M E).
  replace (if E =? 0 then 1 - 1023 - 52 - 2 else E - 1023 - 52 - 2) with (dexp2 E)
    by (unfold dexp2; destruct (Z.eqb_spec E 0); lia).
  replace (if E =? 0 then M else Z.lor (2 ^ 52) M) with (dsig M E)
    by (unfold dsig; destruct (E =? 0); [reflexivity|now rewrite lor_top by lia]).
  rewrite accept_even. set (m := dsig M E) in *. set (s := fshift M E) in *. set (e2 := dexp2 E).
  assert (Hs : s = 0 \/ s = 1) by lia.
  change (2 ^ 53) with 9007199254740992 in F2. cbv zeta.
  rewrite !u64_id by (change (2 ^ 64) with 18446744073709551616; lia).
  assert (X : exists o c D, (if 0 <=? e2 then d2d_pos e2 m (4 * m) s (Z.even m)
             else d2d_neg e2 m (4 * m) s (Z.even m)) = Ok o /\
    good3 (4 * m - 1 - s) (4 * m) (4 * m + 2) e2 (Z.even m) o c D /\ vp o < 2 ^ 64 /\ 0 < vm o /\ last0 o = 0).
  { destruct (Z.leb_spec 0 e2) as [P|P].
    - apply d2d_pos_good; [unfold e2, dexp2 in *; lia|exact F|reflexivity].
    - replace e2 with (- (- e2)) by lia. apply d2d_neg_good; [unfold e2, dexp2 in *; lia|exact F]. }
  destruct X as (st & c & D & E1 & G & B1 & B2 & B3). rewrite E1. cbn [bind].
  destruct (d2d_step4_best (4 * m - 1 - s) (4 * m) (4 * m + 2) e2 (Z.even m) st c D) as (o & r & E2 & O & B & _);
    [lia|lia|lia|lia|exact G|exact B1|intros _; exact B2|exact B3|].
  rewrite E2. cbn [bind fst snd]. exists o, (e10 st + r). split; [reflexivity|].
  destruct G as (G1 & G2 & G3 & _). exists c, D, r, (e10 st). repeat (split; [first [assumption|reflexivity|lia]|]). exact B.
Qed.

(** ** Integers below 2^53 *)
Lemma strip_zeros_ok fuel m e : 0 < m -> m < 10 ^ Z.of_nat fuel ->
  exists o r, strip_zeros fuel m e = Ok (o, e + r) /\ 0 <= r /\ m = o * 10 ^ r /\ o mod 10 <> 0 /\ 1 <= o.
Proof.
  revert m e. induction fuel as [|f IH]; intros m e Hm Hf; [cbn in Hf; lia|].
  cbn [strip_zeros]. unfold div10. rewrite rem32_eq by (change (2 ^ 32) with 4294967296; lia).
  destruct (Z.eqb_spec (m mod 10) 0) as [Z0|N0]; cbn [negb].
  - pose proof (Z.div_mod m 10 ltac:(lia)) as DM. rewrite Nat2Z.inj_succ, Z.pow_succ_r in Hf by lia.
    destruct (IH (m / 10) (e + 1)) as (o & r & R & Hr & Em & No & O1); [lia|lia|].
    exists o, (1 + r). rewrite R. split; [do 2 f_equal; lia|]. split; [lia|]. split; [|split; [exact No|exact O1]].
    rewrite Z.pow_add_r by lia. change (10 ^ 1) with 10. lia.
  - exists m, 0. rewrite Z.add_0_r, Z.mul_1_r. repeat split; try lia; reflexivity.
Qed.

Lemma exact_optimal m s n o r : 2 <= n -> (s = 0 \/ s = 1) -> 0 <= r -> 1 <= o -> o mod 10 <> 0 -> 4 * m = o * 10 ^ r * 2 ^ n ->
  optimal m s (- n) o r.
Proof.
  intros Hn Hs Hr Ho No E. assert (P : 4 <= 2 ^ n) by (replace 4 with (2 ^ 2) by reflexivity; apply Z.pow_le_mono_r; lia).
  exists 1, (2 ^ n), r, 0. split; [lia|]. split; [lia|]. split.
  { right. split; [lia|]. split; [lia|]. rewrite Z.opp_involutive. change (10 ^ - 0) with 1. lia. }
  split; [lia|]. split; [exact Ho|]. unfold best. rewrite !Z.mul_1_r, <- E.
  split; [exact Hr|]. split; [unfold inI; destruct (Z.even m); lia|]. split; [intros; lia|].
  intros t x Ht I. assert (B : 4 * m - 2 <= x * 10 ^ t * 2 ^ n <= 4 * m + 2) by (unfold inI in I; destruct (Z.even m); lia).
  rewrite E in B. pose proof (pow10_pos r Hr) as Pr.
  assert (Q : x * 10 ^ t = o * 10 ^ r) by (clear - B P; nia).
  apply No. replace t with (r + (1 + (t - r - 1))) in Q by lia. rewrite !Z.pow_add_r in Q by lia. change (10 ^ 1) with 10 in Q.
  assert (Q' : x * 10 ^ (t - r - 1) * 10 = o) by (clear - Q Pr; nia). rewrite <- Q'. apply Z.mod_mul. lia.
Qed.

Lemma d2s_decimal_optimal M E : 0 <= M < 2 ^ 52 -> 0 <= E < 2047 -> M <> 0 \/ E <> 0 ->
  exists o k, d2s_decimal M E = Ok (o, k) /\ optimal (dsig M E) (fshift M E) (dexp2 E) o k.
Proof.
  intros HM HE Hnz. unfold d2s_decimal, d2d_small_int. cbv zeta. rewrite lor_top by lia.
  destruct (Z.ltb_spec 0 (E - 1023 - 52)) as [A|A]; [now apply d2d_optimal|].
  destruct (Z.ltb_spec (E - 1023 - 52) (-52)) as [B|B]; [now apply d2d_optimal|].
  rewrite land_mask by lia. set (t := - (E - 1023 - 52)).
  destruct (Z.eqb_spec ((2 ^ 52 + M) mod 2 ^ t) 0) as [Z0|N0]; cbn [negb]; [|now apply d2d_optimal].
  assert (Ht : 0 <= t <= 52) by (unfold t; lia). pose proof (pow2_pos t ltac:(lia)) as Pt.
  pose proof (Z.div_mod (2 ^ 52 + M) (2 ^ t) ltac:(lia)) as DM. rewrite Z0, Z.add_0_r in DM.
  set (v := (2 ^ 52 + M) / 2 ^ t) in *.
  assert (V0 : 0 < v). { apply Z.nle_gt. intro V. assert (2 ^ t * v <= 0) by nia. pose proof (pow2_pos 52). lia. }
  assert (V1 : v < 10 ^ Z.of_nat 64).
  { apply Z.le_lt_trans with (2 ^ 52 + M); [nia|]. apply Z.lt_trans with (2 ^ 53); [change (2 ^ 53) with (2 * 2 ^ 52); lia|reflexivity]. }
  destruct (strip_zeros_ok 64 v 0 V0 V1) as (o & r & R & Hr & Ev & No & Ho).
  exists o, r. rewrite R, Z.add_0_l. split; [reflexivity|].
  replace (dexp2 E) with (- (t + 2)) by (unfold dexp2, t; lia). apply exact_optimal; [lia|unfold fshift; destruct (_ || _); cbn; lia|lia|lia|exact No|].
  unfold dsig. destruct (Z.eqb_spec E 0) as [->|]; [lia|]. rewrite DM, Ev, Z.pow_add_r by lia. change (2 ^ 2) with 4. ring.
Qed.
