(** f2d: step 3 delivers exact truncations and sound flags, so the result is the optimal decimal. *)
From Coq Require Import ZArith List Bool Lia.
From Verif Require Import Mem RyuTables RyuModel RyuArith RyuTab RyuCertOk RyuShort RyuOpt RyuStep.
Import ListNotations.
Open Scope Z_scope.

(** a mantissa of binary32 and the shift of its lower neighbour *)
Definition fm_ok (m s : Z) : Prop := 0 < m < 2 ^ 24 /\ (s = 1 \/ s = 0 /\ m = 2 ^ 23).

Lemma cancel_r a b x : 0 < x -> a * x <= b * x -> a <= b. Proof. nia. Qed.
Lemma cancel_r_lt a b x : 0 < x -> a * x < b * x -> a < b. Proof. nia. Qed.

(** 2^e / 10^q and 5^n / 10^q for the two digit-count estimates *)
Lemma pos_ratio e q K : 0 <= q <= e -> 0 <= K -> 10 ^ q <= 2 ^ e < 10 ^ (q + K) ->
  5 ^ q <= 2 ^ (e - q) < 10 ^ K * 5 ^ q.
Proof.
  intros H HK [A B]. rewrite Z.pow_add_r in B by lia. replace (2 ^ e) with (2 ^ (e - q) * 2 ^ q) in A, B by (rewrite <- Z.pow_add_r by lia; f_equal; lia).
  replace (10 ^ q) with (5 ^ q * 2 ^ q) in A, B by (rewrite <- Z.pow_mul_l; reflexivity).
  pose proof (pow2_pos q ltac:(lia)) as P. split; [exact (cancel_r _ _ _ P A)|apply (cancel_r_lt _ _ (2 ^ q) P)]. lia.
Qed.
Lemma neg_ratio n q K : 0 <= q <= n -> 0 <= K -> 10 ^ q <= 5 ^ n < 10 ^ (q + K) ->
  2 ^ q <= 5 ^ (n - q) < 10 ^ K * 2 ^ q.
Proof.
  intros H HK [A B]. rewrite Z.pow_add_r in B by lia. replace (5 ^ n) with (5 ^ (n - q) * 5 ^ q) in A, B by (rewrite <- Z.pow_add_r by lia; f_equal; lia).
  replace (10 ^ q) with (2 ^ q * 5 ^ q) in A, B by (rewrite <- Z.pow_mul_l; reflexivity).
  pose proof (pow5_pos q ltac:(lia)) as P. split; [exact (cancel_r _ _ _ P A)|apply (cancel_r_lt _ _ (5 ^ q) P)]. lia.
Qed.

Lemma div_bound x c D K B : 0 < D -> 0 <= x -> x * K <= B -> c < K * D -> x * c / D < B + 1.
Proof.
  intros HD Hx HB Hc. apply Z.div_lt_upper_bound; [exact HD|].
  assert (x * c <= x * (K * D)) by (apply Z.mul_le_mono_nonneg_l; lia).
  assert (x * K * D <= B * D) by (apply Z.mul_le_mono_nonneg_r; lia). lia.
Qed.

(** when the last digit is looked at separately the interval is short *)
Lemma short_interval mm mp c D : 0 < D -> mm + 3 <= mp -> 0 <= c -> (mp * c / D - 1) / 10 <= mm * c / D / 10 -> 3 * c < 11 * D.
Proof.
  intros HD Hm Hc H.
  assert (A : mp * c / D <= mm * c / D + 10) by (Z.to_euclidean_division_equations; lia).
  pose proof (Z.div_mod (mp * c) D ltac:(lia)). pose proof (Z.mod_pos_bound (mp * c) D HD).
  pose proof (Z.div_mod (mm * c) D ltac:(lia)). pose proof (Z.mod_pos_bound (mm * c) D HD).
  assert (D * (mp * c / D) <= D * (mm * c / D + 10)) by (apply Z.mul_le_mono_nonneg_l; lia).
  assert ((mm + 3) * c <= mp * c) by (apply Z.mul_le_mono_nonneg_r; lia). lia.
Qed.

Lemma shift_last_pos x e q : 1 <= q -> q <= e -> 10 * (x * 2 ^ (e - q)) / 5 ^ q = x * 2 ^ (e - (q - 1)) / 5 ^ (q - 1).
Proof.
  intros Hq He. replace (5 ^ q) with (5 ^ (q - 1) * 5) by (rewrite Z.mul_comm, <- Z.pow_succ_r by lia; f_equal; lia).
  replace (2 ^ (e - (q - 1))) with (2 * 2 ^ (e - q)) by (rewrite <- Z.pow_succ_r by lia; f_equal; lia).
  replace (10 * (x * 2 ^ (e - q))) with (x * (2 * 2 ^ (e - q)) * 5) by ring.
  apply Z.div_mul_cancel_r; [pose proof (pow5_pos (q - 1)); lia|lia].
Qed.
Lemma shift_last_neg x i q : 1 <= q -> 0 <= i -> 10 * (x * 5 ^ i) / 2 ^ q = x * 5 ^ (i + 1) / 2 ^ (q - 1).
Proof.
  intros Hq Hi. replace (2 ^ q) with (2 ^ (q - 1) * 2) by (rewrite Z.mul_comm, <- Z.pow_succ_r by lia; f_equal; lia).
  replace (5 ^ (i + 1)) with (5 * 5 ^ i) by (rewrite <- Z.pow_succ_r by lia; reflexivity).
  replace (10 * (x * 5 ^ i)) with (x * (5 * 5 ^ i) * 2) by ring.
  apply Z.div_mul_cancel_r; [pose proof (pow2_pos (q - 1)); lia|lia].
Qed.

Lemma div_nonneg_le m f s : 0 <= m -> 0 <= f -> 0 <= s -> 0 <= m * f / 2 ^ s.
Proof. intros. apply Z.div_pos; [nia|apply pow2_pos; lia]. Qed.

Lemma no_pow5_11 q x : 10 <= q -> 0 < x <= 2 ^ 26 -> x <> 5 ^ 11 -> ~ (5 ^ (q + 1) | x).
Proof.
  intros Hq Hx N [y ->]. replace (q + 1) with (11 + (q - 10)) in * by lia. rewrite Z.pow_add_r in * by lia.
  pose proof (pow5_pos (q - 10) ltac:(lia)). set (z := 5 ^ (q - 10)) in *.
  change (5 ^ 11) with 48828125 in *. change (2 ^ 26) with 67108864 in *.
  assert (E : y * z = 1) by nia. apply N. replace (y * (48828125 * z)) with (48828125 * (y * z)) by ring. rewrite E. reflexivity.
Qed.

(** the digit just below the ones kept *)
Lemma f2d_pos_good e m s acc : 0 <= e <= 104 -> fm_ok m s ->
  exists o c D, f2d_pos e (4 * m) (4 * m + 2) (4 * m - 1 - s) acc = Ok o /\
    good3 (4 * m - 1 - s) (4 * m) (4 * m + 2) e acc o c D /\ vp o < 2 ^ 32 /\ 0 < vm o /\ c < 10 * D.
Proof.
  intros He (Hm & Hs). set (q := L102 e). change (2 ^ 24) with 16777216 in Hm.
  assert (Hq : 0 <= q <= e /\ q < 40) by (unfold q; unlog).
  destruct (pos_ratio e q 1 ltac:(lia) ltac:(lia) (L102_spec e ltac:(lia))) as [Hc1 Hc2].
  change (10 ^ 1) with 10 in Hc2.
  destruct (finv_floor e He) as (row & T & G & F). destruct (fqi_range e He) as (_ & _ & J). fold q in T, G, F, J.
  destruct G as ((R1 & R2) & R3 & _).
  pose proof (pow5_pos q ltac:(lia)) as PD.
  assert (B : forall x, 0 < x <= 2 ^ 26 -> x * 2 ^ (e - q) / 5 ^ q < 2 ^ 32).
  { intros x Hx. change (2 ^ 26) with 67108864 in Hx. apply Z.lt_le_trans with (671088640 + 1); [apply (div_bound x _ _ 10); lia|]. change (2 ^ 32) with 4294967296. lia. }
  assert (M : forall x, 0 < x <= 2 ^ 26 -> mulPow5InvDivPow2 x q (- e + q + (L25 q + 61)) = Ok (x * 2 ^ (e - q) / 5 ^ q)).
  { intros x Hx. unfold mulPow5InvDivPow2. rewrite T. cbn [bind].
    rewrite u64_id by (change (2 ^ 61) with 2305843009213693952 in R3; change (2 ^ 64) with 18446744073709551616; lia).
    rewrite mulShift32_eq.
    - now rewrite F by lia.
    - change (2 ^ 26) with 67108864 in Hx. change (2 ^ 32) with 4294967296. lia.
    - change (2 ^ 61) with 2305843009213693952 in R3; change (2 ^ 64) with 18446744073709551616; lia.
    - lia.
    - rewrite F by lia. now apply B. }
  set (mp := 4 * m + 2). set (mm := 4 * m - 1 - s). set (mv := 4 * m) in |- *.
  set (c := 2 ^ (e - q)) in *. set (D := 5 ^ q) in *.
  assert (G1 : mm * c / D + 3 <= mp * c / D) by (apply floor_gap; unfold mm, mp; lia).
  assert (G4 : 1 <= mm * c / D). { pose proof (floor_gap 0 mm c D 1 PD Hc1 ltac:(lia)) as X. rewrite Z.mul_0_l, Z.div_0_l in X by lia. apply X. unfold mm. lia. }
  assert (HB : mp * c / D < 2 ^ 32) by (apply B; unfold mp; change (2 ^ 26) with 67108864; lia).
  (* the last digit *)
  assert (HL : exists last,
    (if negb (q =? 0) && (u32 (mp * c / D - 1) / 10 <=? mm * c / D / 10)
     then pb1 <- pow5bits (q - 1);;
          x <- mulPow5InvDivPow2 mv (q - 1) (- e + q - 1 + (FLOAT_POW5_INV_BITCOUNT + pb1 - 1));; Ok (x mod 10)
     else Ok 0) = Ok last /\ (last = (10 * (mv * c) / D) mod 10 \/ mm * c / D / 10 < (mp * c / D - 1) / 10)).
  { rewrite u32_id by lia. destruct (Z.eqb_spec q 0) as [E0|E0]; cbn [negb andb].
    - exists 0. split; [reflexivity|]. left. unfold D. rewrite E0. change (5 ^ 0) with 1. rewrite Z.div_1_r, Z.mul_comm. symmetry. apply Z.mod_mul. lia.
    - destruct (Z.leb_spec ((mp * c / D - 1) / 10) (mm * c / D / 10)) as [L|L]; [|exists 0; split; [reflexivity|now right]].
      assert (E4 : 4 <= e) by (unfold q in E0; clear - E0 He; unlog).
      destruct (finv1_floor e ltac:(lia)) as (row' & T' & ((R1' & R2') & R3' & _) & F'). fold q in T', F'.
      rewrite pow5bits_eq by lia. cbn [bind]. unfold FLOAT_POW5_INV_BITCOUNT. unfold mulPow5InvDivPow2. rewrite T'. cbn [bind].
      replace (- e + q - 1 + (61 + (L25 (q - 1) + 1) - 1)) with (- e + (q - 1) + (L25 (q - 1) + 61)) by lia.
      specialize (F' m ltac:(change (2 ^ 24) with 16777216; lia)). fold mv in F'.
      assert (X : mv * 2 ^ (e - (q - 1)) / 5 ^ (q - 1) = 10 * (mv * c) / D) by (unfold c, D; now rewrite shift_last_pos by lia).
      rewrite u64_id by (change (2 ^ 61) with 2305843009213693952 in R3'; change (2 ^ 64) with 18446744073709551616; lia).
      assert (J' : 32 < - e + (q - 1) + (L25 (q - 1) + 61) < 96) by (unfold q; clear - He E4; unlog).
      rewrite mulShift32_eq.
      + rewrite F', X. cbn [bind]. eexists. split; [reflexivity|now left].
      + unfold mv. change (2 ^ 32) with 4294967296. lia.
      + change (2 ^ 61) with 2305843009213693952 in R3'; change (2 ^ 64) with 18446744073709551616; lia.
      + exact J'.
      + rewrite F', X. pose proof (short_interval mm mp c D PD ltac:(unfold mm, mp; lia) ltac:(lia) L) as SI.
        replace (10 * (mv * c)) with (40 * m * c) by (unfold mv; ring).
        apply Z.lt_le_trans with (40 * m * 4 + 1); [apply (div_bound (40 * m) c D 4); lia|]. change (2 ^ 32) with 4294967296. lia. }
  destruct HL as (last & HL & Hlast).
  assert (Hs' : s = 0 \/ s = 1) by lia.
  pose proof (pos_good (q <=? 9) q (e - q) m s acc last ltac:(lia) ltac:(lia) Hc1 ltac:(lia) Hs') as PG. cbv zeta in PG.
  fold mp mm in PG. fold mv in PG. fold c D in PG.
  assert (N : (q <=? 9) = false -> (acc = true -> ~ (5 ^ (q + 1) | mm)) /\ (acc = false -> ~ (5 ^ (q + 1) | mp))).
  { intro Q9. apply Z.leb_gt in Q9. split; intros _; (apply no_pow5_11; [lia|unfold mm, mp; change (2 ^ 26) with 67108864; lia|]).
    - change (5 ^ 11) with 48828125. unfold mm. destruct Hs as [->|[-> ->]]; [lia|]. change (2 ^ 23) with 8388608. lia.
    - change (5 ^ 11) with 48828125. unfold mp. lia. }
  specialize (PG N Hlast). destruct PG as (PG & P1 & P2 & _).
  exists (pos_out (q <=? 9) q mv mm mp acc (mv * c / D) (mp * c / D) (mm * c / D) last), c, D.
  split; [|replace e with (q + (e - q)) at 1 by lia; split; [exact PG|split; [exact (Z.le_lt_trans _ _ _ P1 HB)|split; [exact P2|exact Hc2]]]].
  unfold f2d_pos. rewrite log10Pow2_eq by lia. cbn [bind]. fold q. rewrite pow5bits_eq by lia. cbn [bind].
  unfold FLOAT_POW5_INV_BITCOUNT in *. cbv zeta. replace (- e + q + (61 + (L25 q + 1) - 1)) with (- e + q + (L25 q + 61)) by lia.
  rewrite !M by (unfold mv, mp, mm; change (2 ^ 26) with 67108864; lia). cbn [bind].
  rewrite HL. cbn [bind]. unfold pos_out. destruct (q <=? 9); [|reflexivity].
  destruct (mv mod 5 =? 0); [rewrite multipleOfPowerOf5_32_eq by (unfold mv; change (2 ^ 32) with 4294967296; lia); reflexivity|].
  destruct acc; rewrite multipleOfPowerOf5_32_eq by (unfold mm, mp; change (2 ^ 32) with 4294967296; lia); cbn [bind]; [reflexivity|].
  rewrite u32_id; [reflexivity|]. destruct (mp mod 5 ^ q =? 0); cbn [b2z]; lia.
Qed.

Lemma half_flag mv i q : 0 < q -> 1 <= i -> (2 ^ (q - 1) | mv) ->
  (2 ^ q | mv * 5 ^ i) \/
  ((mv * 5 ^ i / 2 ^ q) mod 5 = 2 /\ 2 * (mv * 5 ^ i) = (2 * (mv * 5 ^ i / 2 ^ q) + 1) * 2 ^ q).
Proof.
  intros Hq Hi [y ->]. replace (2 ^ q) with (2 ^ (q - 1) * 2) by (rewrite Z.mul_comm, <- Z.pow_succ_r by lia; f_equal; lia).
  pose proof (pow2_pos (q - 1) ltac:(lia)) as P. set (h := 2 ^ (q - 1)) in *. set (t := y * 5 ^ i).
  replace (y * h * 5 ^ i) with (h * t) by (unfold t; ring).
  destruct (Z.Even_or_Odd t) as [[k E]|[k E]]; rewrite E.
  - left. exists k. ring.
  - right. replace (h * (2 * k + 1) / (h * 2)) with k.
    + split; [|ring]. assert (X : 2 * k + 1 = 5 * (y * 5 ^ (i - 1))).
      { rewrite <- E. unfold t. replace (5 ^ i) with (5 * 5 ^ (i - 1)) by (rewrite <- Z.pow_succ_r by lia; f_equal; lia). ring. }
      clear - X. Z.to_euclidean_division_equations. lia.
    + apply Z.div_unique with h; [lia|]. ring.
Qed.

Lemma f2d_neg_good n m s acc : 1 <= n <= 151 -> fm_ok m s ->
  exists o c D, f2d_neg (- n) (4 * m) (4 * m + 2) (4 * m - 1 - s) s acc = Ok o /\
    good3 (4 * m - 1 - s) (4 * m) (4 * m + 2) (- n) acc o c D /\ vp o < 2 ^ 32 /\ 0 < vm o /\ c < 10 * D.
Proof.
  intros Hn (Hm & Hs). set (q := L105 n). change (2 ^ 24) with 16777216 in Hm.
  assert (Hq : 0 <= q /\ 1 <= n - q < 60) by (unfold q; unlog).
  destruct (neg_ratio n q 1 ltac:(lia) ltac:(lia) (L105_spec n ltac:(lia))) as [Hc1 Hc2].
  change (10 ^ 1) with 10 in Hc2.
  destruct (fpow_floor n Hn) as (row & T & G & F). destruct (fqp_range n Hn) as (_ & _ & J). fold q in T, G, F, J.
  destruct G as ((R1 & R2) & R3 & _).
  set (i := n - q) in *.
  pose proof (pow2_pos q ltac:(lia)) as PD.
  assert (B : forall x, 0 < x <= 2 ^ 26 -> x * 5 ^ i / 2 ^ q < 2 ^ 32).
  { intros x Hx. change (2 ^ 26) with 67108864 in Hx. apply Z.lt_le_trans with (671088640 + 1); [apply (div_bound x _ _ 10); lia|]. change (2 ^ 32) with 4294967296. lia. }
  assert (M : forall x, 0 < x <= 2 ^ 26 -> mulPow5divPow2 x i (q + 61 - (L25 i + 1)) = Ok (x * 5 ^ i / 2 ^ q)).
  { intros x Hx. unfold mulPow5divPow2. rewrite T. cbn [bind].
    rewrite mulShift32_eq.
    - now rewrite F by lia.
    - change (2 ^ 26) with 67108864 in Hx. change (2 ^ 32) with 4294967296. lia.
    - lia.
    - lia.
    - rewrite F by lia. now apply B. }
  set (mp := 4 * m + 2). set (mm := 4 * m - 1 - s). set (mv := 4 * m) in |- *.
  set (c := 5 ^ i) in *. set (D := 2 ^ q) in *.
  assert (G1 : mm * c / D + 3 <= mp * c / D) by (apply floor_gap; unfold mm, mp; lia).
  assert (G4 : 1 <= mm * c / D). { pose proof (floor_gap 0 mm c D 1 PD Hc1 ltac:(lia)) as X. rewrite Z.mul_0_l, Z.div_0_l in X by lia. apply X. unfold mm. lia. }
  assert (HB : mp * c / D < 2 ^ 32) by (apply B; unfold mp; change (2 ^ 26) with 67108864; lia).
  assert (HL : exists last,
    (if negb (q =? 0) && (u32 (mp * c / D - 1) / 10 <=? mm * c / D / 10)
     then pb1 <- pow5bits (i + 1);;
          x <- mulPow5divPow2 mv (i + 1) (q - 1 - (pb1 - FLOAT_POW5_BITCOUNT));; Ok (x mod 10)
     else Ok 0) = Ok last /\ (last = (10 * (mv * c) / D) mod 10 \/ mm * c / D / 10 < (mp * c / D - 1) / 10)).
  { rewrite u32_id by lia. destruct (Z.eqb_spec q 0) as [E0|E0]; cbn [negb andb].
    - exists 0. split; [reflexivity|]. left. unfold D. rewrite E0. change (2 ^ 0) with 1. rewrite Z.div_1_r, Z.mul_comm. symmetry. apply Z.mod_mul. lia.
    - destruct (Z.leb_spec ((mp * c / D - 1) / 10) (mm * c / D / 10)) as [L|L]; [|exists 0; split; [reflexivity|now right]].
      assert (E4 : 2 <= n) by (unfold q in E0; clear - E0 Hn; unlog).
      destruct (fpow1_floor n ltac:(lia)) as (row' & T' & ((R1' & R2') & R3' & _) & F'). fold q in T', F'. fold i in T', F'.
      rewrite pow5bits_eq by lia. cbn [bind]. unfold FLOAT_POW5_BITCOUNT. unfold mulPow5divPow2. rewrite T'. cbn [bind].
      replace (q - 1 - (L25 (i + 1) + 1 - 61)) with (q - 1 + 61 - (L25 (i + 1) + 1)) by lia.
      specialize (F' m ltac:(change (2 ^ 24) with 16777216; lia)). fold mv in F'.
      assert (X : mv * 5 ^ (i + 1) / 2 ^ (q - 1) = 10 * (mv * c) / D) by (unfold c, D; now rewrite shift_last_neg by lia).
      assert (J' : 32 < q - 1 + 61 - (L25 (i + 1) + 1) < 96) by (unfold i, q; clear - Hn E4; unlog).
      rewrite mulShift32_eq.
      + rewrite F', X. cbn [bind]. eexists. split; [reflexivity|now left].
      + unfold mv. change (2 ^ 32) with 4294967296. lia.
      + lia.
      + exact J'.
      + rewrite F', X. pose proof (short_interval mm mp c D PD ltac:(unfold mm, mp; lia) ltac:(lia) L) as SI.
        replace (10 * (mv * c)) with (40 * m * c) by (unfold mv; ring).
        apply Z.lt_le_trans with (40 * m * 4 + 1); [apply (div_bound (40 * m) c D 4); lia|]. change (2 ^ 32) with 4294967296. lia. }
  destruct HL as (last & HL & Hlast).
  assert (Hs' : s = 0 \/ s = 1) by lia.
  set (fr := if q <? 31 then mv mod 2 ^ (q - 1) =? 0 else false).
  pose proof (neg_good q i m s acc fr last ltac:(lia) ltac:(lia) Hc1 ltac:(lia) Hs') as PG. cbv zeta in PG.
  fold mp mm in PG. fold mv in PG. fold c D in PG.
  assert (N : 1 < q -> fr = true -> (D | mv * c) \/ (mv * c / D) mod 5 = 2 /\ 2 * (mv * c) = (2 * (mv * c / D) + 1) * D).
  { intros Q1 Fr. unfold fr in Fr. destruct (q <? 31); [|discriminate Fr]. apply div_mod0 in Fr; [|apply pow2_pos; lia].
    apply half_flag; [lia|lia|exact Fr]. }
  specialize (PG N Hlast). destruct PG as (PG & P1 & P2 & _).
  exists (neg_out q s (- i) acc fr (mv * c / D) (mp * c / D) (mm * c / D) last), c, D.
  split; [|replace n with (q + i) at 1 by (unfold i; lia); split; [exact PG|split; [exact (Z.le_lt_trans _ _ _ P1 HB)|split; [exact P2|exact Hc2]]]].
  unfold f2d_neg. rewrite Z.opp_involutive, log10Pow5_eq by lia. cbn [bind]. fold q. fold i. rewrite pow5bits_eq by lia. cbn [bind].
  unfold FLOAT_POW5_BITCOUNT in *. cbv zeta. replace (q - (L25 i + 1 - 61)) with (q + 61 - (L25 i + 1)) by lia.
  rewrite !M by (unfold mv, mp, mm; change (2 ^ 26) with 67108864; lia). cbn [bind].
  rewrite HL. cbn [bind]. replace (q + - n) with (- i) by (unfold i; lia). unfold neg_out, fr.
  destruct (Z.leb_spec q 1) as [Q1|Q1].
  - destruct acc; [reflexivity|]. rewrite u32_id by lia. reflexivity.
  - destruct (Z.ltb_spec q 31); [|reflexivity]. rewrite multipleOfPowerOf2_32_eq by lia. reflexivity.
Qed.

(** the significand, and the exponent of the unit 4 * m2 is counted in *)
Definition fsig (M E : Z) : Z := if E =? 0 then M else 2 ^ 23 + M.
Definition fexp2 (E : Z) : Z := Z.max E 1 - 152.
Definition fshift (M E : Z) : Z := b2z (negb (M =? 0) || (E <=? 1)).

Lemma fsig_ok M E : 0 <= M < 2 ^ 23 -> 0 <= E -> M <> 0 \/ E <> 0 -> fm_ok (fsig M E) (fshift M E).
Proof.
  intros HM HE Hnz. unfold fm_ok, fsig, fshift. change (2 ^ 24) with 16777216. change (2 ^ 23) with 8388608 in *.
  destruct (Z.eqb_spec E 0) as [->|NE].
  - split; [lia|]. left. rewrite orb_true_r. reflexivity.
  - split; [lia|]. destruct (Z.eqb_spec M 0) as [->|]; [|now left]. cbn [negb orb]. destruct (E <=? 1); cbn [b2z]; [now left|right; lia].
Qed.

Lemma f2d_optimal M E : 0 <= M < 2 ^ 23 -> 0 <= E < 255 -> M <> 0 \/ E <> 0 ->
  exists o k, f2d M E = Ok (o, k) /\ optimal (fsig M E) (fshift M E) (fexp2 E) o k.
Proof.
  intros HM HE Hnz. pose proof (fsig_ok M E HM ltac:(lia) Hnz) as F. pose proof F as ((F1 & F2) & F3).
  unfold f2d. fold (fshift M E).
  replace (if E =? 0 then 1 - 127 - 23 - 2 else E - 127 - 23 - 2) with (fexp2 E)
    by (unfold fexp2; destruct (Z.eqb_spec E 0); lia).
  replace (if E =? 0 then M else Z.lor (2 ^ 23) M) with (fsig M E)
    by (unfold fsig; destruct (E =? 0); [reflexivity|now rewrite lor_top by lia]).
  rewrite accept_even. set (m := fsig M E) in *. set (s := fshift M E) in *. set (e2 := fexp2 E).
  assert (Hs : s = 0 \/ s = 1) by lia.
  change (2 ^ 24) with 16777216 in F2. cbv zeta.
  rewrite !u32_id by (change (2 ^ 32) with 4294967296; lia).
  assert (X : exists o c D, (if 0 <=? e2 then f2d_pos e2 (4 * m) (4 * m + 2) (4 * m - 1 - s) (Z.even m)
             else f2d_neg e2 (4 * m) (4 * m + 2) (4 * m - 1 - s) s (Z.even m)) = Ok o /\
    good3 (4 * m - 1 - s) (4 * m) (4 * m + 2) e2 (Z.even m) o c D /\ vp o < 2 ^ 32 /\ 0 < vm o /\ c < 10 * D).
  { destruct (Z.leb_spec 0 e2) as [P|P].
    - apply f2d_pos_good; [unfold e2, fexp2 in *; lia|exact F].
    - replace e2 with (- (- e2)) by lia. apply f2d_neg_good; [unfold e2, fexp2 in *; lia|exact F]. }
  destruct X as (st & c & D & E1 & G & B1 & B2 & _). rewrite E1. cbn [bind].
  destruct (f2d_step4_best (4 * m - 1 - s) (4 * m) (4 * m + 2) e2 (Z.even m) st c D) as (o & r & E2 & O & B & _);
    [lia|lia|lia|lia|exact G|exact B1|intros _; exact B2|].
  rewrite E2. cbn [bind fst snd]. exists o, (e10 st + r). split; [reflexivity|].
  destruct G as (G1 & G2 & G3 & _). exists c, D, r, (e10 st). repeat (split; [first [assumption|reflexivity|lia]|]). exact B.
Qed.
