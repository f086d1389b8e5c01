(** digit_comparison.h: the decimal exponent and the big integer of a number's significant digits. *)
From Coq Require Import ZArith List Bool Lia.
From Verif Require Import Mem RyuText RyuArith RyuScan FfModel FfWord FfBig FfScan.
Import ListNotations.
Open Scope Z_scope.
Local Notation len l := (Z.of_nat (length l)).

(** ** scientific_exponent *)
Lemma sci_loop_ok n : 1 <= n -> forall fuel m e, 1 <= m < (10 ^ n) ^ (Z.of_nat fuel + 1) ->
  exists j, 0 <= j /\ sci_loop (10 ^ n) n fuel m e = (m / 10 ^ (n * j), e + n * j) /\ 1 <= m / 10 ^ (n * j) < 10 ^ n.
Proof.
  intros Hn. assert (P : 10 <= 10 ^ n) by (change 10 with (10 ^ 1) at 1; apply Z.pow_le_mono_r; lia). induction fuel as [|fuel IH]; intros m e Hm.
  - exists 0. rewrite Z.mul_0_r. change (10 ^ 0) with 1. rewrite Z.div_1_r. change (Z.of_nat 0 + 1) with 1 in Hm. rewrite Z.pow_1_r in Hm. cbn [sci_loop]. split; [lia|]. split; [f_equal; lia|lia].
  - cbn [sci_loop]. destruct (Z.ltb_spec m (10 ^ n)) as [L|L].
    + exists 0. rewrite Z.mul_0_r. change (10 ^ 0) with 1. rewrite Z.div_1_r. split; [lia|]. split; [f_equal; lia|lia].
    + destruct (IH (m / 10 ^ n) (e + n)) as (j & J0 & E & B).
      { split; [apply Z.div_le_lower_bound; lia|]. apply Z.div_lt_upper_bound; [lia|]. replace (Z.of_nat (S fuel) + 1) with (1 + (Z.of_nat fuel + 1)) in Hm by lia. rewrite Z.pow_add_r, Z.pow_1_r in Hm by lia. lia. }
      assert (D : m / 10 ^ n / 10 ^ (n * j) = m / 10 ^ (n * (j + 1))). { rewrite Z.div_div by (try apply Z.pow_nonzero; try apply Z.pow_pos_nonneg; nia). rewrite <- Z.pow_add_r by nia. f_equal. f_equal. ring. }
      rewrite D in *. exists (j + 1). split; [lia|]. split; [rewrite E; f_equal; ring|exact B].
Qed.
Lemma scientific_ok num : 0 < mantissa_ num < 2 ^ 64 -> - 2 ^ 20 < exponent_ num < 2 ^ 20 ->
  exists j, 0 <= j <= 19 /\ 10 ^ j <= mantissa_ num < 10 ^ (j + 1) /\ scientific_exponent num = Ok (exponent_ num + j).
Proof.
  intros Hm He. unfold scientific_exponent. replace ((exponent_ num + 2 ^ 31) mod 2 ^ 32 - 2 ^ 31) with (exponent_ num) by (rewrite Z.mod_small; lia). set (w := mantissa_ num) in *. set (q := exponent_ num) in *. clearbody w q.
  assert (Big : forall n, 1 <= n -> 2 ^ 64 <= (10 ^ n) ^ (Z.of_nat 64 + 1)). { intros n Hn. transitivity ((10 ^ 1) ^ (Z.of_nat 64 + 1)); [vm_compute; discriminate|]. apply Z.pow_le_mono_l. split; [lia|]. apply Z.pow_le_mono_r; lia. }
  change 10000 with (10 ^ 4). change (sci_loop 100) with (sci_loop (10 ^ 2)). change (sci_loop 10) with (sci_loop (10 ^ 1)).
  destruct (sci_loop_ok 4 ltac:(lia) 64 w q) as (j1 & J1 & -> & B1); [pose proof (Big 4 ltac:(lia)); lia|].
  destruct (sci_loop_ok 2 ltac:(lia) 64 (w / 10 ^ (4 * j1)) (q + 4 * j1)) as (j2 & J2 & -> & B2); [pose proof (Big 2 ltac:(lia)); change (10 ^ 4) with 10000 in B1; lia|].
  destruct (sci_loop_ok 1 ltac:(lia) 64 (w / 10 ^ (4 * j1) / 10 ^ (2 * j2)) (q + 4 * j1 + 2 * j2)) as (j3 & J3 & -> & B3); [pose proof (Big 1 ltac:(lia)); change (10 ^ 2) with 100 in B2; lia|].
  assert (D : w / 10 ^ (4 * j1) / 10 ^ (2 * j2) / 10 ^ (1 * j3) = w / 10 ^ (4 * j1 + 2 * j2 + j3)).
  { rewrite !Z.div_div by (try apply Z.pow_nonzero; try apply Z.pow_pos_nonneg; try (apply Z.mul_pos_pos; apply Z.pow_pos_nonneg); try lia; intro X; apply Z.mul_eq_0 in X; destruct X as [X|X]; revert X; apply Z.pow_nonzero; lia). rewrite <- !Z.pow_add_r by lia. f_equal. f_equal. lia. }
  rewrite D, Z.pow_1_r in B3. clear B1 B2 D Big. set (j := 4 * j1 + 2 * j2 + j3) in *. assert (J : 0 <= j) by lia. assert (P : 0 < 10 ^ j) by (apply Z.pow_pos_nonneg; lia).
  assert (W : 10 ^ j <= w < 10 ^ (j + 1)). { pose proof (Z.div_mod w (10 ^ j) ltac:(lia)) as DM. pose proof (Z.mod_pos_bound w (10 ^ j) P). rewrite Z.pow_add_r by lia. change (10 ^ 1) with 10. nia. }
  assert (J19 : j <= 19). { destruct (Z.le_gt_cases j 19) as [|G]; [assumption|]. exfalso. assert (10 ^ 20 <= 10 ^ j) by (apply Z.pow_le_mono_r; lia). lia. }
  exists j. split; [lia|]. split; [exact W|]. unfold i32. replace (q + 4 * j1 + 2 * j2 + 1 * j3) with (q + j) by (unfold j; lia). replace ((- 2 ^ 31 <=? q + j) && (q + j <? 2 ^ 31)) with true by lia. reflexivity.
Qed.

(** ** Zeros *)
Lemma ascii_byte ds : Forall dig ds -> Forall byte (ascii ds).
Proof. induction 1 as [|d ds Hd _ IH]; constructor; [unfold dig, byte in *; lia|exact IH]. Qed.
Lemma skip_one_ok ds : Forall dig ds -> skip_one (ascii ds) = ascii (sig ds).
Proof.
  induction 1 as [|d ds Hd _ IH]; [reflexivity|]. cbn [ascii map skip_one]. fold (ascii ds). unfold dig in Hd. destruct (Z.eqb_spec (48 + d) 48) as [E|E].
  - assert (d = 0) as -> by lia. exact IH.
  - destruct d; [lia|reflexivity|reflexivity].
Qed.
Lemma zero_octet t p1 p2 p3 p4 p5 p6 p7 p8 r : Forall byte (p1 :: p2 :: p3 :: p4 :: p5 :: p6 :: p7 :: p8 :: r) ->
  (load_u64 t (p1 :: p2 :: p3 :: p4 :: p5 :: p6 :: p7 :: p8 :: r) =? 0x3030303030303030) = forallb (Z.eqb 48) [p1; p2; p3; p4; p5; p6; p7; p8].
Proof. intro F. rewrite load_zeros by (try assumption; cbn; lia). reflexivity. Qed.
Lemma zeros8 l ds : ascii ds = l -> forallb (Z.eqb 48) l = true -> ds = repeat 0 (length ds).
Proof.
  revert l. induction ds as [|d ds IH]; intros [|x l] E H; try discriminate E; [reflexivity|]. cbn [forallb] in H. apply andb_prop in H. destruct H as [H1 H2]. assert (E0 := f_equal (hd 0) E). apply (f_equal (@tl Z)) in E. cbn [ascii map hd tl] in E0, E. apply Z.eqb_eq in H1. cbn [length repeat]. f_equal; [lia|now apply (IH l)].
Qed.
Lemma skip_eight_ok t : forall n ds, (length ds <= n)%nat -> Forall dig ds -> exists c, skip_eight t (ascii ds) = ascii c /\ sig c = sig ds /\ Forall dig c.
Proof.
  induction n as [|n IH]; intros ds L F.
  - destruct ds; [|cbn in L; lia]. exists []. auto.
  - do 8 (destruct ds as [|? ds]; [match goal with |- context[ascii ?l] => exists l end; split; [reflexivity|]; split; [reflexivity|exact F]|]).
    match type of F with Forall dig ?l => pose proof (ascii_byte l F) as Fb end. cbn [ascii map] in *. fold (ascii ds) in *. cbn [skip_eight]. rewrite zero_octet by exact Fb. match goal with |- context[forallb (Z.eqb 48) ?l] => destruct (forallb (Z.eqb 48) l) eqn:E end.
    + cbn [forallb] in E. repeat match type of E with _ && _ = true => let a := fresh "A" in apply andb_prop in E; destruct E as [a E]; apply Z.eqb_eq in a end.
      cbn [length] in L. destruct (IH ds ltac:(lia)) as (c & E1 & E2 & E3); [now repeat match goal with H : Forall dig (_ :: _) |- _ => inversion_clear H end|]. exists c. split; [exact E1|]. split; [|exact E3]. rewrite E2.
      repeat match goal with A : 48 = 48 + ?z |- _ => assert (z = 0) by lia; clear A; subst z end. reflexivity.
    + match type of F with Forall dig ?l => exists l end. split; [reflexivity|]. split; [reflexivity|exact F].
Qed.
Lemma skip_zeros_ok t ds : Forall dig ds -> skip_zeros t (ascii ds) = ascii (sig ds).
Proof. intro F. unfold skip_zeros. destruct (skip_eight_ok t (length ds) ds (Nat.le_refl _) F) as (c & -> & <- & Fc). now apply skip_one_ok. Qed.
Lemma truncated_one_ok ds : Forall dig ds -> truncated_one (ascii ds) = (0 <? digit_val ds).
Proof.
  induction 1 as [|d ds Hd F IH]; [reflexivity|]. cbn [ascii map truncated_one]. fold (ascii ds). rewrite dv_cons. pose proof (dv_bound ds F) as B. unfold dig in Hd. assert (0 < 10 ^ len ds) by (apply Z.pow_pos_nonneg; lia). destruct (Z.eqb_spec (48 + d) 48) as [E|E]; cbn [negb].
  - rewrite IH. f_equal. assert (d = 0) as -> by lia. lia.
  - symmetry. apply Z.ltb_lt. assert (0 < d * 10 ^ len ds) by (apply Z.mul_pos_pos; lia). lia.
Qed.
Lemma is_truncated_ok t : forall n ds, (length ds <= n)%nat -> Forall dig ds -> is_truncated t (ascii ds) = (0 <? digit_val ds).
Proof.
  induction n as [|n IH]; intros ds L F.
  - destruct ds; [reflexivity|cbn in L; lia].
  - do 8 (destruct ds as [|? ds]; [apply (truncated_one_ok _ F)|]).
    match type of F with Forall dig ?l => pose proof (ascii_byte l F) as Fb end. cbn [ascii map] in *. fold (ascii ds) in *. cbn [is_truncated]. rewrite zero_octet by exact Fb. match goal with |- context[forallb (Z.eqb 48) ?l] => destruct (forallb (Z.eqb 48) l) eqn:E end; cbn [negb].
    + cbn [forallb] in E. repeat match type of E with _ && _ = true => let a := fresh "A" in apply andb_prop in E; destruct E as [a E]; apply Z.eqb_eq in a end.
      cbn [length] in L. rewrite (IH ds ltac:(lia)) by (now repeat match goal with H : Forall dig (_ :: _) |- _ => inversion_clear H end).
      repeat match goal with A : 48 = 48 + ?z |- _ => assert (z = 0) by lia; clear A; subst z end. reflexivity.
    + symmetry. apply Z.ltb_lt. match type of F with Forall dig (?a :: ?b :: ?c :: ?d :: ?e :: ?f :: ?g :: ?h :: ds) => pose (o := [a; b; c; d; e; f; g; h]); change (a :: b :: c :: d :: e :: f :: g :: h :: ds) with (o ++ ds) in *; change [48 + a; 48 + b; 48 + c; 48 + d; 48 + e; 48 + f; 48 + g; 48 + h] with (ascii o) in E end.
      clearbody o. apply Forall_app in F. destruct F as [Fo Fd]. rewrite dv_app. pose proof (dv_bound ds Fd) as Bd. assert (0 < 10 ^ len ds) by (apply Z.pow_pos_nonneg; lia).
      assert (0 < digit_val o); [|assert (0 < digit_val o * 10 ^ len ds) by (apply Z.mul_pos_pos; lia); lia].
      apply Z.ltb_lt. rewrite <- truncated_one_ok by exact Fo. clear -E. induction o as [|x o IH]; [discriminate E|]. cbn [ascii map forallb truncated_one] in *. fold (ascii o) in *. rewrite Z.eqb_sym in E. destruct (48 + x =? 48); [apply IH; exact E|reflexivity].
Qed.

(** ** parse_mantissa *)
Section T.
Variable t : target.
Notation lb := (limb_bits t).
Notation B := (2 ^ lb).
Notation cap := (capacity t).
Notation step := (digit_step t).
Variable maxd : Z.
Hypothesis maxd_range : 100 <= maxd <= 1000.

Lemma step_B : 0 < step <= 19 /\ 10 ^ step <= B.
Proof. unfold digit_step, limb_bits. destruct (is_64bit t); vm_compute; repeat split; congruence. Qed.
Lemma ten_pow_le a c : a <= c -> 10 ^ a <= 10 ^ c.
Proof. intro H. destruct (Z.lt_ge_cases c 0) as [N|N]; [rewrite !Z.pow_neg_r by lia; lia|]. apply Z.pow_le_mono_r; lia. Qed.
Lemma room_ok : exists T, 0 < T /\ (forall k, k <= 1000 -> 10 ^ k <= T) /\ 100 * T < B ^ cap.
Proof.
  exists (10 ^ 1000). split; [apply Z.pow_pos_nonneg; lia|]. split; [intros k Hk; now apply ten_pow_le|].
  apply Z.le_lt_trans with (2 ^ 3340).
  - change 100 with (10 ^ 2). rewrite <- Z.pow_add_r by lia. change (2 + 1000) with (6 * 167). change 3340 with (20 * 167).
    rewrite !Z.pow_mul_r by lia. apply Z.pow_le_mono_l. split; [apply Z.pow_nonneg; lia|vm_compute; discriminate].
  - rewrite <- Z.pow_mul_r by (unfold capacity, limb_bits; destruct (is_64bit t); vm_compute; discriminate).
    apply Z.pow_lt_mono_r; [lia| |]; unfold capacity, limb_bits; destruct (is_64bit t); vm_compute; (reflexivity || discriminate).
Qed.
Lemma add_native_ok v n p x : big t v n -> 1 <= p < B -> 0 <= x < B -> 0 <= n -> n * p + x < B ^ cap -> big t (add_native t v p x) (n * p + x).
Proof.
  intros Hv Hp Hx Hn H. unfold add_native. destruct (small_mul_ok t v n p Hv Hp ltac:(lia)) as (r & -> & Hr). cbn [snd]. destruct (small_add_ok t r (n * p) x Hr Hx H) as (r' & -> & Hr'). exact Hr'.
Qed.
Lemma pm_eights_ok : forall n ds v c d, (length ds <= n)%nat -> Forall dig ds -> 0 <= v < 10 ^ c -> 0 <= c <= step -> 0 <= d <= maxd ->
  exists a r, ds = a ++ r /\ pm_eights t maxd (ascii ds) (PM v c d) = (ascii r, PM (v * 10 ^ len a + digit_val a) (c + len a) (d + len a)) /\ c + len a <= step /\ d + len a <= maxd.
Proof.
  assert (Stop : forall ds v c d, 0 <= c <= step -> 0 <= d <= maxd -> exists a r, ds = a ++ r /\ (ascii ds, PM v c d) = (ascii r, PM (v * 10 ^ len a + digit_val a) (c + len a) (d + len a)) /\ c + len a <= step /\ d + len a <= maxd).
  { intros. exists [], ds. split; [reflexivity|]. change (10 ^ len (@nil Z)) with 1. change (digit_val []) with 0. cbn [length]. split; [f_equal; f_equal; lia|lia]. }
  pose proof step_B as [S1 S2]. induction n as [|n IH]; intros ds v c d L F Hv Hc Hd.
  - destruct ds; [|cbn in L; lia]. apply Stop; assumption.
  - do 8 (destruct ds as [|? ds]; [match type of F with Forall dig ?l => exact (Stop l v c d Hc Hd) end|]).
    match type of F with Forall dig ?l => pose proof (ascii_byte l F) as Fb; pose proof (Stop l v c d Hc Hd) as St end. cbn [ascii map] in *. fold (ascii ds) in *. cbn [pm_eights pm_counter pm_digits pm_value].
    destruct ((8 <=? u64 (step - c)) && (8 <=? u64 (maxd - d))) eqn:G; [|exact St]. clear St. apply andb_prop in G. destruct G as [G1 G2]. unfold u64 in G1, G2. rewrite Z.mod_small in G1, G2 by lia.
    rewrite read_u64_ok by (try assumption; cbn [length]; lia). cbn [firstn].
    match type of F with Forall dig (?a :: ?b :: ?c :: ?d :: ?e :: ?f :: ?g :: ?h :: ds) => set (o := [a; b; c; d; e; f; g; h]) in *; change (a :: b :: c :: d :: e :: f :: g :: h :: ds) with (o ++ ds) in * end.
    apply Forall_app in F. destruct F as [Fo Fd].
    assert (V8 : parse_eight_digits_unrolled (le_value (ascii o)) = digit_val o).
    { unfold o in *. repeat match goal with H : Forall dig (_ :: _) |- _ => inversion_clear H end. unfold dig in *. unfold ascii. rewrite swar by assumption. unfold digit_val. cbn [fold_left]. lia. }
    change (le_value (ascii o)) with (le_value (map (Z.add 48) o)) in V8. unfold o in V8 at 1. cbn [map] in V8. rewrite V8. clear V8.
    pose proof (dv_bound o Fo) as Bo. change (10 ^ len o) with 100000000 in Bo. assert (Lo : length o = 8%nat) by reflexivity. clearbody o.
    assert (V1 : 0 <= v * 100000000 + digit_val o < 10 ^ (c + 8)). { rewrite Z.pow_add_r by lia. change (10 ^ 8) with 100000000. lia. }
    assert (V2 : 10 ^ (c + 8) <= 10 ^ step) by (apply ten_pow_le; lia).
    replace (ulimb t (ulimb t (v * 100000000) + digit_val o)) with (v * 100000000 + digit_val o) by (unfold ulimb; rewrite (Z.mod_small (v * 100000000)) by lia; rewrite Z.mod_small by lia; reflexivity).
    destruct (IH ds (v * 100000000 + digit_val o) (c + 8) (d + 8) ltac:(rewrite app_length in L; lia) Fd V1 ltac:(lia) ltac:(lia)) as (a & r & -> & E & H1 & H2). exists (o ++ a), r. split; [apply app_assoc|]. rewrite E, app_length, Lo, dv_app. replace (Z.of_nat (8 + length a)) with (8 + len a) by lia. rewrite Z.pow_add_r by lia. change (10 ^ 8) with 100000000.
    split; [|lia]. f_equal. f_equal; ring.
Qed.
Lemma pm_ones_ok ds : forall v c d, Forall dig ds -> 0 <= v < 10 ^ c -> 0 <= c <= step -> 0 <= d <= maxd ->
  exists a r, ds = a ++ r /\ pm_ones t maxd (ascii ds) (PM v c d) = (ascii r, PM (v * 10 ^ len a + digit_val a) (c + len a) (d + len a)) /\ c + len a <= step /\ d + len a <= maxd /\ (r = [] \/ c + len a = step \/ d + len a = maxd).
Proof.
  pose proof step_B as [S1 S2]. induction ds as [|x ds IH]; intros v c d F Hv Hc Hd.
  - exists [], []. split; [reflexivity|]. change (10 ^ len (@nil Z)) with 1. change (digit_val []) with 0. cbn [length]. split; [cbn [ascii map pm_ones]; f_equal; f_equal; lia|]. split; [lia|]. split; [lia|now left].
  - inversion_clear F as [|? ? Hx F']. cbn [ascii map pm_ones pm_counter pm_digits pm_value]. fold (ascii ds). destruct ((c <? step) && (d <? maxd)) eqn:G.
    + apply andb_prop in G. destruct G as [G1 G2]. replace (48 + x - 48) with x by lia. unfold dig in Hx.
      assert (V1 : 0 <= v * 10 + x < 10 ^ (c + 1)) by (rewrite Z.pow_add_r by lia; change (10 ^ 1) with 10; lia). assert (V2 : 10 ^ (c + 1) <= 10 ^ step) by (apply ten_pow_le; lia).
      unfold ulimb. rewrite Z.mod_small by lia. destruct (IH (v * 10 + x) (c + 1) (d + 1) F' V1 ltac:(lia) ltac:(lia)) as (a & r & -> & E & H1 & H2 & H3). exists (x :: a), r. split; [reflexivity|]. rewrite E, dv_cons. cbn [length]. replace (Z.of_nat (S (length a))) with (len a + 1) by lia. rewrite Z.pow_add_r by lia. change (10 ^ 1) with 10.
      split; [f_equal; f_equal; ring|]. split; [lia|]. split; [lia|]. destruct H3 as [H3|[H3|H3]]; [now left|right; left; lia|right; right; lia].
    + exists [], (x :: ds). split; [reflexivity|]. change (10 ^ len (@nil Z)) with 1. change (digit_val []) with 0. cbn [length]. split; [cbn [ascii map]; f_equal; f_equal; lia|]. split; [lia|]. split; [lia|]. right. apply andb_false_iff in G. destruct G as [G|G]; [left|right]; lia.
Qed.
Lemma limb_ten_ok c : 0 <= c <= step -> limb_ten t c = Ok (ulimb t (10 ^ c)).
Proof.
  intro H. pose proof step_B as [S1 _]. unfold limb_ten. replace (c <? 0) with false by lia. assert (G : forall k, (k < 20)%nat -> nth_error powers_of_ten_uint64 k = Some (10 ^ Z.of_nat k)) by (intros k Hk; do 20 (destruct k as [|k]; [reflexivity|]); lia).
  rewrite G by lia. now rewrite Z2Nat.id by lia.
Qed.

Lemma pm_loop_ok more : forall fuel ds v n d, (length ds <= fuel)%nat -> Forall dig ds -> big t v n -> 0 <= n < 10 ^ d -> 0 <= d < maxd ->
  (d + len ds < maxd /\ exists r, pm_loop t maxd more fuel v (ascii ds) d = Ok (r, d + len ds, false) /\ big t r (n * 10 ^ len ds + digit_val ds)) \/
  (exists a c r, ds = a ++ c /\ d + len a = maxd /\
     if (0 <? digit_val c) || more then pm_loop t maxd more fuel v (ascii ds) d = Ok (r, maxd + 1, true) /\ big t r ((n * 10 ^ len a + digit_val a) * 10 + 1)
     else pm_loop t maxd more fuel v (ascii ds) d = Ok (r, maxd, true) /\ big t r (n * 10 ^ len a + digit_val a)).
Proof.
  pose proof step_B as [S1 S2]. destruct room_ok as (T & T0 & TK & RM). pose proof (B_pos t) as BP. induction fuel as [|fuel IH]; intros ds v n d L F Hv Hn Hd.
  - destruct ds; [|cbn in L; lia]. left. cbn [length]. split; [lia|]. exists v. change (10 ^ Z.of_nat 0) with 1. change (digit_val []) with 0. split; [cbn [ascii map pm_loop]; f_equal; f_equal; f_equal; lia|]. replace (n * 1 + 0) with n by lia. exact Hv.
  - destruct ds as [|x ds].
    { left. cbn [length]. split; [lia|]. exists v. change (10 ^ Z.of_nat 0) with 1. change (digit_val []) with 0. split; [cbn [ascii map pm_loop]; f_equal; f_equal; f_equal; lia|]. replace (n * 1 + 0) with n by lia. exact Hv. }
    assert (U : pm_loop t maxd more (S fuel) v (ascii (x :: ds)) d =
      let '(p, s) := pm_eights t maxd (ascii (x :: ds)) (PM 0 0 d) in
      let '(p, s) := pm_ones t maxd p s in
      pw <- limb_ten t (pm_counter s) ;;
      let result := add_native t v pw (pm_value s) in
      if pm_digits s =? maxd then
        if is_truncated t p || more then Ok (add_native t result 10 1, pm_digits s + 1, true)
        else Ok (result, pm_digits s, true)
      else pm_loop t maxd more fuel result p (pm_digits s)) by reflexivity.
    destruct (pm_eights_ok (length (x :: ds)) (x :: ds) 0 0 d (Nat.le_refl _) F ltac:(cbn; lia) ltac:(lia) ltac:(lia)) as (a1 & r1 & E1 & P1 & C1 & D1). rewrite P1 in U. rewrite Z.mul_0_l, !Z.add_0_l in U. rewrite Z.add_0_l in C1.
    assert (F1 : Forall dig a1 /\ Forall dig r1) by (rewrite E1 in F; now apply Forall_app in F). destruct F1 as [Fa1 Fr1].
    destruct (pm_ones_ok r1 (digit_val a1) (len a1) (d + len a1) Fr1 (dv_bound a1 Fa1) ltac:(lia) ltac:(lia)) as (a2 & r2 & E2 & P2 & C2 & D2 & H2). rewrite P2 in U. cbn beta iota in U. cbn [pm_counter pm_value pm_digits] in U.
    assert (F2 : Forall dig a2 /\ Forall dig r2) by (rewrite E2 in Fr1; now apply Forall_app in Fr1). destruct F2 as [Fa2 Fr2].
    replace (digit_val a1 * 10 ^ len a2 + digit_val a2) with (digit_val (a1 ++ a2)) in U by apply dv_app. replace (len a1 + len a2) with (len (a1 ++ a2)) in * by (rewrite app_length; lia). replace (d + len a1 + len a2) with (d + len (a1 ++ a2)) in * by (rewrite app_length; lia).
    rewrite E2, app_assoc in E1. assert (Fa : Forall dig (a1 ++ a2)) by (apply Forall_app; now split). set (a := a1 ++ a2) in *. clearbody a. clear a1 a2 r1 E2 P1 P2 Fr1 Fa1 Fa2 C1 D1.
    rewrite limb_ten_ok in U by lia. cbn [bind] in U. cbn zeta in U. pose proof (dv_bound a Fa) as Ba. assert (Ta : 10 ^ len a <= 10 ^ step) by (apply ten_pow_le; lia).
    assert (TB : 10 ^ step < B) by (unfold digit_step, limb_bits; destruct (is_64bit t); vm_compute; reflexivity).
    unfold ulimb in U. rewrite Z.mod_small in U by lia.
    assert (NB : 0 <= n * 10 ^ len a + digit_val a < 10 ^ (d + len a)) by (rewrite Z.pow_add_r by lia; nia). assert (NC : 10 ^ (d + len a) <= T) by (apply TK; lia).
    assert (Hr : big t (add_native t v (10 ^ len a) (digit_val a)) (n * 10 ^ len a + digit_val a)) by (apply add_native_ok; try assumption; try lia). 
    assert (Na : a <> []). { intros ->. cbn [app length] in *. destruct H2 as [H2|[H2|H2]]; [subst r2; discriminate E1|lia|lia]. }
    rewrite is_truncated_ok with (n := length r2) in U by (try assumption; lia).
    destruct (Z.eqb_spec (d + len a) maxd) as [E|E].
    + right. exists a, r2. destruct ((0 <? digit_val r2) || more).
      * eexists. split; [exact E1|]. split; [exact E|]. split; [rewrite U, E; reflexivity|]. apply add_native_ok; try assumption; lia.
      * eexists. split; [exact E1|]. split; [exact E|]. split; [rewrite U, E; reflexivity|]. exact Hr.
    + assert (La : (1 <= length a)%nat) by (destruct a; [contradiction|cbn; lia]). rewrite E1, app_length in L.
      rewrite U. clear U. rewrite E1. destruct (IH r2 _ _ (d + len a) ltac:(lia) Fr2 Hr NB ltac:(lia)) as [(H & r & P & Q)|(a' & c & r & -> & H & K)].
      * left. rewrite app_length. split; [lia|]. exists r. split; [rewrite P; f_equal; f_equal; f_equal; lia|]. rewrite dv_app. replace (Z.of_nat (length a + length r2)) with (len a + len r2) by lia. rewrite Z.pow_add_r by lia.
        replace (n * (10 ^ len a * 10 ^ len r2) + (digit_val a * 10 ^ len r2 + digit_val r2)) with ((n * 10 ^ len a + digit_val a) * 10 ^ len r2 + digit_val r2) by ring. exact Q.
      * right. exists (a ++ a'), c, r. split; [apply app_assoc|]. rewrite app_length. split; [lia|]. rewrite dv_app. replace (Z.of_nat (length a + length a')) with (len a + len a') by lia. rewrite Z.pow_add_r by lia.
        replace (n * (10 ^ len a * 10 ^ len a') + (digit_val a * 10 ^ len a' + digit_val a')) with ((n * 10 ^ len a + digit_val a) * 10 ^ len a' + digit_val a') by ring. exact K.
Qed.

(** what parse_mantissa keeps of the significant digits: all, or the first [maxd] of them and a 1 behind if anything non-zero follows *)
Definition kept (s : list Z) (n d : Z) : Prop :=
  exists a c, s = a ++ c /\ len a <= maxd /\ (c <> [] -> len a = maxd) /\
    ((digit_val c = 0 /\ n = digit_val a /\ d = len a) \/ (0 < digit_val c /\ n = digit_val a * 10 + 1 /\ d = maxd + 1)).
Lemma parse_mantissa_ok num int fr : integer num = ascii int -> fraction num = option_map ascii fr -> Forall dig int -> Forall dig (fdigits fr) ->
  exists v n d, parse_mantissa t num maxd = Ok (v, d) /\ big t v n /\ kept (sig (int ++ fdigits fr)) n d.
Proof.
  intros E1 E2 F1 F2. unfold parse_mantissa. rewrite E1, E2, skip_zeros_ok by exact F1. rewrite ascii_len.
  assert (More : match option_map ascii fr with Some f => is_truncated t f | None => false end = (0 <? digit_val (fdigits fr))).
  { destruct fr as [f|]; [|reflexivity]. cbn [option_map fdigits] in *. apply is_truncated_ok with (n := length f); [lia|exact F2]. }
  rewrite More. pose proof (sig_dig int F1) as Fs. pose proof (sig_app int (fdigits fr)) as SA. assert (Nil : big t [] 0) by (split; [constructor|split; [apply norm_nil|reflexivity]]).
  destruct (pm_loop_ok (0 <? digit_val (fdigits fr)) (length (sig int)) (sig int) [] 0 0 (Nat.le_refl _) Fs Nil ltac:(cbn; lia) ltac:(lia)) as [(H & r & P & Q)|(a & c & r & Es & H & K)].
  - rewrite P. cbn [bind]. rewrite Z.mul_0_l, !Z.add_0_l in *.
    destruct fr as [f|]; cbn [option_map fdigits] in *.
    + assert (R : exists g, sig (int ++ f) = sig int ++ g /\ Forall dig g /\ (if len (sig int) =? 0 then skip_zeros t (ascii f) else ascii f) = ascii g).
      { destruct (sig int) as [|y s] eqn:Ei.
        - exists (sig f). split; [exact SA|]. split; [now apply sig_dig|]. cbn [length]. change (Z.of_nat 0 =? 0) with true. cbn iota. now apply skip_zeros_ok.
        - exists f. split; [exact SA|]. split; [exact F2|]. cbn [length]. replace (Z.of_nat (S (length s)) =? 0) with false by lia. reflexivity. }
      destruct R as (g & Eg & Fg & ->). rewrite ascii_len. pose proof (dv_bound _ Fs) as Bs. destruct (pm_loop_ok false (length g) g r (digit_val (sig int)) (len (sig int)) (Nat.le_refl _) Fg Q Bs ltac:(lia)) as [(H' & r' & P' & Q')|(a & c & r' & Ea & H' & K')].
      * rewrite P'. cbn [bind]. exists r', (digit_val (sig int ++ g)), (len (sig int ++ g)). split; [rewrite app_length; f_equal; f_equal; lia|]. split; [rewrite dv_app; exact Q'|]. exists (sig int ++ g), []. rewrite Eg, app_nil_r. split; [reflexivity|]. split; [rewrite app_length; lia|]. split; [intro N; contradiction|]. left. repeat split.
      * rewrite orb_false_r in K'. rewrite <- dv_app in K'. subst g. apply Forall_app in Fg. destruct Fg as [Fga Fgc]. pose proof (dv_bound c Fgc) as Bc. assert (La : len (sig int ++ a) = maxd) by (rewrite app_length; lia).
        destruct (Z.ltb_spec 0 (digit_val c)) as [C|C]; destruct K' as [P' Q']; rewrite P'; cbn [bind].
        -- eexists _, _, _. split; [reflexivity|]. split; [exact Q'|]. exists (sig int ++ a), c. rewrite Eg, app_assoc. split; [reflexivity|]. split; [lia|]. split; [auto|]. right. auto.
        -- eexists _, _, _. split; [reflexivity|]. split; [exact Q'|]. exists (sig int ++ a), c. rewrite Eg, app_assoc. split; [reflexivity|]. split; [lia|]. split; [auto|]. left. split; [lia|]. split; [reflexivity|now symmetry].
    + exists r, (digit_val (sig int)), (len (sig int)). split; [reflexivity|]. split; [exact Q|]. exists (sig int), []. rewrite !app_nil_r. split; [reflexivity|]. split; [lia|]. split; [intro N; contradiction|]. left. repeat split.
  - rewrite Z.mul_0_l, !Z.add_0_l in *. assert (Na : sig int <> []) by (rewrite Es; destruct a; [cbn in H; lia|discriminate]). assert (SB : sig (int ++ fdigits fr) = a ++ (c ++ fdigits fr)) by (rewrite SA; destruct (sig int); [contradiction|]; rewrite Es; now rewrite app_assoc).
    rewrite Es in Fs. apply Forall_app in Fs. destruct Fs as [Fa Fc]. pose proof (dv_bound c Fc) as Bc. pose proof (dv_bound _ F2) as Bf. assert (P10 : 0 < 10 ^ len (fdigits fr)) by (apply Z.pow_pos_nonneg; lia).
    destruct ((0 <? digit_val c) || (0 <? digit_val (fdigits fr))) eqn:C; destruct K as [P Q]; rewrite P; cbn [bind]; eexists _, _, _; (split; [reflexivity|]); (split; [exact Q|]); exists a, (c ++ fdigits fr); (split; [exact SB|]); (split; [lia|]); (split; [auto|]); rewrite dv_app.
    + right. split; [|auto]. apply orb_prop in C. destruct C as [C|C]; apply Z.ltb_lt in C; nia.
    + left. apply orb_false_iff in C. destruct C as [C1 C2]. apply Z.ltb_ge in C1, C2. split; [|split; [reflexivity|now symmetry]]. assert (digit_val c = 0) as -> by lia. lia.
Qed.
End T.
