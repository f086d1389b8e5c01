(** C66-C68: fast_float's comparison with the exact decimal, from_chars, and the special values. *)
From Coq Require Import ZArith List Bool Lia Reals Lra.
From Flocq Require Import Core IEEE754.Binary IEEE754.Bits.
From Verif Require Import Mem FpModel FpProofs LitModel LitProofs LimProps RyuText RyuRound RyuArith RyuMul RyuCvt RyuParse RyuScan FfTable FfModel FfWord FfRound FfPow FfApprox FfCompute FfBig FfScan FfMant FfDigit FfComp FfSlow FfProps.
Import ListNotations.
Open Scope Z_scope.
Local Notation len l := (Z.of_nat (length l)).

(** ** C66 *)
(** A literal with the digits N = int frac and exponent e, of which the scanner kept at most 19 digits w times 10^q, and a
    64-bit estimate of w * 10^q from below, off by less than four units: digit_comp finds the float or double
    nearest to N * 10^e, ties to even, however many digits there are and on every kind of machine. *)
Theorem C66_digit_comp : forall t b num am int fr e k, b = bdouble \/ b = bfloat ->
  integer num = ascii int -> fraction num = option_map ascii fr -> Forall dig int -> Forall dig (fdigits fr) ->
  let n := digit_val (int ++ fdigits fr) in let w := mantissa_ num in let q := exponent_ num in
  0 <= k -> q = e + k -> 0 < w < 10 ^ 19 -> w * 10 ^ k <= n < (w + 1) * 10 ^ k -> k = 0 \/ 10 ^ 18 <= w ->
  smallest_power_of_ten b <= q <= largest_power_of_ten b ->
  2 ^ 63 <= am_mantissa am < 2 ^ 64 -> -40000 < am_power2 am < 0 ->
  (IZR (am_mantissa am) * bpow radix2 (scale b am) <= dec w q < (IZR (am_mantissa am) + 4) * bpow radix2 (scale b am))%R ->
  exists am', digit_comp t b num am = Ok am' /\ forall neg, nearest (bfmt b) neg (dec n e) (to_float b neg am').
Proof.
  intros t b num am int fr e k Hb E1 E2 F1 F2 n w q K0 Eq Hw Hn Hk Hq Hm Hp V.
  assert (RD : reads num int fr e) by (split; try assumption; exists k; auto).
  assert (Es : estimate b w q am).
  { split; [exact Hm|]. split; [exact Hp|]. split; [exact Hq|]. cbn zeta. unfold scale in V. rewrite <- std_bias in V by exact Hb. unfold invalid_am_bias.
    replace (am_power2 am - -32768 - (explicit_bits b - minimum_exponent b)) with (am_power2 am + 2 ^ 15 - (explicit_bits b - minimum_exponent b)) by lia. exact V. }
  destruct (digit_comp_ok b Hb t num am int fr e RD Es) as (am' & E & _ & PK). exists am'. split; [exact E|]. intro neg. rewrite PK. apply nearest_bits; [exact Hb|]. apply dv_bound, Forall_app. now split.
Qed.
Print Assumptions C66_digit_comp.

(** halfway between 2^53 and the next double, with a further digit far behind; and exactly there *)
Definition half_text (tail : list Z) : list Z := [57; 48; 48; 55; 49; 57; 57; 50; 53; 52; 55; 52; 48; 57; 57; 51; 46] ++ tail.
Example C66_case : let t := Target false true false in let am := AM 9223372036854776832 (-31703) in
  let int := [9; 0; 0; 7; 1; 9; 9; 2; 5; 4; 7; 4; 0; 9; 9; 3] in let fr := repeat 0 30 ++ [1] in let num := Parsed (-3) 9007199254740993000 [] false true (ascii int) (Some (ascii fr)) in
  parse_number_string t (half_text (repeat 48 30 ++ [49])) (Options chars_general 46) = Ok (Some num) /\
  -3 = -31 + 28 /\ 9007199254740993000 * 10 ^ 28 <= digit_val (int ++ fr) < (9007199254740993000 + 1) * 10 ^ 28 /\
  compute_error t bdouble (-3) 9007199254740993000 = Ok am /\
  digit_comp t bdouble num am = Ok (AM 1 1076) /\
  digit_comp t bdouble (Parsed (-3) 9007199254740993000 [] false true (ascii int) (Some (ascii (repeat 0 31)))) am = Ok (AM 0 1076).
Proof. vm_compute. repeat split; congruence. Qed.

(** Clinger's fast path *)
Theorem C66_fast_path : forall b num, b = bdouble \/ b = bfloat ->
  0 <= mantissa_ num <= 2 ^ (mw (bfmt b) + 1) -> min_exponent_fast_path b <= exponent_ num <= max_exponent_fast_path b ->
  exists x, fast_path b num = Ok x /\ nearest (bfmt b) (negative num) (dec (mantissa_ num) (exponent_ num)) x.
Proof.
  intros b num Hb Hm Hq. eexists. split; [apply (fast_path_ok b Hb); [|exact Hq]|apply nearest_bits; [exact Hb|lia]].
  unfold max_mantissa_fast_path. destruct Hb as [-> | ->]; cbn in *; lia.
Qed.
Print Assumptions C66_fast_path.
Example C66_fast_case : fast_path bdouble (Parsed (-2) 314 [] true false [51] (Some [49; 52])) = Ok (2 ^ 63 + 0x40091EB851EB851F).
Proof. vm_compute. reflexivity. Qed.

(** ** C67 *)
Lemma lit_far_up b n k : std b -> 0 < n -> largest_power_of_ten b < k -> literal (bfmt b) n k = inf_pattern (bfmt b).
Proof.
  intros Hb Hn Hk. pose proof (std_consts b Hb) as C. apply lit_inf; [exact Hn|]. pose proof (c_over b C) as U. assert (L0 : 0 <= largest_power_of_ten b) by (destruct Hb as [-> | ->]; cbn; lia).
  apply Rle_trans with (dec 1 (largest_power_of_ten b + 1)); [unfold dec; rewrite Rmult_1_l, powerRZ_10, bpow2 by (try apply Z.pow_nonneg; lia); apply IZR_le; exact U|].
  apply Rle_trans with (dec 1 k); [apply dec_grow; lia|apply dec_le; lia].
Qed.
Lemma lit_far_down b n k : std b -> 0 < n -> n <= 10 ^ (smallest_power_of_ten b - 1 - k) -> k <= smallest_power_of_ten b - 1 -> literal (bfmt b) n k = 0.
Proof.
  intros Hb Hn Hl Hk. assert (L1 : literal (bfmt b) 1 (smallest_power_of_ten b - 1) = 0) by (apply underflow; [exact Hb|lia|lia]).
  assert (L2 : literal (bfmt b) 1 k = 0) by (apply underflow; [exact Hb|lia|lia]). rewrite <- L2. apply lit_between with (w2 := 1) (q2 := smallest_power_of_ten b - 1); [exact Hn|lia|lia| |congruence]. split; [apply dec_le; lia|].
  replace (smallest_power_of_ten b - 1) with (k + (smallest_power_of_ten b - 1 - k)) at 1 by lia. rewrite dec_shift by lia. apply dec_le. lia.
Qed.
Lemma cap_harmless b int fr e x : std b -> Forall dig int -> Forall dig (fdigits fr) -> capped e x -> len int + len (fdigits fr) < 0x10000000 - 1000 ->
  literal (bfmt b) (digit_val (int ++ fdigits fr)) (x - len (fdigits fr)) = literal (bfmt b) (digit_val (int ++ fdigits fr)) (e - len (fdigits fr)).
Proof.
  intros Hb F1 F2 (C1 & C2 & C3) HL. assert (FD : Forall dig (int ++ fdigits fr)) by (apply Forall_app; now split). pose proof (dv_bound _ FD) as [N0 N1]. rewrite app_length, Nat2Z.inj_add in N1. set (N := digit_val (int ++ fdigits fr)) in *.
  destruct (Z.eq_dec N 0) as [->|NZ]; [now rewrite !RyuCvt.lit_zero|]. destruct (c_range b (std_consts b Hb)) as [R1 R2]. unfold CAP in *.
  destruct (Z.lt_ge_cases (Z.abs e) 0x10000000) as [L|L]; [now rewrite C1|]. destruct (Z.le_gt_cases 0x10000000 e) as [L2|L2].
  - specialize (C2 L2). rewrite !lit_far_up by (try exact Hb; lia). reflexivity.
  - specialize (C3 ltac:(lia)). assert (Dn : forall y, y <= -0x10000000 -> literal (bfmt b) N (y - len (fdigits fr)) = 0). { intros y Hy. apply lit_far_down; [exact Hb|lia| |lia]. apply Z.lt_le_incl. eapply Z.lt_le_trans; [exact N1|]. apply Z.pow_le_mono_r; lia. }
    rewrite !Dn by lia. reflexivity.
Qed.

(** the value of a numeral without its sign *)
Definition magnitude (n : numeral) : R := dec (digit_val (nint n ++ frac_digits n)) (exp_val n - len (frac_digits n)).

(** For every text and option: from_chars_advanced reads the longest numeral the format allows at the start of the text -
    there is only one -, points behind it, and its value is the float or double nearest to the numeral's exact
    value: ties to even, gradual underflow, overflow to infinity, a zero with the numeral's sign.  If there is no numeral the text is
    looked at for a special value.  The text must be shorter than 2^28 - 1000 characters. *)
Theorem C67_from_chars : forall t b text o, b = bdouble \/ b = bfloat -> text <> [] -> Forall byte text -> point_ok (decimal_point o) ->
  len text < 2 ^ 28 - 1000 ->
  (exists n rest bits, longest o text n rest /\ (forall n' rest', longest o text n' rest' -> n' = n /\ rest' = rest) /\
     from_chars_advanced t b text o = Ok (Outcome rest (Some bits)) /\ nearest (bfmt b) (nneg n) (magnitude n) bits) \/
  ((forall n rest, text = numeral_text (decimal_point o) n ++ rest -> ~ allowed o n) /\ from_chars_advanced t b text o = parse_infnan b text).
Proof.
  intros t b text o Hb Nt Ft Po HL. assert (Un : from_chars_advanced t b text o = (pns <- parse_number_string t text o ;;
      match pns with
      | None => parse_infnan b text
      | Some num =>
          value <- (if (min_exponent_fast_path b <=? exponent_ num) && (exponent_ num <=? max_exponent_fast_path b)
                       && (mantissa_ num <=? max_mantissa_fast_path b) && negb (too_many_digits num)
                    then fast_path b num else slow_path t b num) ;;
          Ok (Outcome (lastmatch num) (Some value))
      end)) by (destruct text; [contradiction|reflexivity]).
  destruct (parse_number_string_ok t text o Nt Ft Po) as [(n & rest & num & x & LG & UQ & PN & SC & CP)|[PN NO]]; rewrite Un, PN; cbn [bind]; [left|right; split; [exact NO|reflexivity]].
  assert (Ff : fdigits (nfrac n) = frac_digits n) by reflexivity. destruct LG as (ET & AL & MX). destruct AL as ((W1 & W2 & W3) & NE & NX). pose proof SC as (S1 & S2 & S3 & S4 & S5 & S6 & S7).
  assert (LT : len (nint n) + len (fdigits (nfrac n)) < 0x10000000 - 1000). { apply (f_equal (@length Z)) in ET. rewrite app_length, text_length, app_length, ascii_len in ET. assert (length (fdigits (nfrac n)) <= length (point_text (decimal_point o) (nfrac n)))%nat by (destruct (nfrac n) as [l|]; [cbn; rewrite ascii_len; lia|cbn; lia]). lia. }
  exists n, rest, (bits_of b (nneg n) (literal (bfmt b) (digit_val (nint n ++ frac_digits n)) (exp_val n - len (frac_digits n)))).
  split; [exact (conj ET (conj (conj (conj W1 (conj W2 W3)) (conj NE NX)) MX))|]. split; [exact UQ|]. split; [|apply nearest_bits; [exact Hb|apply dv_bound, Forall_app; now split]].
  rewrite <- Ff in *. rewrite <- (cap_harmless b (nint n) (nfrac n) (exp_val n) x Hb W1 W2 CP LT). rewrite S4.
  destruct ((min_exponent_fast_path b <=? exponent_ num) && (exponent_ num <=? max_exponent_fast_path b) && (mantissa_ num <=? max_mantissa_fast_path b) && negb (too_many_digits num)) eqn:FP.
  - rewrite !andb_true_iff, negb_true_iff, !Z.leb_le in FP. destruct FP as (((P1 & P2) & P3) & P4). destruct (S6 P4) as (Em & Hm & Eq). rewrite (fast_path_ok b Hb num); [cbn [bind]; rewrite S3, Em, Eq; reflexivity| |lia]. split; [rewrite Em; apply dv_bound, Forall_app; now split|exact P3].
  - rewrite (slow_path_ok b Hb t num _ _ _ _ _ SC W1 W2). reflexivity.
Qed.
Print Assumptions C67_from_chars.

(** the result is the same on every kind of machine: 32 or 64 bits, big or little endian, with or without compiler intrinsics *)
Theorem C67_portable : forall t t' b text o, b = bdouble \/ b = bfloat -> Forall byte text -> point_ok (decimal_point o) -> len text < 2 ^ 28 - 1000 ->
  from_chars_advanced t b text o = from_chars_advanced t' b text o.
Proof.
  intros t t' b text o Hb Ft Po HL. destruct text as [|c text']; [reflexivity|]. set (text := c :: text') in *. assert (Nt : text <> []) by discriminate.
  destruct (C67_from_chars t b text o Hb Nt Ft Po HL) as [(n & rest & bits & LG & UQ & E & NR)|[NO E]]; destruct (C67_from_chars t' b text o Hb Nt Ft Po HL) as [(n' & rest' & bits' & LG' & UQ' & E' & NR')|[NO' E']].
  - destruct (UQ' _ _ LG) as [-> ->]. rewrite E, E'. now rewrite (nearest_unique _ _ _ _ _ NR NR').
  - exfalso. destruct LG as (ET & AL & _). exact (NO' _ _ ET AL).
  - exfalso. destruct LG' as (ET & AL & _). exact (NO _ _ ET AL).
  - now rewrite E, E'.
Qed.
Print Assumptions C67_portable.

(** Without the bound on the length the value can be wrong: the exponent's digits are not read beyond 0x10000000.
    0.000...01e2684354561 with 2684354560 zeros behind the point is 1, and 0 is returned. *)
Definition long_numeral (k : nat) : numeral := Num false [0] (Some (repeat 0 k ++ [1])) (Some (101, None, [2; 6; 8; 4; 3; 5; 4; 5; 6; 1])).
Lemma dv_zeros k : digit_val (repeat 0 k) = 0.
Proof. induction k as [|k IH]; [reflexivity|]. cbn [repeat]. rewrite dv_cons, IH. lia. Qed.
Lemma sig_zeros k l : sig (repeat 0 k ++ l) = sig l.
Proof. induction k as [|k IH]; [reflexivity|exact IH]. Qed.
Lemma dig_zeros k : Forall dig (repeat 0 k ++ [1]).
Proof. apply Forall_app. split; [|repeat constructor; discriminate]. apply Forall_forall. intros x Hx. apply repeat_spec in Hx. subst x. split; discriminate. Qed.
Lemma long_value t b k : std b -> Z.of_nat k = 2684354560 -> let text := numeral_text 46 (long_numeral k) in
  longest (Options chars_general 46) text (long_numeral k) [] /\ magnitude (long_numeral k) = 1%R /\ from_chars_advanced t b text (Options chars_general 46) = Ok (Outcome [] (Some 0)).
Proof.
  intros Hb Hk text. set (o := Options chars_general 46). pose proof (dig_zeros k) as DZ.
  assert (Dv : digit_val ([0] ++ repeat 0 k ++ [1]) = 1). { rewrite (dv_app [0]), (dv_app (repeat 0 k)), dv_zeros. change (digit_val [0]) with 0. change (digit_val [1]) with 1. lia. }
  assert (Ln : len (repeat 0 k ++ [1]) = 2684354561) by (rewrite app_length, repeat_length; cbn [length]; lia).
  assert (AL : allowed o (long_numeral k)). { split; [split; [repeat constructor; discriminate|]; split; [exact DZ|]; split; [repeat constructor; discriminate|now left]|]. split; [discriminate|]. split; [reflexivity|discriminate]. }
  assert (TN : text <> []) by discriminate. assert (Po : point_ok (decimal_point o)) by (unfold point_ok; cbn; lia).
  split; [|split].
  - split; [now rewrite app_nil_r|]. split; [exact AL|]. intros n' rest' _ E. unfold text in E. change (decimal_point o) with 46 in *. rewrite E, app_length. apply Nat.le_add_r.
  - unfold magnitude, long_numeral, frac_digits, exp_val. cbn [nint nfrac nexp]. rewrite Dv, Ln. change (digit_val [2; 6; 8; 4; 3; 5; 4; 5; 6; 1]) with 2684354561. unfold dec. rewrite Z.sub_diag. cbn. lra.
  - assert (PT : parts (decimal_point o) text false [0] (Some (repeat 0 k ++ [1])) [101; 50; 54; 56; 52; 51; 53; 52; 53; 54; 49]).
    { split; [reflexivity|]. split; [repeat constructor; discriminate|]. split; [exact DZ|]. split; [reflexivity|]. split; [discriminate|reflexivity]. }
    assert (Ft : Forall byte text).
    { unfold text, numeral_text, long_numeral. cbn [nneg nint nfrac nexp minus app point_text]. repeat (apply Forall_cons; [split; reflexivity || discriminate|]). apply Forall_app. split; [|repeat constructor; discriminate]. unfold ascii. apply Forall_map. eapply Forall_impl; [|exact DZ]. intros x Hx. unfold dig, byte in *. lia. }
    destruct (parse_parts t text o _ _ _ _ TN Ft Po PT) as [_ PS]. specialize (PS ltac:(discriminate)). change (parse_exponent o [101; 50; 54; 56; 52; 51; 53; 52; 53; 54; 49]) with (Some (@nil Z, 268435456)) in PS. destruct PS as (num & PN & SC).
    pose proof SC as (_ & _ & S3 & S4 & S5 & S6 & _). cbn [fdigits] in *. assert (TM : too_many_digits num = false). { rewrite S5. change ([0] ++ repeat 0 k ++ [1]) with (repeat 0 (S k) ++ [1]). rewrite sig_zeros. reflexivity. }
    destruct (S6 TM) as (_ & _ & Eq). rewrite Ln in Eq. unfold from_chars_advanced. destruct text as [|c tx] eqn:ETX; [contradiction|]. rewrite <- ETX in *. rewrite PN. cbn [bind].
    destruct (c_fp b (std_consts3 b Hb)) as (P1 & _). replace (min_exponent_fast_path b <=? exponent_ num) with false by lia. cbn [andb].
    rewrite (slow_path_ok b Hb t num _ _ _ _ _ SC) by (cbn [fdigits]; try exact DZ; repeat constructor; discriminate). cbn [bind fdigits]. rewrite S4, Dv, Ln. rewrite underflow; [reflexivity|exact Hb|lia|]. destruct (c_range b (std_consts b Hb)). lia.
Qed.
Theorem C67_long_text_refuted : forall t, exists text n, longest (Options chars_general 46) text n [] /\ nneg n = false /\ magnitude n = 1%R /\
  from_chars t bdouble text chars_general = Ok (Outcome [] (Some 0)) /\ ~ nearest float64 false (magnitude n) 0.
Proof.
  intro t. assert (K : exists k, Z.of_nat k = 2684354560) by (exists (Z.to_nat 2684354560); apply Z2Nat.id; discriminate). destruct K as [k Hk].
  destruct (long_value t bdouble k (or_introl eq_refl) Hk) as (L1 & L2 & L3). exists (numeral_text 46 (long_numeral k)), (long_numeral k). split; [exact L1|]. split; [reflexivity|]. split; [exact L2|]. split; [exact L3|].
  rewrite L2. intro N. assert (N1 : nearest float64 false 1 (literal float64 1 0)). { pose proof (literal_nearest float64 false 1 0 ltac:(lia)) as X. cbn [b2z] in X. rewrite Z.mul_0_l, Z.add_0_l in X. unfold dec in X. cbn [powerRZ] in X. rewrite Rmult_1_r in X. exact X. }
  pose proof (nearest_unique _ _ _ _ _ N N1) as E. vm_compute in E. discriminate.
Qed.
Print Assumptions C67_long_text_refuted.

(** 1.5e-400, -9007199254740993.00000000000000000000000000000001, 2.5e-324 (to the least subnormal) with a comma for a point, and no numeral *)
Example C67_case : let t := Target true false true in
  from_chars t bdouble [49; 46; 53; 101; 45; 52; 48; 48; 120] chars_general = Ok (Outcome [120] (Some 0)) /\
  from_chars t bdouble (45 :: half_text (repeat 48 31 ++ [49])) chars_general = Ok (Outcome [] (Some (2 ^ 63 + 1076 * 2 ^ 52 + 1))) /\
  from_chars_advanced t bdouble [50; 44; 53; 69; 45; 51; 50; 52] (Options chars_scientific 44) = Ok (Outcome [] (Some 1)) /\
  from_chars t bfloat [49; 54; 55; 55; 55; 50; 49; 55] chars_fixed = Ok (Outcome [] (Some 1266679808)) /\
  from_chars t bfloat [46; 101; 49] chars_general = Ok (Outcome [46; 101; 49] None).
Proof. vm_compute. repeat split. Qed.

(** ** C68 *)
(** the letters of a word, in either case *)
Definition spelled (w word : list Z) : Prop := Forall2 (fun c l => c = l \/ c = l - 32) w word.
Definition w_nan := [110; 97; 110].
Definition w_inf := [105; 110; 102].
Definition w_inity := [105; 110; 105; 116; 121].
(** letters, digits and underscores *)
Definition word_char (c : Z) : Prop := 97 <= c <= 122 \/ 65 <= c <= 90 \/ 48 <= c <= 57 \/ c = 95.
(** bits of a NaN and of an infinity *)
Definition is_nan_bits (b : bformat) (neg : bool) (x : Z) : Prop := is_nan _ _ (val (bfmt b) x) = true /\ Bsign _ _ (val (bfmt b) x) = neg.
Definition is_inf_bits (b : bformat) (neg : bool) (x : Z) : Prop := val (bfmt b) x = B754_infinity _ _ neg.

Lemma diff_letter c l : byte c -> 97 <= l <= 122 -> (Z.lxor c l = 0 \/ Z.lxor c l = 32) <-> (c = l \/ c = l - 32).
Proof.
  intros Hc Hl. assert (L32 : Z.lxor l 32 = l - 32).
  { assert (R : forallb (fun k => Z.lxor (Z.of_nat k + 97) 32 =? Z.of_nat k + 97 - 32) (seq 0 26) = true) by (vm_compute; reflexivity). rewrite forallb_forall in R. specialize (R (Z.to_nat (l - 97)) ltac:(apply in_seq; lia)). rewrite Z2Nat.id in R by lia. replace (l - 97 + 97) with l in R by lia. now apply Z.eqb_eq. }
  split; intros [H|H].
  - left. apply Z.lxor_eq. exact H.
  - right. rewrite <- L32, <- H, (Z.lxor_comm c l), <- Z.lxor_assoc, Z.lxor_nilpotent. now rewrite Z.lxor_0_l.
  - left. subst c. apply Z.lxor_nilpotent.
  - right. subst c. rewrite <- L32, (Z.lxor_comm l 32), Z.lxor_assoc, Z.lxor_nilpotent. reflexivity.
Qed.
Lemma lor_small x y : Z.lor x y = 0 \/ Z.lor x y = 32 <-> (x = 0 \/ x = 32) /\ (y = 0 \/ y = 32).
Proof.
  split.
  - intros [H|H]; [apply Z.lor_eq_0_iff in H; lia|]. assert (B : forall i, 0 <= i -> i <> 5 -> Z.testbit x i = false /\ Z.testbit y i = false). { intros i Hi Ni. apply (f_equal (fun z => Z.testbit z i)) in H. rewrite Z.lor_spec in H. change 32 with (2 ^ 5) in H. rewrite Z.pow2_bits_false in H by lia. now apply orb_false_elim in H. }
    assert (G : forall z, (forall i, 0 <= i -> i <> 5 -> Z.testbit z i = false) -> z = 0 \/ z = 32). { intros z Hz. destruct (Z.testbit z 5) eqn:T5; [right|left]; apply Z.bits_inj'; intros i Hi; (destruct (Z.eq_dec i 5) as [->|Ni]; [rewrite T5|rewrite (Hz i Hi Ni)]); [reflexivity| |reflexivity|now rewrite Z.bits_0]. change 32 with (2 ^ 5). now rewrite Z.pow2_bits_false by lia. }
    split; apply G; intros i Hi Ni; now apply B.
  - intros [[-> | ->] [-> | ->]]; cbn; auto.
Qed.
Lemma strncasecmp_ok word : Forall (fun l => 97 <= l <= 122) word -> forall w, Forall byte w -> length w = length word -> strncasecmp w word = true <-> spelled w word.
Proof.
  intros Hword w Hw HL. unfold strncasecmp, spelled. rewrite orb_true_iff, !Z.eqb_eq. revert w Hw HL. induction Hword as [|l word Hl _ IH]; intros [|c w] Hw HL; try discriminate HL.
  - cbn. split; [constructor|auto].
  - inversion_clear Hw as [|? ? Hc Hw']. cbn [running_diff]. rewrite lor_small, diff_letter, IH by (try assumption; now injection HL). split; [intros [A B]; now constructor|intro F; inversion_clear F; auto].
Qed.
Lemma spelled_length w word : spelled w word -> length w = length word.
Proof. induction 1 as [|? ? ? ? _ _ IH]; [reflexivity|]. cbn [length]. now rewrite IH. Qed.
(** the test of the first letters of a text *)
Lemma word_test word p : Forall (fun l => 97 <= l <= 122) word -> Forall byte p ->
  ((len word <=? len p) && strncasecmp (firstn (length word) p) word = true <-> exists w r, p = w ++ r /\ spelled w word).
Proof.
  intros Hw Hp. rewrite andb_true_iff, Z.leb_le. split.
  - intros [L H]. apply strncasecmp_ok in H; [|exact Hw| |apply firstn_length_le; lia]. { exists (firstn (length word) p), (skipn (length word) p). split; [now rewrite firstn_skipn|exact H]. } apply Forall_forall. intros x Hx. rewrite Forall_forall in Hp. apply Hp. rewrite <- (firstn_skipn (length word) p). apply in_or_app. now left.
  - intros (w & r & -> & S). pose proof (spelled_length _ _ S) as L. rewrite <- L, app_length. split; [lia|]. rewrite firstn_app, Nat.sub_diag, firstn_O, app_nil_r, firstn_all. apply Forall_app in Hp. apply strncasecmp_ok; try assumption. apply Hp.
Qed.
Lemma nan_seq_ok s rest : Forall word_char s -> nan_seq (s ++ 41 :: rest) = Some rest.
Proof.
  induction 1 as [|c s Hc _ IH]; [reflexivity|]. cbn [app nan_seq]. unfold word_char in Hc. replace (c =? 41) with false by lia. assert (N : nan_char c = true) by (unfold nan_char; lia). now rewrite N.
Qed.
Lemma nan_seq_inv p : forall rest, nan_seq p = Some rest -> exists s, p = s ++ 41 :: rest /\ Forall word_char s.
Proof.
  induction p as [|c p IH]; intros rest H; [discriminate H|]. cbn [nan_seq] in H. destruct (Z.eqb_spec c 41) as [->|N].
  - injection H as <-. exists []. split; [reflexivity|constructor].
  - destruct (nan_char c) eqn:E; [|discriminate H]. destruct (IH rest H) as (s & -> & F). exists (c :: s). split; [reflexivity|]. constructor; [|exact F]. unfold nan_char in E. unfold word_char. lia.
Qed.
Lemma nan_bits b neg : std b -> is_nan_bits b neg (neg_if b neg (quiet_nan b)).
Proof. intros [-> | ->]; destruct neg; split; vm_compute; reflexivity. Qed.
Lemma inf_bits b neg : std b -> is_inf_bits b neg (neg_if b neg (infinity_ b)).
Proof.
  intros Hb. unfold is_inf_bits. pose proof (signed_inf (bfmt b) neg) as S. replace (neg_if b neg (infinity_ b)) with (b2z neg * 2 ^ (ew (bfmt b) + mw (bfmt b)) + inf_pattern (bfmt b)); [exact S|]. destruct Hb as [-> | ->], neg; vm_compute; reflexivity.
Qed.
(** where a word with a sign stands in the text *)
Lemma at_word text neg w r word : text = minus neg ++ w ++ r -> spelled w word -> word <> [] -> Forall (fun l => 97 <= l <= 122) word ->
  exists c tx, text = c :: tx /\ (c =? 45) = neg /\ (if neg then tx else text) = w ++ r.
Proof.
  intros E S Nw Fw. destruct S as [|c l w word Hc S]; [contradiction|]. inversion_clear Fw as [|? ? Hl _]. destruct neg; cbn [minus app] in E; (eexists; eexists; split; [exact E|]); (split; [lia|]); [reflexivity|exact E].
Qed.
Lemma not_both w w' r r' : w ++ r = w' ++ r' -> spelled w w_nan -> spelled w' w_inf -> False.
Proof. intros E S S'. inversion S as [|c l w1 word1 Hc _]; subst. inversion S' as [|c' l' w1' word1' Hc' _]; subst. injection E as -> _. lia. Qed.

(** No numeral: "nan", possibly followed by letters, digits and underscores in parentheses, and "inf" or "infinity",
    in upper or lower case and with or without a minus, are recognised and nothing else is.  The pointer is behind the longest such
    text; otherwise it is the start, and there is no value. *)
Theorem C68_special_values : forall b text, b = bdouble \/ b = bfloat -> text <> [] -> Forall byte text ->
  (forall neg w s rest, text = minus neg ++ w ++ 40 :: s ++ 41 :: rest -> spelled w w_nan -> Forall word_char s ->
     exists x, parse_infnan b text = Ok (Outcome rest (Some x)) /\ is_nan_bits b neg x) /\
  (forall neg w r, text = minus neg ++ w ++ r -> spelled w w_nan -> (forall s rest, Forall word_char s -> r <> 40 :: s ++ 41 :: rest) ->
     exists x, parse_infnan b text = Ok (Outcome r (Some x)) /\ is_nan_bits b neg x) /\
  (forall neg w r, text = minus neg ++ w ++ r -> spelled w (w_inf ++ w_inity) ->
     exists x, parse_infnan b text = Ok (Outcome r (Some x)) /\ is_inf_bits b neg x) /\
  (forall neg w r, text = minus neg ++ w ++ r -> spelled w w_inf -> (forall w' r', spelled w' w_inity -> r <> w' ++ r') ->
     exists x, parse_infnan b text = Ok (Outcome r (Some x)) /\ is_inf_bits b neg x) /\
  ((forall neg w r, text = minus neg ++ w ++ r -> ~ spelled w w_nan /\ ~ spelled w w_inf) -> parse_infnan b text = Ok (Outcome text None)).
Proof.
  intros b text Hb Nt Ft.
  assert (Ln : Forall (fun l => 97 <= l <= 122) w_nan) by (repeat constructor; discriminate). assert (Li : Forall (fun l => 97 <= l <= 122) w_inf) by (repeat constructor; discriminate). assert (Ly : Forall (fun l => 97 <= l <= 122) w_inity) by (repeat constructor; discriminate).
  assert (Nan : forall neg w r, text = minus neg ++ w ++ r -> spelled w w_nan -> exists x, parse_infnan b text = Ok (Outcome (if at_ r (Z.eqb 40) then match nan_seq (tl r) with Some r => r | None => r end else r) (Some x)) /\ is_nan_bits b neg x).
  { intros neg w r E S. destruct (at_word text neg w r w_nan E S ltac:(discriminate) Ln) as (c & tx & Et & Ec & Ep). exists (neg_if b neg (quiet_nan b)). split; [|now apply nan_bits]. unfold parse_infnan. replace (deref text) with (Ok c) by (rewrite Et; reflexivity). cbn [bind]. rewrite Ec. replace (tl text) with tx by (rewrite Et; reflexivity). rewrite Ep.
    assert (Fp : Forall byte (w ++ r)) by (rewrite E in Ft; apply Forall_app in Ft; apply Ft). pose proof (proj2 (word_test w_nan (w ++ r) Ln Fp) (ex_intro _ w (ex_intro _ r (conj eq_refl S)))) as T. change (len w_nan) with 3 in T. change (length w_nan) with 3%nat in T. unfold w_nan in T. rewrite T.
    assert (Sk : skipn 3 (w ++ r) = r) by (pose proof (spelled_length _ _ S) as L; change 3%nat with (length w_nan); rewrite <- L, skipn_app, Nat.sub_diag, skipn_O, skipn_all; reflexivity). rewrite Sk. reflexivity. }
  assert (Inf : forall neg w r, text = minus neg ++ w ++ r -> spelled w w_inf -> exists x, parse_infnan b text = Ok (Outcome (if (8 <=? len (w ++ r)) && strncasecmp (firstn 5 r) w_inity then skipn 5 r else r) (Some x)) /\ is_inf_bits b neg x).
  { intros neg w r E S. destruct (at_word text neg w r w_inf E S ltac:(discriminate) Li) as (c & tx & Et & Ec & Ep). exists (neg_if b neg (infinity_ b)). split; [|now apply inf_bits]. unfold parse_infnan. replace (deref text) with (Ok c) by (rewrite Et; reflexivity). cbn [bind]. rewrite Ec. replace (tl text) with tx by (rewrite Et; reflexivity). rewrite Ep.
    assert (Fp : Forall byte (w ++ r)) by (rewrite E in Ft; apply Forall_app in Ft; apply Ft). pose proof (proj2 (word_test w_inf (w ++ r) Li Fp) (ex_intro _ w (ex_intro _ r (conj eq_refl S)))) as T. change (len w_inf) with 3 in T. change (length w_inf) with 3%nat in T. unfold w_inf in T. rewrite T.
    destruct ((3 <=? len (w ++ r)) && strncasecmp (firstn 3 (w ++ r)) [110; 97; 110]) eqn:T2. { exfalso. apply (word_test w_nan (w ++ r) Ln Fp) in T2. destruct T2 as (w' & r' & E' & S'). symmetry in E'. exact (not_both _ _ _ _ E' S' S). }
    assert (Sk : skipn 3 (w ++ r) = r) by (pose proof (spelled_length _ _ S) as L; change 3%nat with (length w_inf); rewrite <- L, skipn_app, Nat.sub_diag, skipn_O, skipn_all; reflexivity).
    assert (Sk8 : skipn 8 (w ++ r) = skipn 5 r) by (pose proof (spelled_length _ _ S) as L; cbn [w_inf length] in L; rewrite skipn_app, skipn_all2, L by (rewrite L; lia); reflexivity). rewrite Sk, Sk8. reflexivity. }
  split; [|split; [|split; [|split]]].
  - intros neg w s rest E S F. destruct (Nan neg w (40 :: s ++ 41 :: rest) E S) as (x & H & X). exists x. split; [|exact X]. rewrite H. cbn [at_ tl]. rewrite Z.eqb_refl, nan_seq_ok by exact F. reflexivity.
  - intros neg w r E S N. destruct (Nan neg w r E S) as (x & H & X). exists x. split; [|exact X]. rewrite H. do 2 f_equal. destruct r as [|c r]; [reflexivity|]. cbn [at_ tl]. destruct (Z.eqb_spec 40 c) as [<-|]; [|reflexivity]. destruct (nan_seq r) as [rest|] eqn:Q; [|reflexivity]. destruct (nan_seq_inv _ _ Q) as (s & -> & F). elim (N s rest F). reflexivity.
  - intros neg w r E S. apply Forall2_app_inv_r in S. destruct S as (w1 & w2 & S1 & S2 & ->). rewrite <- app_assoc in E. destruct (Inf neg w1 (w2 ++ r) E S1) as (x & H & X). exists x. split; [|exact X]. rewrite H. do 2 f_equal.
    assert (Fp : Forall byte (w2 ++ r)) by (rewrite E in Ft; apply Forall_app in Ft; destruct Ft as [_ Ft]; apply Forall_app in Ft; apply Ft). pose proof (proj2 (word_test w_inity (w2 ++ r) Ly Fp) (ex_intro _ w2 (ex_intro _ r (conj eq_refl S2)))) as T. apply andb_true_iff in T. destruct T as [_ T]. change (length w_inity) with 5%nat in T. rewrite T.
    pose proof (spelled_length _ _ S1) as L1. pose proof (spelled_length _ _ S2) as L2. cbn [w_inf w_inity length] in L1, L2. rewrite !app_length, L1, L2. replace (8 <=? Z.of_nat (3 + (5 + length r))) with true by lia. cbn [andb]. rewrite <- L2, skipn_app, Nat.sub_diag, skipn_O, skipn_all. reflexivity.
  - intros neg w r E S N. destruct (Inf neg w r E S) as (x & H & X). exists x. split; [|exact X]. rewrite H. do 2 f_equal. destruct ((8 <=? len (w ++ r)) && strncasecmp (firstn 5 r) w_inity) eqn:T; [|reflexivity]. exfalso. apply andb_true_iff in T. destruct T as [T1 T2]. apply Z.leb_le in T1. pose proof (spelled_length _ _ S) as L. cbn [w_inf length] in L. rewrite app_length, L in T1.
    assert (Fp : Forall byte r) by (rewrite E in Ft; apply Forall_app in Ft; destruct Ft as [_ Ft]; apply Forall_app in Ft; apply Ft). destruct (proj1 (word_test w_inity r Ly Fp)) as (w' & r' & E' & S'); [apply andb_true_iff; split; [apply Z.leb_le; cbn [w_inity length]; lia|exact T2]|]. exact (N w' r' S' E').
  - intro N. destruct text as [|c tx]; [contradiction|]. unfold parse_infnan. cbn [deref bind]. set (p := if c =? 45 then tl (c :: tx) else c :: tx). assert (Ep : exists neg, c :: tx = minus neg ++ p). { unfold p. destruct (Z.eqb_spec c 45) as [->|]; [now exists true|now exists false]. } destruct Ep as [neg Ep].
    assert (Fp : Forall byte p) by (rewrite Ep in Ft; apply Forall_app in Ft; apply Ft).
    destruct ((3 <=? len p) && strncasecmp (firstn 3 p) [110; 97; 110]) eqn:T1. { exfalso. apply (word_test w_nan p Ln Fp) in T1. destruct T1 as (w & r & E & S). rewrite E in Ep. destruct (N neg w r Ep) as [X _]. exact (X S). }
    destruct ((3 <=? len p) && strncasecmp (firstn 3 p) [105; 110; 102]) eqn:T2. { exfalso. apply (word_test w_inf p Li Fp) in T2. destruct T2 as (w & r & E & S). rewrite E in Ep. destruct (N neg w r Ep) as [_ X]. exact (X S). }
    reflexivity.
Qed.
Print Assumptions C68_special_values.

(** -NaN(x_1)!, INFINITe, Infinity and a lone minus *)
Example C68_case :
  parse_infnan bdouble [45; 78; 97; 78; 40; 120; 95; 49; 41; 33] = Ok (Outcome [33] (Some 0xFFF8000000000000)) /\
  parse_infnan bdouble [78; 97; 78; 40; 32; 41] = Ok (Outcome [40; 32; 41] (Some 0x7FF8000000000000)) /\
  parse_infnan bfloat [73; 78; 70; 73; 78; 73; 84; 101] = Ok (Outcome [73; 78; 73; 84; 101] (Some 0x7F800000)) /\
  parse_infnan bfloat [45; 73; 110; 102; 105; 110; 105; 116; 121; 49] = Ok (Outcome [49] (Some 0xFF800000)) /\
  parse_infnan bdouble [45] = Ok (Outcome [45] None).
Proof. vm_compute. repeat split. Qed.
