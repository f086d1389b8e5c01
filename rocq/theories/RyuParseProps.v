(** C30-C33: the decimal parsers s2d_n, s2f_n and stod. *)
From Coq Require Import ZArith List Bool Lia Reals Lra.
From Flocq Require Import Core IEEE754.Binary IEEE754.Bits.
From Verif Require Import Mem FpModel FpProofs LitModel LitProofs LimModel LimProps RyuModel RyuArith RyuRound RyuDec RyuFmtModel RyuText RyuParseModel RyuConv RyuMul RyuCvt RyuScan RyuParse.
Import ListNotations.
Open Scope Z_scope.
Local Notation len l := (Z.of_nat (length l)).

Lemma s2d_parse b n : s2d_n b n = parse 64 17 (convert 64 52 11 (-324) 310 floor_log2_64 s2d_mul) b n.
Proof. reflexivity. Qed.
Lemma s2f_parse b n : s2f_n b n = parse 32 9 (convert 32 23 8 (-46) 40 floor_log2_32 s2f_mul) b n.
Proof. reflexivity. Qed.
Lemma pow64 : 10 ^ 17 <= 2 ^ 64. Proof. apply Z.leb_le. reflexivity. Qed.
Lemma pow32 : 10 ^ 9 <= 2 ^ 32. Proof. apply Z.leb_le. reflexivity. Qed.
Lemma s2d_fits n r : wf n -> spell n <> [] -> fits 17 n -> short (spell n) ->
  s2d_n (spell n ++ r) (len (spell n)) = Ok (SUCCESS, Some (b2z (nneg n) * 2 ^ 63 + literal float64 (nsig n) (nten n))).
Proof. intros. rewrite s2d_parse. apply (parse_fits 64 17 _ float64); [exact pow64|lia|intros; now apply s2d_convert_ok|assumption..]. Qed.
Lemma s2f_fits n r : wf n -> spell n <> [] -> fits 9 n -> short (spell n) ->
  s2f_n (spell n ++ r) (len (spell n)) = Ok (SUCCESS, Some (b2z (nneg n) * 2 ^ 31 + literal float32 (nsig n) (nten n))).
Proof. intros. rewrite s2f_parse. apply (parse_fits 32 9 _ float32); [exact pow32|lia|intros; now apply s2f_convert_ok|assumption..]. Qed.

(** C30: a numeral of at most 17 significant digits (and an exponent of at most 4, leading zeros not
    counted in either) gives the nearest double, whatever follows it in memory. *)
Theorem C30_parse_double_nearest : forall n r, wf n -> spell n <> [] -> fits 17 n -> short (spell n) ->
  exists b, s2d_n (spell n ++ r) (len (spell n)) = Ok (SUCCESS, Some b) /\
    nearest float64 (nneg n) (dec (nsig n) (nten n)) b.
Proof.
  intros n r Wf Ne Ft Sh. eexists. split; [now apply s2d_fits|]. apply (literal_nearest float64). now apply nsig_pos.
Qed.
Print Assumptions C30_parse_double_nearest.

(** -0012.5e+0003 ; the double nearest to 9007199254740993 (a tie, to even); 1e309 and 2.4e-324 *)
Example C30_case :
  let n := Num true [0; 0; 1; 2] (Some [5]) (Some (101, Some false, [0; 0; 0; 3])) in
  (wf n /\ spell n <> [] /\ fits 17 n /\ short (spell n) /\ nsig n = 125 /\ nten n = 2) /\
  spell n = [45; 48; 48; 49; 50; 46; 53; 101; 43; 48; 48; 48; 51] /\
  s2d_n [45; 48; 48; 49; 50; 46; 53; 101; 43; 48; 48; 48; 51] 13 = Ok (SUCCESS, Some 13891469598856839168) /\
  s2d_n (ascii [9; 0; 0; 7; 1; 9; 9; 2; 5; 4; 7; 4; 0; 9; 9; 3]) 16 = Ok (SUCCESS, Some 4845873199050653696) /\
  s2d_n [49; 101; 51; 48; 57] 5 = Ok (SUCCESS, Some 9218868437227405312) /\
  s2d_n [50; 46; 52; 101; 45; 51; 50; 52] 8 = Ok (SUCCESS, Some 0).
Proof. 
  split; [|vm_compute; repeat split]. split; [repeat split; repeat constructor; vm_compute; congruence|]. split; [discriminate|].
  split; [split; vm_compute; congruence|]. split; [vm_compute; congruence|]. split; reflexivity.
Qed.

(** C32: the same for floats, 9 digits. *)
Theorem C32_parse_float_nearest : forall n r, wf n -> spell n <> [] -> fits 9 n -> short (spell n) ->
  exists b, s2f_n (spell n ++ r) (len (spell n)) = Ok (SUCCESS, Some b) /\
    nearest float32 (nneg n) (dec (nsig n) (nten n)) b.
Proof.
  intros n r Wf Ne Ft Sh. eexists. split; [now apply s2f_fits|]. apply (literal_nearest float32). now apply nsig_pos.
Qed.
Print Assumptions C32_parse_float_nearest.

(** 16777217 (a tie, to even), 614426533e-25 (where the table's product is off by one), 3.5e38, 7e-46 *)
Example C32_case :
  let n := Num false (ascii []) (Some [6; 1; 4; 4; 2; 6; 5; 3; 3]) (Some (69, Some true, [1; 6])) in
  (wf n /\ spell n <> [] /\ fits 9 n /\ short (spell n) /\ nsig n = 614426533 /\ nten n = -25) /\
  s2f_n (spell n) 14 = Ok (SUCCESS, Some 613264727) /\
  s2f_n (ascii [1; 6; 7; 7; 7; 2; 1; 7]) 8 = Ok (SUCCESS, Some 1266679808) /\
  s2f_n [51; 46; 53; 69; 51; 56] 6 = Ok (SUCCESS, Some 2139095040) /\
  s2f_n [55; 69; 45; 52; 54] 5 = Ok (SUCCESS, Some 0) /\ s2f_n [56; 69; 45; 52; 54] 5 = Ok (SUCCESS, Some 1).
Proof.
  split; [|vm_compute; repeat split]. split; [repeat split; repeat constructor; vm_compute; congruence|]. split; [discriminate|].
  split; [split; vm_compute; congruence|]. split; [vm_compute; congruence|]. split; reflexivity.
Qed.

(** ** stod *)
Lemma double_to_float_finite b : pattern float64 b -> isfinite float64 b = true ->
  nearest float32 (sgn float64 b) (Rabs (B2R _ _ (val float64 b))) (double_to_float b).
Proof.
  intros Pb Fb. unfold double_to_float. pose proof (mant_range float64 b) as MR. pose proof (expo_range float64 b) as ER.
  assert (En : exponent float64 b <> 2047) by (unfold isfinite in Fb; rewrite negb_true_iff, Z.eqb_neq in Fb; exact Fb).
  replace (isnan float64 b) with false by (unfold isnan; symmetry; apply andb_false_iff; left; now apply Z.eqb_neq).
  replace (isinf float64 b) with false by (unfold isinf; symmetry; apply andb_false_iff; left; now apply Z.eqb_neq).
  rewrite (sgn_bit float64 b Pb). set (neg := sgn float64 b).
  set (p := if exponent float64 b =? 0 then (mantissa float64 b, -1074) else (mantissa float64 b + 2 ^ 52, exponent float64 b - 1075)).
  assert (EP : p = (fst p, snd p)) by now destruct p. rewrite EP.
  change (mw float64) with 52 in MR. change (2 ^ 52) with 4503599627370496 in *.
  assert (F0 : 0 <= fst p) by (unfold p; destruct (_ =? 0); cbn [fst]; lia).
  assert (V : Rabs (B2R _ _ (val float64 b)) = (IZR (scale_num (fst p) (- snd p)) / IZR (scale_den 1 (- snd p)))%R).
  { rewrite (units_R float64 b Fb). unfold units. change (femin float64) with (-1074). change (mw float64) with 52. change (2 ^ 52) with 4503599627370496.
    unfold p. destruct (Z.eqb_spec (exponent float64 b) 0) as [E0|E0]; cbn [fst snd].
    - unfold scale_num, scale_den. cbn [Z.opp Z.leb Z.compare]. rewrite Z.mul_1_l. unfold Rdiv. f_equal.
    - rewrite mult_IZR. rewrite <- bpow2 by lia. rewrite Rmult_assoc, <- bpow_plus. set (e := exponent float64 b - 1075).
      replace (exponent float64 b - 1 + -1074) with e by (unfold e; lia). unfold scale_num, scale_den. destruct (Z.leb_spec 0 (- e)).
      + rewrite Z.mul_1_l. unfold Rdiv. f_equal. replace e with (- (- e)) at 1 by lia. rewrite bpow_opp. f_equal. now rewrite bpow2.
      + rewrite mult_IZR, Z.opp_involutive. rewrite bpow2 by lia. field. }
  assert (N0 : 0 <= scale_num (fst p) (- snd p)) by (unfold scale_num; destruct (0 <=? - snd p); [exact F0|apply Z.mul_nonneg_nonneg; [exact F0|apply Z.pow_nonneg; lia]]).
  assert (D0 : 0 < scale_den 1 (- snd p)) by (unfold scale_den; destruct (Z.leb_spec 0 (- snd p)); [rewrite Z.mul_1_l; apply Z.pow_pos_nonneg; lia|lia]).
  pose proof (round_ratio_ok float32 _ _ N0 D0) as R. cbv zeta in R. rewrite <- V in R. fold (rnd float32 (Rabs (B2R _ _ (val float64 b)))) in R.
  replace ((if neg then 1 else 0) * 2 ^ 31) with (b2z neg * 2 ^ (ew float32 + mw float32)) by (destruct neg; reflexivity).
  unfold nearest. destruct R as [(R1 & R2 & R3)|(R1 & R2)].
  - split; [apply with_sign; lia|]. split; [|intro; lra]. intros _. destruct (signed_val float32 neg _ R2) as (A & B & C). rewrite <- R3. auto.
  - rewrite R2. split; [apply with_sign; pose proof (inf_lt float32); lia|]. split; [intro; lra|]. intros _. apply signed_inf.
Qed.
Lemma double_to_float_inf b : pattern float64 b -> isinf float64 b = true -> val float32 (double_to_float b) = B754_infinity _ _ (sgn float64 b).
Proof.
  intros Pb Ib. unfold double_to_float. rewrite Ib.
  replace (isnan float64 b) with false by (unfold isinf in Ib; unfold isnan; apply andb_true_iff in Ib; destruct Ib as [_ Ib]; rewrite Ib; symmetry; apply andb_false_r).
  rewrite (sgn_bit float64 b Pb). rewrite <- (signed_inf float32). destruct (sgn float64 b); reflexivity.
Qed.

(** ** C31: every other text is refused *)
Definition accepted (maxd : Z) (t : list Z) (n : numeral) : Prop := wf n /\ t = spell n /\ t <> [] /\ fits maxd n.
Definition parser_of (p : list Z -> Z -> res (status * option Z)) (maxd : Z) : Prop := (p = s2d_n /\ maxd = 17) \/ (p = s2f_n /\ maxd = 9).

(** [r] is what follows the text in memory; it can be empty, so no byte beyond the given length is read *)
Theorem C31_rejects : forall p maxd, parser_of p maxd -> forall t r, short t ->
  (t = [] -> p (t ++ r) (len t) = Ok (INPUT_TOO_SHORT, None)) /\
  (forall n, accepted maxd t n -> exists b, p (t ++ r) (len t) = Ok (SUCCESS, Some b)) /\
  (forall n, wf n -> t = spell n -> t <> [] -> ~ fits maxd n -> p (t ++ r) (len t) = Ok (INPUT_TOO_LONG, None)) /\
  (t <> [] -> (forall n, wf n -> t <> spell n) ->
     p (t ++ r) (len t) = Ok (MALFORMED_INPUT, None) \/ p (t ++ r) (len t) = Ok (INPUT_TOO_LONG, None)).
Proof.
  intros p maxd Hp t r Sh. assert (Sh2 : len t < 2 ^ 31) by (unfold short in Sh; change (2 ^ 31) with 2147483648 in *; lia).
  split; [|split; [|split]].
  - intros ->. destruct Hp as [[-> ->]|[-> ->]]; reflexivity.
  - intros n (Wf & -> & Ne & Ft). destruct Hp as [[-> ->]|[-> ->]]; eexists; [now apply s2d_fits|now apply s2f_fits].
  - intros n Wf -> Ne Nf. destruct Hp as [[-> ->]|[-> ->]].
    + rewrite s2d_parse. apply (parse_long 64 17 _ float64); [exact pow64|lia|intros; now apply s2d_convert_ok|assumption..].
    + rewrite s2f_parse. apply (parse_long 32 9 _ float32); [exact pow32|lia|intros; now apply s2f_convert_ok|assumption..].
  - intros Ne Nn. destruct Hp as [[-> ->]|[-> ->]].
    + rewrite s2d_parse. now apply (parse_bad 64 17 _ _ pow64).
    + rewrite s2f_parse. now apply (parse_bad 32 9 _ _ pow32).
Qed.
Print Assumptions C31_rejects.

(** The bound on the length cannot be dropped: on  .000...0e-9999  of INT_MAX characters the exponent
    computation overflows an int. *)
Lemma long_zeros N : N = 2147483640 -> exists t, len t = 2 ^ 31 - 1 /\ s2d_n t (len t) = UB BadArith /\ s2f_n t (len t) = UB BadArith.
Proof.
  intro HN.
  set (n := Num false [] (Some (repeat 0 (Z.to_nat N))) (Some (101, Some true, [9; 9; 9; 9]))).
  assert (Fz : Forall dig (repeat 0 (Z.to_nat N))) by (apply Forall_forall; intros x Hx; apply repeat_spec in Hx; subst x; unfold dig; lia).
  assert (Wf : wf n).
  { unfold wf, n, frac_digits, exp_digs. cbn [nint nfrac nexp]. split; [constructor|]. split; [exact Fz|].
    split; [repeat constructor; discriminate|now left]. }
  assert (Lf : len (repeat 0 (Z.to_nat N)) = N) by (rewrite repeat_length; lia).
  assert (L : len (spell n) = 2 ^ 31 - 1).
  { unfold n, spell. cbn [nneg nint nfrac nexp minus ascii map app frac_text exp_part sign_char]. cbn [length]. rewrite app_length. unfold ascii. rewrite map_length. cbn [length].
    rewrite repeat_length. change (2 ^ 31) with 2147483648. lia. }
  assert (Ne : spell n <> []) by (intro E; rewrite E in L; discriminate L).
  assert (Sg : forall k, sig (repeat 0 k) = []) by (induction k as [|k IH]; [reflexivity|exact IH]).
  assert (Ft : forall maxd, 1 <= maxd -> fits maxd n).
  { intros maxd Hm. split; [|cbn; lia]. unfold n, frac_digits. cbn [nint nfrac app]. rewrite Sg. cbn. lia. }
  exists (spell n). split; [exact L|].
  assert (A : forall W maxd cv, 1 <= maxd -> 10 ^ maxd <= 2 ^ W -> parse W maxd cv (spell n) (len (spell n)) = UB BadArith).
  { intros W maxd cv Hm HW. unfold parse. pose proof (scan_list W maxd [] HW (spell n) ltac:(rewrite L; lia)) as S. rewrite app_nil_r in S. rewrite S.
    destruct (slist_numeral maxd n Hm Wf Ne) as [Y _]. rewrite (Y (Ft maxd Hm)). cbn [e10].
    assert (E : nten n = -9999 - N).
    { unfold nten, n, exp_val, frac_digits. cbn [nexp nfrac]. rewrite Lf. change (digit_val [9; 9; 9; 9]) with 9999. lia. }
    rewrite E. unfold i32, chk. replace (- 2 ^ 31 <=? -9999 - N) with false by (symmetry; apply Z.leb_gt; change (2 ^ 31) with 2147483648; lia). reflexivity. }
  rewrite s2d_parse, s2f_parse. split; apply A; [lia|exact pow64|lia|exact pow32].
Qed.
Theorem C31_unbounded_length_refuted : exists t, len t = 2 ^ 31 - 1 /\ s2d_n t (len t) = UB BadArith /\ s2f_n t (len t) = UB BadArith.
Proof. exact (long_zeros 2147483640 eq_refl). Qed.
Print Assumptions C31_unbounded_length_refuted.

(** stod: a numeral of at most 17 digits gives the nearest double rounded to the nearest float (the return
    type is float); everything else gives a NaN. *)
Theorem C31_stod : forall t, short t -> exists y, stod t = Ok y /\
  (forall n, accepted 17 t n -> exists b, nearest float64 (nneg n) (dec (nsig n) (nten n)) b /\
     (is_finite _ _ (val float64 b) = true -> nearest float32 (nneg n) (Rabs (B2R _ _ (val float64 b))) y) /\
     (is_finite _ _ (val float64 b) = false -> val float32 y = B754_infinity _ _ (nneg n))) /\
  ((forall n, ~ accepted 17 t n) -> is_nan _ _ (val float32 y) = true).
Proof.
  intros t Sh. unfold stod. assert (Sh2 : len t < 2 ^ 31) by (unfold short in Sh; change (2 ^ 31) with 2147483648 in *; lia).
  rewrite s32_id by lia.
  assert (NaN : is_nan _ _ (val float32 (double_to_float (fsignaling_NaN TDouble))) = true) by reflexivity.
  destruct (list_eq_dec Z.eq_dec t []) as [->|Ne].
  { eexists. split; [reflexivity|]. split; [intros n (_ & _ & N & _); congruence|]. intros _. exact NaN. }
  destruct (numeral_dec 17 t ltac:(lia)) as [(n & Wf & E & Ft)|Nn].
  - destruct (C30_parse_double_nearest n [0] Wf ltac:(congruence) Ft ltac:(congruence)) as (b & R & Nb).
    rewrite <- E in R. rewrite R. cbn [bind]. eexists. split; [reflexivity|]. split.
    + intros n' (Wf' & E' & _ & Ft').
      destruct (C30_parse_double_nearest n' [0] Wf' ltac:(congruence) Ft' ltac:(congruence)) as (b' & R' & Nb').
      rewrite <- E' in R'. assert (b' = b) by congruence. subst b'. exists b. split; [exact Nb'|]. pose proof Nb' as (Pb & Fb & Ib).
      assert (Sg : sgn float64 b = nneg n').
      { destruct (Rlt_le_dec (rnd float64 (dec (nsig n') (nten n'))) (bpow radix2 (2 ^ (ew float64 - 1)))) as [L|L].
        - destruct (Fb L) as (Fi & <- & _). pose proof (val_cases float64 b) as V. destruct (val float64 b); try discriminate Fi; cbn [Bsign]; symmetry; apply V.
        - specialize (Ib L). pose proof (val_cases float64 b) as V. rewrite Ib in V. symmetry. apply V. }
      rewrite <- Sg. split; intro Fi.
      * apply double_to_float_finite; [exact Pb|]. rewrite isfinite_spec. exact Fi.
      * apply double_to_float_inf; [exact Pb|]. rewrite isinf_spec.
        destruct (Rlt_le_dec (rnd float64 (dec (nsig n') (nten n'))) (bpow radix2 (2 ^ (ew float64 - 1)))) as [L|L].
        -- destruct (Fb L) as (Fi2 & _). congruence.
        -- rewrite (Ib L). reflexivity.
    + intro H. exfalso. apply (H n). exact (conj Wf (conj E (conj Ne Ft))).
  - assert (Rej : exists st, s2d_n (t ++ [0]) (len t) = Ok (st, None) /\ st <> SUCCESS).
    { destruct (slist 17 t) as [st|sc] eqn:E.
      - pose proof (scan_list 64 17 [0] pow64 t Sh2) as S. rewrite E in S. exists st. unfold s2d_n. rewrite S. split; [reflexivity|].
        intros ->. assert (P : parse 64 17 (fun _ => Throw) (t ++ [0]) (len t) = Ok (SUCCESS, None)) by (unfold parse; rewrite S; reflexivity).
        destruct (C31_rejects s2d_n 17 (or_introl (conj eq_refl eq_refl)) t [0] Sh) as (_ & _ & X3 & X4).
        assert (Q : s2d_n (t ++ [0]) (len t) = Ok (SUCCESS, None)) by (unfold s2d_n; rewrite S; reflexivity).
        assert (Cl : (exists n, wf n /\ t = spell n) \/ (forall n, wf n -> t <> spell n)) by (destruct (Classical_Prop.classic (exists n, wf n /\ t = spell n)) as [C|C]; [now left|right; intros n W1 W2; apply C; exists n; split; assumption]).
        destruct Cl as [(n & W1 & W2)|Cl].
        + rewrite (X3 n W1 W2 Ne) in Q; [discriminate|]. intro Ft. apply Nn. exists n. exact (conj W1 (conj W2 Ft)).
        + destruct (X4 Ne Cl) as [Y|Y]; rewrite Y in Q; discriminate.
      - exfalso. destruct (slist_inv 17 t sc E) as (_ & n & Wf & En). subst t. destruct (slist_numeral 17 n ltac:(lia) Wf Ne) as [_ Y].
        apply Nn. exists n. split; [exact Wf|]. split; [reflexivity|]. destruct (Classical_Prop.classic (fits 17 n)) as [F|F]; [exact F|]. rewrite (Y F) in E. discriminate. }
    destruct Rej as (st & -> & Ns). cbn [bind]. exists (double_to_float (fsignaling_NaN TDouble)). split; [now destruct st|]. split.
    + intros n (Wf & E & _ & Ft). exfalso. apply Nn. exists n. exact (conj Wf (conj E Ft)).
    + intros _. exact NaN.
Qed.
Print Assumptions C31_stod.

(** "1.5x", "+1", 18 digits, "1e12345", "-" and "." (accepted as zeros); stod "1.1" *)
Example C31_case : short [49; 46; 53; 120] /\
  s2d_n [49; 46; 53; 120] 4 = Ok (MALFORMED_INPUT, None) /\ s2f_n [43; 49] 2 = Ok (MALFORMED_INPUT, None) /\
  s2d_n (repeat 49 18) 18 = Ok (INPUT_TOO_LONG, None) /\ s2d_n [49; 101; 49; 50; 51; 52; 53] 7 = Ok (INPUT_TOO_LONG, None) /\
  s2d_n [45] 1 = Ok (SUCCESS, Some (2 ^ 63)) /\ s2d_n [46] 1 = Ok (SUCCESS, Some 0) /\
  stod [49; 46; 49] = Ok 1066192077 /\ stod [120] = Ok 2143289344.
Proof. split; [vm_compute; discriminate|]. vm_compute. repeat split. Qed.

(** ** C33 *)
Lemma pattern_fields f x : pattern f x -> x = b2z (sgn f x) * 2 ^ (ew f + mw f) + (exponent f x * 2 ^ mw f + mantissa f x).
Proof.
  intro Px. pose proof (sgn_bit f x Px) as S. unfold signbit in S. unfold exponent, mantissa.
  pose proof (mw_pos f). pose proof (ew_pos f). pose proof (mwp f) as P. pose proof (ewp f) as Q. rewrite (Z.add_comm (ew f)).
  assert (E1 : x / 2 ^ mw f / 2 ^ ew f = b2z (sgn f x)) by (rewrite Z.div_div, <- pat_pow by lia; rewrite S; destruct (sgn f x); reflexivity).
  rewrite pat_pow. pose proof (Z.div_mod x (2 ^ mw f) ltac:(lia)). pose proof (Z.div_mod (x / 2 ^ mw f) (2 ^ ew f) ltac:(lia)). rewrite E1 in *. nia.
Qed.

Lemma text_round_trip f x t : (f = float32 \/ f = float64) -> pattern f x -> is_finite _ _ (val f x) = true -> text_of f (val f x) t ->
  exists n, wf n /\ t = spell n /\ spell n <> [] /\ fits (max_digits10 f) n /\ x = b2z (nneg n) * 2 ^ (ew f + mw f) + literal f (nsig n) (nten n).
Proof.
  intros Hf Px Fx T. pose proof (val_cases f x) as V. pose proof (pattern_fields f x Px) as PF.
  assert (M10 : 1 <= max_digits10 f <= 17) by (destruct Hf as [-> | ->]; vm_compute; split; congruence).
  unfold text_of in T. destruct (val f x) as [s|s|s pl H'|s m e H'] eqn:EV; try discriminate Fx.
  - destruct V as (E0 & M0 & ->). exists (Num (sgn f x) [0] None (Some (69, None, [0]))).
    split; [repeat split; repeat constructor; unfold dig; lia|]. split; [exact T|]. split; [unfold spell; destruct (sgn f x); discriminate|].
    split; [destruct Hf as [-> | ->]; split; vm_compute; congruence|]. cbn [nneg]. rewrite PF at 1. rewrite E0, M0. f_equal.
  - destruct T as (d & k & Sc & (Rd & _) & Dm & Km). destruct V as (_ & _ & -> & _).
    destruct (scientific_numeral t _ d k (max_digits10 f) Sc Dm M10 Km) as (n & Wf & E & Ft & Ne & Nn & Ns & Nt).
    exists n. split; [exact Wf|]. split; [exact E|]. split; [exact Ne|]. split; [exact Ft|].
    rewrite Ns, Nt, Nn. assert (D0 : 0 <= d) by (rewrite <- Ns; now apply nsig_pos).
    pose proof (literal_nearest f (sgn f x) d k D0) as (Pl & Fl & Il). apply (val_inj f); [exact Px|exact Pl|].
    assert (L : (rnd f (dec d k) < bpow radix2 (2 ^ (ew f - 1)))%R) by (rewrite Rd; apply abs_B2R_lt_emax).
    destruct (Fl L) as (L1 & L2 & L3). rewrite EV. apply B2R_Bsign_inj; [reflexivity|exact L1| |cbn [Bsign]; congruence].
    rewrite L3, Rd. cbn [B2R]. rewrite <- F2R_Zabs. destruct (sgn f x); cbn [cond_Zopp Z.abs]; [|reflexivity]. rewrite <- F2R_Zopp. reflexivity.
Qed.

(** C33: reading what was printed gives back every finite float and double, sign of zero included. *)
Theorem C33_round_trip :
  (forall x r, pattern float32 x -> is_finite _ _ (val float32 x) = true ->
     exists t, to_string_float x = Ok t /\ s2f_n (t ++ r) (len t) = Ok (SUCCESS, Some x)) /\
  (forall x r, pattern float64 x -> is_finite _ _ (val float64 x) = true ->
     exists t, to_string_double x = Ok t /\ s2d_n (t ++ r) (len t) = Ok (SUCCESS, Some x)).
Proof.
  split; intros x r Px Fx.
  - destruct (to_string_float_ok x Px) as (t & E & T & L). exists t. split; [exact E|].
    destruct (text_round_trip float32 x t (or_introl eq_refl) Px Fx T) as (n & Wf & -> & Ne & Ft & Ex).
    rewrite s2f_fits; [do 3 f_equal; symmetry; exact Ex|exact Wf|exact Ne|exact Ft|]. unfold short. change (2 ^ 31) with 2147483648. lia.
  - destruct (to_string_double_ok x Px) as (t & E & T & L). exists t. split; [exact E|].
    destruct (text_round_trip float64 x t (or_intror eq_refl) Px Fx T) as (n & Wf & -> & Ne & Ft & Ex).
    rewrite s2d_fits; [do 3 f_equal; symmetry; exact Ex|exact Wf|exact Ne|exact Ft|]. unfold short. change (2 ^ 31) with 2147483648. lia.
Qed.
Print Assumptions C33_round_trip.

(** 0.1f, -0.0, the smallest double *)
Example C33_case : pattern float32 1036831949 /\ is_finite _ _ (val float32 1036831949) = true /\
  (match to_string_float 1036831949 with Ok t => s2f_n t (len t) = Ok (SUCCESS, Some 1036831949) | _ => False end) /\
  (match to_string_double (2 ^ 63) with Ok t => s2d_n t (len t) = Ok (SUCCESS, Some (2 ^ 63)) | _ => False end) /\
  (match to_string_double 1 with Ok t => s2d_n t (len t) = Ok (SUCCESS, Some 1) | _ => False end).
Proof. split; [split; vm_compute; congruence|]. vm_compute. repeat split. Qed.

(** stod does not give the double back: 1E300 comes back as infinity and 16777217 as 16777216. *)
Theorem C33_stod_refuted :
  (exists x t y, pattern float64 x /\ is_finite _ _ (val float64 x) = true /\ to_string_double x = Ok t /\
     stod t = Ok y /\ is_finite _ _ (val float32 y) = false) /\
  (exists x t y, pattern float64 x /\ is_finite _ _ (val float64 x) = true /\ to_string_double x = Ok t /\
     stod t = Ok y /\ is_finite _ _ (val float32 y) = true /\ B2R _ _ (val float32 y) <> B2R _ _ (val float64 x)).
Proof.
  split.
  - exists 9094988921128908188. do 2 eexists. split; [split; vm_compute; congruence|]. split; [reflexivity|]. split; [vm_compute; reflexivity|]. split; [vm_compute; reflexivity|]. reflexivity.
  - exists 4715268810125344768. do 2 eexists. split; [split; vm_compute; congruence|]. split; [reflexivity|]. split; [vm_compute; reflexivity|]. split; [vm_compute; reflexivity|]. split; [reflexivity|].
    cbn. unfold F2R. cbn. lra.
Qed.
Print Assumptions C33_stod_refuted.
