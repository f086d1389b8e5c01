(** The parsers as a whole: which texts they accept and what they return. *)
From Coq Require Import ZArith List Bool Lia Reals Lra.
From Flocq Require Import Core IEEE754.Binary IEEE754.Bits.
From Verif Require Import Mem FpModel FpProofs LitModel LitProofs LimProps RyuModel RyuArith RyuRound RyuDec RyuText RyuParseModel RyuConv RyuMul RyuCvt RyuScan.
Import ListNotations.
Open Scope Z_scope.
Local Notation len l := (Z.of_nat (length l)).

(** ** Specification: [bits] is the value of the format nearest to (-1)^neg * x, ties to even, with
    gradual underflow and overflow to infinity *)
Definition nearest (f : fmt) (neg : bool) (x : R) (bits : Z) : Prop :=
  pattern f bits /\
  ((rnd f x < bpow radix2 (2 ^ (ew f - 1)))%R ->
     is_finite _ _ (val f bits) = true /\ Bsign _ _ (val f bits) = neg /\
     B2R _ _ (val f bits) = if neg then (- rnd f x)%R else rnd f x) /\
  ((bpow radix2 (2 ^ (ew f - 1)) <= rnd f x)%R -> val f bits = B754_infinity _ _ neg).

Section V.
Variable f : fmt.
Lemma inf_lt : 0 <= inf_pattern f < 2 ^ (mw f + ew f).
Proof. rewrite pat_pow. unfold inf_pattern. pose proof (mwp f). pose proof (ewp f). nia. Qed.

Lemma with_sign neg x : 0 <= x <= inf_pattern f -> let y := b2z neg * 2 ^ (ew f + mw f) + x in
  pattern f y /\ mantissa f y = mantissa f x /\ exponent f y = exponent f x /\ sgn f y = neg /\ sgn f x = false.
Proof.
  intros Hx y. pose proof inf_lt as IL. pose proof (mwp f) as P. pose proof (ewp f) as Q.
  pose proof (mw_pos f). pose proof (ew_pos f).
  assert (E1 : 2 ^ (mw f + ew f + 1) = 2 * 2 ^ (mw f + ew f)) by (rewrite (Z.pow_add_r _ _ 1) by lia; lia).
  unfold y. rewrite (Z.add_comm (ew f)). split; [unfold pattern; rewrite E1; destruct neg; cbn [b2z]; lia|].
  split; [|split; [|split]].
  - unfold mantissa. rewrite pat_pow, Z.add_comm. replace (b2z neg * (2 ^ mw f * 2 ^ ew f)) with ((b2z neg * 2 ^ ew f) * 2 ^ mw f) by ring. apply Z.mod_add. lia.
  - unfold exponent. rewrite pat_pow, Z.add_comm. replace (b2z neg * (2 ^ mw f * 2 ^ ew f)) with ((b2z neg * 2 ^ ew f) * 2 ^ mw f) by ring. rewrite Z.div_add by lia. apply Z.mod_add. lia.
  - unfold sgn. rewrite <- pat_pow. destruct neg; cbn [b2z]; [apply Z.leb_le|apply Z.leb_gt]; lia.
  - unfold sgn. rewrite <- pat_pow. apply Z.leb_gt. lia.
Qed.

Lemma signed_val neg x : 0 <= x < inf_pattern f -> let y := b2z neg * 2 ^ (ew f + mw f) + x in
  is_finite _ _ (val f y) = true /\ Bsign _ _ (val f y) = neg /\ B2R _ _ (val f y) = if neg then (- B2R _ _ (val f x))%R else B2R _ _ (val f x).
Proof.
  intros Hx y. destruct (with_sign neg x ltac:(lia)) as (_ & M & E & S & S0). fold y in M, E, S.
  assert (EX : exponent f x <> 2 ^ ew f - 1).
  { pose proof (finite_pos f x Hx) as F. unfold isfinite in F. rewrite negb_true_iff, Z.eqb_neq in F. exact F. }
  rewrite val_is_finite, val_sign, !val_R, !aux_cases, M, E, S, S0.
  replace (exponent f x =? 2 ^ ew f - 1) with false by (symmetry; now apply Z.eqb_neq).
  destruct (exponent f x =? 0).
  - destruct (mantissa f x); cbn [is_finite_FF sign_FF FF2R]; (split; [reflexivity|]; split; [reflexivity|]); destruct neg; cbn [cond_Zopp]; try lra;
    try (rewrite <- F2R_Zopp; reflexivity); reflexivity.
  - cbn [is_finite_FF sign_FF FF2R]. split; [reflexivity|]. split; [reflexivity|]. destruct neg; cbn [cond_Zopp]; [rewrite <- F2R_Zopp|]; reflexivity.
Qed.
Lemma inf_fields : exponent f (inf_pattern f) = 2 ^ ew f - 1 /\ mantissa f (inf_pattern f) = 0.
Proof. pose proof (ewp f). pose proof (mwp f). destruct (mk_fields f (2 ^ ew f - 1) 0 ltac:(lia) ltac:(lia)) as [A B]. rewrite Z.add_0_r in A, B. now split. Qed.
Lemma signed_inf neg : val f (b2z neg * 2 ^ (ew f + mw f) + inf_pattern f) = B754_infinity _ _ neg.
Proof.
  destruct (with_sign neg (inf_pattern f)) as (_ & M & E & S & _); [pose proof inf_lt; lia|]. destruct inf_fields as [A B].
  apply B2FF_inj. rewrite val_FF, aux_cases, M, E, S, A, B. cbn [B2FF]. pose proof (ewp f).
  replace (2 ^ ew f - 1 =? 0) with false by (symmetry; apply Z.eqb_neq; lia). now rewrite Z.eqb_refl.
Qed.

Lemma literal_nearest neg m e : 0 <= m -> nearest f neg (dec m e) (b2z neg * 2 ^ (ew f + mw f) + literal f m e).
Proof.
  intro Hm.
  assert (E : dec m e = (IZR (dnum m e) / IZR (dden e))%R) by (rewrite dec_ratio; unfold dnum, dden; destruct (0 <=? e); reflexivity).
  assert (N0 : 0 <= dnum m e) by (unfold dnum; destruct (Z.leb_spec 0 e); [apply Z.mul_nonneg_nonneg; [exact Hm|apply Z.pow_nonneg; lia]|exact Hm]).
  pose proof (round_ratio_ok f (dnum m e) (dden e) N0 (dden_pos e)) as R. cbv zeta in R. rewrite <- E in R. fold (rnd f (dec m e)) in R. rewrite <- literal_ratio in R.
  unfold nearest. destruct R as [(R1 & R2 & R3)|(R1 & R2)].
  - split; [apply with_sign; lia|]. split; [|intro; lra]. intros _. destruct (signed_val neg _ R2) as (A & B & C). rewrite <- R3. auto.
  - rewrite R2. split; [apply with_sign; pose proof inf_lt; lia|]. split; [intro; lra|]. intros _. apply signed_inf.
Qed.

(** the nearest pattern is unique *)
Lemma nearest_unique neg x a b : nearest f neg x a -> nearest f neg x b -> a = b.
Proof.
  intros (Pa & Fa & Ia) (Pb & Fb & Ib). apply (val_inj f); [exact Pa|exact Pb|].
  destruct (Rlt_le_dec (rnd f x) (bpow radix2 (2 ^ (ew f - 1)))) as [L|L].
  - destruct (Fa L) as (A1 & A2 & A3), (Fb L) as (B1 & B2 & B3). apply B2R_Bsign_inj; congruence.
  - now rewrite (Ia L), (Ib L).
Qed.
End V.

(** ** The two parsers *)
Definition short (t : list Z) : Prop := len t <= 2 ^ 31 - 10000.

Lemma exp_val_range n : wf n -> len (sig (exp_digs n)) <= 4 -> Z.abs (exp_val n) <= 9999.
Proof.
  intros (_ & _ & F & _) H. unfold exp_val, exp_digs in *. destruct (nexp n) as [[[c s] es]|]; [|lia].
  destruct (digit_val_sig es F) as (P & _ & N & _).
  assert (digit_val es <= 9999).
  { destruct (Z.eq_dec (digit_val es) 0) as [E|E]; [lia|]. destruct (N E) as (_ & _ & B).
    assert (10 ^ len (sig es) <= 10 ^ 4) by (apply Z.pow_le_mono_r; lia). change (10 ^ 4) with 10000 in *. lia. }
  destruct s as [[|]|]; lia.
Qed.
Lemma frac_len n : len (frac_digits n) <= len (spell n).
Proof.
  unfold spell, frac_digits. rewrite !app_length. destruct (nfrac n) as [fp|]; cbn [frac_text length]; [|lia].
  unfold ascii. rewrite !map_length. lia.
Qed.
Lemma ndig_sig n : wf n -> nsig n = 0 \/ ndig (nsig n) (len (sig (nint n ++ frac_digits n))).
Proof.
  intros (Fi & Ff & _). assert (F : Forall dig (nint n ++ frac_digits n)) by (apply Forall_app; now split).
  destruct (digit_val_sig _ F) as (P & _ & N & _). unfold nsig. destruct (Z.eq_dec (digit_val (nint n ++ frac_digits n)) 0); [now left|right; auto].
Qed.
Lemma nsig_pos n : wf n -> 0 <= nsig n.
Proof. intros (Fi & Ff & _). apply digit_val_sig. apply Forall_app. now split. Qed.

Section P.
Variables (W maxd : Z) (cv : scanned -> res Z) (f : fmt) (r : list Z).
Hypothesis HW : 10 ^ maxd <= 2 ^ W.
Hypothesis Hmax : 1 <= maxd <= 17.
Hypothesis Hcv : forall neg m dg e, (m = 0 \/ ndig m dg /\ dg <= maxd /\ - 2 ^ 31 <= dg + e < 2 ^ 31) ->
  cv (Scanned neg m dg e) = Ok (b2z neg * 2 ^ (ew f + mw f) + literal f m e).
Definition parse (buffer : list Z) (n : Z) : res (status * option Z) :=
  x <- scan W maxd buffer n ;; match x with inl s => Ok (s, None) | inr s => b <- cv s ;; Ok (SUCCESS, Some b) end.

Lemma parse_fits n : wf n -> spell n <> [] -> fits maxd n -> short (spell n) ->
  parse (spell n ++ r) (len (spell n)) = Ok (SUCCESS, Some (b2z (nneg n) * 2 ^ (ew f + mw f) + literal f (nsig n) (nten n))).
Proof.
  intros Wf Ne Ft Sh. unfold parse. unfold short in Sh. change (2 ^ 31) with 2147483648 in *.
  rewrite (scan_list W maxd r HW) by (change (2 ^ 31) with 2147483648; lia).
  destruct (slist_numeral maxd n ltac:(lia) Wf Ne) as [Y _]. rewrite (Y Ft). cbn [e10].
  pose proof (exp_val_range n Wf (proj2 Ft)) as Ev. pose proof (frac_len n) as Fl.
  rewrite i32_ok by (unfold nten; change (2 ^ 31) with 2147483648; lia). cbn [bind].
  rewrite Hcv; [reflexivity|]. destruct (ndig_sig n Wf) as [Z0|N]; [now left|right]. split; [exact N|]. destruct Ft as [Ft _]. split; [exact Ft|].
  unfold nten. change (2 ^ 31) with 2147483648. lia.
Qed.
Lemma parse_long n : wf n -> spell n <> [] -> ~ fits maxd n -> len (spell n) < 2 ^ 31 ->
  parse (spell n ++ r) (len (spell n)) = Ok (INPUT_TOO_LONG, None).
Proof.
  intros Wf Ne Ft Sh. unfold parse. rewrite (scan_list W maxd r HW) by exact Sh.
  destruct (slist_numeral maxd n ltac:(lia) Wf Ne) as [_ Y]. now rewrite (Y Ft).
Qed.
Lemma parse_bad t : t <> [] -> (forall n, wf n -> t <> spell n) -> len t < 2 ^ 31 ->
  parse (t ++ r) (len t) = Ok (MALFORMED_INPUT, None) \/ parse (t ++ r) (len t) = Ok (INPUT_TOO_LONG, None).
Proof.
  intros Ne Nn Sh. unfold parse. rewrite (scan_list W maxd r HW) by exact Sh.
  destruct (slist maxd t) as [s|s] eqn:E.
  - destruct s; cbn [bind].
    + exfalso. revert E. clear. unfold slist. destruct t as [|c t]; [discriminate|].
      assert (M : forall l d m dg, ml maxd l d m dg <> inl SUCCESS).
      { induction l as [|c0 l IH]; intros d m dg; cbn [ml]; [discriminate|]. destruct (c0 =? 46); [destruct d; [discriminate|apply IH]|].
        destruct (negb _); [discriminate|]. destruct (maxd <=? dg); [discriminate|apply IH]. }
      assert (E : forall l e ed, el l e ed <> inl SUCCESS).
      { induction l as [|c0 l IH]; intros e ed; cbn [el]; [discriminate|]. destruct (negb _); [discriminate|]. destruct (3 <? ed); [discriminate|apply IH]. }
      destruct (ml _ _ _ _ _) as [s|[[[l d] m] dg]] eqn:Em; [intro H; injection H as ->; now apply M in Em|].
      destruct (exl l) as [s|e] eqn:Ee; [|discriminate]. intro H. injection H as ->. unfold exl in Ee.
      destruct l as [|c0 l]; [discriminate|]. destruct (_ || _); [|discriminate]. destruct l as [|c1 l]; [discriminate|].
      destruct (_ || _); [destruct (el l 0 0) eqn:X; [injection Ee as ->; now apply E in X|discriminate]|now apply E in Ee].
    + apply slist_empty in E. contradiction.
    + now right.
    + now left.
  - exfalso. apply slist_inv in E. destruct E as (_ & n & Wf & E). now apply (Nn n Wf).
Qed.
Lemma parse_empty : parse ([] ++ r) 0 = Ok (INPUT_TOO_SHORT, None).
Proof. reflexivity. Qed.
End P.

(** A text either is a numeral or is not: decided by the scan. *)
Lemma numeral_dec maxd t : 1 <= maxd -> (exists n, wf n /\ t = spell n /\ fits maxd n) \/ ~ (exists n, wf n /\ t = spell n /\ fits maxd n).
Proof.
  intro Hm. destruct (list_eq_dec Z.eq_dec t []) as [->|Ne].
  - left. exists (Num false [] None None). split; [repeat split; constructor|]. split; [reflexivity|]. split; cbn; lia.
  - destruct (slist maxd t) as [s|s] eqn:E.
    + right. intros (n & Wf & -> & Ft). destruct (slist_numeral maxd n Hm Wf Ne) as [Y _]. rewrite (Y Ft) in E. discriminate.
    + left. destruct (slist_inv maxd t s E) as (_ & n & Wf & ->). exists n. split; [exact Wf|]. split; [reflexivity|].
      destruct (slist_numeral maxd n Hm Wf Ne) as [_ Y]. unfold fits in *.
      destruct (Z_le_gt_dec (len (sig (nint n ++ frac_digits n))) maxd) as [A|A]; [destruct (Z_le_gt_dec (len (sig (exp_digs n))) 4) as [B|B]|];
      [now split|exfalso; rewrite Y in E; [discriminate|lia]|exfalso; rewrite Y in E; [discriminate|lia]].
Qed.

(** ** Printed texts are numerals *)
Lemma sig_lead d ds : d <> 0 -> sig (d :: ds) = d :: ds.
Proof. destruct d; [congruence|reflexivity..]. Qed.
Lemma scientific_numeral t neg d k maxd : scientific t neg d k -> d < 10 ^ maxd -> 1 <= maxd <= 17 -> Z.abs k < 400 ->
  exists n, wf n /\ t = spell n /\ fits maxd n /\ spell n <> [] /\ nneg n = neg /\ nsig n = d /\ nten n = k.
Proof.
  intros (d0 & ds & xneg & es & Et & D0 & Nz & Fd & Fe & Ce & Xn & En & Ek) Hd Hm Hk.
  exists (Num neg [d0] (match ds with [] => None | _ => Some ds end) (Some (69, if xneg then Some true else None, es))).
  assert (Fr : frac_digits (Num neg [d0] (match ds with [] => None | _ => Some ds end) (Some (69, if xneg then Some true else None, es))) = ds)
    by (unfold frac_digits; cbn [nfrac]; destruct ds; reflexivity).
  assert (Wf : wf (Num neg [d0] (match ds with [] => None | _ => Some ds end) (Some (69, if xneg then Some true else None, es)))).
  { unfold wf. rewrite Fr. cbn [nint nexp exp_digs]. repeat split; auto. }
  assert (Fall : Forall dig (d0 :: ds)) by (constructor; assumption).
  destruct (digit_val_sig _ Fall) as (Vp & V0 & Vn & _). rewrite (sig_lead d0 ds Nz) in *. rewrite <- En in *.
  assert (N0 : d <> 0) by (intro E0; specialize (V0 E0); discriminate).
  destruct (Vn N0) as (V1 & V2 & V3).
  assert (LD : len (d0 :: ds) <= maxd).
  { apply Z.nlt_ge. intro Q. assert (10 ^ maxd <= 10 ^ (len (d0 :: ds) - 1)) by (apply Z.pow_le_mono_r; lia). lia. }
  destruct (digit_val_sig es Fe) as (Ep & _ & Es & _).
  split; [exact Wf|]. split; [|split; [|split; [|split; [reflexivity|split]]]].
  - rewrite Et. unfold spell. cbn [nneg nint nfrac nexp]. f_equal. cbn [ascii map app]. f_equal. destruct ds; cbn [frac_text exp_part]; destruct xneg; reflexivity.
  - split; [rewrite Fr; cbn [nint app]; rewrite (sig_lead d0 ds Nz); exact LD|]. cbn [exp_digs nexp].
    destruct (Z.eq_dec (digit_val es) 0) as [E0|E0]; [rewrite (sig_zero es Fe E0); lia|]. destruct (Es E0) as (_ & S2 & _).
    apply Z.nlt_ge. intro Q. assert (10 ^ 4 <= 10 ^ (len (sig es) - 1)) by (apply Z.pow_le_mono_r; lia). change (10 ^ 4) with 10000 in *.
    cbn [length] in LD. destruct xneg; lia.
  - unfold spell. destruct neg; discriminate.
  - unfold nsig. rewrite Fr. symmetry. exact En.
  - unfold nten. rewrite Fr. unfold exp_val. cbn [nexp]. rewrite Ek. destruct xneg; reflexivity.
Qed.
