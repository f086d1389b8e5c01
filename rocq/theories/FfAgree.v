(** C84: the two number parsers of the library agree, and fast_float reads back what to_string prints. *)
From Coq Require Import ZArith List Bool Lia Reals.
From Flocq Require Import Core IEEE754.Binary IEEE754.Bits.
From Verif Require Import Mem FpModel FpProofs LitModel LitProofs LimProps RyuText RyuRound RyuArith RyuFmtModel RyuParseModel RyuScan RyuParse RyuParseProps FfTable FfModel FfWord FfCompute FfScan FfProps FfNumProps.
Import ListNotations.
Open Scope Z_scope.
Local Notation len l := (Z.of_nat (length l)).

Definition ryu_parser (b : bformat) (p : list Z -> Z -> res (status * option Z)) : Prop := (b = bdouble /\ p = s2d_n) \/ (b = bfloat /\ p = s2f_n).
Definition ryu_printer (b : bformat) (p : Z -> res (list Z)) : Prop := (b = bdouble /\ p = to_string_double) \/ (b = bfloat /\ p = to_string_float).

Lemma ryu_nearest b p n r x : ryu_parser b p -> wf n -> spell n <> [] -> short (spell n) -> p (spell n ++ r) (len (spell n)) = Ok (SUCCESS, Some x) ->
  nearest (bfmt b) (nneg n) (magnitude n) x.
Proof.
  intros Hp Wf Ne Sh R. change (magnitude n) with (dec (nsig n) (nten n)).
  assert (G : forall md, parser_of p md -> fits md n).
  { intros md Hm. destruct (C31_rejects p md Hm (spell n) r Sh) as (_ & _ & X & _). specialize (X n Wf eq_refl Ne).
    destruct (Z_le_gt_dec (len (sig (nint n ++ frac_digits n))) md) as [A|A]; [destruct (Z_le_gt_dec (len (sig (exp_digs n))) 4) as [B|B]|]; [now split|exfalso..];
    (rewrite X in R; [discriminate R|intros [C D]; lia]). }
  destruct Hp as [[-> ->]|[-> ->]].
  - destruct (C30_parse_double_nearest n r Wf Ne (G 17 (or_introl (conj eq_refl eq_refl))) Sh) as (y & E & N). rewrite R in E. injection E as <-. exact N.
  - destruct (C32_parse_float_nearest n r Wf Ne (G 9 (or_intror (conj eq_refl eq_refl))) Sh) as (y & E & N). rewrite R in E. injection E as <-. exact N.
Qed.

(** ** Which numeral is the longest *)
Lemma parts_numeral n rest : wf n -> nint n ++ frac_digits n <> [] -> ends (exp_part (nexp n) ++ rest) -> (nfrac n = None -> at_ (exp_part (nexp n) ++ rest) (Z.eqb 46) = false) ->
  parts 46 (numeral_text 46 n ++ rest) (nneg n) (nint n) (nfrac n) (exp_part (nexp n) ++ rest).
Proof.
  intros (W1 & W2 & W3 & W4) Nd En Nf. split; [unfold numeral_text; now rewrite <- !app_assoc|]. split; [exact W1|]. split; [exact W2|]. split; [exact En|]. split; [exact Nf|].
  intro Ng. unfold numeral_text. rewrite Ng. cbn [minus app]. destruct (nint n) as [|d int] eqn:Ei.
  - unfold frac_digits in Nd. destruct (nfrac n) as [f|]; [reflexivity|contradiction Nd; reflexivity].
  - cbn [ascii map app at_]. inversion_clear W1 as [|? ? D _]. unfold dig in D. lia.
Qed.
Lemma is_e_ends c s es rest : is_e c -> ends (exp_part (Some (c, s, es)) ++ rest) /\ at_ (exp_part (Some (c, s, es)) ++ rest) (Z.eqb 46) = false.
Proof. intro H. split; [now apply ends_e|]. destruct H as [-> | ->]; reflexivity. Qed.
Lemma p46 : point_ok 46. Proof. unfold point_ok. lia. Qed.

(** with an exponent, up to the first character that is no digit *)
Lemma longest_exp o n c s es rest : decimal_point o = 46 -> has o chars_scientific = true -> wf n -> nint n ++ frac_digits n <> [] -> nexp n = Some (c, s, es) -> es <> [] -> ends rest ->
  longest o (spell n ++ rest) n rest.
Proof.
  intros Ep Hs Wf Nd Ex Ne En. assert (AL : allowed o n) by (split; [exact Wf|]; split; [exact Nd|]; rewrite Ex; now split).
  assert (C : is_e c) by (destruct Wf as (_ & _ & _ & W); rewrite Ex in W; exact W). assert (Fe : Forall dig es) by (destruct Wf as (_ & _ & W & _); unfold exp_digs in W; now rewrite Ex in W).
  destruct (is_e_ends c s es rest C) as [E1 E2]. rewrite <- Ex in E1, E2. split; [now rewrite Ep|]. split; [exact AL|]. intros n' rest' A' E'. rewrite Ep in *.
  pose proof (parts_numeral n rest Wf Nd E1 (fun _ => E2)) as P. rewrite <- Ep in P. destruct (numeral_parts o _ _ _ _ _ n' rest' ltac:(rewrite Ep; exact p46) P A' ltac:(rewrite Ep; exact E')) as (Sg & K). rewrite Ep in K.
  rewrite !text_length, Sg. destruct K as [(c' & s' & es' & -> & -> & -> & X)|[(-> & -> & -> & _)|(-> & L & _)]]; [|cbn [exp_part length]; lia..].
  rewrite Ex. assert (X0 : exp_at o (exp_part (nexp n) ++ rest) c s es rest) by (rewrite Ex; split; [reflexivity|]; auto). destruct (exp_unique _ _ _ _ _ _ _ _ _ _ X0 En X) as (-> & -> & d & -> & _).
  cbn [exp_part length]. rewrite !app_length, !ascii_len, app_length. lia.
Qed.
(** without one, when what follows is at most an exponent without digits *)
Lemma longest_plain o n s rest : decimal_point o = 46 -> has o chars_fixed = true -> wf n -> nint n ++ frac_digits n <> [] -> nexp n = None -> rest = [] \/ (exists c, is_e c /\ rest = c :: sign_char s) ->
  longest o (spell n ++ rest) n rest.
Proof.
  intros Ep Hs Wf Nd Ex Hr. assert (AL : allowed o n) by (split; [exact Wf|]; split; [exact Nd|]; rewrite Ex; intros [_ H]; congruence).
  split; [now rewrite Ep|]. split; [exact AL|]. intros n' rest' A' E'. rewrite Ep in *. change (spell n) with (numeral_text 46 n) in *. destruct Hr as [->|(c & C & Er)].
  { rewrite app_nil_r in E'. rewrite E', app_length. lia. }
  assert (E1 : ends (exp_part (nexp n) ++ rest) /\ at_ (exp_part (nexp n) ++ rest) (Z.eqb 46) = false) by (rewrite Ex, Er; cbn [exp_part app]; split; [now apply ends_e|destruct C as [-> | ->]; reflexivity]). destruct E1 as [E1 E2].
  pose proof (parts_numeral n rest Wf Nd E1 (fun _ => E2)) as P. rewrite <- Ep in P. destruct (numeral_parts o _ _ _ _ _ n' rest' ltac:(rewrite Ep; exact p46) P A' ltac:(rewrite Ep; exact E')) as (Sg & K). rewrite Ep in K.
  rewrite !text_length, Sg. destruct K as [(c' & s' & es' & -> & -> & _ & X)|[(-> & -> & -> & _)|(-> & L & _)]]; [|rewrite Ex; lia|rewrite Ex; cbn [exp_part length]; lia].
  exfalso. rewrite Ex, Er in X. cbn [exp_part app] in X. destruct X as (X & _ & _ & Ne & Fe). injection X as _ X. destruct es' as [|d es']; [contradiction|]. assert (D : dig d) by now inversion Fe. unfold dig in D.
  assert (L := f_equal (@length Z) X). assert (H := f_equal (hd 0) X). destruct s as [[|]|], s' as [[|]|]; cbn [sign_char ascii map app hd length] in L, H; lia.
Qed.

Lemma spell_bytes n : wf n -> Forall byte (spell n).
Proof.
  intros (W1 & W2 & W3 & W4). assert (A : forall l, Forall dig l -> Forall byte (ascii l)) by (intros l H; unfold ascii; apply Forall_map; eapply Forall_impl; [|exact H]; intros x Hx; unfold dig, byte in *; lia).
  unfold spell, frac_digits, exp_digs in *. apply Forall_app. split; [destruct (nneg n); repeat constructor; unfold byte; lia|]. apply Forall_app. split; [now apply A|]. apply Forall_app. split.
  - destruct (nfrac n); [|constructor]. constructor; [unfold byte; lia|now apply A].
  - destruct (nexp n) as [[[c s] es]|]; [|constructor]. constructor; [unfold byte; lia|]. apply Forall_app. split; [destruct s as [[|]|]; repeat constructor; unfold byte; lia|now apply A].
Qed.
Lemma from_longest t b o text n rest : std b -> decimal_point o = 46 -> Forall byte text -> len text < 2 ^ 28 - 1000 -> longest o text n rest ->
  exists y, from_chars_advanced t b text o = Ok (Outcome rest (Some y)) /\ nearest (bfmt b) (nneg n) (magnitude n) y.
Proof.
  intros Hb Ep Fb HL LG. assert (Nt : text <> []). { intros ->. destruct LG as (E & (_ & Nd & _) & _). symmetry in E. apply app_eq_nil in E. destruct E as [E _]. unfold numeral_text in E. apply app_eq_nil in E. destruct E as [_ E]. apply app_eq_nil in E. destruct E as [E1 E2]. apply app_eq_nil in E2. destruct E2 as [E2 _]. apply Nd. unfold frac_digits. destruct (nint n); [|discriminate E1]. destruct (nfrac n); [discriminate E2|reflexivity]. }
  destruct (C67_from_chars t b text o Hb Nt Fb ltac:(rewrite Ep; exact p46) HL) as [(n1 & r1 & y & L1 & UQ & E & N)|[NO _]].
  - destruct (UQ _ _ LG) as [<- <-]. eauto.
  - exfalso. destruct LG as (E & A & _). exact (NO _ _ E A).
Qed.

(** *** Any text the Ryu parser accepts is read by fast_float to the same bits, when there is a digit before the exponent: to the end, or to an
    exponent without digits.  (The Ryu parser takes "", "-" and "." before the exponent for zero; fast_float finds no number there.)  *)
Definition digitless (rest : list Z) : Prop := rest = [] \/ exists c s, is_e c /\ rest = c :: sign_char s.
Theorem C84_parsers_agree : forall t b p text x, ryu_parser b p -> len text < 2 ^ 28 - 1000 -> p text (len text) = Ok (SUCCESS, Some x) ->
  (exists rest, digitless rest /\ from_chars t b text chars_general = Ok (Outcome rest (Some x))) \/
  (exists sg fr ex, text = minus sg ++ fr ++ ex /\ (fr = [] \/ fr = [46]) /\ (ex = [] \/ exists c r, is_e c /\ ex = c :: r) /\
     from_chars t b text chars_general = Ok (Outcome text None)).
Proof.
  intros t b p text x Hp HL R. assert (Hb : std b) by (destruct Hp as [[-> _]|[-> _]]; [now left|now right]). assert (Sh : short text) by (unfold short; change (2 ^ 31) with 2147483648; change (2 ^ 28) with 268435456 in HL; lia).
  assert (PO : exists md, parser_of p md) by (destruct Hp as [[_ ->]|[_ ->]]; [exists 17; now left|exists 9; now right]). destruct PO as [md PO].
  destruct (C31_rejects p md PO text [] Sh) as (X1 & _ & _ & X4). rewrite app_nil_r in *. assert (Nt : text <> []) by (intro E; rewrite (X1 E) in R; discriminate R).
  assert (Cl : exists n, wf n /\ text = spell n).
  { destruct (Classical_Prop.classic (exists n, wf n /\ text = spell n)) as [C|C]; [exact C|]. exfalso. destruct (X4 Nt) as [Y|Y]; [intros n W1 W2; apply C; eauto|rewrite Y in R; discriminate R..]. }
  destruct Cl as (n & Wf & Et). assert (NR : nearest (bfmt b) (nneg n) (magnitude n) x) by (apply (ryu_nearest b p n [] x Hp Wf); [congruence|congruence|rewrite app_nil_r, <- Et; exact R]).
  assert (Fb : Forall byte text) by (rewrite Et; now apply spell_bytes). set (o := Options chars_general 46). change (from_chars t b text chars_general) with (from_chars_advanced t b text o).
  assert (K : nint n ++ frac_digits n = [] \/ nint n ++ frac_digits n <> []) by (destruct (nint n ++ frac_digits n); [now left|right; discriminate]). destruct K as [K|K].
  - right. apply app_eq_nil in K. destruct K as [K1 K2].
    assert (Tx : text = minus (nneg n) ++ frac_text (nfrac n) ++ exp_part (nexp n)) by (rewrite Et; unfold spell; rewrite K1; reflexivity).
    assert (Fr : frac_text (nfrac n) = [] \/ frac_text (nfrac n) = [46]) by (unfold frac_digits in K2; destruct (nfrac n) as [f|]; [rewrite K2; now right|now left]).
    assert (Ex : exp_part (nexp n) = [] \/ exists c r, is_e c /\ exp_part (nexp n) = c :: r) by (destruct Wf as (_ & _ & _ & W); destruct (nexp n) as [[[c s] es]|]; [right; exists c; eexists; split; [exact W|reflexivity]|now left]).
    exists (nneg n), (frac_text (nfrac n)), (exp_part (nexp n)). split; [exact Tx|]. split; [exact Fr|]. split; [exact Ex|].
    assert (P : parts 46 text (nneg n) [] (nfrac n) (exp_part (nexp n))).
    { split; [rewrite Tx; reflexivity|]. split; [constructor|]. split; [unfold frac_digits in K2; unfold fdigits; rewrite K2; constructor|]. split; [destruct Ex as [->|(c & r & C & ->)]; [reflexivity|now apply ends_e]|].
      split; [intros _; destruct Ex as [->|(c & r & [-> | ->] & ->)]; reflexivity|]. intro Ng. rewrite Tx, Ng. destruct Fr as [-> | ->]; [|reflexivity]. destruct Ex as [->|(c & r & [-> | ->] & ->)]; reflexivity. }
    destruct (C67_from_chars t b text o Hb Nt Fb p46 HL) as [(n1 & r1 & y & (E1 & A1 & _) & _)|[_ ->]].
    + exfalso. destruct (numeral_parts o _ _ _ _ _ n1 r1 p46 P A1 E1) as (_ & H). destruct A1 as (_ & Nd & _). apply Nd. unfold frac_digits in *.
      destruct H as [(c & s & es & -> & -> & _)|[(_ & -> & -> & _)|(_ & _ & (d & D) & F)]]; [exact K2|exact K2|].
      symmetry in D. apply app_eq_nil in D. destruct D as [-> _]. destruct (nfrac n1) as [f|]; [|reflexivity]. destruct F as (_ & g & d' & Eg & ->). rewrite Eg in K2. apply app_eq_nil in K2. apply K2.
    + destruct (C68_special_values b text Hb Nt Fb) as (_ & _ & _ & _ & Z5). apply Z5. clear - Tx Fr Ex. intros neg w r E. rewrite Tx in E.
      assert (G : forall a b0 c w', (a = 110 \/ a = 78 \/ a = 105 \/ a = 73) -> w = a :: b0 :: c :: w' -> False).
      { intros a b0 c w' Ha ->. apply (f_equal (hd 0)) in E as E0. assert (E3 := f_equal (hd 0) (f_equal (@tl Z) E)). destruct (nneg n), neg; destruct Fr as [Fr|Fr]; rewrite Fr in *; destruct Ex as [Ex|(c0 & r0 & [-> | ->] & Ex)]; rewrite Ex in *; cbn [minus app hd tl] in E0, E3; lia. }
      split; intro S; inversion S as [|a l ? ? Ha S2]; subst; inversion S2 as [|a2 l2 ? ? Ha2 S3]; subst; inversion S3 as [|a3 l3 ? ? Ha3 S4]; subst; inversion S4; subst; eapply (G a); try reflexivity; lia.
  - left. destruct n as [neg int fr ex]. destruct ex as [[[c s] es]|].
    + destruct es as [|e es].
      * set (n0 := Num neg int fr None). assert (C : is_e c) by (destruct Wf as (_ & _ & _ & W); exact W). assert (W0 : wf n0) by (destruct Wf as (W1 & W2 & _); split; [exact W1|]; split; [exact W2|]; split; [constructor|exact I]).
        assert (E0 : text = spell n0 ++ (c :: sign_char s)) by (rewrite Et; unfold spell, n0; cbn [nneg nint nfrac nexp exp_part ascii map]; now rewrite !app_nil_r, <- !app_assoc).
        assert (LG : longest o text n0 (c :: sign_char s)) by (rewrite E0; apply (longest_plain o n0 s); try reflexivity; [exact W0|exact K|right; eauto]).
        destruct (from_longest t b o text n0 _ Hb eq_refl Fb HL LG) as (y & E & N). exists (c :: sign_char s). split; [right; eauto|]. rewrite E. do 3 f_equal. apply (nearest_unique (bfmt b) neg (magnitude n0)); [exact N|].
        replace (magnitude n0) with (magnitude (Num neg int fr (Some (c, s, [])))); [exact NR|]. unfold magnitude, n0, exp_val, frac_digits. cbn [nint nfrac nexp]. destruct s as [[|]|]; reflexivity.
      * assert (LG : longest o text (Num neg int fr (Some (c, s, e :: es))) []) by (rewrite Et, <- (app_nil_r (spell _)); apply (longest_exp o _ c s (e :: es)); try reflexivity; try assumption; discriminate).
        destruct (from_longest t b o text _ _ Hb eq_refl Fb HL LG) as (y & E & N). exists []. split; [now left|]. rewrite E. do 3 f_equal. exact (nearest_unique _ _ _ _ _ N NR).
    + assert (LG : longest o text (Num neg int fr None) []) by (rewrite Et, <- (app_nil_r (spell _)); apply (longest_plain o _ None); try reflexivity; try assumption; now left).
      destruct (from_longest t b o text _ _ Hb eq_refl Fb HL LG) as (y & E & N). exists []. split; [now left|]. rewrite E. do 3 f_equal. exact (nearest_unique _ _ _ _ _ N NR).
Qed.
Print Assumptions C84_parsers_agree.

Lemma infnan_pattern b text r y : std b -> parse_infnan b text = Ok (Outcome r (Some y)) -> pattern (bfmt b) y.
Proof.
  intros Hb. assert (A : forall neg, pattern (bfmt b) (neg_if b neg (quiet_nan b)) /\ pattern (bfmt b) (neg_if b neg (infinity_ b))) by (intros [|]; destruct Hb as [-> | ->]; split; split; vm_compute; congruence).
  unfold parse_infnan. destruct (deref text) as [c| |]; cbn [bind]; try discriminate. set (q := if c =? 45 then tl text else text).
  destruct (_ && _); [intro E; injection E as _ <-; apply A|]. destruct (_ && _); [intro E; injection E as _ <-; apply A|discriminate].
Qed.
Lemma no_numeral o neg c r n rest : decimal_point o = 46 -> minus neg ++ c :: r = numeral_text 46 n ++ rest -> ~ (48 <= c <= 57) -> c <> 45 -> c <> 46 -> ~ allowed o n.
Proof.
  intros Ep E D1 D2 D3 ((W1 & _) & Nd & _). assert (E0 := f_equal (hd 0) E). assert (E1 := f_equal (hd 0) (f_equal (@tl Z) E)). clear E.
  unfold numeral_text in E0, E1. rewrite <- !app_assoc in E0, E1. unfold frac_digits in Nd.
  destruct (nint n) as [|d int].
  - destruct (nfrac n) as [f|]; [|contradiction Nd; reflexivity]. destruct neg, (nneg n); cbn [minus ascii map app hd tl point_text] in E0, E1; lia.
  - inversion_clear W1 as [|? ? D _]. unfold dig in D. destruct neg, (nneg n); cbn [minus ascii map app hd tl] in E0, E1; lia.
Qed.

(** *** to_string then from_chars: every finite float and double comes back with its bits, whatever follows that is no digit; the infinities come back, and a NaN as a NaN
    (of positive sign) unless a parenthesis follows. *)
Theorem C84_round_trip : forall t b p o x rest, ryu_printer b p -> pattern (bfmt b) x -> decimal_point o = 46 -> has o chars_scientific = true ->
  Forall byte rest -> len rest < 2 ^ 28 - 2000 -> (forall c r, rest = c :: r -> ~ (48 <= c <= 57) /\ c <> 40) ->
  exists text y, p x = Ok text /\ from_chars_advanced t b (text ++ rest) o = Ok (Outcome rest (Some y)) /\
    (is_nan _ _ (val (bfmt b) x) = false -> y = x) /\ (is_nan _ _ (val (bfmt b) x) = true -> is_nan _ _ (val (bfmt b) y) = true).
Proof.
  intros t b p o x rest Hp Px Ep Hs Fr HL Hr. assert (Hb : std b) by (destruct Hp as [[-> _]|[-> _]]; [now left|now right]).
  assert (T : exists text, p x = Ok text /\ text_of (bfmt b) (val (bfmt b) x) text /\ len text <= 24).
  { destruct Hp as [[-> ->]|[-> ->]]; [destruct (to_string_double_ok x Px) as (text & A & B & C)|destruct (to_string_float_ok x Px) as (text & A & B & C)]; exists text; (split; [exact A|]); (split; [exact B|]); lia. }
  destruct T as (text & Et & T & Lt). exists text. assert (HL2 : len (text ++ rest) < 2 ^ 28 - 1000) by (rewrite app_length; lia).
  assert (En : ends rest) by (destruct rest as [|c r]; [reflexivity|]; destruct (Hr c r eq_refl) as [D _]; unfold ends, at_, is_integer; lia).
  assert (FIN : is_finite _ _ (val (bfmt b) x) = true -> forall n c s es, wf n -> text = spell n -> nint n <> [] -> nexp n = Some (c, s, es) -> es <> [] -> exists y,
    from_chars_advanced t b (text ++ rest) o = Ok (Outcome rest (Some y)) /\ y = x).
  { intros Fx n c s es Wf Es Ni Ne Nes. assert (Nd : nint n ++ frac_digits n <> []) by (destruct (nint n); [contradiction|discriminate]).
    assert (Fb : Forall byte (text ++ rest)) by (apply Forall_app; split; [rewrite Es; now apply spell_bytes|exact Fr]).
    assert (Nn : spell n <> []) by (unfold spell; destruct (nneg n), (nint n); try discriminate; contradiction).
    assert (NR : nearest (bfmt b) (nneg n) (magnitude n) x).
    { assert (Sh : short (spell n)) by (unfold short; rewrite <- Es; change (2 ^ 31) with 2147483648; lia). destruct C33_round_trip as [RF RD].
      destruct Hp as [[-> ->]|[-> ->]]; [destruct (RD x [] Px Fx) as (t2 & A & B)|destruct (RF x [] Px Fx) as (t2 & A & B)]; rewrite Et in A; injection A as <-; rewrite Es in B.
      - exact (ryu_nearest bdouble s2d_n n [] x (or_introl (conj eq_refl eq_refl)) Wf Nn Sh B).
      - exact (ryu_nearest bfloat s2f_n n [] x (or_intror (conj eq_refl eq_refl)) Wf Nn Sh B). }
    assert (LG : longest o (text ++ rest) n rest) by (rewrite Es; eapply longest_exp; eassumption).
    destruct (from_longest t b o _ n rest Hb Ep Fb HL2 LG) as (y & E & N). exists y. split; [exact E|]. exact (nearest_unique _ _ _ _ _ N NR). }
  assert (SP : forall neg c r, text = minus neg ++ c :: r -> ~ (48 <= c <= 57) -> c <> 45 -> c <> 46 -> Forall byte text -> from_chars_advanced t b (text ++ rest) o = parse_infnan b (text ++ rest)).
  { intros neg c r Es D1 D2 D3 Ft. assert (Nt : text ++ rest <> []) by (rewrite Es; destruct neg; discriminate). assert (Fb : Forall byte (text ++ rest)) by (apply Forall_app; now split).
    destruct (C67_from_chars t b _ o Hb Nt Fb ltac:(rewrite Ep; exact p46) HL2) as [(n1 & r1 & y & (E1 & A1 & _) & _)|[_ E]]; [|exact E]. exfalso. rewrite Ep in E1. rewrite Es in E1. rewrite <- app_assoc in E1. cbn [app] in E1.
    exact (no_numeral o neg c _ n1 r1 Ep E1 D1 D2 D3 A1). }
  unfold text_of in T. destruct (val (bfmt b) x) as [s|s|s pl Hpl|s m e Hme] eqn:EV; cbn [is_nan is_finite] in *.
  - destruct (FIN eq_refl (Num s [0] None (Some (69, None, [0]))) 69 None [0]) as (y & E & ->); [repeat split; repeat constructor; discriminate|exact T|discriminate|reflexivity|discriminate|]. exists x. split; [exact Et|]. split; [exact E|]. split; [reflexivity|discriminate].
  - assert (Ft : Forall byte text) by (rewrite T; destruct s; repeat constructor; discriminate). assert (E := SP s 73 _ T ltac:(lia) ltac:(lia) ltac:(lia) Ft).
    assert (Nt : text ++ rest <> []) by (rewrite T; destruct s; discriminate). destruct (C68_special_values b (text ++ rest) Hb Nt ltac:(apply Forall_app; now split)) as (_ & _ & Z3 & _).
    destruct (Z3 s [73; 110; 102; 105; 110; 105; 116; 121] rest) as (y & Y1 & Y2); [rewrite T; now rewrite <- app_assoc|repeat constructor; lia|]. exists y. split; [exact Et|]. split; [now rewrite E|]. split; [|discriminate]. intros _.
    apply (val_inj (bfmt b)); [exact (infnan_pattern _ _ _ _ Hb Y1)|exact Px|]. unfold is_inf_bits in Y2. congruence.
  - assert (Ft : Forall byte text) by (rewrite T; repeat constructor; discriminate). assert (E := SP false 78 _ T ltac:(lia) ltac:(lia) ltac:(lia) Ft).
    assert (Nt : text ++ rest <> []) by (rewrite T; discriminate). destruct (C68_special_values b (text ++ rest) Hb Nt ltac:(apply Forall_app; now split)) as (_ & Z2 & _).
    destruct (Z2 false [78; 97; 78] rest) as (y & Y1 & Y2); [rewrite T; reflexivity|repeat constructor; lia|intros s0 r0 _ E0; destruct (Hr _ _ E0); congruence|]. exists y. split; [exact Et|]. split; [now rewrite E|]. split; [discriminate|]. intros _. apply Y2.
  - destruct T as (d & k & (d0 & ds & xneg & es & Es & D0 & Nz & Fd & Fe & Ce & _) & _).
    destruct (FIN eq_refl (Num s [d0] (match ds with [] => None | _ => Some ds end) (Some (69, if xneg then Some true else None, es))) 69 (if xneg then Some true else None) es) as (y & E & ->).
    + unfold wf, frac_digits, exp_digs. cbn [nint nfrac nexp]. split; [now constructor|]. split; [destruct ds; [constructor|exact Fd]|]. split; [exact Fe|now right].
    + rewrite Es. unfold spell. cbn [nneg nint nfrac nexp]. f_equal. cbn [ascii map app]. f_equal. destruct ds; cbn [frac_text exp_part]; destruct xneg; reflexivity.
    + discriminate.
    + reflexivity.
    + intros ->. exact Ce.
    + exists x. split; [exact Et|]. split; [exact E|]. split; [reflexivity|discriminate].
Qed.
Print Assumptions C84_round_trip.


(** "1.5e" leaves the e; "-." is no number for fast_float; the double nearest to 0.1 and -infinity, followed by a comma *)
Example C84_case : let t := Target false true false in
  s2d_n [49; 46; 53; 101] 4 = Ok (SUCCESS, Some 4609434218613702656) /\ from_chars t bdouble [49; 46; 53; 101] chars_general = Ok (Outcome [101] (Some 4609434218613702656)) /\
  s2d_n [45; 46] 2 = Ok (SUCCESS, Some (2 ^ 63)) /\ from_chars t bdouble [45; 46] chars_general = Ok (Outcome [45; 46] None) /\
  to_string_double 4591870180066957722 = Ok [49; 69; 45; 49] /\ from_chars t bdouble [49; 69; 45; 49; 44] chars_general = Ok (Outcome [44] (Some 4591870180066957722)) /\
  to_string_float 4286578688 = Ok [45; 73; 110; 102; 105; 110; 105; 116; 121] /\
  from_chars t bfloat [45; 73; 110; 102; 105; 110; 105; 116; 121; 44] chars_scientific = Ok (Outcome [44] (Some 4286578688)) /\
  (pattern float64 4591870180066957722 /\ has (Options chars_general 46) chars_scientific = true /\ forall c r, [44] = c :: r -> ~ (48 <= c <= 57) /\ c <> 40).
Proof. vm_compute. repeat (split; [reflexivity|]). split; [repeat split; congruence|]. split; [reflexivity|]. intros c r E. injection E as <- _. split; [intros [H _]; now apply H|discriminate]. Qed.
