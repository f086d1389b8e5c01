(** The text to_string prints for a float or double, against a specification of decimal texts. *)
From Coq Require Import ZArith List Bool Lia Reals Lra.
From Flocq Require Import Core IEEE754.Binary IEEE754.Bits.
From Verif Require Import Mem IntStrModel IntStrProofs FpModel FpProofs LitModel LitProofs LimProps RyuModel RyuArith RyuRound RyuDec RyuFmtModel RyuFmt.
Import ListNotations.
Open Scope Z_scope.

(** ** Specification *)
Definition digit_val (ds : list Z) : Z := fold_left (fun a d => 10 * a + d) ds 0.
Definition ascii (ds : list Z) : list Z := map (Z.add 48) ds.
Definition minus (b : bool) : list Z := if b then [45] else [].
(** a digit; no superfluous leading zero *)
Definition dig (d : Z) : Prop := 0 <= d <= 9.
Definition canonical (es : list Z) : Prop := match es with [] => False | [_] => True | e :: _ => e <> 0 end.

(** [t] is the scientific notation  [-]d[.ds]E[-]es  of (-1)^neg * n * 10^k, with a non-zero leading digit *)
Definition scientific (t : list Z) (neg : bool) (n k : Z) : Prop :=
  exists d0 ds xneg es,
    t = minus neg ++ (48 + d0) :: (match ds with [] => [] | _ => 46 :: ascii ds end) ++ 69 :: minus xneg ++ ascii es /\
    dig d0 /\ d0 <> 0 /\ Forall dig ds /\ Forall dig es /\ canonical es /\ (xneg = true -> digit_val es <> 0) /\
    n = digit_val (d0 :: ds) /\
    k = (if xneg then - digit_val es else digit_val es) - Z.of_nat (length ds).

(** digits that always suffice to read a value of the format back: 9 and 17 *)
Definition max_digits10 (f : fmt) : Z := 2 + (mw f + 1) * 30103 / 100000.
Definition text_of (f : fmt) (v : binary_float (mw f + 1) (2 ^ (ew f - 1))) (t : list Z) : Prop :=
  match v with
  | B754_nan _ _ _ _ _ => t = [78; 97; 78]                                             (* NaN *)
  | B754_infinity _ _ s => t = minus s ++ [73; 110; 102; 105; 110; 105; 116; 121]      (* Infinity *)
  | B754_zero _ _ s => t = minus s ++ [48; 69; 48]                                     (* 0E0 *)
  | B754_finite _ _ s _ _ _ => exists d k, scientific t s d k /\ shortest_decimal f (Rabs (B2R _ _ v)) d k /\ d < 10 ^ max_digits10 f /\ Z.abs k < 400
  end.

(** ** Digits of a number *)
Lemma digits_value d p : 10 ^ (p - 1) <= d < 10 ^ p -> 1 <= p ->
  forall n, Z.of_nat n <= p ->
  digit_val (map (fun t => (d / 10 ^ (p - 1 - Z.of_nat t)) mod 10) (seq 0 n)) = d / 10 ^ (p - Z.of_nat n).
Proof.
  intros Hd Hp n. induction n as [|n IH]; intro Hn.
  - cbn. rewrite Z.sub_0_r. symmetry. apply Z.div_small. assert (0 < 10 ^ (p - 1)) by (apply Z.pow_pos_nonneg; lia). lia.
  - rewrite seq_S, map_app. unfold digit_val in *. rewrite fold_left_app, IH by lia. cbn [map fold_left Nat.add].
    assert (Q : 10 ^ (p - Z.of_nat n) = 10 ^ (p - 1 - Z.of_nat n) * 10).
    { replace (p - Z.of_nat n) with (Z.succ (p - 1 - Z.of_nat n)) by lia. rewrite Z.pow_succ_r by lia. ring. }
    rewrite Q. assert (0 < 10 ^ (p - 1 - Z.of_nat n)) by (apply Z.pow_pos_nonneg; lia). rewrite <- Z.div_div by lia.
    replace (p - Z.of_nat (S n)) with (p - 1 - Z.of_nat n) by lia. pose proof (Z.div_mod (d / 10 ^ (p - 1 - Z.of_nat n)) 10). lia.
Qed.

Lemma exp_digits_spec e : 0 <= e < 1000 -> exists es, exp_digits e = ascii es /\ Forall dig es /\ canonical es /\ digit_val es = e.
Proof.
  intro H. unfold exp_digits. destruct (Z.ltb_spec e 10); [|destruct (Z.ltb_spec e 100)].
  - exists [e]. split; [reflexivity|]. split; [repeat constructor; lia|]. split; [exact I|]. cbn. lia.
  - exists [e / 10; e mod 10]. split; [reflexivity|].
    assert (1 <= e / 10 <= 9 /\ 0 <= e mod 10 <= 9 /\ 10 * (e / 10) + e mod 10 = e) by (Z.to_euclidean_division_equations; lia).
    split; [repeat constructor; unfold dig; lia|]. split; cbn -[Z.div Z.modulo Z.mul]; lia.
  - exists [e / 10 / 10; (e / 10) mod 10; e mod 10]. split; [reflexivity|].
    assert (1 <= e / 10 / 10 <= 9 /\ 0 <= (e / 10) mod 10 <= 9 /\ 0 <= e mod 10 <= 9 /\ 10 * (10 * (e / 10 / 10) + (e / 10) mod 10) + e mod 10 = e) by (Z.to_euclidean_division_equations; lia).
    split; [repeat constructor; unfold dig; lia|]. split; cbn -[Z.div Z.modulo Z.mul]; lia.
Qed.

Lemma sci_text_scientific s d k p : digits d p -> Z.abs (k + p - 1) < 1000 -> scientific (sci_text s d k p) s d k.
Proof.
  intros (Hp & Hd) Hx. set (g := fun t => (d / 10 ^ (p - 1 - Z.of_nat t)) mod 10).
  destruct (exp_digits_spec (Z.abs (k + p - 1)) ltac:(lia)) as (es & Ee & Fe & Ce & Ve).
  exists (g O), (map g (seq 1 (Z.to_nat (p - 1)))), (k + p - 1 <? 0), es.
  assert (G : forall t, dig (g t)) by (intro t; unfold dig, g; pose proof (Z.mod_pos_bound (d / 10 ^ (p - 1 - Z.of_nat t)) 10); lia).
  assert (V : digit_val (map g (seq 0 (S (Z.to_nat (p - 1))))) = d).
  { unfold g. rewrite (digits_value d p Hd Hp) by lia. replace (p - Z.of_nat (S (Z.to_nat (p - 1)))) with 0 by lia. apply Z.div_1_r. }
  assert (G0 : g O <> 0).
  { unfold g. rewrite Z.sub_0_r. assert (P : 0 < 10 ^ (p - 1)) by (apply Z.pow_pos_nonneg; lia).
    assert (Q : 10 ^ p = 10 ^ (p - 1) * 10) by (replace p with (Z.succ (p - 1)) at 1 by lia; rewrite Z.pow_succ_r by lia; ring).
    assert (1 <= d / 10 ^ (p - 1)) by (apply Z.div_le_lower_bound; lia).
    assert (d / 10 ^ (p - 1) < 10) by (apply Z.div_lt_upper_bound; lia). rewrite Z.mod_small; lia. }
  split; [|split; [apply G|split; [exact G0|split; [|split; [exact Fe|split; [exact Ce|split; [|split]]]]]]].
  - unfold sci_text, sign_text, minus, mant_text, exp_text. rewrite Ee. f_equal. cbn [app]. f_equal.
    destruct (Z.ltb_spec 1 p) as [P1|P1].
    + destruct (Z.to_nat (p - 1)) as [|n] eqn:En; [lia|]. cbn [seq map ascii app]. f_equal. f_equal.
      unfold ascii. rewrite map_map. reflexivity.
    + replace (Z.to_nat (p - 1)) with O by lia. reflexivity.
  - apply Forall_forall. intros x Hin. apply in_map_iff in Hin. destruct Hin as (t & <- & _). apply G.
  - intro N. rewrite Ve. apply Z.ltb_lt in N. lia.
  - rewrite <- V at 1. reflexivity.
  - rewrite map_length, seq_length, Ve. destruct (Z.ltb_spec (k + p - 1) 0); lia.
Qed.

Lemma sci_text_nonzero s d k p : Forall (fun c => c <> 0) (sci_text s d k p) \/ 1000 <= Z.abs (k + p - 1).
Proof.
  destruct (Z.lt_ge_cases (Z.abs (k + p - 1)) 1000) as [H|H]; [left|now right].
  assert (D : forall t, dchar d p t <> 0) by (intro t; unfold dchar; pose proof (Z.mod_pos_bound (d / 10 ^ (p - 1 - Z.of_nat t)) 10); lia).
  unfold sci_text. apply Forall_app. split; [destruct s; repeat constructor; discriminate|]. apply Forall_app. split.
  - unfold mant_text. constructor; [apply D|]. destruct (1 <? p); [|constructor]. constructor; [discriminate|].
    apply Forall_forall. intros x Hx. apply in_map_iff in Hx. destruct Hx as (t & <- & _). apply D.
  - unfold exp_text. constructor; [discriminate|]. apply Forall_app. split; [destruct (_ <? 0); repeat constructor; discriminate|].
    destruct (exp_digits_spec (Z.abs (k + p - 1)) ltac:(lia)) as (es & -> & Fe & _).
    apply Forall_forall. intros x Hx. apply in_map_iff in Hx. destruct Hx as (t & <- & Ht). rewrite Forall_forall in Fe. specialize (Fe t Ht). unfold dig in Fe. lia.
Qed.

Lemma exp_digits_len e W : 0 <= e -> (W = 2 /\ e < 100) \/ (W = 3 /\ e < 1000) -> Z.of_nat (length (exp_digits e)) <= W.
Proof. intros H0 H. unfold exp_digits. destruct (Z.ltb_spec e 10); [cbn; lia|]. destruct (Z.ltb_spec e 100); cbn; lia. Qed.

Lemma sci_text_len s d k p W : 1 <= p -> (W = 2 /\ Z.abs (k + p - 1) < 100) \/ (W = 3 /\ Z.abs (k + p - 1) < 1000) ->
  len (sci_text s d k p) <= 4 + p + W.
Proof.
  intros Hp HW. unfold sci_text. rewrite !app_length. unfold exp_text. cbn [length]. rewrite app_length.
  pose proof (mant_text_len d p Hp) as M. unfold mant_len in M. pose proof (exp_digits_len (Z.abs (k + p - 1)) W ltac:(lia) HW) as E.
  assert (S : (length (sign_text s) <= 1)%nat) by (destruct s; cbn; lia).
  assert (S2 : (length (if (k + p - 1 <? 0)%Z then [45%Z] else []) <= 1)%nat) by (destruct (_ <? 0); cbn; lia).
  destruct (1 <? p); lia.
Qed.

(** ** Fields *)
Section F.
Variable f : fmt.
Lemma abs_fields x : isfinite f x = true ->
  Rabs (B2R _ _ (val f x)) = B2R _ _ (val f (exponent f x * 2 ^ mw f + mantissa f x)).
Proof.
  intro H. pose proof (expo_range f x) as RE. pose proof (mant_range f x) as RM. pose proof (mwp f).
  assert (HE : exponent f x < 2 ^ ew f - 1) by (unfold isfinite in H; rewrite negb_true_iff, Z.eqb_neq in H; lia).
  rewrite (units_R f x H). rewrite units_R_pos by (unfold inf_pattern; nia).
  destruct (mk_fields f (exponent f x) (mantissa f x) RE RM) as [A B]. unfold units. now rewrite A, B.
Qed.

Lemma val_cases x :
  match val f x with
  | B754_nan _ _ _ _ _ => exponent f x = 2 ^ ew f - 1 /\ mantissa f x <> 0
  | B754_infinity _ _ s => exponent f x = 2 ^ ew f - 1 /\ mantissa f x = 0 /\ s = sgn f x
  | B754_zero _ _ s => exponent f x = 0 /\ mantissa f x = 0 /\ s = sgn f x
  | B754_finite _ _ s _ _ _ => exponent f x < 2 ^ ew f - 1 /\ (mantissa f x <> 0 \/ exponent f x <> 0) /\ s = sgn f x /\
      Rabs (B2R _ _ (val f x)) = B2R _ _ (val f (exponent f x * 2 ^ mw f + mantissa f x))
  end.
Proof.
  pose proof (val_FF f x) as V. rewrite aux_cases in V. 
  assert (A : exponent f x < 2 ^ ew f - 1 -> Rabs (B2R _ _ (val f x)) = B2R _ _ (val f (exponent f x * 2 ^ mw f + mantissa f x))).
  { intro L. apply abs_fields. unfold isfinite. rewrite negb_true_iff, Z.eqb_neq. lia. }
  pose proof (mant_range f x) as RM. pose proof (expo_range f x) as RE. pose proof (ewp f).
  destruct (val f x) as [s|s|s pl H'|s m e H'] eqn:EV; cbn [B2FF] in V;
  destruct (Z.eqb_spec (exponent f x) 0) as [E0|E0]; try (destruct (Z.eqb_spec (exponent f x) (2 ^ ew f - 1)) as [E1|E1]);
  destruct (mantissa f x) as [|q|q] eqn:EM; try discriminate V; try (injection V as V); try lia;
  repeat split; try congruence; try lia; try (left; congruence); try (right; congruence); try (apply A; lia).
Qed.
End F.

(** ** The two printers *)
Definition special_text (s e m : bool) : list Z :=
  if m then [78; 97; 78] else minus s ++ (if e then [73; 110; 102; 105; 110; 105; 116; 121] else [48; 69; 48]).
Lemma special_ok b s e m : 9 <= len b ->
  exists b', copy_special_str b s e m = Ok (b', len (special_text s e m)) /\ ext b b' 0 (special_text s e m).
Proof.
  intro H. unfold copy_special_str, special_text. destruct m.
  - destruct (ext_bytes [78; 97; 78] b 0) as (b' & -> & E); [lia|cbn; lia|repeat constructor; lia|]. exists b'. split; [reflexivity|exact E].
  - destruct (sign_ext s b ltac:(lia)) as (b1 & -> & E1 & S1). cbn [bind]. pose proof E1 as (L1 & _).
    assert (Sl : 0 <= b2z s <= 1) by (destruct s; cbn; lia).
    destruct e.
    + destruct (ext_bytes [73; 110; 102; 105; 110; 105; 116; 121] b1 (b2z s)) as (b' & -> & E); [lia|cbn [length]; lia|repeat constructor; lia|].
      exists b'. split; [cbn [bind]; do 2 f_equal; destruct s; reflexivity|]. apply (ext_app b b1); [lia|exact E1|]. change (minus s) with (sign_text s). rewrite S1. exact E.
    + destruct (ext_bytes [48; 69; 48] b1 (b2z s)) as (b' & -> & E); [lia|cbn [length]; lia|repeat constructor; lia|].
      exists b'. split; [cbn [bind]; do 2 f_equal; destruct s; reflexivity|]. apply (ext_app b b1); [lia|exact E1|]. change (minus s) with (sign_text s). rewrite S1. exact E.
Qed.
Lemma special_len s e m : 0 <= len (special_text s e m) <= 9.
Proof. destruct s, e, m; cbn; lia. Qed.
Lemma special_nonzero s e m : Forall (fun c => c <> 0) (special_text s e m).
Proof. destruct s, e, m; repeat constructor; discriminate. Qed.

(** [t], terminated, is in the buffer; its bytes are not 0 *)
Definition printed (b b' : buf) (t : list Z) : Prop := ext b b' 0 (t ++ [0]) /\ Forall (fun c => c <> 0) t.

Lemma terminate b b1 t : ext b b1 0 t -> Forall (fun c => c <> 0) t -> len t < len b ->
  exists b', bstore b1 (len t) 0 = Ok b' /\ printed b b' t.
Proof.
  intros E F L. pose proof E as (L1 & _). destruct (ext_store b1 (len t) 0) as (b' & -> & E2); [lia|lia|].
  exists b'. split; [reflexivity|]. split; [|exact F]. apply (ext_app b b1); [lia|exact E|exact E2].
Qed.

Lemma digits_le d p n : digits d p -> 0 <= n -> d < 10 ^ n -> p <= n.
Proof. intros (Hp & Hd) Hn H. apply Z.nlt_ge. intro Q. assert (10 ^ n <= 10 ^ (p - 1)) by (apply Z.pow_le_mono_r; lia). lia. Qed.

Section P.
Variables (f : fmt) (x : Z).
Hypothesis Px : pattern f x.
Lemma sign_field : negb (Z.land (x / 2 ^ (mw f + ew f)) 1 =? 0) = sgn f x.
Proof.
  fold (signbit f x). rewrite (sgn_bit f x Px). now destruct (sgn f x).
Qed.
Lemma mant_field : Z.land x (2 ^ mw f - 1) = mantissa f x.
Proof. pose proof (mw_pos f). apply land_mask. lia. Qed.
Lemma expo_field : Z.land (x / 2 ^ mw f) (2 ^ ew f - 1) = exponent f x.
Proof. pose proof (ew_pos f). apply land_mask. lia. Qed.

Lemma special_text_of (E0 := exponent f x) (M0 := mantissa f x) :
  (E0 =? 2 ^ ew f - 1) || (E0 =? 0) && (M0 =? 0) = true ->
  text_of f (val f x) (special_text (sgn f x) (negb (E0 =? 0)) (negb (M0 =? 0))).
Proof.
  intro H. pose proof (val_cases f x) as V. fold E0 M0 in V. pose proof (ewp f). unfold text_of, special_text.
  destruct (val f x) as [s|s|s pl H'|s m e H'].
  - destruct V as (-> & -> & ->). reflexivity.
  - destruct V as (-> & -> & ->). replace (2 ^ ew f - 1 =? 0) with false by lia. reflexivity.
  - destruct V as (_ & V). replace (M0 =? 0) with false by lia. reflexivity.
  - exfalso. destruct V as (V1 & V2 & _). lia.
Qed.
Lemma finite_text_of (E0 := exponent f x) (M0 := mantissa f x) t d k :
  (E0 =? 2 ^ ew f - 1) || (E0 =? 0) && (M0 =? 0) = false ->
  scientific t (sgn f x) d k -> shortest_decimal f (B2R _ _ (val f (E0 * 2 ^ mw f + M0))) d k ->
  d < 10 ^ max_digits10 f -> Z.abs k < 400 -> text_of f (val f x) t.
Proof.
  intros H S D D1 D2. pose proof (val_cases f x) as V. fold E0 M0 in V.
  unfold text_of. destruct (val f x) as [s|s|s pl H'|s m e H'] eqn:EV.
  1-3: exfalso; lia.
  destruct V as (V1 & V2 & -> & V3). exists d, k. split; [exact S|]. rewrite V3. auto.
Qed.
End P.

Theorem f2s_ok x b : pattern float32 x -> 16 <= len b ->
  exists t b', f2s_buffered x b = Ok b' /\ text_of float32 (val float32 x) t /\ len t <= 15 /\ printed b b' t.
Proof.
  intros Px Hb. unfold f2s_buffered, f2s_buffered_n.
  rewrite (sign_field float32 x Px : negb (Z.land (x / 2 ^ (23 + 8)) 1 =? 0) = _).
  rewrite (mant_field float32 x : Z.land x (2 ^ 23 - 1) = _). rewrite (expo_field float32 x : Z.land (x / 2 ^ 23) (2 ^ 8 - 1) = _).
  set (s := sgn float32 x). set (E := exponent float32 x). set (M := mantissa float32 x). cbv zeta.
  destruct ((E =? 2 ^ 8 - 1) || (E =? 0) && (M =? 0)) eqn:Sp.
  - destruct (special_ok b s (negb (E =? 0)) (negb (M =? 0)) ltac:(lia)) as (b1 & -> & E1). cbn [bind].
    pose proof (special_len s (negb (E =? 0)) (negb (M =? 0))) as Ln.
    destruct (terminate b b1 _ E1 (special_nonzero _ _ _) ltac:(lia)) as (b' & -> & P).
    exists (special_text s (negb (E =? 0)) (negb (M =? 0))), b'. split; [reflexivity|]. split; [now apply (special_text_of float32 x)|]. split; [lia|exact P].
  - pose proof (mant_range float32 x) as RM. pose proof (expo_range float32 x) as RE. fold M in RM. fold E in RE. change (mw float32) with 23 in RM. change (ew float32) with 8 in RE.
    change (2 ^ 8) with 256 in *.
    destruct (f2d_shortest M E RM ltac:(lia) ltac:(lia)) as (d & k & R & Hd & Hx & Sd). rewrite R. cbn [bind].
    pose proof Sd as (_ & p & Dp & _). specialize (Hx p Dp). pose proof Dp as (Hp & Dp').
    pose proof (digits_le d p 9 Dp ltac:(lia) ltac:(lia)) as P9.
    pose proof (sci_text_len s d k p 2 Hp ltac:(left; lia)) as Ln.
    destruct (to_chars32_ok d k s b p Hd Dp' Hp ltac:(lia) ltac:(lia)) as (b1 & -> & E1). cbn [bind].
    destruct (sci_text_nonzero s d k p) as [Nz|?]; [|lia].
    destruct (terminate b b1 _ E1 Nz ltac:(lia)) as (b' & -> & P).
    exists (sci_text s d k p), b'. split; [reflexivity|]. split; [|split; [lia|exact P]].
    apply (finite_text_of float32 x _ d k Sp); [|exact Sd|exact (proj2 Hd)|lia]. apply sci_text_scientific; [exact Dp|lia].
Qed.

Theorem d2s_ok x b : pattern float64 x -> 25 <= len b ->
  exists t b', d2s_buffered x b = Ok b' /\ text_of float64 (val float64 x) t /\ len t <= 24 /\ printed b b' t.
Proof.
  intros Px Hb. unfold d2s_buffered, d2s_buffered_n.
  rewrite (sign_field float64 x Px : negb (Z.land (x / 2 ^ (52 + 11)) 1 =? 0) = _).
  rewrite (mant_field float64 x : Z.land x (2 ^ 52 - 1) = _). rewrite (expo_field float64 x : Z.land (x / 2 ^ 52) (2 ^ 11 - 1) = _).
  set (s := sgn float64 x). set (E := exponent float64 x). set (M := mantissa float64 x). cbv zeta.
  pose proof (mant_range float64 x) as RM. pose proof (expo_range float64 x) as RE. fold M in RM. fold E in RE. change (mw float64) with 52 in RM. change (ew float64) with 11 in RE.
  rewrite u32_id by (change (2 ^ 11) with 2048 in RE; change (2 ^ 32) with 4294967296; lia).
  destruct ((E =? 2 ^ 11 - 1) || (E =? 0) && (M =? 0)) eqn:Sp.
  - destruct (special_ok b s (negb (E =? 0)) (negb (M =? 0)) ltac:(lia)) as (b1 & -> & E1). cbn [bind].
    pose proof (special_len s (negb (E =? 0)) (negb (M =? 0))) as Ln.
    destruct (terminate b b1 _ E1 (special_nonzero _ _ _) ltac:(lia)) as (b' & -> & P).
    exists (special_text s (negb (E =? 0)) (negb (M =? 0))), b'. split; [reflexivity|]. split; [now apply (special_text_of float64 x)|]. split; [lia|exact P].
  - change (2 ^ 11) with 2048 in *.
    destruct (d2s_decimal_shortest M E RM ltac:(lia) ltac:(lia)) as (d & k & R & Hd & Hx & Sd). rewrite R. cbn [bind].
    pose proof Sd as (_ & p & Dp & _). specialize (Hx p Dp). pose proof Dp as (Hp & Dp').
    pose proof (digits_le d p 17 Dp ltac:(lia) ltac:(lia)) as P9.
    pose proof (sci_text_len s d k p 3 Hp ltac:(right; lia)) as Ln.
    destruct (to_chars64_ok d k s b p Hd Dp' Hp ltac:(lia) ltac:(lia)) as (b1 & -> & E1). cbn [bind].
    destruct (sci_text_nonzero s d k p) as [Nz|?]; [|lia].
    destruct (terminate b b1 _ E1 Nz ltac:(lia)) as (b' & -> & P).
    exists (sci_text s d k p), b'. split; [reflexivity|]. split; [|split; [lia|exact P]].
    apply (finite_text_of float64 x _ d k Sp); [|exact Sd|exact (proj2 Hd)|lia]. apply sci_text_scientific; [exact Dp|lia].
Qed.

Theorem to_string_float_ok x : pattern float32 x ->
  exists t, to_string_float x = Ok t /\ text_of float32 (val float32 x) t /\ len t <= 15.
Proof.
  intro Px. destruct (f2s_ok x (repeat None 16) Px ltac:(cbn; lia)) as (t & b' & E & T & L & P & F).
  exists t. split; [|split; assumption]. unfold to_string_float. rewrite E. cbn [bind]. apply (read_terminated (repeat None 16)); [exact P|cbn [repeat length]; lia|exact F].
Qed.
Theorem to_string_double_ok x : pattern float64 x ->
  exists t, to_string_double x = Ok t /\ text_of float64 (val float64 x) t /\ len t <= 24.
Proof.
  intro Px. destruct (d2s_ok x (repeat None 25) Px ltac:(cbn; lia)) as (t & b' & E & T & L & P & F).
  exists t. split; [|split; assumption]. unfold to_string_double. rewrite E. cbn [bind]. apply (read_terminated (repeat None 25)); [exact P|cbn [repeat length]; lia|exact F].
Qed.
