(** C83: Simple Decimal Conversion (simple_decimal_conversion.h). *)
From Coq Require Import ZArith List Bool Lia Reals Lra.
From Flocq Require Import Core.
From Verif Require Import Mem FpModel FpProofs LitModel LitProofs LimProps RyuText RyuRound RyuParse RyuCvt FfModel FfRound FfCompute FfScan FfDigit FfProps SdcModel SdcProofs SdcRound SdcCompute.
Import ListNotations.
Open Scope Z_scope.
Ltac Zify.zify_post_hook ::= idtac.
Local Notation len l := (Z.of_nat (length l)).
Local Notation two k := (bpow radix2 k).

(** the number a list of decimal digits spells, and the number 0.d1d2d3... * 10^p *)
Definition number (ds : list Z) : Z := fold_left (fun a d => 10 * a + d) ds 0.
Definition value (ds : list Z) (p : Z) : R := dec (number ds) (p - len ds).
(** decimal digits without a leading zero *)
Definition plain (ds : list Z) : Prop := ds <> [] /\ hd 0 ds <> 0 /\ Forall (fun d => 0 <= d <= 9) ds.
(** the digits of h are ds *)
Definition holds (h : decimal) (ds : list Z) : Prop :=
  num_digits h = len ds /\ forall i d, nth_error ds i = Some d -> digits h (Z.of_nat i) = Some d.

Lemma number_snoc l d : number (l ++ [d]) = 10 * number l + d.
Proof. unfold number. rewrite fold_left_app. reflexivity. Qed.
Lemma number_app l : forall r, number (l ++ r) = number l * 10 ^ len r + number r.
Proof.
  induction r as [|d r IH] using rev_ind; [rewrite app_nil_r; cbn; lia|]. rewrite app_assoc, !number_snoc, IH, app_length, Nat2Z.inj_add. change (len [d]) with 1. rewrite ten_succ by lia. ring.
Qed.
Lemma number_bound l : Forall (fun d => 0 <= d <= 9) l -> 0 <= number l < 10 ^ len l.
Proof.
  induction l as [|d l IH] using rev_ind; intro F; [cbn; lia|]. apply Forall_app in F. destruct F as [F1 F2]. inversion F2; subst. specialize (IH F1). rewrite number_snoc, app_length, Nat2Z.inj_add. change (len [d]) with 1. rewrite ten_succ by lia. lia.
Qed.
Lemma number_top ds : plain ds -> 10 ^ (len ds - 1) <= number ds < 10 ^ len ds.
Proof.
  intros (N & H & F). split; [|apply number_bound; exact F]. destruct ds as [|d ds]; [congruence|]. cbn [hd] in H. change (d :: ds) with ([d] ++ ds). rewrite number_app. inversion F as [|? ? F1 F2]; subst. pose proof (number_bound ds F2). change (number [d]) with d. rewrite app_length, Nat2Z.inj_add. change (len [d]) with 1. replace (1 + len ds - 1) with (len ds) by lia. nia.
Qed.
Lemma number_zero l : Forall (fun d => 0 <= d <= 9) l -> (number l =? 0) = negb (existsb (fun d => negb (d =? 0)) l).
Proof.
  induction l as [|d l IH] using rev_ind; intro F; [reflexivity|]. apply Forall_app in F. destruct F as [F1 F2]. inversion F2; subst. specialize (IH F1). rewrite number_snoc, existsb_app. cbn [existsb]. pose proof (number_bound l F1). rewrite orb_false_r, negb_orb, negb_involutive, <- IH. destruct (Z.eqb_spec (number l) 0), (Z.eqb_spec d 0); cbn [andb]; lia.
Qed.
Lemma nth_number ds : Forall (fun d => 0 <= d <= 9) ds -> forall i d, nth_error ds i = Some d -> d = (number ds / 10 ^ (len ds - 1 - Z.of_nat i)) mod 10.
Proof.
  intros F i d H. destruct (nth_error_split ds i H) as (l1 & l2 & E & L). subst ds i. apply Forall_app in F. destruct F as [F1 F2]. inversion F2 as [|? ? F3 F4]; subst.
  replace (l1 ++ d :: l2) with ((l1 ++ [d]) ++ l2) by (rewrite <- app_assoc; reflexivity). rewrite number_app, number_snoc, !app_length, !Nat2Z.inj_add. change (len [d]) with 1. pose proof (number_bound l2 F4) as B. replace (len l1 + 1 + len l2 - 1 - len l1) with (len l2) by lia.
  rewrite Z.div_add_l, (Z.div_small (number l2)), Z.add_0_r by lia. rewrite Z.mul_comm, Z.add_comm, Z.mod_add by lia. symmetry. apply Z.mod_small. lia.
Qed.
Lemma holds_rep size h ds : plain ds -> len ds <= size -> holds h ds -> rep size h (number ds).
Proof.
  intros P L [Hn Hd]. pose proof (number_top ds P) as T. destruct P as (N & _ & F). unfold rep. rewrite Hn. split; [destruct ds; [congruence|cbn [length] in *; lia]|]. split; [exact T|]. intros j Hj. unfold cell.
  destruct (nth_error ds (Z.to_nat j)) as [d|] eqn:E; [|apply nth_error_None in E; lia]. specialize (Hd _ _ E). rewrite Z2Nat.id in Hd by lia. rewrite Hd. f_equal. rewrite (nth_number ds F _ _ E). rewrite Z2Nat.id by lia. reflexivity.
Qed.
(** n digits of N *)
Fixpoint spell (n : nat) (N : Z) : list Z := match n with O => [] | S n' => spell n' (N / 10) ++ [N mod 10] end.
Lemma spell_length n : forall N, length (spell n N) = n.
Proof. induction n as [|n IH]; intro N; cbn [spell]; [reflexivity|]. rewrite app_length, IH. cbn. lia. Qed.
Lemma spell_digits n : forall N, Forall (fun d => 0 <= d <= 9) (spell n N).
Proof. induction n as [|n IH]; intro N; cbn [spell]; [constructor|]. apply Forall_app. split; [apply IH|]. constructor; [|constructor]. pose proof (Z.mod_pos_bound N 10). lia. Qed.
Lemma spell_number n : forall N, 0 <= N < 10 ^ Z.of_nat n -> number (spell n N) = N.
Proof. induction n as [|n IH]; intros N H; cbn [spell]; [cbn in *; lia|]. rewrite Nat2Z.inj_succ, <- Z.add_1_r, ten_succ in H by lia. rewrite number_snoc, IH; [symmetry; apply Z.div_mod; lia|]. split; [apply Z.div_pos; lia|apply Z.div_lt_upper_bound; lia]. Qed.
Lemma spell_hd n : forall N, 10 ^ (Z.of_nat (S n) - 1) <= N < 10 ^ Z.of_nat (S n) -> hd 0 (spell (S n) N) <> 0.
Proof.
  induction n as [|n IH]; intros N H; [cbn in *; rewrite Z.mod_small; lia|]. change (spell (S (S n)) N) with (spell (S n) (N / 10) ++ [N mod 10]). assert (X : hd 0 (spell (S n) (N / 10)) <> 0).
  { apply IH. replace (Z.of_nat (S (S n)) - 1) with (Z.of_nat (S n) - 1 + 1) in H by lia. replace (Z.of_nat (S (S n))) with (Z.of_nat (S n) + 1) in H by lia. rewrite !ten_succ in H by lia. split; [apply Z.div_le_lower_bound; lia|apply Z.div_lt_upper_bound; lia]. }
  pose proof (spell_length (S n) (N / 10)) as L. destruct (spell (S n) (N / 10)); [discriminate L|exact X].
Qed.
Lemma rep_holds size h N : rep size h N -> N mod 10 <> 0 -> exists ds, plain ds /\ len ds <= size /\ holds h ds /\ number ds = N /\ last ds 0 <> 0.
Proof.
  intros (R1 & R2 & R3) NZ. set (n := Z.to_nat (num_digits h)). assert (Hn : Z.of_nat n = num_digits h) by (apply Z2Nat.id; lia). pose proof (ten_pos (num_digits h - 1) ltac:(lia)) as P. exists (spell n N). rewrite spell_length.
  assert (EN : number (spell n N) = N) by (apply spell_number; rewrite Hn; lia).
  split; [|split; [lia|split; [|split; [exact EN|]]]].
  - destruct n as [|n']; [lia|]. split; [cbn [spell]; intro H; symmetry in H; now apply app_cons_not_nil in H|]. split; [apply spell_hd; rewrite Hn; exact R2|apply spell_digits].
  - split; [now rewrite spell_length|]. intros i d H. assert (L : (i < n)%nat) by (rewrite <- (spell_length n N); apply nth_error_Some; congruence). pose proof (R3 (Z.of_nat i) ltac:(lia)) as C. unfold cell in C. rewrite C. f_equal. rewrite (nth_number _ (spell_digits n N) _ _ H), EN, spell_length, Hn. reflexivity.
  - destruct n as [|n']; [lia|]. cbn [spell]. rewrite last_last. exact NZ.
Qed.

(** what a shift gives: digits without leading or trailing zeros whose value is the exact one when it has no more than
    [size] digits and otherwise the exact one cut after [size] digits, which is recorded *)
Definition shift_result (size : Z) (h h' : decimal) (ds' : list Z) (exact : R) : Prop :=
  plain ds' /\ len ds' <= size /\ holds h' ds' /\ last ds' 0 <> 0 /\ dnegative h' = dnegative h /\
  (value ds' (point h') <= exact < value ds' (point h') + powerRZ 10 (point h' - size))%R /\
  (truncated h' = true <-> truncated h = true \/ value ds' (point h') <> exact).

Lemma shifted_result size h h' T p : shifted size h h' T p -> exists ds', shift_result size h h' ds' (dec T p).
Proof.
  intros (N & c & t & R & NZ & Hc & Ht & Ev & Ep & Hs & Etr & En). destruct (rep_holds size h' N R NZ) as (ds & P & L & H & EN & La). exists ds. pose proof (ten_pos c Hc) as Pc. pose proof (Z.div_mod T (10 ^ c) ltac:(lia)) as DM. pose proof (Z.mod_pos_bound T (10 ^ c) Pc) as BM. pose proof (proj1 H) as Hnum.
  assert (V1 : value ds (point h') = dec (T / 10 ^ c) (p + c)) by (unfold value; rewrite <- Hnum, EN, Ep, dec_add, Ev by exact Ht; reflexivity).
  assert (V2 : value ds (point h') = dec (T / 10 ^ c * 10 ^ c) p) by (rewrite V1, dec_add by exact Hc; reflexivity).
  assert (Eq : T mod 10 ^ c = 0 -> value ds (point h') = dec T p) by (intro E; rewrite V2; f_equal; lia).
  assert (Lt : T mod 10 ^ c <> 0 -> (value ds (point h') < dec T p)%R) by (intro E; rewrite V2; apply dec_lt; lia).
  split; [exact P|]. split; [exact L|]. split; [exact H|]. split; [exact La|]. split; [exact En|]. split.
  - split; [destruct (Z.eq_dec (T mod 10 ^ c) 0) as [E|E]; [rewrite (Eq E); lra|specialize (Lt E); lra]|]. pose proof (dec_pos 1 (point h' - size) ltac:(lia)) as Pp. rewrite ten_down in Pp. destruct Hs as [C0|Hs].
    + rewrite Eq; [lra|]. rewrite C0. apply Z.mod_1_r.
    + rewrite <- ten_down. replace (point h' - size) with (p + c) by lia. rewrite V1. replace (dec (T / 10 ^ c) (p + c) + dec 1 (p + c))%R with (dec (T / 10 ^ c + 1) (p + c)) by (unfold dec; rewrite plus_IZR; ring). rewrite dec_add by exact Hc. apply dec_lt. lia.
  - rewrite Etr, orb_true_iff, negb_true_iff, Z.eqb_neq. split; (intros [A|A]; [now left|right]); [specialize (Lt A); lra|]. intro E. apply A, Eq, E.
Qed.

(** The value is multiplied by 2^s. *)
Theorem C83_left_shift : forall size h ds s, 1 <= size < 10 ^ 9 -> plain ds -> len ds <= size -> holds h ds -> 1 <= s <= 60 -> -10 ^ 9 <= point h <= 10 ^ 9 ->
  exists h' ds', left_shift size h s = Ok h' /\ shift_result size h h' ds' (value ds (point h) * powerRZ 2 s).
Proof.
  intros size h ds s Hs P L H Hsh Hp. destruct (left_ok size Hs h (number ds) s (holds_rep size h ds P L H) Hsh ltac:(lia)) as (h' & E & Sh). destruct (shifted_result _ _ _ _ _ Sh) as (ds' & R). exists h', ds'. split; [exact E|].
  replace (value ds (point h) * powerRZ 2 s)%R with (dec (number ds * 2 ^ s) (point h - num_digits h)); [exact R|]. unfold value. rewrite (proj1 H). unfold dec. rewrite mult_IZR. replace (powerRZ 2 s) with (IZR (2 ^ s)); [ring|]. rewrite <- (two_Z s), bpow_powerRZ by lia. reflexivity.
Qed.
Print Assumptions C83_left_shift.

(** The value is divided by 2^s. *)
Theorem C83_right_shift : forall size range h ds s, 1 <= size < 10 ^ 9 -> plain ds -> len ds <= size -> holds h ds -> 1 <= s <= 60 -> -10 ^ 9 <= point h <= 10 ^ 9 -> - range <= point h - 20 ->
  exists h' ds', right_shift size range h s = Ok h' /\ shift_result size h h' ds' (value ds (point h) * powerRZ 2 (- s)).
Proof.
  intros size range h ds s Hs P L H Hsh Hp Hr. destruct (right_ok size range Hs h (number ds) s (holds_rep size h ds P L H) Hsh ltac:(lia) Hr) as (h' & E & Sh). destruct (shifted_result _ _ _ _ _ Sh) as (ds' & R). exists h', ds'. split; [exact E|].
  replace (value ds (point h) * powerRZ 2 (- s))%R with (dec (number ds * 5 ^ s) (point h - num_digits h - s)); [exact R|]. unfold value. rewrite (proj1 H). unfold dec. rewrite mult_IZR. unfold Z.sub at 1. rewrite powerRZ_add by lra.
  assert (I : (IZR (5 ^ s) * powerRZ 10 (- s) = powerRZ 2 (- s))%R).
  { assert (A : (powerRZ 2 s * powerRZ 2 (- s) = 1)%R) by (rewrite <- powerRZ_add by lra; replace (s + - s) with 0 by lia; reflexivity). assert (A2 : (0 < powerRZ 2 s)%R) by (apply powerRZ_lt; lra). apply (Rmult_eq_reg_l (powerRZ 2 s)); [|lra]. rewrite A. replace (powerRZ 2 s) with (IZR (2 ^ s)) by (rewrite <- (two_Z s), bpow_powerRZ by lia; reflexivity). rewrite <- Rmult_assoc, <- mult_IZR, <- Z.pow_mul_l. change (2 * 5) with 10. rewrite <- powerRZ_10, <- powerRZ_add by (lia || lra). replace (s + - s) with 0 by lia. reflexivity. }
  rewrite <- I. ring.
Qed.
Print Assumptions C83_right_shift.

(** The integer round gives is the nearest one, with ties to even, to every number v the digits stand for: v itself
    when nothing was cut off, otherwise a larger one with no half-integer up to it. *)
Theorem C83_round : forall size h ds v, 768 <= size < 10 ^ 9 -> plain ds -> len ds <= size -> holds h ds -> last ds 0 <> 0 -> point h <= 18 ->
  (truncated h = false -> v = value ds (point h)) -> (truncated h = true -> (value ds (point h) < v)%R) -> (forall j, (IZR j / 2 <= v -> IZR j / 2 <= value ds (point h))%R) ->
  exists m, round size h = Ok m /\ (Rabs (v - IZR m) <= / 2)%R /\ (Rabs (v - IZR m) = / 2 -> Z.even m = true)%R.
Proof.
  intros size h ds v Hs P L H La Hp Ex St Gr. pose proof (holds_rep size h ds P L H) as R. assert (VE : val h (number ds) = value ds (point h)) by (unfold val, value; now rewrite (proj1 H)).
  assert (Fo : follows size h (number ds) v (-1)).
  { split; [exact R|]. rewrite VE. split; [destruct (truncated h); [specialize (St eq_refl); lra|rewrite (Ex eq_refl); lra]|]. split; [exact Ex|]. split; [exact St|]. intros j Hj. change (two (-1)) with (/ 2)%R in *. now apply Gr. }
  assert (NZ : number ds mod 10 <> 0). { destruct ds as [|d l _] using rev_ind; [destruct P as [P _]; congruence|]. rewrite last_last in La. rewrite number_snoc, Z.add_comm, Z.mul_comm, Z.mod_add by lia. destruct P as (_ & _ & F). apply Forall_app in F. destruct F as [_ F]. inversion F; subst. rewrite Z.mod_small; lia. }
  destruct (round_ok size Hs h (number ds) v (-1) Fo NZ ltac:(lia) Hp) as (m & E & _ & I). exists m. split; [exact E|]. unfold inR in I. destruct (Z.even m); (split; [|intro A; try reflexivity]); try (apply Rabs_le; lra). exfalso. revert A. unfold Rabs. destruct (Rcase_abs (v - IZR m)); lra.
Qed.
Print Assumptions C83_round.

(** Whatever digits are given, as many as 768 of them kept and a flag telling whether one of the others is not zero,
    compute_float finds the nearest float or double. *)
Theorem C83_compute_float : forall size range b ds h, std b -> 768 <= size < 10 ^ 9 -> 400 <= range ->
  (ds = [] \/ plain ds) -> holds h (firstn (Z.to_nat size) ds) -> truncated h = existsb (fun d => negb (d =? 0)) (skipn (Z.to_nat size) ds) ->
  exists am, sdc_compute size range b h = Ok am /\ forall neg, nearest (bfmt b) neg (value ds (point h)) (to_float b neg am).
Proof.
  intros size range b ds h Hb Hs Hr Hds Hh Ht. set (q := point h - len ds). assert (Hw : 0 <= number ds) by (destruct Hds as [->|(_ & _ & F)]; [discriminate|apply number_bound, F]).
  assert (G : exists am, sdc_compute size range b h = Ok am /\ packs b am (literal (bfmt b) (number ds) q)).
  2:{ destruct G as (am & E & _ & Pk). exists am. split; [exact E|]. intro neg. rewrite Pk. unfold value. fold q. now apply nearest_bits. }
  destruct Hds as [->|P].
  { exists (AM 0 0). unfold sdc_compute. destruct Hh as [Hn _]. rewrite Hn, firstn_nil. cbn [length Z.of_nat Z.eqb]. split; [reflexivity|]. change (number []) with 0. rewrite RyuCvt.lit_zero. replace 0 with (0 * 2 ^ explicit_bits b + 0) at 3 by lia. apply pack_fields; [now apply std_consts|destruct Hb as [->| ->]; cbn; lia|destruct Hb as [->| ->]; cbn; lia]. }
  pose proof (number_top ds P) as NT. set (F := firstn (Z.to_nat size) ds) in *. set (Rr := skipn (Z.to_nat size) ds) in *. assert (EF : ds = F ++ Rr) by (symmetry; apply firstn_skipn).
  assert (LF : len F = Z.min size (len ds)) by (unfold F; rewrite firstn_length; lia). assert (LR : len ds = len F + len Rr) by (rewrite EF at 1; rewrite app_length; lia).
  assert (PF : plain F). { destruct P as (N & Hd & Fa). destruct ds as [|d l]; [congruence|]. unfold F. destruct (Z.to_nat size) as [|k] eqn:Ek; [lia|]. cbn [firstn]. split; [discriminate|]. split; [exact Hd|]. inversion Fa; subst. constructor; [assumption|]. apply Forall_forall. intros y Hy. rewrite Forall_forall in H2. apply H2. rewrite <- (firstn_skipn k l). apply in_or_app. now left. }
  assert (FR : Forall (fun d => 0 <= d <= 9) Rr). { destruct P as (_ & _ & Fa). rewrite EF in Fa. apply Forall_app in Fa. apply Fa. }
  pose proof (holds_rep size h F PF ltac:(lia) Hh) as R. pose proof (number_bound Rr FR) as BR. assert (NE : number ds = number F * 10 ^ len Rr + number Rr) by (rewrite EF at 1; apply number_app).
  set (x := dec (number ds) q). set (w := number ds) in *. assert (W0 : 0 < w) by (pose proof (ten_pos (len ds - 1)); destruct P as (Pn & _); destruct ds; [congruence|cbn [length] in *; lia]).
  assert (X0 : (0 < x)%R) by (apply dec_pos; exact W0).
  assert (XM : (dec 1 (point h - 1) <= x < dec 1 (point h))%R).
  { unfold x, q. assert (L1 : 1 <= len ds) by (destruct P as (Pn & _); destruct ds; [congruence|cbn [length]; lia]). split.
    - replace (point h - 1) with (point h - len ds + (len ds - 1)) by lia. rewrite dec_add by lia. apply dec_le. lia.
    - replace (dec 1 (point h)) with (dec 1 (point h - len ds + len ds)) by (f_equal; lia). rewrite dec_add by lia. apply dec_lt. lia. }
  destruct (Hh) as [Hn _]. assert (N1 : 1 <= num_digits h) by (destruct R as (R1 & _); lia).
  destruct (Z.ltb_spec (point h) (-324)) as [Lo|Lo].
  { exists (AM 0 0). unfold sdc_compute. replace (num_digits h =? 0) with false by lia. replace (point h <? -324) with true by lia. split; [reflexivity|]. rewrite (FfRound.lit_zero (bfmt b) w q W0).
    - replace 0 with (0 * 2 ^ explicit_bits b + 0) at 3 by lia. apply pack_fields; [now apply std_consts|destruct Hb as [->| ->]; cbn; lia|destruct Hb as [->| ->]; cbn; lia].
    - fold x. apply Rle_trans with (two (-1075)); [|apply bpow_le; destruct Hb as [->| ->]; cbn; lia]. destruct (Rle_lt_dec x (two (-1075))) as [A|A]; [exact A|]. exfalso. destruct (two_ten (point h) (-1075)) as [T _]; [lra|]. specialize (T ltac:(lia)). lia. }
  destruct (Z.leb_spec 310 (point h)) as [Hi|Hi].
  { exists (AM 0 (infinite_power b)). unfold sdc_compute. replace (num_digits h =? 0) with false by lia. replace (point h <? -324) with false by lia. replace (310 <=? point h) with true by lia. split; [reflexivity|]. apply (packs_inf b Hb). apply lit_inf; [exact W0|]. fold x. apply Rle_trans with (two 1024); [apply bpow_le; destruct Hb as [->| ->]; vm_compute; discriminate|]. destruct (Rle_lt_dec (two 1024) x) as [A|A]; [exact A|]. exfalso. destruct (ten_two (point h) 1024) as [_ T]; [lra|]. specialize (T ltac:(lia)). lia. }
  destruct (Raux.mag radix2 x) as [E HE]. specialize (HE (Rgt_not_eq _ _ X0)). rewrite Rabs_pos_eq in HE by lra.
  assert (BE : -1085 <= E <= 1100).
  { destruct (ten_two (point h) E) as [A1 A2]; [lra|]. destruct (two_ten (point h) (E - 1)) as [B1 B2]; [lra|]. clear - A1 A2 B1 B2 Lo Hi. destruct (Z.le_gt_cases (point h - 1) 0) as [C|C]; [specialize (A1 C); clear A2|specialize (A2 ltac:(lia)); clear A1]; (destruct (Z.le_gt_cases (point h) 0) as [D|D]; [specialize (B1 D); clear B2|specialize (B2 ltac:(lia)); clear B1]); lia. }
  apply (compute_ok size range Hs Hr b Hb x E BE HE w q W0 eq_refl h (number F)); [|lia|lia].
  unfold stage. replace (x * two (- 0))%R with x by (cbn; ring). rewrite Z.sub_0_r.
  apply (cut_follows size h (number F) w q (len Rr) 0 false x (unit b E)).
  - exact R.
  - lia.
  - lia.
  - change (10 ^ 0) with 1. rewrite Z.mul_1_r, NE. rewrite Z.div_add_l, (Z.div_small (number Rr)) by lia. lia.
  - unfold q. lia.
  - lia.
  - cbn [orb]. rewrite Ht, NE, Z.add_comm, Z.mod_add, Z.mod_small by lia. rewrite (number_zero Rr FR), negb_involutive. reflexivity.
  - unfold x. lra.
  - reflexivity.
  - discriminate.
  - intros j Hj. exact Hj.
  - apply Z.le_trans with 768; [|lia]. apply (fits_digits (point h) E); [lra|]. pose proof (room_fits b Hb E BE 0 ltac:(unfold room; lia)) as Fi. rewrite !Z.sub_0_r in Fi. exact Fi.
Qed.
Print Assumptions C83_compute_float.

(** 123 * 2^4 = 1968 in a decimal of five digits, 99999 / 2^3 = 12499.875 cut to 12499; then 9007199254740993 =
    2^53 + 1 is a tie, which a digit lost far behind decides; the least subnormal float; overflow *)
Definition store_of (ds : list Z) (p : Z) (cut : bool) : decimal := Decimal (fun i => if i <? 0 then None else nth_error ds (Z.to_nat i)) (len ds) p false cut.
Example C83_case :
  (match left_shift 5 (store_of [1; 2; 3] 3 false) 4 with Ok h => (map (digits h) [0; 1; 2; 3], num_digits h, point h, truncated h) = ([Some 1; Some 9; Some 6; Some 8], 4, 4, false) | _ => False end) /\
  (match right_shift 5 2047 (store_of [9; 9; 9; 9; 9] 5 false) 3 with Ok h => (map (digits h) [0; 1; 2; 3; 4], num_digits h, point h, truncated h) = ([Some 1; Some 2; Some 4; Some 9; Some 9], 5, 5, true) | _ => False end) /\
  (let ds := [9; 0; 0; 7; 1; 9; 9; 2; 5; 4; 7; 4; 0; 9; 9; 3] in
   sdc_compute 768 2047 bdouble (store_of ds 16 false) = Ok (AM 0 1076) /\ sdc_compute 768 2047 bdouble (store_of ds 16 true) = Ok (AM 1 1076)) /\
  sdc_compute 768 2047 bfloat (store_of [1; 4] (-44) false) = Ok (AM 1 0) /\
  sdc_compute 768 2047 bfloat (store_of [3; 4; 0; 2; 8; 2; 3; 6] 39 false) = Ok (AM 0 255).
Proof. vm_compute. repeat split. Qed.
(** digits that meet the hypotheses of the theorem, more than are kept *)
Example C83_hypotheses : exists ds h, plain ds /\ (768 < length ds)%nat /\ holds h (firstn (Z.to_nat 768) ds) /\ truncated h = existsb (fun d => negb (d =? 0)) (skipn (Z.to_nat 768) ds) /\ truncated h = true.
Proof.
  set (ds := [9; 0; 0; 7; 1; 9; 9; 2; 5; 4; 7; 4; 0; 9; 9; 3] ++ repeat 0 800 ++ [1]). exists ds, (store_of (firstn (Z.to_nat 768) ds) 16 true). split; [|split; [|split; [|split]]].
  - split; [discriminate|]. split; [discriminate|]. unfold ds. apply Forall_app. split; [repeat constructor; lia|]. apply Forall_app. split; [|repeat constructor; lia]. apply Forall_forall. intros y Hy. apply repeat_spec in Hy. lia.
  - unfold ds. rewrite !app_length, repeat_length. cbn [length]. lia.
  - split; [reflexivity|]. intros i d H. cbn [digits store_of]. replace (Z.of_nat i <? 0) with false by lia. rewrite Nat2Z.id. exact H.
  - unfold ds. rewrite app_assoc, skipn_app, existsb_app. rewrite app_length, repeat_length. cbn [length]. replace (Z.to_nat 768 - (16 + 800))%nat with O by lia. cbn [skipn existsb]. rewrite orb_true_r. reflexivity.
  - reflexivity.
Qed.
