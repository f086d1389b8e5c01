(** Simple Decimal Conversion: the loops of compute_float and the correctness of its result. *)
From Coq Require Import ZArith List Bool Lia Reals Lra.
From Flocq Require Import Core.
From Verif Require Import Mem FpModel FpProofs LitModel LitProofs LimProps RyuText RyuRound FfModel FfRound FfCompute FfScan FfDigit SdcModel SdcProofs SdcRound.
Open Scope Z_scope.
Ltac Zify.zify_post_hook ::= idtac.
Local Notation two k := (bpow radix2 k).

Lemma two_lt a b : (two a < two b)%R -> a < b.
Proof. apply lt_bpow. Qed.
Lemma i32_id x : - 2 ^ 31 <= x < 2 ^ 31 -> i32 x = Ok x.
Proof. intro H. unfold i32. replace ((- 2 ^ 31 <=? x) && (x <? 2 ^ 31)) with true by lia. reflexivity. Qed.

(** the powers of two in the table are below the powers of ten *)
Lemma shift_for_ok n : 1 <= n -> 1 <= shift_for n <= 60 /\ 2 ^ shift_for n <= 10 ^ n.
Proof.
  intro H. unfold shift_for, max_shift. destruct (Z.ltb_spec n 19) as [L|L].
  - assert (C : In n (1 :: 2 :: 3 :: 4 :: 5 :: 6 :: 7 :: 8 :: 9 :: 10 :: 11 :: 12 :: 13 :: 14 :: 15 :: 16 :: 17 :: 18 :: nil)) by (cbn [In]; lia).
    cbn [In] in C. repeat (destruct C as [<-|C]; [vm_compute; repeat split; discriminate|]). destruct C.
  - split; [lia|]. apply Z.le_trans with (10 ^ 19); [vm_compute; discriminate|]. apply Z.pow_le_mono_r; lia.
Qed.

Section S.
Variable size range : Z.
Hypothesis size_ok : 768 <= size < 1000000000.
Hypothesis range_ok : 400 <= range.
Variable b : bformat.
Hypothesis b_std : std b.
(** the number converted, between 2^(E-1) and 2^E *)
Variable x : R. Variable E : Z.
Hypothesis E_ok : -1085 <= E <= 1100.
Hypothesis x_ok : (two (E - 1) <= x < two E)%R.
Notation mb := (explicit_bits b). Notation mine := (minimum_exponent b).

(** the multiples of 2^unit are the halfway points and the powers of two in question *)
Definition unit : Z := Z.min (E - 1) (Z.max (E - mb - 2) (mine - mb)).
Lemma mb_ok : (mb = 52 /\ mine = -1023) \/ (mb = 23 /\ mine = -127).
Proof. destruct b_std as [->| ->]; [left|right]; split; reflexivity. Qed.

(** the digits of h stand for x / 2^e *)
Definition stage (h : decimal) (N e : Z) : Prop := follows size h N (x * two (- e)) (unit - e).
Definition room (e : Z) : Prop := E - e <= 1100 /\ (-60 <= E - e \/ e <= 0).
Lemma room_fits e : room e -> fits (E - e) (unit - e).
Proof. unfold room, fits, unit. destruct mb_ok as [[-> ->]|[-> ->]]; lia. Qed.
Lemma x_scaled e : (two (E - e - 1) <= x * two (- e) < two (E - e))%R.
Proof. replace (E - e - 1) with (E - 1 + - e) by lia. replace (E - e) with (E + - e) by lia. rewrite !two_add. pose proof (two_pos (- e)). split; [apply Rmult_le_compat_r|apply Rmult_lt_compat_r]; lra. Qed.

Record mag (h : decimal) (N e : Z) : Prop := Mag {
  mg_point : (dec 1 (point h - 1) <= val h N < dec 1 (point h))%R;
  mg_low : (two (E - e - 1) <= val h N)%R;
  mg_up : (val h N <= x * two (- e) < two (E - e))%R;
  mg_range : -330 <= point h <= 335 }.
Lemma stage_mag h N e : stage h N e -> room e -> mag h N e.
Proof.
  intros (R & Lo & _ & _ & Gr) Rm. pose proof (val_mag size h N R) as VM. pose proof (x_scaled e) as XS.
  assert (P : (two (E - e - 1) <= val h N)%R).
  { specialize (Gr (2 ^ (E - 1 - unit))). rewrite <- two_Z in Gr by (unfold unit; lia). rewrite <- two_add in Gr. replace (E - 1 - unit + (unit - e)) with (E - e - 1) in Gr by lia. apply Gr. lra. }
  constructor; try assumption; [lra|]. apply (fits_point (point h) (E - e)); [lra|lra|]. destruct (room_fits e Rm) as [H _]. exact H.
Qed.

Lemma go_left h N e s : stage h N e -> room e -> room (e - s) -> 1 <= s <= 60 -> exists h' N', left_shift size h s = Ok h' /\ stage h' N' (e - s) /\ N' mod 10 <> 0.
Proof.
  intros St Rm Rm' Hs. pose proof (mg_range _ _ _ (stage_mag h N e St Rm)) as Pt. unfold stage in *.
  assert (Ex : (x * two (- (e - s)) = x * two (- e) * two s)%R) by (replace (- (e - s)) with (- e + s) by lia; rewrite two_add; ring).
  pose proof (x_scaled (e - s)) as XS. rewrite Ex in XS. pose proof (room_fits _ Rm') as F. replace (unit - (e - s)) with (unit - e + s) in F by lia.
  destruct (left_follows size size_ok h N s _ _ (E - (e - s)) St Hs ltac:(lia) (proj2 XS) F) as (h' & N' & H1 & H2 & H3). exists h', N'. rewrite Ex. replace (unit - (e - s)) with (unit - e + s) by lia. now split.
Qed.
Lemma go_right h N e s : stage h N e -> room e -> room (e + s) -> 1 <= s <= 60 -> exists h' N', right_shift size range h s = Ok h' /\ stage h' N' (e + s) /\ N' mod 10 <> 0.
Proof.
  intros St Rm Rm' Hs. pose proof (mg_range _ _ _ (stage_mag h N e St Rm)) as Pt. unfold stage in *.
  assert (Ex : (x * two (- (e + s)) = x * two (- e) * two (- s))%R) by (replace (- (e + s)) with (- e + - s) by lia; rewrite two_add; ring).
  pose proof (x_scaled (e + s)) as XS. rewrite Ex in XS. pose proof (room_fits _ Rm') as F. replace (unit - (e + s)) with (unit - e + - s) in F by lia.
  destruct (right_follows size range size_ok range_ok h N s _ _ (E - (e + s)) St Hs ltac:(lia) (proj2 XS) F) as (h' & N' & H1 & H2 & H3). exists h', N'. rewrite Ex. replace (unit - (e + s)) with (unit - e + - s) by lia. now split.
Qed.

Lemma ten_ge_1 n : 0 <= n -> (1 <= dec 1 n)%R.
Proof. intro H. replace 1%R with (dec 1 0) by (unfold dec; cbn; lra). apply dec_grow; lia. Qed.
Lemma ten_le_1 n : n <= 0 -> (dec 1 n <= 1)%R.
Proof. intro H. replace 1%R with (dec 1 0) by (unfold dec; cbn; lra). apply dec_grow; lia. Qed.

Lemma scale_down_ok : forall f h N e, stage h N e -> room e -> 0 <= e -> E - e <= Z.of_nat f ->
  exists h' N' e', scale_down size range f h e = Ok (Some (h', e')) /\ stage h' N' e' /\ room e' /\ point h' <= 0.
Proof.
  induction f as [|f IH]; intros h N e St Rm He Hf.
  - cbn [scale_down]. destruct (stage_mag h N e St Rm) as [M1 M2 M3 M4]. destruct (Z.leb_spec (point h) 0) as [L|L]; [exists h, N, e; auto|]. exfalso. pose proof (ten_ge_1 (point h - 1) ltac:(lia)) as G. assert (0 < E - e); [|lia]. apply two_lt. change (two 0) with 1%R. lra.
  - cbn [scale_down]. destruct (stage_mag h N e St Rm) as [M1 M2 M3 M4]. destruct (Z.leb_spec (point h) 0) as [L|L]; [exists h, N, e; auto|].
    pose proof (ten_ge_1 (point h - 1) ltac:(lia)) as G. assert (K : 0 < E - e) by (apply two_lt; change (two 0) with 1%R; lra). destruct (shift_for_ok (point h) ltac:(lia)) as [Sh _]. set (s := shift_for (point h)) in *. clearbody s.
    assert (Rm' : room (e + s)) by (unfold room in *; lia). destruct (go_right h N e s St Rm Rm' Sh) as (h1 & N1 & E1 & St1 & _). rewrite E1. cbn [bind]. pose proof (mg_range _ _ _ (stage_mag h1 N1 _ St1 Rm')) as Pt. replace (point h1 <? - range) with false by lia. rewrite i32_id by lia. cbn [bind]. apply (IH h1 N1); try assumption; lia.
Qed.

Lemma scale_up_ok : forall f h N e, stage h N e -> room e -> point h <= 0 -> e - E <= Z.of_nat f ->
  exists h' N', scale_up size range f h e = Ok (Some (h', E)) /\ stage h' N' E.
Proof.
  induction f as [|f IH]; intros h N e St Rm Hp Hf; destruct (stage_mag h N e St Rm) as [M1 M2 M3 M4]; pose proof St as ((R1 & R2 & R3) & _); cbn [scale_up]; replace (0 <? point h) with false by lia.
  all: assert (V1 : (val h N < 1)%R) by (pose proof (ten_le_1 (point h) Hp); lra); assert (K1 : E - e <= 0) by (assert (E - e - 1 < 0); [apply two_lt; change (two 0) with 1%R; lra|lia]).
  all: assert (G0 : point h = 0 -> exists y, get size h 0 = Ok y /\ (IZR y / 10 <= val h N < (IZR y + 1) / 10)%R).
  all: try (intro P0; pose proof (R3 0 ltac:(lia)) as C; unfold cell in C; eexists; split; [apply get_in; [lia|exact C]|]).
  all: try (replace (num_digits h - 1 - 0) with (num_digits h - 1) in * by lia; set (n := num_digits h) in *; pose proof (ten_pos (n - 1) ltac:(lia)) as Pn; rewrite Z.mod_small by (split; [apply Z.div_pos; lia|apply Z.div_lt_upper_bound; [lia|]; replace n with (n - 1 + 1) in R2 at 2 by lia; rewrite ten_succ in R2 by lia; lia])).
  all: try (pose proof (Z.div_mod N (10 ^ (n - 1)) ltac:(lia)) as DM; pose proof (Z.mod_pos_bound N (10 ^ (n - 1)) Pn) as BM; set (y := N / 10 ^ (n - 1)) in *; assert (V : (val h N * 10 = dec N (1 - n))%R) by (unfold val; fold n; rewrite P0; unfold dec; replace (1 - n) with (0 - n + 1) by lia; rewrite powerRZ_add by lra; rewrite powerRZ_1; ring)).
  all: try (assert (U1 : (IZR y <= dec N (1 - n))%R) by (replace (IZR y) with (dec y (1 - n + (n - 1))) by (replace (1 - n + (n - 1)) with 0 by lia; unfold dec; cbn; ring); rewrite dec_add by lia; apply dec_le; lia)).
  all: try (assert (U2 : (dec N (1 - n) < IZR y + 1)%R) by (rewrite <- plus_IZR; replace (IZR (y + 1)) with (dec (y + 1) (1 - n + (n - 1))) by (replace (1 - n + (n - 1)) with 0 by lia; unfold dec; cbn; ring); rewrite dec_add by lia; apply dec_lt; nia)).
  all: try lra.
  all: assert (Done : forall y, point h = 0 -> (IZR y / 10 <= val h N)%R -> 5 <= y -> e = E).
  all: try (intros y P0 Hy H5; apply IZR_le in H5; assert (-1 < E - e); [apply two_lt; change (two (-1)) with (/ 2)%R; lra|lia]).
  all: assert (Low : forall y, point h = 0 -> (val h N < (IZR y + 1) / 10)%R -> y < 5 -> E - e < 0).
  all: try (intros y P0 Hy H5; assert (Y4 : y <= 4) by lia; apply IZR_le in Y4; assert (E - e - 1 < -1); [apply two_lt; change (two (-1)) with (/ 2)%R; lra|lia]).
  all: assert (Neg : point h < 0 -> E - e < 0).
  all: try (intro P0; assert (V2 : (val h N < / 2)%R) by (eapply Rlt_le_trans; [apply (proj2 M1)|]; apply Rle_trans with (dec 1 (-1)); [apply dec_grow; lia|unfold dec; change (powerRZ 10 (-1)) with (/ (10 * 1))%R; rewrite Rmult_1_r; lra]); assert (E - e - 1 < -1); [apply two_lt; change (two (-1)) with (/ 2)%R; lra|lia]).
  - destruct (Z.eqb_spec (point h) 0) as [P0|P0]; [|exfalso; pose proof (Neg ltac:(lia)); lia]. destruct (G0 P0) as (y & Ey & Y1 & Y2). rewrite Ey. cbn [bind andb]. destruct (Z.leb_spec 5 y) as [L|L]; [rewrite (Done y P0 Y1 L) in *; now exists h, N|]. exfalso. pose proof (Low y P0 Y2 L). lia.
  - assert (Step : forall s, E - e < 0 -> 1 <= s <= 60 -> (val h N * IZR (2 ^ s) < 1)%R -> exists h1 N1, left_shift size h s = Ok h1 /\ (range <? point h1) = false /\ i32 (e - s) = Ok (e - s) /\ stage h1 N1 (e - s) /\ room (e - s) /\ point h1 <= 0 /\ e - s - E <= Z.of_nat f).
    { intros s K2 Hs Hv. assert (KS : E - (e - s) <= 0). { assert (E - (e - s) - 1 < 0); [|lia]. apply two_lt. change (two 0) with 1%R. replace (E - (e - s) - 1) with (E - e - 1 + s) by lia. rewrite two_add, (two_Z s) by lia. eapply Rle_lt_trans; [|exact Hv]. apply Rmult_le_compat_r; [apply IZR_le, Z.pow_nonneg; lia|exact M2]. }
      assert (Rm' : room (e - s)) by (unfold room in *; lia). destruct (go_left h N e s St Rm Rm' Hs) as (h1 & N1 & E1 & St1 & _). destruct (stage_mag h1 N1 _ St1 Rm') as [W1 W2 W3 W4]. exists h1, N1. split; [exact E1|]. split; [lia|]. split; [apply i32_id; unfold room in Rm'; lia|]. split; [exact St1|]. split; [exact Rm'|]. split; [|lia].
      assert (V3 : (val h1 N1 < 1)%R). { eapply Rle_lt_trans; [apply (proj1 W3)|]. eapply Rlt_le_trans; [apply (proj2 W3)|]. change 1%R with (two 0). apply bpow_le. exact KS. }
      destruct (Z.le_gt_cases (point h1) 0) as [L|L]; [exact L|]. pose proof (ten_ge_1 (point h1 - 1) ltac:(lia)). lra. }
    destruct (Z.eqb_spec (point h) 0) as [P0|P0].
    + destruct (G0 P0) as (y & Ey & Y1 & Y2). rewrite Ey. cbn [bind andb]. destruct (Z.leb_spec 5 y) as [L|L]; [rewrite (Done y P0 Y1 L) in *; now exists h, N|].
      destruct (Step (if y <? 2 then 2 else 1)) as (h1 & N1 & -> & T1 & T2 & T3 & T4 & T5 & T6); [exact (Low y P0 Y2 L)|destruct (y <? 2); lia| |].
      { destruct (Z.ltb_spec y 2) as [Q|Q]; [assert (Q1 : y <= 1) by lia; change (2 ^ 2) with 4|assert (Q1 : y <= 4) by lia; change (2 ^ 1) with 2]; apply IZR_le in Q1; lra. }
      cbn [bind]. rewrite T1, T2. cbn [bind]. now apply (IH h1 N1).
    + cbn [bind andb]. destruct (shift_for_ok (- point h) ltac:(lia)) as [Sh Sp]. destruct (Step (shift_for (- point h))) as (h1 & N1 & -> & T1 & T2 & T3 & T4 & T5 & T6); [apply Neg; lia|exact Sh| |].
      { apply IZR_le in Sp. rewrite <- powerRZ_10, <- ten_down in Sp by lia. assert (I : (dec 1 (point h) * dec 1 (- point h) = 1)%R) by (rewrite !ten_down, <- powerRZ_add by lra; replace (point h + - point h) with 0 by lia; reflexivity). pose proof (dec_pos 1 (- point h) ltac:(lia)). apply Rle_lt_trans with (val h N * dec 1 (- point h))%R; [apply Rmult_le_compat_l; [|exact Sp]; pose proof (dec_pos 1 (point h - 1) ltac:(lia)); lra|]. rewrite <- I. apply Rmult_lt_compat_r; [assumption|apply (proj2 M1)]. }
      cbn [bind]. rewrite T1, T2. cbn [bind]. now apply (IH h1 N1).
Qed.

(** the exponent the result gets *)
Definition top : Z := Z.max (E - 1) (mine + 1).
Lemma denormalise_ok : forall f h N y, stage h N (y + 1) -> E - 1 <= y <= top -> mine + 1 - y <= Z.of_nat f ->
  exists h' N', denormalise size range b f h y = Ok (h', top) /\ stage h' N' (top + 1).
Proof.
  assert (Rm : forall y, E - 1 <= y <= top -> room (y + 1)) by (intros y Hy; unfold room, top in *; destruct mb_ok as [[_ M]|[_ M]]; rewrite M in *; lia).
  induction f as [|f IH]; intros h N y St Hy Hf; cbn [denormalise]; (destruct (Z.ltb_spec y (mine + 1)) as [L|L]; [|assert (y = top) as -> by (unfold top in *; lia); now exists h, N]); [exfalso; lia|].
  set (n := if max_shift <? mine + 1 - y then max_shift else mine + 1 - y). assert (Hn : 1 <= n <= 60 /\ y + n <= mine + 1) by (unfold n, max_shift; destruct (Z.ltb_spec 60 (mine + 1 - y)); lia). clearbody n.
  assert (Hy' : E - 1 <= y + n <= top) by (unfold top in *; lia). pose proof (Rm _ Hy) as R0. pose proof (Rm _ Hy') as R1. replace (y + n + 1) with (y + 1 + n) in R1 by lia. destruct (go_right h N (y + 1) n St R0 R1 ltac:(lia)) as (h1 & N1 & E1 & St1 & _). rewrite E1. cbn [bind].
  rewrite i32_id by (clear - Hy' Hn E_ok b_std; destruct mb_ok as [[_ M]|[_ M]]; rewrite M in *; lia). cbn [bind]. apply (IH h1 N1); [replace (y + n + 1) with (y + 1 + n) by lia; exact St1|exact Hy'|lia].
Qed.

(** ** the result *)
Variable w q : Z.
Hypothesis w_pos : 0 < w.
Hypothesis w_x : dec w q = x.

Lemma consts_b : consts b.
Proof. destruct b_std as [->| ->]; [apply (std_consts bdouble); now left|apply (std_consts bfloat); now right]. Qed.
Lemma fmt_b : mw (bfmt b) = mb /\ femin (bfmt b) = mine + 1 - mb /\ inf_pattern (bfmt b) = infinite_power b * 2 ^ mb /\ 2 ^ (ew (bfmt b) - 1) = infinite_power b + mine.
Proof. destruct b_std as [->| ->]; repeat split; reflexivity. Qed.

Lemma packs_inf : literal (bfmt b) w q = inf_pattern (bfmt b) -> packs b (AM 0 (infinite_power b)) (literal (bfmt b) w q).
Proof. intros ->. destruct fmt_b as (_ & _ & -> & _). replace (infinite_power b * 2 ^ mb) with (infinite_power b * 2 ^ mb + 0) by lia. pose proof (c_infr b consts_b). apply pack_fields; [apply consts_b| |lia]. split; [lia|apply Z.pow_pos_nonneg; [lia|]; destruct mb_ok as [[-> _]|[-> _]]; lia]. Qed.

Lemma compute_ok h N : stage h N 0 -> num_digits h <> 0 -> -324 <= point h < 310 ->
  exists am, sdc_compute size range b h = Ok am /\ packs b am (literal (bfmt b) w q).
Proof.
  intros St N0 Hp. unfold sdc_compute. replace (num_digits h =? 0) with false by lia. replace (point h <? -324) with false by lia. replace (310 <=? point h) with false by lia.
  assert (R0 : room 0) by (unfold room; lia). destruct (scale_down_ok rounds h N 0 St R0 ltac:(lia)) as (h1 & N1 & e1 & -> & St1 & R1 & P1); [unfold rounds; lia|]. cbn [bind].
  destruct (scale_up_ok rounds h1 N1 e1 St1 R1 P1) as (h2 & N2 & -> & St2); [unfold room, rounds in *; lia|]. cbn [bind].
  destruct (denormalise_ok rounds h2 N2 (E - 1)) as (h3 & N3 & -> & St3); [replace (E - 1 + 1) with E by lia; exact St2|unfold top; lia|unfold rounds; destruct mb_ok as [[_ ->]|[_ ->]]; lia|]. cbn [bind].
  destruct fmt_b as (Fm & Fe & Fi & Fw). pose proof (c_infr b consts_b) as Ir.
  assert (Pm : 0 < 2 ^ mb) by (apply Z.pow_pos_nonneg; [lia|]; destruct mb_ok as [[-> _]|[-> _]]; lia).
  destruct (Z.leb_spec (infinite_power b) (top - mine)) as [Inf|Fin].
  { eexists. split; [reflexivity|]. apply packs_inf. apply lit_inf; [exact w_pos|]. rewrite w_x, Fw. eapply Rle_trans; [|apply (proj1 x_ok)]. apply bpow_le. unfold top in Inf. destruct b_std as [Eb|Eb]; rewrite Eb in *; cbn [infinite_power minimum_exponent bdouble bfloat] in *; lia. }
  set (e := top + 1 - (mb + 1)).
  assert (Re : room (top + 1) /\ room e /\ room (e + 1)) by (unfold room, e, top in *; destruct mb_ok as [[M1 M2]|[M1 M2]]; rewrite M1, M2 in *; lia). destruct Re as (Re0 & Re1 & Re2).
  assert (Sm : 1 <= mb + 1 <= 60) by (destruct mb_ok as [[-> _]|[-> _]]; lia).
  destruct (go_left h3 N3 (top + 1) (mb + 1) St3 Re0 Re1 Sm) as (h4 & N4 & -> & St4 & NZ4). cbn [bind]. fold e in St4.
  assert (Ue : unit - e <= -1) by (unfold unit, e, top; destruct mb_ok as [[-> ->]|[-> ->]]; lia).
  assert (Vx : (x * two (- e) < two (mb + 1))%R). { eapply Rlt_le_trans; [apply (proj2 (x_scaled e))|]. apply bpow_le. unfold e, top. lia. }
  assert (Pt : forall h N, stage h N e \/ stage h N (e + 1) -> point h <= 18).
  { intros h' N' S'. assert (V : (val h' N' < two 53)%R). { apply Rle_lt_trans with (x * two (- e))%R; [|eapply Rlt_le_trans; [exact Vx|]; apply bpow_le; destruct mb_ok as [[-> _]|[-> _]]; lia]. destruct S' as [S'|S']; [apply (mg_up _ _ _ (stage_mag _ _ _ S' Re1))|]. eapply Rle_trans; [apply (mg_up _ _ _ (stage_mag _ _ _ S' Re2))|]. apply Rmult_le_compat_l; [pose proof (two_pos (E - 1)); lra|]. apply bpow_le. lia. }
    assert (M : (dec 1 (point h' - 1) <= val h' N')%R) by (destruct S' as [S'|S']; [apply (mg_point _ _ _ (stage_mag _ _ _ S' Re1))|apply (mg_point _ _ _ (stage_mag _ _ _ S' Re2))]). destruct (ten_two (point h') 53) as [_ T]; [lra|]. destruct (Z.le_gt_cases (point h') 18) as [L|L]; [exact L|]. specialize (T ltac:(lia)). lia. }
  destruct (round_ok size size_ok h4 N4 _ _ St4 NZ4 Ue (Pt h4 N4 (or_introl St4))) as (m & -> & Bm & Im). cbn [bind].
  pose proof (two_pos e) as Pe. assert (Xe : x = (x * two (- e) * two e)%R) by (rewrite Rmult_assoc, <- two_add; replace (- e + e) with 0 by lia; cbn; ring).
  assert (Hm : m <= 2 ^ (mb + 1)). { destruct (Z.le_gt_cases m (2 ^ (mb + 1))) as [L|L]; [exact L|]. exfalso. assert (L1 : 2 ^ (mb + 1) + 1 <= m) by lia. apply IZR_le in L1. rewrite plus_IZR, <- two_Z in L1 by lia. unfold inR in Im. destruct (Z.even m); lra. }
  assert (Lit : literal (bfmt b) w q = Z.min (inf_pattern (bfmt b)) ((top - mine - 1) * 2 ^ mb + m)).
  { rewrite (lit_at (bfmt b) w q e m w_pos).
    - rewrite Fm, Fe. do 2 f_equal. f_equal. unfold e. lia.
    - rewrite Fe. unfold e, top. lia.
    - rewrite w_x, Fm. eapply Rlt_le_trans; [apply (proj2 x_ok)|]. apply bpow_le. unfold e, top. lia.
    - rewrite w_x, Fm, Fe. unfold e, top. destruct (Z.le_gt_cases (E - 1) (mine + 1)) as [L|L]; [left; lia|right]. eapply Rle_trans; [|apply (proj1 x_ok)]. apply bpow_le. lia.
    - rewrite w_x. revert Im. rewrite Xe at 2. generalize (x * two (- e))%R. intros v. unfold inR. destruct (Z.even m); intros [A B]; split; (apply Rmult_le_compat_r || apply Rmult_lt_compat_r); lra. }
  assert (TM : 1 <= top - mine) by (unfold top; lia).
  destruct (Z.leb_spec (2 ^ (mb + 1)) m) as [Ov|Nov].
  - assert (m = 2 ^ (mb + 1)) as -> by lia. rewrite Z.pow_add_r in * by lia. change (2 ^ 1) with 2 in *.
    destruct (go_right h4 N4 e 1 St4 Re1 Re2 ltac:(lia)) as (h5 & N5 & -> & St5 & NZ5). cbn [bind]. destruct (round_ok size size_ok h5 N5 _ _ St5 NZ5 ltac:(lia) (Pt h5 N5 (or_intror St5))) as (m2 & -> & Bm2 & Im2). cbn [bind].
    assert (m2 = 2 ^ mb) as ->.
    { assert (Hv : (x * two (- (e + 1)) = x * two (- e) / 2)%R) by (replace (- (e + 1)) with (- e + -1) by lia; rewrite two_add; change (two (-1)) with (/ 2)%R; unfold Rdiv; ring). rewrite Hv in Im2. assert (Q : (IZR (2 ^ mb) - / 4 <= x * two (- e) / 2 < IZR (2 ^ mb))%R).
      { rewrite (two_Z (mb + 1)), Z.pow_add_r, mult_IZR in Vx by lia. change (IZR (2 ^ 1)) with 2%R in Vx. rewrite mult_IZR in Im. unfold inR in Im. destruct (Z.even (2 ^ mb * 2)); lra. }
      assert (A1 : (IZR (2 ^ mb - 1) < IZR m2)%R) by (rewrite minus_IZR; unfold inR in Im2; destruct (Z.even m2); lra). assert (A2 : (IZR m2 < IZR (2 ^ mb + 1))%R) by (rewrite plus_IZR; unfold inR in Im2; destruct (Z.even m2); lra). apply lt_IZR in A1, A2. lia. }
    rewrite Fi in Lit. destruct (Z.leb_spec (infinite_power b) (top + 1 - mine)) as [Inf2|Fin2]; cbn [bind].
    + eexists. split; [reflexivity|]. apply packs_inf. rewrite Lit, Fi. apply Z.min_l. nia.
    + rewrite Z.ltb_irrefl. eexists. split; [reflexivity|]. replace (Z.land (2 ^ mb) (2 ^ mb - 1)) with 0.
      * rewrite Lit, Z.min_r by nia. replace ((top - mine - 1) * 2 ^ mb + 2 ^ mb * 2) with ((top + 1 - mine) * 2 ^ mb + 0) by ring. apply pack_fields; [apply consts_b|lia|lia].
      * replace (2 ^ mb - 1) with (Z.ones mb) by (rewrite Z.ones_equiv; lia). rewrite Z.land_ones by lia. symmetry. apply Z.mod_same. lia.
  - cbn [bind]. rewrite Z.pow_add_r in Nov by lia. change (2 ^ 1) with 2 in Nov. rewrite Fi in Lit. rewrite Z.min_r in Lit by nia. rewrite Lit. eexists. split; [reflexivity|]. replace (2 ^ mb - 1) with (Z.ones mb) by (rewrite Z.ones_equiv; lia). rewrite Z.land_ones by lia. destruct (Z.ltb_spec m (2 ^ mb)) as [Sub|Nor].
    + rewrite Z.mod_small by lia. assert (TE : top = mine + 1). { destruct (Z.le_gt_cases (E - 1) (mine + 1)) as [L|L]; [unfold top; lia|]. exfalso. assert (ET : top = E - 1) by (unfold top; lia). pose proof (proj1 (x_scaled e)) as XL. replace (E - e - 1) with mb in XL by (unfold e; lia). rewrite (two_Z mb) in XL by lia. assert (S1 : m + 1 <= 2 ^ mb) by lia. apply IZR_le in S1. rewrite plus_IZR in S1. unfold inR in Im. destruct (Z.even m); lra. }
      rewrite TE. replace ((mine + 1 - mine - 1) * 2 ^ mb + m) with ((mine + 1 - mine - 1) * 2 ^ mb + m) by ring. apply pack_fields; [apply consts_b|lia|lia].
    + replace (m mod 2 ^ mb) with (m - 2 ^ mb) by (apply Z.mod_unique with 1; lia). replace ((top - mine - 1) * 2 ^ mb + m) with ((top - mine) * 2 ^ mb + (m - 2 ^ mb)) by ring. apply pack_fields; [apply consts_b|lia|lia].
Qed.
End S.
