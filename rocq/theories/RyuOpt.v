(** Optimality of the result of step 4, relative to the candidates known to the code. *)
From Coq Require Import ZArith List Bool Lia.
From Verif Require Import Mem RyuModel RyuArith RyuShort.
Import ListNotations.
Open Scope Z_scope.

(** n * 10^r is strictly above vm (or equal to it when that is allowed) and at most vp *)
Definition cand (vm vp : Z) (fm : bool) (r n : Z) : Prop :=
  (vm < n * 10 ^ r \/ (fm = true /\ n * 10 ^ r = vm)) /\ n * 10 ^ r <= vp.

Section Core.
  Variables (D Vn vr vp vm last0 : Z) (fm fr acc : bool).
  Hypothesis HD : 0 < D.
  Hypothesis Hvr : vr = Vn / D.
  Hypothesis Hm : vm <= vr.
  Hypothesis Hmp : vm < vp.
  Hypothesis Hacc : fm = true -> acc = true.
  (** the mirror image of a candidate below the value is a candidate *)
  Hypothesis Hsym : forall x y, (vm < x \/ (fm = true /\ x = vm)) -> y * D - Vn <= Vn - x * D -> y <= vp.
  Hypothesis Hlast : last0 = (10 * Vn / D) mod 10 \/ vm / 10 < vp / 10.
  Hypothesis Hfr : fr = true -> (D | Vn) \/ (vr mod 5 = 2 /\ 2 * Vn = (2 * vr + 1) * D).
  Let s0 := Loop vr vp vm fm fr last0 0.

  (** the exact value lies where its digits say *)
  Lemma digit_bounds r st : at_level s0 r st -> stops_at s0 r ->
    (lr st = vr / 10 ^ r) /\
    (5 <= llast st -> (2 * lr st + 1) * 10 ^ r * D <= 2 * Vn) /\
    (llast st < 5 -> 2 * Vn <= (2 * lr st + 1) * 10 ^ r * D) /\
    (lrZ st = true -> llast st = 5 -> 2 * Vn = (2 * lr st + 1) * 10 ^ r * D) /\
    lr st * 10 ^ r * D <= Vn < (lr st + 1) * 10 ^ r * D.
  Proof using HD Hvr Hlast Hfr.
    clear Hsym Hacc Hm Hmp. intros (A & _ & _ & _ & _ & A0 & A1) (Hr & _ & St & _). cbn [lr lp lm lmZ lrZ llast s0] in *.
    pose proof (Z.div_mod Vn D ltac:(lia)) as E. rewrite <- Hvr in E. pose proof (Z.mod_pos_bound Vn D HD) as B.
    assert (V1 : vr * D <= Vn < (vr + 1) * D) by lia.
    split; [exact A|]. rewrite A. set (q := vr / 10 ^ r) in *.
    pose proof (pow10_pos r Hr) as P. pose proof (Z.div_mod vr (10 ^ r) ltac:(lia)) as E1. fold q in E1.
    pose proof (Z.mod_pos_bound vr (10 ^ r) P) as B1. set (z := 10 ^ r) in *.
    assert (VB : q * z * D <= Vn < (q + 1) * z * D).
    { assert (q * z * D <= vr * D) by (apply Z.mul_le_mono_nonneg_r; lia).
      assert ((vr + 1) * D <= (q + 1) * z * D) by (apply Z.mul_le_mono_nonneg_r; lia). lia. }
    destruct (Z.eq_dec r 0) as [R0|R0].
    - destruct (A0 R0) as [L0 Z0]. destruct Hlast as [Hl|Hl].
      2:{ subst r. change (10 ^ (0 + 1)) with 10 in St. lia. }
      assert (z = 1) by (unfold z; subst r; reflexivity). clearbody z. subst z. assert (Eq : q = vr) by (unfold q; apply Z.div_1_r). rewrite Eq in *.
      pose proof (Z.div_mod (10 * Vn) D ltac:(lia)) as E2. pose proof (Z.mod_pos_bound (10 * Vn) D HD) as B2.
      pose proof (Z.div_mod (10 * Vn / D) 10 ltac:(lia)) as E3. rewrite <- Hl, <- L0 in E3.
      assert (T : 10 * Vn / D / 10 = vr). { rewrite Z.div_div by lia. rewrite (Z.mul_comm D 10), Z.div_mul_cancel_l by lia. now symmetry. }
      rewrite T in E3. set (w := 10 * Vn / D) in *. clearbody w.
      assert (W : w * D <= 10 * Vn < (w + 1) * D) by lia. rewrite E3 in W.
      split; [intro H; nia|]. split; [intro H; nia|]. split; [|lia].
      intros Z1 L5. rewrite Z0 in Z1. destruct (Hfr Z1) as [[c Hc]|[_ Hh]]; [|lia].
      exfalso. subst Vn. rewrite Z.div_mul in Hvr by lia. subst c. rewrite L5 in *. nia.
    - destruct (A1 ltac:(lia)) as [L1 Z1]. assert (Hr1 : 0 <= r - 1) by lia. pose proof (pow10_pos (r - 1) Hr1) as P1.
      assert (Ez : z = 10 * 10 ^ (r - 1)) by (unfold z; rewrite <- pow10_S by lia; f_equal; lia).
      set (y := 10 ^ (r - 1)) in *. pose proof (Z.div_mod vr y ltac:(lia)) as E2. pose proof (Z.mod_pos_bound vr y P1) as B2.
      pose proof (Z.div_mod (vr / y) 10 ltac:(lia)) as E3. rewrite <- L1 in E3.
      assert (T : vr / y / 10 = q) by (rewrite Z.div_div by lia; unfold q; f_equal; lia). rewrite T in E3.
      rewrite E3 in E2. set (l := llast st) in *.
      assert (LB : 0 <= l < 10) by (rewrite L1; apply Z.mod_pos_bound; lia).
      assert (VD : (10 * q + l) * y * D <= Vn < (10 * q + l + 1) * y * D).
      { assert ((10 * q + l) * y * D <= vr * D) by (apply Z.mul_le_mono_nonneg_r; lia).
        assert ((vr + 1) * D <= (10 * q + l + 1) * y * D) by (apply Z.mul_le_mono_nonneg_r; lia). lia. }
      assert (HH : (2 * q + 1) * z * D = 2 * ((10 * q + 5) * y * D)) by (rewrite Ez; ring). rewrite HH.
      assert (YD : 0 < y * D) by (apply Z.mul_pos_pos; lia). rewrite <- !Z.mul_assoc in *. remember (y * D) as yd eqn:Eyd.
      split; [intro H; nia|]. split; [intro H; nia|]. split; [|lia].
      intros Zt L5. rewrite Zt in Z1. symmetry in Z1. apply andb_prop in Z1. destruct Z1 as [F1 Z1]. apply andb_prop in Z1. destruct Z1 as [_ Z1].
      apply Z.eqb_eq in Z1. destruct (Hfr F1) as [[c Hc]|[M5 _]].
      + subst Vn. rewrite Z.div_mul in Hvr by lia. subst c. rewrite Z1, Z.add_0_r, L5 in E2. rewrite Eyd.
        assert (vr * D = (10 * q + 5) * (y * D)) by (rewrite E2; ring). lia.
      + exfalso. destruct (Z.eq_dec r 1) as [->|N].
        * change y with 1 in *. rewrite L1 in L5. unfold y in L5. change (10 ^ (1 - 1)) with 1 in L5. rewrite Z.div_1_r in L5.
          assert (vr mod 5 = 0); [|lia]. pose proof (Z.div_mod vr 10 ltac:(lia)) as X. rewrite L5 in X. rewrite X.
          replace (10 * (vr / 10) + 5) with ((2 * (vr / 10) + 1) * 5) by ring. apply Z.mod_mul. lia.
        * assert (vr mod 5 = 0); [|lia]. apply (mod0_down vr 1 (r - 1)) in Z1; [|lia|lia]. change (10 ^ 1) with 10 in Z1.
          pose proof (Z.div_mod vr 10 ltac:(lia)) as X. rewrite Z1 in X. rewrite X.
          replace (10 * (vr / 10) + 0) with ((2 * (vr / 10)) * 5) by ring. apply Z.mod_mul. lia.
  Qed.

  Theorem opt_core r st : at_level s0 r st -> stops_at s0 r ->
    let o := lr st + b2z (round_up acc st) in
    (o = vr / 10 ^ r \/ o = vr / 10 ^ r + 1) /\ cand vm vp fm r o /\
    (forall n, cand vm vp fm r n -> Z.abs (o * 10 ^ r * D - Vn) <= Z.abs (n * 10 ^ r * D - Vn)) /\
    (forall t n, r < t -> ~ cand vm vp fm t n).
  Proof using HD Hvr Hm Hmp Hacc Hsym Hlast Hfr.
    intros A S o. destruct (digit_bounds r st A S) as (Er & U & N & T & VB).
    pose proof A as (_ & _ & Am & _ & Az & _). pose proof S as (Hr & Ex & Sp & Sm). cbn [lr lp lm lmZ lrZ llast s0] in *.
    pose proof (pow10_pos r Hr) as P. set (z := 10 ^ r) in *.
    pose proof (Z.div_mod vm z ltac:(lia)) as EM. pose proof (Z.mod_pos_bound vm z P) as BM. rewrite <- Am in EM.
    pose proof (Z.div_mod vp z ltac:(lia)) as EP. pose proof (Z.mod_pos_bound vp z P) as BP.
    assert (Lmr : lm st <= lr st) by (rewrite Am, Er; apply Z.div_le_mono; assumption).
    (* membership at this level, in terms of quotients *)
    assert (C1 : forall n, cand vm vp fm r n -> (lm st < n \/ (lmZ st = true /\ n = lm st)) /\ n <= vp / z).
    { intros n [[H|[F H]] H2]; fold z in H, H2; (split; [|apply Z.div_le_lower_bound; lia]).
      - destruct (Z.lt_ge_cases (lm st) n) as [|K]; [now left|]. exfalso. assert (n * z <= lm st * z) by (apply Z.mul_le_mono_nonneg_r; lia). lia.
      - right. assert (M0 : vm mod z = 0) by (rewrite <- H; apply Z.mod_mul; lia). split.
        + rewrite Az, F, M0. reflexivity.
        + rewrite Am, <- H. symmetry. apply Z.div_mul. lia. }
    assert (C2 : forall n, lm st < n \/ (lmZ st = true /\ n = lm st) -> vm < n * z \/ (fm = true /\ n * z = vm)).
    { intros n [H|[F H]].
      - left. assert ((lm st + 1) * z <= n * z) by (apply Z.mul_le_mono_nonneg_r; lia). lia.
      - right. rewrite F in Az. symmetry in Az. apply andb_prop in Az. destruct Az as [F1 M0]. apply Z.eqb_eq in M0.
        split; [exact F1|]. subst n. lia. }
    assert (Cex : lm st < vp / z \/ lmZ st = true).
    { destruct Ex as [L|[[F M0]|R0]].
      - left. rewrite Am. exact L.
      - right. rewrite Az, F. apply Z.eqb_eq in M0. exact M0.
      - left. rewrite Am. unfold z. subst r. change (10 ^ 0) with 1. rewrite !Z.div_1_r. exact Hmp. }
    assert (Up : lr st = lm st /\ lmZ st = false \/ round_up acc st = (5 <=? (if lrZ st && (llast st =? 5) && (lr st mod 2 =? 0) then 4 else llast st)) /\ (lm st < lr st \/ lmZ st = true /\ lr st = lm st)).
    { unfold round_up. destruct (Z.eqb_spec (lr st) (lm st)) as [E|E]; cbn [andb orb].
      - destruct (lmZ st) eqn:F.
        + right. assert (acc = true). { apply Hacc. symmetry in Az. apply andb_prop in Az. tauto. }
          rewrite H. cbn. split; [reflexivity|]. right. now split.
        + left. now split.
      - right. split; [reflexivity|]. left. lia. }
    assert (Far : forall n, n <= lr st -> n * z * D <= lr st * z * D).
    { intros n Hn. apply Z.mul_le_mono_nonneg_r; [lia|]. apply Z.mul_le_mono_nonneg_r; lia. }
    assert (Far2 : forall n, lr st + 1 <= n -> (lr st + 1) * z * D <= n * z * D).
    { intros n Hn. apply Z.mul_le_mono_nonneg_r; [lia|]. apply Z.mul_le_mono_nonneg_r; lia. }
    assert (Main : (o = lr st \/ o = lr st + 1) /\ cand vm vp fm r o /\
      (forall n, cand vm vp fm r n -> Z.abs (o * z * D - Vn) <= Z.abs (n * z * D - Vn))).
    { destruct Up as [[E F]|[Ru C]].
      - assert (Eo : o = lr st + 1). { unfold o, round_up. rewrite E, Z.eqb_refl, F. cbn. rewrite orb_true_r. reflexivity. }
        split; [now right|]. rewrite F in Cex. destruct Cex as [Cex|]; [|discriminate].
        split.
        + split; fold z.
          * apply C2. left. lia.
          * rewrite Eo, E. assert ((lm st + 1) * z <= vp / z * z) by (apply Z.mul_le_mono_nonneg_r; lia). lia.
        + intros n Cn. apply C1 in Cn. rewrite F in Cn. destruct Cn as [[Cn|[Cn _]] _]; [|discriminate].
          rewrite Eo. pose proof (Far2 n ltac:(lia)). lia.
      - assert (Cr : cand vm vp fm r (lr st)).
        { split; fold z; [apply C2; exact C|]. destruct (C2 _ C) as [K|K].
          - apply (Hsym (lr st * z)); [left; exact K|]. lia.
          - lia. }
        assert (Near : round_up acc st = true /\ (2 * lr st + 1) * z * D <= 2 * Vn \/ round_up acc st = false /\ 2 * Vn <= (2 * lr st + 1) * z * D).
        { rewrite Ru. destruct (lrZ st && (llast st =? 5) && (lr st mod 2 =? 0)) eqn:Q.
          - right. split; [reflexivity|]. apply andb_prop in Q. destruct Q as [Q _]. apply andb_prop in Q. destruct Q as [Q1 Q2]. apply Z.eqb_eq in Q2.
            rewrite (T Q1 Q2). lia.
          - destruct (Z.leb_spec 5 (llast st)); [left|right]; split; auto. }
        destruct Near as [[E H]|[E H]]; unfold o; rewrite E; cbn [b2z].
        + split; [now right|]. assert (Hy : (lr st + 1) * z <= vp).
          { apply (Hsym (lr st * z)); [apply C2; exact C|]. lia. }
          split; [split; fold z; [|exact Hy]|].
          * left. destruct (C2 _ C) as [K|[_ K]]; lia.
          * intros n _. destruct (Z.le_gt_cases n (lr st)) as [K|K]; [pose proof (Far n K)|pose proof (Far2 n ltac:(lia))]; lia.
        + rewrite Z.add_0_r. split; [now left|]. split; [exact Cr|].
          intros n _. destruct (Z.le_gt_cases n (lr st)) as [K|K]; [pose proof (Far n K)|pose proof (Far2 n ltac:(lia))]; lia. }
    destruct Main as (M1 & M2 & M3). rewrite <- Er. split; [exact M1|]. split; [exact M2|]. split; [exact M3|].
    intros t n Ht [C Cp]. pose proof (pow10_pos t ltac:(lia)) as Pt.
    pose proof (div_mono vp vm (r + 1) t ltac:(lia) ltac:(lia) Sp) as Dm.
    assert (n <= vp / 10 ^ t) by (apply Z.div_le_lower_bound; lia).
    assert (n * 10 ^ t <= vm / 10 ^ t * 10 ^ t) by (apply Z.mul_le_mono_nonneg_r; lia).
    pose proof (Z.mul_div_le vm (10 ^ t) Pt). destruct C as [C|[F C]]; [lia|].
    apply (Sm F). apply (mod0_down vm (r + 1) t); [lia|lia|]. rewrite <- C. apply Z.mod_mul. lia.
  Qed.
End Core.

(** ** Relative to the true interval *)
Definition inI (acc : bool) (lo hi x : Z) : Prop := if acc then lo <= x <= hi else lo < x < hi.

Lemma le_floor x D a : 0 < D -> x * D <= a <-> x <= a / D.
Proof.
  intro H. split; intro K.
  - apply Z.div_le_lower_bound; lia.
  - pose proof (Z.mul_div_le a D H). assert (x * D <= a / D * D) by (apply Z.mul_le_mono_nonneg_r; lia). lia.
Qed.
Lemma gt_floor x D a : 0 < D -> a < x * D <-> a / D < x.
Proof. intro H. pose proof (le_floor x D a H). lia. Qed.

Theorem opt_true D Wn Vn Pn acc vr vp vm fm fr last0 r st :
  0 < D -> Wn < Vn -> Vn < Pn -> Vn - Wn <= Pn - Vn -> vr = Vn / D -> vm = Wn / D -> vm < vp ->
  (fm = true -> acc = true /\ (D | Wn)) ->
  (fm = false -> acc = true -> (D | Wn) -> vm mod 10 <> 0 /\ vm < vr) ->
  vp = (if acc then Pn / D else (Pn - 1) / D) \/ (acc = false /\ vp = Pn / D /\ vp mod 10 <> 0 /\ vr + 1 < vp) ->
  last0 = (10 * Vn / D) mod 10 \/ vm / 10 < vp / 10 ->
  (fr = true -> (D | Vn) \/ (vr mod 5 = 2 /\ 2 * Vn = (2 * vr + 1) * D)) ->
  at_level (Loop vr vp vm fm fr last0 0) r st -> stops_at (Loop vr vp vm fm fr last0 0) r ->
  let o := lr st + b2z (round_up acc st) in
  (o = vr / 10 ^ r \/ o = vr / 10 ^ r + 1) /\
  inI acc Wn Pn (o * 10 ^ r * D) /\
  (forall n, inI acc Wn Pn (n * 10 ^ r * D) -> Z.abs (o * 10 ^ r * D - Vn) <= Z.abs (n * 10 ^ r * D - Vn)) /\
  (forall t n, r < t -> ~ inI acc Wn Pn (n * 10 ^ t * D)).
Proof.
  intros HD HWV HVP Hasym Evr Evm Hvmp Hf1 Hf2 Hvp Hl Hfr A S o.
  assert (Mr : vm <= vr) by (rewrite Evr, Evm; apply Z.div_le_mono; lia).
  assert (Vlo : vr * D <= Vn) by (apply le_floor; lia). assert (Vhi : Vn < (vr + 1) * D) by (apply gt_floor; lia).
  pose proof (opt_core D Vn vr vp vm last0 fm fr acc HD Evr Mr Hvmp) as Core.
  assert (Hsym : forall x y, (vm < x \/ (fm = true /\ x = vm)) -> y * D - Vn <= Vn - x * D -> y <= vp).
  { intros x y Cx Hy.
    assert (UB1 : y * D < Pn \/ acc = true /\ y * D <= Pn).
    { destruct Cx as [Cx|[F Cx]].
      - left. assert (Wn < x * D) by (apply gt_floor; lia). lia.
      - right. destruct (Hf1 F) as [-> Dv]. split; [reflexivity|]. assert (vm * D <= Wn) by (apply le_floor; lia).
        assert (Wn = vm * D) by (destruct Dv as [c ->]; rewrite Z.div_mul in Evm by lia; now subst c). subst x. lia. }
    destruct Hvp as [->|(-> & -> & _)].
    - destruct UB1 as [U|[-> U]]; [destruct acc; apply le_floor; lia|apply le_floor; lia].
    - destruct UB1 as [U|[U _]]; [apply le_floor; lia|discriminate]. }
  specialize (Core (fun F => proj1 (Hf1 F)) Hsym Hl Hfr r st A S). cbv zeta in Core. fold o in Core.
  destruct Core as (K1 & K2 & K3 & K4).
  assert (Hr : 0 <= r) by exact (proj1 S).
  (* candidates of the code and members of the interval *)
  assert (T1 : forall t n, 0 <= t -> cand vm vp fm t n -> (t = 0 -> n <= vr + 1) -> inI acc Wn Pn (n * 10 ^ t * D)).
  { intros t n Ht [C Cp] Hn0. set (x := n * 10 ^ t) in *.
    assert (LO : Wn < x * D \/ acc = true /\ Wn <= x * D).
    { destruct C as [C|[F C]]; [left; apply gt_floor; lia|]. right. destruct (Hf1 F) as [-> Dv]. split; [reflexivity|].
      destruct Dv as [c ->]. rewrite Z.div_mul in Evm by lia. subst c. rewrite C. lia. }
    assert (HI : x * D < Pn \/ acc = true /\ x * D <= Pn).
    { destruct Hvp as [->|(Ea & Ep & M10 & Lt)].
      - destruct acc; [right; split; [reflexivity|]; apply le_floor; lia|left]. assert (x * D <= Pn - 1) by (apply le_floor; lia). lia.
      - left. assert (x <= vp - 1).
        { destruct (Z.eq_dec x vp) as [E|]; [|lia]. exfalso. destruct (Z.eq_dec t 0) as [->|N].
          - unfold x in E. change (10 ^ 0) with 1 in E. specialize (Hn0 eq_refl). lia.
          - apply M10. rewrite <- E. unfold x. replace t with (t - 1 + 1) by lia. rewrite pow10_S by lia.
            replace (n * (10 * 10 ^ (t - 1))) with (n * 10 ^ (t - 1) * 10) by ring. apply Z.mod_mul. lia. }
        assert ((x + 1) * D <= Pn) by (apply le_floor; lia). lia. }
    unfold inI. destruct acc; [|split; (destruct LO as [|[? _]] + destruct HI as [|[? _]]); (assumption || discriminate)].
    split; [destruct LO as [|[_ ?]]|destruct HI as [|[_ ?]]]; lia. }
  assert (T2 : forall t n, 0 <= t -> inI acc Wn Pn (n * 10 ^ t * D) -> cand vm vp fm t n \/ (t = 0 /\ n = vm /\ vm < vr)).
  { intros t n Ht I. set (x := n * 10 ^ t) in *.
    assert (Px : x <= vp).
    { destruct Hvp as [->|(Ea & -> & _)]; unfold inI in I; [destruct acc|rewrite Ea in I]; apply (proj1 (le_floor x D _ HD)); lia. }
    assert (Wx : Wn <= x * D) by (unfold inI in I; destruct acc; lia).
    destruct (Z.eq_dec x vm) as [E|N].
    - assert (EW : Wn = vm * D). { assert (vm * D <= Wn) by (apply le_floor; lia). rewrite E in Wx. lia. }
      destruct acc; [|exfalso; unfold inI in I; rewrite E in I; lia].
      destruct fm eqn:F.
      + left. split; [right; split; [reflexivity|exact E]|exact Px].
      + destruct (Hf2 eq_refl eq_refl) as [M10 Lt]; [exists vm; exact EW|].
        right. destruct (Z.eq_dec t 0) as [T0|T0].
        * split; [exact T0|]. split; [|exact Lt]. unfold x in E. rewrite T0 in E. change (10 ^ 0) with 1 in E. lia.
        * exfalso. apply M10. rewrite <- E. unfold x. replace t with (t - 1 + 1) by lia. rewrite pow10_S by lia.
          replace (n * (10 * 10 ^ (t - 1))) with (n * 10 ^ (t - 1) * 10) by ring. apply Z.mod_mul. lia.
    - left. split; [left|exact Px]. fold x. assert (vm <= x); [|lia]. rewrite Evm. apply Z.lt_succ_r. apply Z.nle_gt. intro Q.
      assert (Wn < x * D \/ Wn = x * D) by lia. destruct H as [H|H]; [apply gt_floor in H; lia|].
      rewrite H, Z.div_mul in Q by lia. lia. }
  split; [exact K1|]. split.
  { apply T1; [exact Hr|exact K2|]. intros ->. change (10 ^ 0) with 1 in K1. rewrite Z.div_1_r in K1. lia. }
  split.
  - intros n I. destruct (T2 r n Hr I) as [C|(R0 & -> & Lt)]; [now apply K3|].
    (* the lower end point, missed by the code: vr is closer *)
    assert (Cr : cand vm vp fm r vr). { split; rewrite R0; change (10 ^ 0) with 1; [left; lia|]. rewrite Z.mul_1_r. apply (Hsym vr vr); [left; lia|lia]. }
    specialize (K3 vr Cr). etransitivity; [exact K3|]. rewrite R0. change (10 ^ 0) with 1. rewrite !Z.mul_1_r.
    assert (vm * D <= vr * D) by (apply Z.mul_le_mono_nonneg_r; lia). lia.
  - intros t n Ht I. destruct (T2 t n ltac:(lia) I) as [C|(R0 & _)]; [|lia]. exact (K4 t n Ht C).
Qed.
