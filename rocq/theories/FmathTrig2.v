(** sin, cos and tan over all arguments: definedness and range. *)
From Coq Require Import ZArith Bool Lia Reals Lra Psatz.
From Flocq Require Import Core IEEE754.Binary IEEE754.Bits.
From Interval Require Import Tactic.
From Verif Require Import Mem AlgoModel FpModel FpProofs RoundModel RoundProofs LitModel LimModel FmathModel FmathReal FmathStep FmathExp FmathLog FmathReduce FmathFast FmathTrig.
Open Scope R_scope.

Lemma sin_poly_fin odd x t : pattern float32 x -> fin x -> V x = t -> - 2000 <= t <= 2000 -> fin (sin_poly odd x).
Proof.
  intros P F E H. assert (Kx := appr_val x t F E).
  getk Ku0 (lit 26083159809786593541503 (-28)).
  getk Kc1 (negf (lit 1981069071916863322258 (-25))).
  getk Kc2 (lit 833307858556509017944336 (-26)).
  getk Kc3 (negf (lit 166666597127914428710938 (-24))).
  stepm Ks Kx Kx (2005) (2005) (2397 / 10000) t.
  stepf Ku1 Ku0 Ks Kc1 (2614 / 1000000000) (4008001) (1046 / 100) (1252 / 1000000000) (1876 / 1000000000) t.
  stepf Ku2 Ku1 Ks Kc2 (1046 / 100) (4008001) (41815728) (1253 / 100) (1503 / 100) t.
  stepf Ku3 Ku2 Ks Kc3 (41815728) (4008001) (167262911378926) (80261107) (90239782) t.
  destruct odd.
  - assert (Kn : appr (negf x) (- t) 0) by (apply appr_neg; assumption).
    stepm Kux Ku3 Kn (167262911378926) (2005) (200940006953) t.
  stepf Kr Ks Kux Kn (4008001) (334525822757850240) (1338103291031401191702528) (965566943092863104) (1045428705442472320) t.
    exact (proj1 Kr).
  - stepm Kux Ku3 Kx (167262911378926) (2005) (200940006953) t.
  stepf Kr Ks Kux Kx (4008001) (334525822757850240) (1338103291031401191702528) (965566943092863104) (1045428705442472320) t.
    exact (proj1 Kr).
Qed.

Lemma cos_poly_fin x t : fin x -> V x = t -> - 2000 <= t <= 2000 -> fin (cos_poly x).
Proof.
  intros F E H. assert (Kx := appr_val x t F E).
  getk Ku0 (negf (lit 271811842367242206819355 (-30))).
  getk Kc1 (lit 247990446951007470488548 (-28)).
  getk Kc2 (negf (lit 138888787478208541870117 (-26))).
  getk Kc3 (lit 416666641831398010253906 (-25)).
  getk Kc4 (negf f_half).
  getk Kc5 (f_one).
  stepm Ks Kx Kx (2005) (2005) (2397 / 10000) t.
  stepf Ku1 Ku0 Ks Kc1 (2724 / 10000000000) (4008001) (1090 / 1000) (1304 / 10000000000) (1954 / 10000000000) t.
  stepf Ku2 Ku1 Ks Kc2 (1090 / 1000) (4008001) (4357589) (1305 / 1000) (1565 / 1000) t.
  stepf Ku3 Ku2 Ks Kc3 (4357589) (4008001) (17430352272039) (8358881) (9398752) t.
  stepf Ku4 Ku3 Ks Kc4 (17430352272039) (4008001) (69721409088155721728) (46016901178112) (50177641055425) t.
  stepf Kr Ku4 Ks Kc5 (69721409088155721728) (4008001) (278885636352622848062259200) (234503859774840111104) (251151865966572109824) t.
  exact (proj1 Kr).
Qed.


(** ** Non-finite operands *)
Lemma mul_nfin a b : ~ fin a -> ~ fin (mulf a b).
Proof.
  unfold fin, mulf. rewrite of_bits_of. generalize (b32_of_bits a), (b32_of_bits b). intros x y H K. apply H. revert K.
  destruct x as [s|s|s pl e|s m e b0], y as [s'|s'|s' pl' e'|s' m' e' b1]; cbn; try discriminate; reflexivity.
Qed.

Lemma add_nfin a b : ~ fin a -> fin b -> ~ fin (addf a b).
Proof.
  unfold fin, addf. rewrite of_bits_of. generalize (b32_of_bits a), (b32_of_bits b). intros x y H Fy K. apply H. revert K Fy.
  destruct x as [s|s|s pl e|s m e b0], y as [s'|s'|s' pl' e'|s' m' e' b1]; cbn; try discriminate; reflexivity.
Qed.

(** ** fast_rint over the whole range of int *)
Lemma fit128 y : Rabs (rnd y) < bpow radix2 128 ->
  Rlt_bool (Rabs (round radix2 (SpecFloat.fexp 24 128) (BinarySingleNaN.round_mode BinarySingleNaN.mode_NE) y)) (bpow radix2 128) = true.
Proof. intro H. apply Rlt_bool_true. exact H. Qed.

Lemma add_ok128 a b : fin a -> fin b -> Rabs (rnd (V a + V b)) < bpow radix2 128 -> fin (addf a b) /\ V (addf a b) = rnd (V a + V b).
Proof.
  unfold fin, V, addf. intros A B H. rewrite of_bits_of.
  pose proof (Bplus_correct 24 128 eq_refl eq_refl binop_nan_pl32 BinarySingleNaN.mode_NE (b32_of_bits a) (b32_of_bits b) A B) as C.
  rewrite (fit128 _ H) in C. destruct C as (C1 & C2 & _). split; [exact C2|exact C1].
Qed.

Lemma mul_ok128 a b : fin a -> fin b -> Rabs (rnd (V a * V b)) < bpow radix2 128 -> fin (mulf a b) /\ V (mulf a b) = rnd (V a * V b).
Proof.
  unfold fin, V, mulf. intros A B H. rewrite of_bits_of.
  pose proof (Bmult_correct 24 128 eq_refl eq_refl binop_nan_pl32 BinarySingleNaN.mode_NE (b32_of_bits a) (b32_of_bits b)) as C.
  rewrite (fit128 _ H) in C. destruct C as (C1 & C2 & _). split.
  - etransitivity; [exact C2|]. now rewrite A, B.
  - exact C1.
Qed.

Lemma rint_sum y : pattern float32 y -> fin y ->
  let z := addf y (copysign f_half y) in fin z /\ Rabs (V z - V y) <= 1 /\ (0 < V y -> V y <= V z) /\ (V y < 0 -> V z <= V y).
Proof.
  intros P F. cbv zeta. destruct half_ok as (Ph & Fh & Vh).
  destruct (copysign_ok f_half y Ph P Fh) as (Pc & Fc & Vc). rewrite Vh, (Rabs_pos_eq (/ 2)) in Vc by lra.
  destruct (sgn_V y P F) as [S1 S2].
  assert (C : Rabs (V (copysign f_half y)) <= / 2) by (rewrite Vc; apply Rabs_le; destruct (sgn float32 y); lra).
  set (c := copysign f_half y) in *. clearbody c.
  pose proof (rnd_near (V y + V c) (V y) (V_format y)) as N.
  replace (V y - (V y + V c)) with (- V c) in N by ring. rewrite Rabs_Ropp in N.
  assert (N' : Rabs (rnd (V y + V c) - (V y + V c)) <= / 2) by lra. apply Rabs_le_inv in N', C.
  destruct (add_ok128 y c F Fc) as [Fa Va].
  { assert (M := V_max y F). apply Rabs_le_inv in M. assert (bpow radix2 2 <= bpow radix2 104) by (apply bpow_le; lia).
    replace (bpow radix2 2) with 4 in H by reflexivity. apply Rabs_lt. lra. }
  split; [exact Fa|]. rewrite Va. clear Va Fa.
  split; [apply Rabs_le; lra|]. split; intro L.
  - apply Rle_trans with (rnd (V y)); [rewrite rnd_V; lra|]. apply rnd_le. rewrite Vc. destruct (sgn float32 y); [specialize (S1 eq_refl)|]; lra.
  - apply Rle_trans with (rnd (V y)); [|rewrite rnd_V; lra]. apply rnd_le. rewrite Vc. destruct (sgn float32 y); [|specialize (S2 eq_refl)]; lra.
Qed.

Lemma rint_wide y : pattern float32 y -> fin y -> Rabs (V y) <= 2147483646 ->
  exists q, fast_rint y = Ok q /\ (Z.abs q <= 2 ^ 31)%Z /\ Rabs (V y - IZR q) <= 2.
Proof.
  intros P F B. destruct (rint_sum y P F) as (Fz & D & _).
  unfold fast_rint. set (z := addf y (copysign f_half y)) in *. clearbody z. apply Rabs_le_inv in D, B.
  destruct (f2i_ok z Fz ltac:(lra)) as [-> R]. exists (Ztrunc (V z)). split; [reflexivity|]. split; [lia|].
  pose proof (trunc_lt (V z)) as T. apply Rabs_lt_inv in T. apply Rabs_le. lra.
Qed.

Lemma rint_bad y : pattern float32 y -> (fin y -> V y <= -2147483649 \/ 2147483648 <= V y) -> fast_rint y = UB BadArith.
Proof.
  intros P H. unfold fast_rint. apply f2i_bad. intro Fz.
  destruct (is_finite 24 128 (b32_of_bits y)) eqn:K.
  - destruct (rint_sum y P K) as (_ & _ & M1 & M2). destruct (H K) as [C|C]; [left|right].
    + apply Rle_trans with (V y); [apply M2; lra|lra].
    + apply Rle_trans with (V y); [lra|apply M1; lra].
  - exfalso. destruct half_ok as (Ph & Fh & _). destruct (copysign_ok f_half y Ph P Fh) as (_ & Fc & _).
    apply (add_nfin y (copysign f_half y)); [unfold fin; congruence|exact Fc|exact Fz].
Qed.

Lemma arg_bad x c : pattern float32 x -> fin c -> 0 < V c <= 3 / 4 ->
  (fin x -> V x * V c <= -2147483904 \/ 2147483648 <= V x * V c) -> fast_rint (mulf x c) = UB BadArith.
Proof.
  intros P Fc Hc H. apply rint_bad; [apply pat_mul|]. intro Fm.
  destruct (is_finite 24 128 (b32_of_bits x)) eqn:K.
  2:{ exfalso. apply (mul_nfin x c); [unfold fin; congruence|exact Fm]. }
  specialize (H K). assert (VM := V_max x K).
  assert (P0 := bpow_gt_0 radix2 126). assert (P1 := bpow_gt_0 radix2 104).
  assert (M : bpow radix2 128 = 4 * bpow radix2 126) by (replace 128%Z with (2 + 126)%Z by reflexivity; rewrite bpow_plus; reflexivity).
  assert (B : Rabs (V x * V c) <= 3 * bpow radix2 126).
  { rewrite Rabs_mult. apply Rle_trans with (4 * bpow radix2 126 * (3 / 4)); [|lra].
    apply Rmult_le_compat; try apply Rabs_pos; [lra|]. rewrite Rabs_pos_eq; lra. }
  destruct (mul_ok128 x c K Fc) as [_ ->].
  { apply Rabs_le_inv in B. assert (R3 : rnd (3 * bpow radix2 126) = 3 * bpow radix2 126) by (apply (rnd_F2R 3); lia).
    destruct (rnd_bounds (- (3 * bpow radix2 126)) (3 * bpow radix2 126) (V x * V c)) as [L1 L2]; [now rewrite rnd_opp, R3|exact R3|exact B|].
    apply Rabs_lt. lra. }
  destruct H as [H|H]; [left|right].
  - apply rnd_le in H. replace (-2147483904) with (IZR (-8388609) * bpow radix2 8) in H.
    + rewrite (rnd_F2R (-8388609) 8) in H by lia. replace (bpow radix2 8) with 256 in H by reflexivity. lra.
    + replace (bpow radix2 8) with 256 by reflexivity. lra.
  - apply rnd_le in H. replace 2147483648 with (bpow radix2 31) in * by reflexivity. now rewrite rnd_bpow in H by lia.
Qed.

Lemma i2f_wide i : (Z.abs i <= 2 ^ 31)%Z -> fin (i2f i) /\ Rabs (V (i2f i) - IZR i) <= 128.
Proof.
  intro H. unfold fin, V, i2f. rewrite of_bits_of.
  pose proof (binary_normalize_correct 24 128 eq_refl eq_refl BinarySingleNaN.mode_NE i 0 false) as C.
  assert (F : F2R (Float radix2 i 0) = IZR i) by (unfold F2R; cbn; ring).
  assert (B : Rabs (IZR i) <= bpow radix2 31) by (rewrite <- abs_IZR; replace (bpow radix2 31) with (IZR (2 ^ 31)) by reflexivity; now apply IZR_le).
  rewrite F in C. rewrite no_overflow in C by (apply Rle_trans with (1 := B); apply bpow_le; lia).
  destruct C as (C1 & C2 & _). split; [exact C2|].
  pose proof (rnd_err_bpow 31 _ ltac:(lia) B) as E. replace (bpow radix2 (31 - 25)) with 64 in E by reflexivity.
  unfold rnd in E. apply Rle_trans with 64; [|lra]. apply Rle_trans with (2 := E). right. do 2 f_equal. exact C1.
Qed.

(** ** The reduced argument stays small for every argument in range *)
Lemma lin600 Q X c e : Rabs (X - Q * PI) <= 600 -> Rabs Q <= 2147483648 -> Rabs (PI + c) <= e -> Rabs (Q * c + X) <= 600 + 2147483648 * e.
Proof.
  intros T B E. replace (Q * c + X) with ((X - Q * PI) + Q * (PI + c)) by ring. apply Rle_trans with (1 := Rabs_triang _ _).
  apply Rplus_le_compat; [exact T|]. rewrite Rabs_mult. apply Rmult_le_compat; auto using Rabs_pos.
Qed.

Lemma reduce_wide x q : fin x -> (Z.abs q <= 2 ^ 31)%Z -> Rabs (V x - IZR q * PI) <= 600 ->
  fin (reduce f_four (i2f q) x) /\ Rabs (V (reduce f_four (i2f q) x)) <= 1900.
Proof.
  intros F Hq T. destruct (i2f_wide q Hq) as [Fi Ei]. assert (Kq : appr (i2f q) (IZR q) 128) by (split; assumption).
  assert (Kx := appr_val x _ F eq_refl).
  assert (Bq : Rabs (IZR q) <= 2147483648) by (rewrite <- abs_IZR; replace 2147483648 with (IZR (2 ^ 31)) by reflexivity; now apply IZR_le).
  unfold reduce. getk K1 (pi_part1 f_four). getk K2 (pi_part2 f_four). getk K3 (pi_part3 f_four). getk K4 (pi_part4 f_four).
  revert K1 K2 K3 K4. generalize (pi_part1 f_four), (pi_part2 f_four), (pi_part3 f_four), (pi_part4 f_four). intros p1 p2 p3 p4 K1 K2 K3 K4.
  cbv zeta. set (qf := i2f q) in *. clearbody qf. assert (HE := eta_small). assert (HP := eta_pos).
  set (Q := IZR q) in *. clearbody Q. set (X := V x) in *. clearbody X.
  match type of K1 with appr _ ?c _ => set (c1 := c) in * end. match type of K2 with appr _ ?c _ => set (c2 := c) in * end.
  match type of K3 with appr _ ?c _ => set (c3 := c) in * end. match type of K4 with appr _ ?c _ => set (c4 := c) in * end.
  assert (L1 := lin600 Q X c1 (1 / 1000) T Bq ltac:(unfold c1; interval)).
  assert (L2 := lin600 Q X (c1 + c2) (1 / 1000000) T Bq ltac:(unfold c1, c2; interval)).
  assert (L3 := lin600 Q X (c1 + c2 + c3) (1 / 10000000) T Bq ltac:(unfold c1, c2, c3; interval)).
  assert (L4 := lin600 Q X (c1 + c2 + c3 + c4) (1 / 10000000) T Bq ltac:(unfold c1, c2, c3, c4; interval)).
  assert (A1 := appr_madd _ _ _ _ _ _ 128 0 0 2147483648 (3141 / 1000) 3000000 900 901 Kq K1 Kx Bq ltac:(unfold c1; interval) ltac:(lra) ltac:(lra) ltac:(lra) ltac:(lra) ltac:(lra)).
  assert (A2 := appr_madd _ _ _ _ _ _ 128 0 901 2147483648 (1 / 1000) 3000 1 903 Kq K2 A1 Bq ltac:(unfold c2; interval) ltac:(lra) ltac:(lra)
     ltac:(replace (Q * c2 + (Q * c1 + X)) with (Q * (c1 + c2) + X) by ring; lra) ltac:(lra) ltac:(lra)).
  assert (A3 := appr_madd _ _ _ _ _ _ 128 0 903 2147483648 (1 / 1000) 3000 1 905 Kq K3 A2 Bq ltac:(unfold c3; interval) ltac:(lra) ltac:(lra)
     ltac:(replace (Q * c3 + (Q * c2 + (Q * c1 + X))) with (Q * (c1 + c2 + c3) + X) by ring; lra) ltac:(lra) ltac:(lra)).
  assert (A4 := appr_madd _ _ _ _ _ _ 128 0 905 2147483648 (1 / 1000) 3000 1 907 Kq K4 A3 Bq ltac:(unfold c4; interval) ltac:(lra) ltac:(lra)
     ltac:(replace (Q * c4 + (Q * c3 + (Q * c2 + (Q * c1 + X)))) with (Q * (c1 + c2 + c3 + c4) + X) by ring; lra) ltac:(lra) ltac:(lra)).
  split; [exact (proj1 A4)|]. destruct A4 as [_ A4].
  replace (Q * c4 + (Q * c3 + (Q * c2 + (Q * c1 + X)))) with (Q * (c1 + c2 + c3 + c4) + X) in A4 by ring.
  apply Rabs_le_inv in A4, L4. apply Rabs_le. lra.
Qed.

Lemma unit_check_range u : pattern float32 u -> fin u -> pattern float32 (unit_check u) /\ fin (unit_check u) /\ Rabs (V (unit_check u)) <= 1.
Proof.
  intros P F. unfold unit_check. destruct (fabs_ok' u P F) as (_ & Fa & Va). destruct one_ok as (_ & F1 & V1).
  rewrite (fgt_ok _ _ Fa F1), Va, V1. case Rlt_bool_spec; intro H.
  - destruct fin_zero as [Fz Vz]. unfold fzero. rewrite Vz, Rabs_R0. split; [unfold pattern; split; lia || reflexivity|]. split; [exact Fz|lra].
  - split; [exact P|]. split; [exact F|exact H].
Qed.

Lemma trig_arg_wide x : pattern float32 x -> fin x -> Rabs (V x) <= 6746517000 ->
  exists q, fast_rint (mulf x (d2f kM_1_PI)) = Ok q /\
    let z := crush (d2f kM_PI_2) (reduce f_four (i2f q) x) in fin z /\ Rabs (V z) <= 2000.
Proof.
  intros P F B. getc HC (d2f kM_1_PI). destruct HC as (_ & FC & VC). set (c := d2f kM_1_PI) in *. clearbody c.
  apply Rabs_le_inv in B.
  assert (B1 : Rabs (V x * V c) <= bpow radix2 31).
  { replace (bpow radix2 31) with 2147483648 by reflexivity. rewrite VC. apply Rabs_le. lra. }
  destruct (mul_ok x c F FC) as [Fy Vy]; [apply Rle_trans with (1 := B1); apply bpow_le; lia|].
  pose proof (rnd_err_bpow 31 _ ltac:(lia) B1) as E1. rewrite <- Vy in E1. replace (bpow radix2 (31 - 25)) with 64 in E1 by reflexivity.
  assert (Py := pat_mul x c). set (y := mulf x c) in *. clearbody y. apply Rabs_le_inv in E1.
  destruct (rint_wide y Py Fy) as (q & Q & Hq & E2); [rewrite VC in E1; apply Rabs_le; lra|].
  exists q. split; [exact Q|]. cbv zeta. apply Rabs_le_inv in E2.
  assert (PB : 3141592653 / 1000000000 <= PI <= 3141592654 / 1000000000) by (split; interval).
  assert (T : Rabs (V x - IZR q * PI) <= 600).
  { assert (X1 : Rabs (V x * V c * PI - V x) <= 300).
    { replace (V x * V c * PI - V x) with (V x * (V c * PI - 1)) by ring. rewrite Rabs_mult.
      apply Rle_trans with (6746517000 * (42 / 1000000000)); [|lra].
      apply Rmult_le_compat; try apply Rabs_pos; [apply Rabs_le; lra|rewrite VC; interval with (i_prec 60)]. }
    apply Rabs_le_inv in X1.
    assert (X2 : Rabs ((V x * V c - IZR q) * PI) <= 66 * (3141592654 / 1000000000)).
    { rewrite Rabs_mult, (Rabs_pos_eq PI) by lra. apply Rmult_le_compat; try lra; [apply Rabs_pos|apply Rabs_le; lra]. }
    apply Rabs_le_inv in X2. apply Rabs_le. lra. }
  destruct (reduce_wide x q F Hq T) as [Fr Br]. set (r := reduce f_four (i2f q) x) in *. clearbody r.
  getk KD (d2f kM_PI_2). set (d := d2f kM_PI_2) in *. clearbody d. unfold crush.
  assert (HE := eta_small). assert (HP := eta_pos). assert (Kr := appr_val r _ Fr eq_refl). apply Rabs_le_inv in Br.
  match type of KD with appr _ ?k _ => assert (DB : 1 <= k <= 2) by lra; set (D := k) in * end. clearbody D.
  assert (A1 := appr_sub _ _ _ _ 0 0 1902 1 KD Kr ltac:(apply Rabs_le; lra) ltac:(lra) ltac:(lra)).
  assert (A2 := appr_sub _ _ _ _ 0 1 1902 3 KD A1 ltac:(apply Rabs_le; lra) ltac:(lra) ltac:(lra)).
  split; [exact (proj1 A2)|]. destruct A2 as [_ A2]. apply Rabs_le_inv in A2. apply Rabs_le. lra.
Qed.

Lemma sin_range x : pattern float32 x -> fin x -> Rabs (V x) <= 6746517000 ->
  exists r, sin_ x = Ok r /\ pattern float32 r /\ fin r /\ Rabs (V r) <= 1.
Proof.
  intros P F B. destruct (trig_arg_wide x P F B) as (q & Q & Fz & Bz). cbv zeta in *. unfold sin_. rewrite Q. cbn [bind].
  assert (Pz : pattern float32 (crush (d2f kM_PI_2) (reduce f_four (i2f q) x))) by (unfold crush; generalize (d2f kM_PI_2); intro; apply pat_sub).
  revert Fz Bz Pz. generalize (crush (d2f kM_PI_2) (reduce f_four (i2f q) x)). intros z Fz Bz Pz. apply Rabs_le_inv in Bz.
  pose proof (sin_poly_fin (Z.odd q) z (V z) Pz Fz eq_refl ltac:(lra)) as Fu.
  assert (Pu : pattern float32 (sin_poly (Z.odd q) z)) by (rewrite sin_poly_sp; unfold sp; generalize (mulf (spU (mulf z z)) (if Z.odd q then negf z else z)); intro; apply pat_madd).
  eexists. split; [reflexivity|]. apply unit_check_range; assumption.
Qed.

Lemma cos_range x : pattern float32 x -> fin x -> Rabs (V x) <= 6746517000 ->
  exists r, cos_ x = Ok r /\ pattern float32 r /\ fin r /\ Rabs (V r) <= 1.
Proof.
  intros P F B. destruct (trig_arg_wide x P F B) as (q & Q & Fz & Bz). cbv zeta in *. unfold cos_. rewrite Q. cbn [bind].
  revert Fz Bz. generalize (crush (d2f kM_PI_2) (reduce f_four (i2f q) x)). intros z Fz Bz. apply Rabs_le_inv in Bz.
  pose proof (cos_poly_fin z (V z) Fz eq_refl ltac:(lra)) as Fu.
  assert (Pu : pattern float32 (cos_poly z)) by (rewrite cos_poly_U; generalize (cosU (mulf z z)); intro; apply pat_madd).
  destruct (neg_ok _ Pu Fu) as (Pn & Fn & _).
  eexists. split; [reflexivity|]. destruct (Z.odd q); apply unit_check_range; assumption.
Qed.

Lemma trig_bad x : pattern float32 x -> (fin x -> 6746521000 <= Rabs (V x)) -> sin_ x = UB BadArith /\ cos_ x = UB BadArith.
Proof.
  intros P H. unfold sin_, cos_. getc HC (d2f kM_1_PI). destruct HC as (_ & FC & VC). rewrite arg_bad.
  - split; reflexivity.
  - exact P.
  - exact FC.
  - rewrite VC. lra.
  - intro F. specialize (H F). rewrite VC. destruct (Rle_dec 0 (V x)); [right; rewrite Rabs_pos_eq in H by lra|left; rewrite Rabs_left in H by lra]; lra.
Qed.
