(** sin and cos: error bounds. *)
From Coq Require Import ZArith Bool Lia Reals Lra Psatz.
From Flocq Require Import Core IEEE754.Binary IEEE754.Bits.
From Interval Require Import Tactic.
From Verif Require Import Mem AlgoModel FpModel FpProofs RoundModel RoundProofs LitModel LimModel FmathModel FmathReal FmathStep FmathExp FmathLog FmathReduce FmathFast.
Open Scope R_scope.

Definition Psin (t : R) : R := ((t * t) * (((((11471495 / 4398046511104) * (t * t) + (-13613803 / 68719476736)) * (t * t) + (8947575 / 1073741824)) * (t * t) + (-11184806 / 67108864)) * t) + t).

Lemma sin_poly_ok x t : fin x -> V x = t -> - (1575 / 1000) <= t <= (1575 / 1000) -> appr (sin_poly false x) (Psin t) (2225 / 10000000000).
Proof.
  intros F E H. assert (Kx := appr_val x t F E).
  getk Ku0 (lit 26083159809786593541503 (-28)).
  getk Kc1 (negf (lit 1981069071916863322258 (-25))).
  getk Kc2 (lit 833307858556509017944336 (-26)).
  getk Kc3 (negf (lit 166666597127914428710938 (-24))).
  stepm Ks Kx Kx (1579 / 1000) (1579 / 1000) (1487 / 10000000000) t.
  stepf Ku1 Ku0 Ks Kc1 (2614 / 1000000000) (2486 / 1000) (1986 / 10000000) (7762 / 10000000000000000) (1262 / 100000000000000) t.
  stepf Ku2 Ku1 Ks Kc2 (1986 / 10000000) (2486 / 1000) (8350 / 1000000) (9035 / 100000000000000) (5882 / 10000000000000) t.
  stepf Ku3 Ku2 Ks Kc3 (8350 / 1000000) (2486 / 1000) (1670 / 10000) (3942 / 1000000000000) (1390 / 100000000000) t.
  stepm Kux Ku3 Kx (1670 / 10000) (1579 / 1000) (3767 / 100000000000) t.
  stepf Kr Ks Kux Kx (2486 / 1000) (2323 / 10000) (1002 / 1000) (1627 / 10000000000) (2225 / 10000000000) t.
  exact Kr.
Qed.

Definition Pcos (t : R) : R := ((((((-9563529 / 35184372088832) * (t * t) + (13633419 / 549755813888)) * (t * t) + (-11930456 / 8589934592)) * (t * t) + (11184810 / 268435456)) * (t * t) + (-8388608 / 16777216)) * (t * t) + (8388608 / 8388608)).

Lemma cos_poly_ok x t : fin x -> V x = t -> - (1575 / 1000) <= t <= (1575 / 1000) -> appr (cos_poly x) (Pcos t) (3332 / 10000000000).
Proof.
  intros F E H. assert (Kx := appr_val x t F E).
  getk Ku0 (negf (lit 271811842367242206819355 (-30))).
  getk Kc1 (lit 247990446951007470488548 (-28)).
  getk Kc2 (negf (lit 138888787478208541870117 (-26))).
  getk Kc3 (lit 416666641831398010253906 (-25)).
  getk Kc4 (negf f_half).
  getk Kc5 (f_one).
  stepm Ks Kx Kx (1579 / 1000) (1579 / 1000) (1487 / 10000000000) t.
  stepf Ku1 Ku0 Ks Kc1 (2724 / 10000000000) (2486 / 1000) (2485 / 100000000) (8088 / 100000000000000000) (1563 / 1000000000000000) t.
  stepf Ku2 Ku1 Ks Kc2 (2485 / 100000000) (2486 / 1000) (1392 / 1000000) (1127 / 100000000000000) (9425 / 100000000000000) t.
  stepf Ku3 Ku2 Ks Kc3 (1392 / 1000000) (2486 / 1000) (4175 / 100000) (6477 / 10000000000000) (3137 / 1000000000000) t.
  stepf Ku4 Ku3 Ks Kc4 (4175 / 100000) (2486 / 1000) (5011 / 10000) (2020 / 100000000000) (5008 / 100000000000) t.
  stepf Kr Ku4 Ks Kc5 (5011 / 10000) (2486 / 1000) (1003 / 1000) (2733 / 10000000000) (3332 / 10000000000) t.
  exact Kr.
Qed.

Lemma Psin_err t : - (1575 / 1000) <= t <= 1575 / 1000 -> Rabs (Psin t - sin t) <= 12 / 1000000000.
Proof. intro H. unfold Psin. interval with (i_bisect t, i_taylor t, i_prec 60, i_degree 12, i_depth 30). Qed.

Lemma Pcos_err t : - (1575 / 1000) <= t <= 1575 / 1000 -> Rabs (Pcos t - cos t) <= 23 / 100000000.
Proof. intro H. unfold Pcos. interval with (i_bisect t, i_taylor t, i_prec 60, i_degree 12, i_depth 30). Qed.

(** ** The reduced argument *)
Lemma parts4 : (V (pi_part1 f_four) = IZR (-201) * bpow radix2 (-6 - 0) /\ V (pi_part2 f_four) = IZR (-2029) * bpow radix2 (-21 - 0) /\
   V (pi_part3 f_four) = IZR (-1297) * bpow radix2 (-33 - 0) /\ V (pi_part4 f_four) = IZR (-11821338) * bpow radix2 (-61 - 0)) /\
  (fin (pi_part1 f_four) /\ fin (pi_part2 f_four) /\ fin (pi_part3 f_four) /\ fin (pi_part4 f_four)).
Proof.
  getc H1 (pi_part1 f_four). getc H2 (pi_part2 f_four). getc H3 (pi_part3 f_four). getc H4 (pi_part4 f_four).
  destruct H1 as (_ & F1 & V1), H2 as (_ & F2 & V2), H3 as (_ & F3 & V3), H4 as (_ & F4 & V4).
  split; [|tauto]. rewrite V1, V2, V3, V4.
  replace (bpow radix2 (-6 - 0)) with (/ 64) by reflexivity. replace (bpow radix2 (-21 - 0)) with (/ 2097152) by reflexivity.
  replace (bpow radix2 (-33 - 0)) with (/ 8589934592) by reflexivity. replace (bpow radix2 (-61 - 0)) with (/ 2305843009213693952) by reflexivity.
  repeat split; lra.
Qed.

Lemma crush_ok c x C k : fin c -> fin x -> V c = C -> (-20 <= k <= 20)%Z -> Rabs (C - V x) <= bpow radix2 (k + 1) -> Rabs (V x) <= bpow radix2 k - bpow radix2 (k - 20) ->
  fin (crush c x) /\ Rabs (V (crush c x) - V x) <= bpow radix2 (k - 24) + bpow radix2 (k - 25).
Proof.
  intros Fc Fx Vc Hk B1 B2. unfold crush.
  destruct (sub_ok c x Fc Fx) as [F1 V1]; [rewrite Vc; apply Rle_trans with (1 := B1); apply bpow_le; lia|].
  assert (E1 : Rabs (V (subf c x) - (C - V x)) <= bpow radix2 (k - 24)).
  { rewrite V1, Vc. replace (k - 24)%Z with (k + 1 - 25)%Z by lia. apply rnd_err_bpow; [lia|exact B1]. }
  assert (L : bpow radix2 (k - 24) <= bpow radix2 (k - 20)) by (apply bpow_le; lia).
  assert (B3 : Rabs (V c - V (subf c x)) <= bpow radix2 k).
  { rewrite Vc. replace (C - V (subf c x)) with (V x - (V (subf c x) - (C - V x))) by ring.
    apply Rle_trans with (1 := Rabs_triang _ _). rewrite Rabs_Ropp. lra. }
  destruct (sub_ok c (subf c x) Fc F1) as [F2 V2]; [apply Rle_trans with (1 := B3); apply bpow_le; lia|].
  split; [exact F2|]. rewrite V2. pose proof (rnd_err_bpow k _ ltac:(lia) B3) as E2. rewrite Vc in *.
  replace (rnd (C - V (subf c x)) - V x) with ((rnd (C - V (subf c x)) - (C - V (subf c x))) - (V (subf c x) - (C - V x))) by ring.
  apply Rle_trans with (1 := Rabs_triang _ _). rewrite Rabs_Ropp. lra.
Qed.

Lemma trig_arg x : pattern float32 x -> fin x -> Rabs (V x) <= 25732 ->
  exists q, fast_rint (mulf x (d2f kM_1_PI)) = Ok q /\
    let z := crush (d2f kM_PI_2) (reduce f_four (i2f q) x) in
    fin z /\ Rabs (V z - (V x - IZR q * PI)) <= 3 / 10000000 /\ - (1575 / 1000) <= V z <= 1575 / 1000.
Proof.
  intros P F B. getc HC (d2f kM_1_PI). destruct HC as (_ & FC & VC). set (c := d2f kM_1_PI) in *. clearbody c.
  assert (B1 : Rabs (V x * V c) <= bpow radix2 13).
  { replace (bpow radix2 13) with 8192 by reflexivity. rewrite VC. apply Rabs_le_inv in B. apply Rabs_le. lra. }
  destruct (mul_ok x c F FC) as [Fy Vy]; [apply Rle_trans with (1 := B1); apply bpow_le; lia|].
  pose proof (rnd_err_bpow 13 _ ltac:(lia) B1) as E1. rewrite <- Vy in E1. replace (bpow radix2 (13 - 25)) with (/ 4096) in E1 by reflexivity.
  assert (Py := pat_mul x c). set (y := mulf x c) in *. clearbody y.
  apply Rabs_le_inv in B, E1.
  destruct (rint_ok y Py Fy) as (q & Q & Hq & E2); [rewrite VC in E1; apply Rabs_le; lra|].
  exists q. split; [exact Q|]. cbv zeta. apply Rabs_le_inv in E2.
  assert (PB : 3141592653 / 1000000000 <= PI <= 3141592654 / 1000000000) by (split; interval).
  assert (T : Rabs (V x - IZR q * (PI * bpow radix2 (- 0))) <= 15745 / 10000 * bpow radix2 (- 0)).
  { replace (bpow radix2 (- 0)) with 1 by reflexivity. rewrite !Rmult_1_r.
    assert (X1 : Rabs (V x * V c * PI - V x) <= 11 / 10000).
    { replace (V x * V c * PI - V x) with (V x * (V c * PI - 1)) by ring. rewrite Rabs_mult.
      apply Rle_trans with (25732 * (42 / 1000000000)); [|lra].
      apply Rmult_le_compat; try apply Rabs_pos; [apply Rabs_le; lra|rewrite VC; interval with (i_prec 60)]. }
    apply Rabs_le_inv in X1.
    assert (X2 : Rabs ((V x * V c - IZR q) * PI) <= (/ 2 + / 2048) * (3141592654 / 1000000000)).
    { rewrite Rabs_mult, (Rabs_pos_eq PI) by lra. apply Rmult_le_compat; try lra; [apply Rabs_pos|apply Rabs_le; lra]. }
    apply Rabs_le_inv in X2. apply Rabs_le. lra. }
  destruct parts4 as [PV PF]. destruct (reduce_ok 0 f_four x q ltac:(lia) PV PF F Hq T) as [Fr Er].
  replace (bpow radix2 (- 0)) with 1 in * by reflexivity. rewrite !Rmult_1_r in *.
  set (r := reduce f_four (i2f q) x) in *. clearbody r. apply Rabs_le_inv in T, Er.
  getc HD (d2f kM_PI_2). destruct HD as (_ & FD & VD). set (d := d2f kM_PI_2) in *. clearbody d.
  destruct (crush_ok d r _ 1 FD Fr VD ltac:(lia)) as [Fz Ez].
  - replace (bpow radix2 (1 + 1)) with 4 by reflexivity. apply Rabs_le. lra.
  - replace (bpow radix2 1) with 2 by reflexivity. replace (bpow radix2 (1 - 20)) with (/ 524288) by reflexivity. apply Rabs_le. lra.
  - replace (bpow radix2 (1 - 24)) with (/ 8388608) in Ez by reflexivity. replace (bpow radix2 (1 - 25)) with (/ 16777216) in Ez by reflexivity.
    split; [exact Fz|]. apply Rabs_le_inv in Ez. split; [apply Rabs_le; lra|lra].
Qed.

(** ** The sine never leaves [-1, 1] *)
Definition spU (s : Z) : Z :=
  madd (madd (madd (lit 26083159809786593541503 (-28)) s (negf (lit 1981069071916863322258 (-25)))) s (lit 833307858556509017944336 (-26))) s
       (negf (lit 166666597127914428710938 (-24))).
Definition sp (s y : Z) : Z := madd s (mulf (spU s) y) y.

Lemma sin_poly_sp odd x : sin_poly odd x = sp (mulf x x) (if odd then negf x else x).
Proof. unfold sp, spU, sin_poly. cbv zeta. reflexivity. Qed.

Definition obind {A B} (x : option A) (f : A -> option B) : option B := match x with Some a => f a | None => None end.
Definition fsin (y : Z * Z) : option (Z * Z) :=
  obind (fmul y y) (fun s =>
  obind (fmadd (11471495, -42) s (-13613803, -36)) (fun u =>
  obind (fmadd u s (8947575, -30)) (fun u =>
  obind (fmadd u s (-11184806, -26)) (fun u =>
  obind (fmul u y) (fun m => fmadd s m y)))))%Z.

Lemma obind_some {A B} (x : option A) (f : A -> option B) b : obind x f = Some b -> exists a, x = Some a /\ f a = Some b.
Proof. destruct x as [a|]; [|discriminate]. intro H. exists a. now split. Qed.

Lemma fsin_ok x y w : rep x y -> fsin y = Some w -> rep (sin_poly false x) w.
Proof.
  intros R H. unfold fsin in H.
  assert (C0 : rep (lit 26083159809786593541503 (-28)) (11471495, - 42)%Z) by (apply (rep_const _ (11471495) 4398046511104 42); [vm_compute; reflexivity..|lia]).
  assert (C1 : rep (negf (lit 1981069071916863322258 (-25))) (-13613803, - 36)%Z) by (apply (rep_const _ (-13613803) 68719476736 36); [vm_compute; reflexivity..|lia]).
  assert (C2 : rep (lit 833307858556509017944336 (-26)) (8947575, - 30)%Z) by (apply (rep_const _ (8947575) 1073741824 30); [vm_compute; reflexivity..|lia]).
  assert (C3 : rep (negf (lit 166666597127914428710938 (-24))) (-11184806, - 26)%Z) by (apply (rep_const _ (-11184806) 67108864 26); [vm_compute; reflexivity..|lia]).
  rewrite sin_poly_sp. unfold sp, spU. revert C0 C1 C2 C3.
  generalize (lit 26083159809786593541503 (-28)), (negf (lit 1981069071916863322258 (-25))), (lit 833307858556509017944336 (-26)), (negf (lit 166666597127914428710938 (-24))).
  intros k0 k1 k2 k3 C0 C1 C2 C3.
  apply obind_some in H. destruct H as (s & S & H). assert (Rs := fmul_ok _ _ _ _ _ R R S).
  apply obind_some in H. destruct H as (u1 & U1 & H). assert (R1 := fmadd_ok _ _ _ _ _ _ _ C0 Rs C1 U1).
  apply obind_some in H. destruct H as (u2 & U2 & H). assert (R2 := fmadd_ok _ _ _ _ _ _ _ R1 Rs C2 U2).
  apply obind_some in H. destruct H as (u3 & U3 & H). assert (R3 := fmadd_ok _ _ _ _ _ _ _ R2 Rs C3 U3).
  apply obind_some in H. destruct H as (m & M & H). assert (R4 := fmul_ok _ _ _ _ _ R3 R M).
  exact (fmadd_ok _ _ _ _ _ _ _ Rs R4 R H).
Qed.

Definition below_one (M : Z) : bool := match fsin (M, -23)%Z with Some (m, e) => ((e <=? 0) && (m <=? 2 ^ (- e)))%Z | None => false end.

Lemma window_checked : all_from below_one (Z.to_nat 8300) 13172600 = true.
Proof. vm_cast_no_check (eq_refl true). Qed.

Lemma sin_window x : fin x -> 157031 / 100000 <= V x <= 157128 / 100000 -> V (sin_poly false x) <= 1.
Proof.
  intros F H. destruct (V_multiple x 0) as (M & E); [|lia|].
  { replace (bpow radix2 0) with 1 by reflexivity. rewrite Rabs_pos_eq; lra. }
  replace (0 - 23)%Z with (-23)%Z in E by reflexivity.
  assert (B : (13172600 <= M < 13172600 + Z.of_nat (Z.to_nat 8300))%Z).
  { rewrite E in H. replace (bpow radix2 (-23)) with (/ 8388608) in H by reflexivity. rewrite Z2Nat.id by lia.
    replace (13172600 + 8300)%Z with 13180900%Z by reflexivity. split; [apply le_IZR; lra|apply lt_IZR; lra]. }
  pose proof (all_from_ok _ _ _ _ window_checked B) as K. unfold below_one in K.
  destruct (fsin (M, -23)%Z) as [[m e]|] eqn:S; [|discriminate]. apply andb_true_iff in K. rewrite !Z.leb_le in K. destruct K as [K1 K2].
  assert (R : rep x (M, -23)%Z) by (split; [exact F|exact E]). destruct (fsin_ok _ _ _ R S) as [_ ->].
  unfold vf. cbn [fst snd]. apply Rle_trans with (bpow radix2 (- e) * bpow radix2 e).
  - apply Rmult_le_compat_r; [apply bpow_ge_0|]. rewrite <- IZR_Zpower by lia. apply IZR_le. exact K2.
  - rewrite <- bpow_plus. replace (- e + e)%Z with 0%Z by lia. simpl. lra.
Qed.

Lemma one_gap u : 1 < V u -> 1 + / 8388608 <= V u.
Proof.
  intro H. destruct (V_multiple u 0) as (M & E); [replace (bpow radix2 0) with 1 by reflexivity; rewrite Rabs_pos_eq; lra|lia|].
  replace (bpow radix2 (0 - 23)) with (/ 8388608) in E by reflexivity. rewrite E in *.
  assert (8388609 <= M)%Z; [|apply IZR_le in H0; lra]. apply Z.le_succ_l with (n := 8388608%Z). apply lt_IZR. lra.
Qed.

Lemma spU_ok x t : fin x -> V x = t -> - (1575 / 1000) <= t <= (1575 / 1000) ->
  fin (mulf x x) /\ Rabs (V (mulf x x)) <= 3 /\ fin (spU (mulf x x)) /\ Rabs (V (spU (mulf x x))) <= 1.
Proof.
  intros F E H. assert (Kx := appr_val x t F E). unfold spU.
  getk Ku0 (lit 26083159809786593541503 (-28)).
  getk Kc1 (negf (lit 1981069071916863322258 (-25))).
  getk Kc2 (lit 833307858556509017944336 (-26)).
  getk Kc3 (negf (lit 166666597127914428710938 (-24))).
  stepm Ks Kx Kx (1579 / 1000) (1579 / 1000) (1487 / 10000000000) t.
  stepf Ku1 Ku0 Ks Kc1 (2614 / 1000000000) (2486 / 1000) (1986 / 10000000) (7762 / 10000000000000000) (1262 / 100000000000000) t.
  stepf Ku2 Ku1 Ks Kc2 (1986 / 10000000) (2486 / 1000) (8350 / 1000000) (9035 / 100000000000000) (5882 / 10000000000000) t.
  stepf Ku3 Ku2 Ks Kc3 (8350 / 1000000) (2486 / 1000) (1670 / 10000) (3942 / 1000000000000) (1390 / 100000000000) t.
  split; [exact (proj1 Ks)|]. split.
  { apply Rle_trans with (1 := appr_bound _ _ _ (2486 / 1000) Ks ltac:(iv t)). lra. }
  split; [exact (proj1 Ku3)|].
  apply Rle_trans with (1 := appr_bound _ _ _ (1670 / 10000) Ku3 ltac:(iv t)). lra.
Qed.

Lemma sp_opp s y y' : fin s -> fin (spU s) -> fin y -> fin y' -> Rabs (V s) <= 3 -> Rabs (V (spU s)) <= 1 -> Rabs (V y) <= 2 -> V y' = - V y ->
  fin (sp s y) /\ fin (sp s y') /\ V (sp s y') = - V (sp s y).
Proof.
  intros Fs FU Fy Fy' Bs BU By E. unfold sp. generalize dependent (spU s). intros u FU BU.
  assert (B1 : Rabs (V u * V y) <= 2) by (rewrite Rabs_mult; replace 2 with (1 * 2) by lra; apply Rmult_le_compat; auto using Rabs_pos).
  destruct (mul_ok u y FU Fy) as [F1 V1]; [apply le127 with 2; lra|].
  destruct (mul_ok u y' FU Fy') as [F1' V1']; [rewrite E, Ropp_mult_distr_r_reverse, Rabs_Ropp; apply le127 with 2; lra|].
  rewrite E, Ropp_mult_distr_r_reverse, rnd_opp, <- V1 in V1'.
  assert (B2 : Rabs (V (mulf u y)) <= 2).
  { rewrite V1. apply Rabs_le. apply Rabs_le_inv in B1. apply rnd_bounds; [apply (rnd_IZR (-2)); lia|apply (rnd_IZR 2); lia|lra]. }
  unfold madd. set (m := mulf u y) in *. set (m' := mulf u y') in *. clearbody m m'.
  assert (B3 : Rabs (V s * V m) <= 6) by (rewrite Rabs_mult; replace 6 with (3 * 2) by lra; apply Rmult_le_compat; auto using Rabs_pos).
  destruct (mul_ok s m Fs F1) as [F2 V2]; [apply le127 with 6; lra|].
  destruct (mul_ok s m' Fs F1') as [F2' V2']; [rewrite V1', Ropp_mult_distr_r_reverse, Rabs_Ropp; apply le127 with 6; lra|].
  rewrite V1', Ropp_mult_distr_r_reverse, rnd_opp, <- V2 in V2'.
  assert (B4 : Rabs (V (mulf s m)) <= 6).
  { rewrite V2. apply Rabs_le. apply Rabs_le_inv in B3. apply rnd_bounds; [apply (rnd_IZR (-6)); lia|apply (rnd_IZR 6); lia|lra]. }
  set (p := mulf s m) in *. set (p' := mulf s m') in *. clearbody p p'.
  assert (B5 : Rabs (V p + V y) <= 8) by (apply Rle_trans with (1 := Rabs_triang _ _); lra).
  destruct (add_ok p y F2 Fy) as [F3 V3]; [apply le127 with 8; lra|].
  destruct (add_ok p' y' F2' Fy') as [F3' V3']; [rewrite V2', E; replace (- V p + - V y) with (- (V p + V y)) by ring; rewrite Rabs_Ropp; apply le127 with 8; lra|].
  split; [exact F3|]. split; [exact F3'|]. rewrite V3', V3, V2', E. rewrite <- rnd_opp. f_equal. ring.
Qed.

Lemma sin_pos x : fin x -> 0 <= V x <= 1575 / 1000 -> Rabs (V (sin_poly false x)) <= 1.
Proof.
  intros F H. destruct (sin_poly_ok x (V x) F eq_refl ltac:(lra)) as [_ A].
  assert (E := Psin_err (V x) ltac:(lra)). set (t := V x) in *. apply Rabs_le_inv in A, E.
  assert (S0 : 0 <= sin t) by (apply sin_ge_0; interval). apply Rabs_le. split; [lra|].
  assert (PB : 31415926 / 10000000 <= PI <= 31415927 / 10000000) by (split; interval).
  destruct (Rle_dec (V (sin_poly false x)) 1) as [L|L]; [exact L|]. apply Rnot_le_lt in L. apply one_gap in L. exfalso.
  destruct (Rlt_dec t (157031 / 100000)) as [W1|W1].
  - assert (sin t <= 1 - 1165 / 10000000000); [|lra].
    apply Rle_trans with (sin (157031 / 100000)); [apply sin_incr_1; lra|interval with (i_prec 60)].
  - destruct (Rlt_dec (157128 / 100000) t) as [W2|W2].
    + assert (sin t <= 1 - 1165 / 10000000000); [|lra].
      apply Rle_trans with (sin (157128 / 100000)); [apply sin_decr_1; lra|interval with (i_prec 60)].
    + pose proof (sin_window x F ltac:(fold t; lra)). lra.
Qed.

Lemma sin_poly_unit odd x : pattern float32 x -> fin x -> - (1575 / 1000) <= V x <= 1575 / 1000 ->
  let u := sin_poly odd x in pattern float32 u /\ fin u /\ Rabs (V u) <= 1 /\ Rabs (V u - (if odd then - sin (V x) else sin (V x))) <= 2345 / 10000000000.
Proof.
  intros P F H. cbv zeta. split; [rewrite sin_poly_sp; unfold sp; generalize (mulf (spU (mulf x x)) (if odd then negf x else x)); intro; apply pat_madd|].
  destruct (neg_ok x P F) as (Pn & Fn & Vn).
  destruct (sin_poly_ok x (V x) F eq_refl H) as [Fu A]. assert (E := Psin_err (V x) H). apply Rabs_le_inv in A, E.
  destruct (spU_ok x (V x) F eq_refl H) as (Fs & Bs & FU & BU).
  assert (Bx : Rabs (V x) <= 2) by (apply Rabs_le; lra).
  destruct (sp_opp (mulf x x) x (negf x) Fs FU F Fn Bs BU Bx Vn) as (_ & Fo & Vo).
  assert (U : Rabs (V (sin_poly false x)) <= 1).
  { destruct (Rle_dec 0 (V x)) as [Z0|Z0]; [apply sin_pos; [exact F|lra]|].
    assert (Q : mulf (negf x) (negf x) = mulf x x \/ V (mulf x x) = 0).
    { destruct (Req_dec (V (mulf x x)) 0) as [N|N]; [now right|left].
      assert (B : Rabs (V x * V x) <= 4) by (rewrite Rabs_mult; replace 4 with (2 * 2) by lra; apply Rmult_le_compat; auto using Rabs_pos).
      destruct (mul_ok x x F F) as [_ V1]; [apply le127 with 4; lra|].
      assert (X : V (negf x) * V (negf x) = V x * V x) by (rewrite Vn; ring).
      destruct (mul_ok (negf x) (negf x) Fn Fn) as [F2 V2]; [rewrite X; apply le127 with 4; lra|].
      rewrite X, <- V1 in V2. symmetry. apply V_inj; auto using pat_mul. }
    destruct Q as [Q|Q].
    - assert (S : V (sin_poly false (negf x)) = - V (sin_poly false x)) by (rewrite !sin_poly_sp, Q; exact Vo).
      rewrite <- Rabs_Ropp, <- S. apply sin_pos; [exact Fn|lra].
    - destruct (Rle_dec (Rabs (V x)) (1 / 1000)) as [T|T].
      + apply Rabs_le_inv in T. assert (Rabs (sin (V x)) <= 1 / 500) by interval. apply Rabs_le_inv in H0. apply Rabs_le. lra.
      + exfalso. apply T. clear - Q F Bx.
        destruct (mul_ok x x F F) as [_ V1]; [apply le127 with 4; [rewrite Rabs_mult; replace 4 with (2 * 2) by lra; apply Rmult_le_compat; auto using Rabs_pos|lra]|].
        rewrite V1 in Q. destruct (Rle_dec (Rabs (V x)) (1 / 1000)) as [T|T]; [exact T|exfalso]. apply Rnot_le_lt in T.
        assert (bpow radix2 (-20) <= V x * V x).
        { replace (bpow radix2 (-20)) with (/ 1048576) by reflexivity. rewrite <- (Rabs_pos_eq (V x * V x)), Rabs_mult by nra. nra. }
        apply rnd_le in H. rewrite rnd_bpow in H by lia. replace (bpow radix2 (-20)) with (/ 1048576) in H by reflexivity. lra. }
  apply Rabs_le_inv in U. destruct odd.
  - rewrite sin_poly_sp in *. split; [exact Fo|]. rewrite Vo. split; apply Rabs_le; lra.
  - split; [exact Fu|]. split; apply Rabs_le; lra.
Qed.

(** ** Cosine *)
Definition cosU (s : Z) : Z :=
  madd (madd (madd (madd (negf (lit 271811842367242206819355 (-30))) s (lit 247990446951007470488548 (-28))) s (negf (lit 138888787478208541870117 (-26)))) s
       (lit 416666641831398010253906 (-25))) s (negf f_half).

Lemma cos_poly_U x : cos_poly x = madd (cosU (mulf x x)) (mulf x x) f_one.
Proof. unfold cos_poly, cosU. cbv zeta. reflexivity. Qed.

Lemma cosU_ok x t : fin x -> V x = t -> - (1575 / 1000) <= t <= (1575 / 1000) ->
  fin (mulf x x) /\ 0 <= V (mulf x x) <= 3 /\ fin (cosU (mulf x x)) /\ -1 <= V (cosU (mulf x x)) <= 0.
Proof.
  intros F E H. assert (Kx := appr_val x t F E). unfold cosU.
  getk Ku0 (negf (lit 271811842367242206819355 (-30))).
  getk Kc1 (lit 247990446951007470488548 (-28)).
  getk Kc2 (negf (lit 138888787478208541870117 (-26))).
  getk Kc3 (lit 416666641831398010253906 (-25)).
  getk Kc4 (negf f_half).
  stepm Ks Kx Kx (1579 / 1000) (1579 / 1000) (1487 / 10000000000) t.
  stepf Ku1 Ku0 Ks Kc1 (2724 / 10000000000) (2486 / 1000) (2485 / 100000000) (8088 / 100000000000000000) (1563 / 1000000000000000) t.
  stepf Ku2 Ku1 Ks Kc2 (2485 / 100000000) (2486 / 1000) (1392 / 1000000) (1127 / 100000000000000) (9425 / 100000000000000) t.
  stepf Ku3 Ku2 Ks Kc3 (1392 / 1000000) (2486 / 1000) (4175 / 100000) (6477 / 10000000000000) (3137 / 1000000000000) t.
  stepf Ku4 Ku3 Ks Kc4 (4175 / 100000) (2486 / 1000) (5011 / 10000) (2020 / 100000000000) (5008 / 100000000000) t.
  split; [exact (proj1 Ks)|]. split.
  { split; [|assert (B := appr_bound _ _ _ (2486 / 1000) Ks ltac:(iv t)); apply Rabs_le_inv in B; lra].
    destruct (mul_ok x x F F) as [_ ->]; [apply le127 with 3; [rewrite E; interval|lra]|]. rewrite <- rnd_0. apply rnd_le. nra. }
  split; [exact (proj1 Ku4)|]. destruct Ku4 as [_ A]. apply Rabs_le_inv in A.
  match type of A with _ <= _ - ?p <= _ => assert (-9 / 10 <= p <= -1 / 10) by (split; interval) end. lra.
Qed.

Lemma cos_poly_unit x : fin x -> - (1575 / 1000) <= V x <= 1575 / 1000 ->
  let u := cos_poly x in pattern float32 u /\ fin u /\ Rabs (V u) <= 1 /\ Rabs (V u - cos (V x)) <= 5632 / 10000000000.
Proof.
  intros F H. cbv zeta. split; [rewrite cos_poly_U; generalize (cosU (mulf x x)); intro; apply pat_madd|].
  destruct (cos_poly_ok x (V x) F eq_refl H) as [Fu A]. assert (E := Pcos_err (V x) H). apply Rabs_le_inv in A, E.
  split; [exact Fu|]. split; [|apply Rabs_le; lra].
  assert (C0 : -1 / 100 <= cos (V x)) by (set (t := V x) in *; clearbody t; interval).
  apply Rabs_le. split; [lra|]. rewrite cos_poly_U. destruct (cosU_ok x (V x) F eq_refl H) as (Fs & Bs & FU & BU).
  set (s := mulf x x) in *. clearbody s. clear A Fu. set (U := cosU s) in *. clearbody U. unfold madd.
  destruct (mul_ok U s FU Fs) as [Fm Vm]; [apply le127 with 3; [apply Rabs_le; nra|lra]|].
  assert (Bm : -3 <= V (mulf U s) <= 0).
  { rewrite Vm. apply rnd_bounds; [apply (rnd_IZR (-3)); lia|apply rnd_0|nra]. }
  destruct one_ok as (_ & F1 & V1).
  destruct (add_ok (mulf U s) f_one Fm F1) as [_ ->]; [rewrite V1; apply le127 with 3; [apply Rabs_le; lra|lra]|].
  rewrite V1. apply Rle_trans with (rnd 1); [apply rnd_le; lra|]. rewrite (rnd_IZR 1) by lia. lra.
Qed.

Lemma unit_check_ok u : pattern float32 u -> fin u -> Rabs (V u) <= 1 -> unit_check u = u.
Proof.
  intros P F H. unfold unit_check. destruct (fabs_ok' u P F) as (_ & Fa & Va). destruct one_ok as (_ & F1 & V1).
  rewrite (fgt_ok _ _ Fa F1), Va, V1. rewrite Rlt_bool_false by exact H. reflexivity.
Qed.

(** ** Shifting by multiples of pi *)
Lemma trig_shift q t : sin (t + IZR q * PI) = (if Z.odd q then - sin t else sin t) /\ cos (t + IZR q * PI) = (if Z.odd q then - cos t else cos t).
Proof.
  revert t. induction q as [|q IH|q IH] using Z.peano_ind; intro t.
  - rewrite Rmult_0_l, Rplus_0_r. split; reflexivity.
  - rewrite Z.odd_succ, <- Z.negb_odd, succ_IZR. replace (t + (IZR q + 1) * PI) with (t + IZR q * PI + PI) by ring.
    rewrite neg_sin, neg_cos. destruct (IH t) as [-> ->]. destruct (Z.odd q); cbn [negb]; split; ring.
  - rewrite Z.odd_pred, <- Z.negb_odd. unfold Z.pred. rewrite plus_IZR.
    destruct (IH (t - PI)) as [S C]. replace (t + (IZR q + -1) * PI) with (t - PI + IZR q * PI) by ring. rewrite S, C.
    assert (NS := neg_sin (t - PI)). assert (NC := neg_cos (t - PI)). replace (t - PI + PI) with t in * by ring. rewrite NS, NC.
    destruct (Z.odd q); cbn [negb]; split; ring.
Qed.

Lemma sin_abs_le z : Rabs (sin z) <= Rabs z.
Proof.
  assert (P : forall y, 0 < y -> Rabs (sin y) <= y).
  { intros y Hy. assert (S := sin_lt_x y Hy). apply Rabs_le. split; [|lra]. assert (B := SIN_bound y). assert (3 < PI) by interval.
    destruct (Rle_dec y PI); [assert (0 <= sin y) by (apply sin_ge_0; lra)|]; lra. }
  destruct (Rtotal_order z 0) as [H|[->|H]].
  - rewrite <- (Rabs_Ropp (sin z)), <- sin_neg, (Rabs_left z H). apply P. lra.
  - rewrite sin_0. lra.
  - rewrite (Rabs_pos_eq z) by lra. now apply P.
Qed.

Lemma trig_close a b : Rabs (sin a - sin b) <= Rabs (a - b) /\ Rabs (cos a - cos b) <= Rabs (a - b).
Proof.
  assert (S := sin_abs_le ((a - b) / 2)). replace (Rabs (a - b)) with (2 * Rabs ((a - b) / 2)).
  2:{ rewrite <- (Rabs_pos_eq 2) at 1 by lra. rewrite <- Rabs_mult. f_equal. lra. }
  split.
  - rewrite form4, !Rabs_mult, (Rabs_pos_eq 2) by lra. assert (C := COS_bound ((a + b) / 2)). apply Rabs_le in C.
    assert (P1 := Rabs_pos (sin ((a - b) / 2))). assert (P2 := Rabs_pos (cos ((a + b) / 2))). nra.
  - rewrite form2, !Rabs_mult, (Rabs_left (-2)) by lra. assert (C := SIN_bound ((a + b) / 2)). apply Rabs_le in C.
    assert (P1 := Rabs_pos (sin ((a - b) / 2))). assert (P2 := Rabs_pos (sin ((a + b) / 2))). nra.
Qed.

Lemma sin_ok x : pattern float32 x -> fin x -> Rabs (V x) <= 25732 ->
  exists r, sin_ x = Ok r /\ pattern float32 r /\ fin r /\ Rabs (V r) <= 1 /\ Rabs (V r - sin (V x)) <= 54 / 100000000.
Proof.
  intros P F B. destruct (trig_arg x P F B) as (q & Q & Fz & Ez & Bz). cbv zeta in *. unfold sin_. rewrite Q. cbn [bind].
  assert (Pz : pattern float32 (crush (d2f kM_PI_2) (reduce f_four (i2f q) x))) by (unfold crush; generalize (d2f kM_PI_2); intro; apply pat_sub).
  revert Fz Ez Bz Pz. generalize (crush (d2f kM_PI_2) (reduce f_four (i2f q) x)). intros z Fz Ez Bz Pz.
  destruct (sin_poly_unit (Z.odd q) z Pz Fz Bz) as (Pu & Fu & Bu & Eu).
  set (u := sin_poly (Z.odd q) z) in *. clearbody u. rewrite (unit_check_ok u Pu Fu Bu). exists u. repeat (split; [assumption || reflexivity|]).
  destruct (trig_close (V z) (V x - IZR q * PI)) as [C _].
  destruct (trig_shift q (V x - IZR q * PI)) as [S _]. replace (V x - IZR q * PI + IZR q * PI) with (V x) in S by ring. rewrite S.
  apply Rabs_le. apply Rabs_le_inv in Eu, Ez.
  assert (C' : Rabs (sin (V z) - sin (V x - IZR q * PI)) <= 3 / 10000000) by (apply Rle_trans with (1 := C); apply Rabs_le; lra).
  apply Rabs_le_inv in C'. destruct (Z.odd q); lra.
Qed.

Lemma cos_ok x : pattern float32 x -> fin x -> Rabs (V x) <= 25732 ->
  exists r, cos_ x = Ok r /\ pattern float32 r /\ fin r /\ Rabs (V r) <= 1 /\ Rabs (V r - cos (V x)) <= 87 / 100000000.
Proof.
  intros P F B. destruct (trig_arg x P F B) as (q & Q & Fz & Ez & Bz). cbv zeta in *. unfold cos_. rewrite Q. cbn [bind].
  revert Fz Ez Bz. generalize (crush (d2f kM_PI_2) (reduce f_four (i2f q) x)). intros z Fz Ez Bz.
  destruct (cos_poly_unit z Fz Bz) as (Pu & Fu & Bu & Eu).
  set (u := cos_poly z) in *. clearbody u.
  destruct (trig_close (V z) (V x - IZR q * PI)) as [_ C].
  destruct (trig_shift q (V x - IZR q * PI)) as [_ S]. replace (V x - IZR q * PI + IZR q * PI) with (V x) in S by ring. rewrite S.
  apply Rabs_le_inv in Eu, Ez.
  assert (C' : Rabs (cos (V z) - cos (V x - IZR q * PI)) <= 3 / 10000000) by (apply Rle_trans with (1 := C); apply Rabs_le; lra).
  apply Rabs_le_inv in C'. destruct (neg_ok u Pu Fu) as (Pn & Fn & Vn). destruct (Z.odd q).
  - rewrite (unit_check_ok (negf u) Pn Fn) by (rewrite Vn, Rabs_Ropp; exact Bu). exists (negf u).
    repeat (split; [assumption || reflexivity|]). rewrite Vn, Rabs_Ropp. split; [exact Bu|]. apply Rabs_le; lra.
  - rewrite (unit_check_ok u Pu Fu Bu). exists u. repeat (split; [assumption || reflexivity|]). apply Rabs_le; lra.
Qed.
