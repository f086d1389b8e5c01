(** Real-number semantics of the float operations used by FmathModel. *)
From Coq Require Import ZArith Bool Lia Reals Lra Psatz.
From Flocq Require Import Core IEEE754.Binary IEEE754.Bits Relative.
From Verif Require Import Mem AlgoModel FpModel FpProofs RoundModel RoundProofs LitModel LimModel FmathModel.
Open Scope Z_scope.

Definition V (x : Z) : R := B2R 24 128 (b32_of_bits x).
Definition fin (x : Z) : Prop := is_finite 24 128 (b32_of_bits x) = true.
Notation fexp32 := (FLT_exp (-149) 24).
Definition rnd (y : R) : R := round radix2 fexp32 ZnearestE y.

Lemma V_val x : V x = B2R _ _ (val float32 x).
Proof. reflexivity. Qed.
Lemma fin_val x : fin x <-> isfinite float32 x = true.
Proof. rewrite isfinite_spec. reflexivity. Qed.

Lemma of_bits_of v : b32_of_bits (bits_of_b32 v) = v.
Proof. exact (binary_float_of_bits_of_binary_float 23 8 eq_refl eq_refl eq_refl v). Qed.

(** ** rnd *)
Local Instance p24 : Prec_gt_0 24 := eq_refl.

Lemma rnd_le a b : (a <= b)%R -> (rnd a <= rnd b)%R.
Proof. intro H. apply round_le; [apply FLT_exp_valid; exact eq_refl|apply valid_rnd_N|exact H]. Qed.

Lemma rnd_format a : generic_format radix2 fexp32 a -> rnd a = a.
Proof. intro H. apply round_generic; [apply valid_rnd_N|exact H]. Qed.

Lemma rnd_F2R m e : Z.abs m < 2 ^ 24 -> -149 <= e -> rnd (IZR m * bpow radix2 e) = (IZR m * bpow radix2 e)%R.
Proof.
  intros A B. apply rnd_format. apply generic_format_FLT. exists (Float radix2 m e); [reflexivity|exact A|exact B].
Qed.

Lemma rnd_IZR m : Z.abs m < 2 ^ 24 -> rnd (IZR m) = IZR m.
Proof. intro A. pose proof (rnd_F2R m 0 A) as H. cbn [bpow] in H. rewrite Rmult_1_r in H. apply H. lia. Qed.

Lemma rnd_bpow e : -149 <= e -> rnd (bpow radix2 e) = bpow radix2 e.
Proof. intro H. pose proof (rnd_F2R 1 e) as K. rewrite Rmult_1_l in K. apply K; [cbn; lia|exact H]. Qed.

Lemma rnd_0 : rnd 0 = 0%R.
Proof. apply round_0. apply valid_rnd_N. Qed.

Lemma rnd_opp a : rnd (- a) = (- rnd a)%R.
Proof. unfold rnd. rewrite round_NE_opp. reflexivity. Qed.

Lemma rnd_V x : rnd (V x) = V x.
Proof. apply rnd_format. apply (generic_format_B2R 24 128). Qed.

Lemma V_format x : generic_format radix2 fexp32 (V x).
Proof. apply (generic_format_B2R 24 128). Qed.

(** half an ulp, by binade *)
Lemma rnd_err_bpow k y : -125 <= k -> (Rabs y <= bpow radix2 k)%R -> (Rabs (rnd y - y) <= bpow radix2 (k - 25))%R.
Proof.
  intros K H. destruct (Rle_lt_or_eq_dec _ _ H) as [L|E].
  - apply Rle_trans with (1 := error_le_half_ulp radix2 fexp32 _ y).
    destruct (Req_dec y 0) as [->|N].
    + rewrite ulp_FLT_0 by exact eq_refl. change (/2)%R with (bpow radix2 (-1)). rewrite <- bpow_plus. apply bpow_le. lia.
    + rewrite ulp_neq_0 by exact N. change (/2)%R with (bpow radix2 (-1)). rewrite <- bpow_plus. apply bpow_le.
      unfold cexp, FLT_exp. assert (mag radix2 y <= k) by (now apply mag_le_bpow). lia.
  - assert (rnd y = y).
    { rewrite <- (Rabs_pos_eq (bpow radix2 k)) in E by apply bpow_ge_0. apply Rabs_eq_Rabs in E. destruct E as [->| ->]; [apply rnd_bpow; lia|rewrite rnd_opp, rnd_bpow by lia; reflexivity]. }
    rewrite H0, Rminus_diag_eq, Rabs_R0 by reflexivity. apply bpow_ge_0.
Qed.

Lemma rnd_err y : (Rabs (rnd y - y) <= bpow radix2 (-24) * Rabs y + bpow radix2 (-150))%R.
Proof.
  destruct (error_N_FLT radix2 (-149) 24 eq_refl (fun x => negb (Z.even x)) y) as (e & d & He & Hd & _ & E).
  unfold rnd. rewrite E. replace (y * (1 + e) + d - y)%R with (e * y + d)%R by ring.
  apply Rle_trans with (1 := Rabs_triang _ _). rewrite Rabs_mult.
  change (/2)%R with (bpow radix2 (-1)) in He, Hd. rewrite <- bpow_plus in He, Hd. cbn [Z.add Z.opp Z.sub] in He, Hd.
  apply Rplus_le_compat; [|exact Hd]. apply Rmult_le_compat_r; [apply Rabs_pos|exact He].
Qed.

(** relative form for normal results *)
Lemma rnd_rel y : (bpow radix2 (-126) <= Rabs y)%R -> exists e, (Rabs e <= bpow radix2 (-24))%R /\ rnd y = (y * (1 + e))%R.
Proof.
  intro H. destruct (relative_error_N_FLT_ex radix2 (-149) 24 eq_refl (fun x => negb (Z.even x)) y) as (e & He & E).
  - exact H.
  - exists e. change (/2)%R with (bpow radix2 (-1)) in He. rewrite <- bpow_plus in He. split; [exact He|exact E].
Qed.

Lemma rnd_bounds lo hi y : rnd lo = lo -> rnd hi = hi -> (lo <= y <= hi)%R -> (lo <= rnd y <= hi)%R.
Proof. intros L H [A B]. apply rnd_le in A, B. rewrite L in A. rewrite H in B. now split. Qed.

(** ** The operations *)

Lemma no_overflow y : (Rabs y <= bpow radix2 127)%R ->
  Rlt_bool (Rabs (round radix2 (SpecFloat.fexp 24 128) (BinarySingleNaN.round_mode BinarySingleNaN.mode_NE) y)) (bpow radix2 128) = true.
Proof.
  intro H. apply Rlt_bool_true. change (round radix2 (SpecFloat.fexp 24 128) (BinarySingleNaN.round_mode BinarySingleNaN.mode_NE) y) with (rnd y).
  assert (A : (- bpow radix2 127 <= rnd y <= bpow radix2 127)%R).
  { apply rnd_bounds; [rewrite rnd_opp, rnd_bpow by lia; reflexivity|apply rnd_bpow; lia|]. now apply Rabs_le_inv. }
  assert (bpow radix2 127 < bpow radix2 128)%R by (apply bpow_lt; lia).
  apply Rle_lt_trans with (bpow radix2 127); [|assumption]. now apply Rabs_le.
Qed.

Lemma mul_ok a b : fin a -> fin b -> (Rabs (V a * V b) <= bpow radix2 127)%R ->
  fin (mulf a b) /\ V (mulf a b) = rnd (V a * V b).
Proof.
  unfold fin, V, mulf. intros A B H. rewrite of_bits_of.
  pose proof (Bmult_correct 24 128 eq_refl eq_refl binop_nan_pl32 BinarySingleNaN.mode_NE (b32_of_bits a) (b32_of_bits b)) as C.
  rewrite (no_overflow _ H) in C. destruct C as (C1 & C2 & _). split.
  - etransitivity; [exact C2|]. now rewrite A, B.
  - exact C1.
Qed.

Lemma add_ok a b : fin a -> fin b -> (Rabs (V a + V b) <= bpow radix2 127)%R ->
  fin (addf a b) /\ V (addf a b) = rnd (V a + V b).
Proof.
  unfold fin, V, addf. intros A B H. rewrite of_bits_of.
  pose proof (Bplus_correct 24 128 eq_refl eq_refl binop_nan_pl32 BinarySingleNaN.mode_NE (b32_of_bits a) (b32_of_bits b) A B) as C.
  rewrite (no_overflow _ H) in C. destruct C as (C1 & C2 & _). split; [exact C2|exact C1].
Qed.

Lemma sub_ok a b : fin a -> fin b -> (Rabs (V a - V b) <= bpow radix2 127)%R ->
  fin (subf a b) /\ V (subf a b) = rnd (V a - V b).
Proof.
  unfold fin, V, subf. intros A B H. rewrite of_bits_of.
  pose proof (Bminus_correct 24 128 eq_refl eq_refl binop_nan_pl32 BinarySingleNaN.mode_NE (b32_of_bits a) (b32_of_bits b) A B) as C.
  rewrite (no_overflow _ H) in C. destruct C as (C1 & C2 & _). split; [exact C2|exact C1].
Qed.

Lemma div_ok a b : fin a -> fin b -> V b <> 0%R -> (Rabs (V a / V b) <= bpow radix2 127)%R ->
  fin (divf a b) /\ V (divf a b) = rnd (V a / V b).
Proof.
  unfold fin, V, divf. intros A B N H. rewrite of_bits_of.
  pose proof (Bdiv_correct 24 128 eq_refl eq_refl binop_nan_pl32 BinarySingleNaN.mode_NE (b32_of_bits a) (b32_of_bits b) N) as C.
  rewrite (no_overflow _ H) in C. destruct C as (C1 & C2 & _). split; [etransitivity; [exact C2|exact A]|exact C1].
Qed.

Lemma i2f_ok i : Z.abs i < 2 ^ 24 -> fin (i2f i) /\ V (i2f i) = IZR i.
Proof.
  intro H. unfold fin, V, i2f. rewrite of_bits_of.
  pose proof (binary_normalize_correct 24 128 eq_refl eq_refl BinarySingleNaN.mode_NE i 0 false) as C.
  assert (F : F2R (Float radix2 i 0) = IZR i) by (unfold F2R; cbn; ring).
  rewrite F in C. rewrite no_overflow in C.
  - destruct C as (C1 & C2 & _). split; [exact C2|]. etransitivity; [exact C1|]. apply (rnd_IZR i H).
  - rewrite <- abs_IZR. change (bpow radix2 127) with (IZR (2 ^ 127)). apply IZR_le. lia.
Qed.

Lemma neg_ok a : pattern float32 a -> fin a -> pattern float32 (negf a) /\ fin (negf a) /\ V (negf a) = (- V a)%R.
Proof.
  intros P Fa. destruct (fneg_fields float32 a P) as (M & E & SG & P').
  assert (F' : isfinite float32 (negf a) = true).
  { apply fin_val in Fa. unfold isfinite in *. unfold negf. now rewrite E. }
  split; [exact P'|]. split; [now apply fin_val|].
  rewrite !V_val. rewrite !val_R. rewrite !aux_cases. unfold negf. rewrite M, E.
  apply fin_val in Fa. unfold isfinite in Fa. apply negb_true_iff in Fa. rewrite Fa.
  rewrite SG. destruct (exponent float32 a =? 0).
  - destruct (mantissa float32 a); cbn [FF2R]; try lra. rewrite <- F2R_Zopp. f_equal. destruct (sgn float32 a); reflexivity.
  - cbn [FF2R]. rewrite <- F2R_Zopp. f_equal. destruct (sgn float32 a); reflexivity.
Qed.

(** ** Results are 32-bit patterns *)
Lemma pat_bits v : pattern float32 (bits_of_b32 v).
Proof. exact (bits_of_binary_float_range 23 8 eq_refl eq_refl v). Qed.
Lemma pat_mul a b : pattern float32 (mulf a b). Proof. apply pat_bits. Qed.
Lemma pat_add a b : pattern float32 (addf a b). Proof. apply pat_bits. Qed.
Lemma pat_sub a b : pattern float32 (subf a b). Proof. apply pat_bits. Qed.
Lemma pat_div a b : pattern float32 (divf a b). Proof. apply pat_bits. Qed.
Lemma pat_madd a b c : pattern float32 (madd a b c). Proof. apply pat_bits. Qed.
Lemma pat_i2f i : pattern float32 (i2f i). Proof. apply pat_bits. Qed.

(** ** The value of a positive or negative normal pattern *)
Lemma V_fields x : exponent float32 x <> 0 -> exponent float32 x <> 255 ->
  V x = ((if sgn float32 x then -1 else 1) * (IZR (mantissa float32 x + 2 ^ 23) * bpow radix2 (exponent float32 x - 150)))%R.
Proof.
  intros E1 E2. rewrite V_val, val_R, aux_cases.
  destruct (Z.eqb_spec (exponent float32 x) 0) as [K|K]; [exfalso; exact (E1 K)|].
  destruct (Z.eqb_spec (exponent float32 x) (2 ^ ew float32 - 1)) as [K2|K2]; [exfalso; exact (E2 K2)|].
  cbn [FF2R]. unfold F2R. cbn [Fnum Fexp].
  pose proof (mant_range float32 x) as M. change (mw float32) with 23 in *.
  assert (Z.pos (Z.to_pos (mantissa float32 x + 2 ^ 23)) = mantissa float32 x + 2 ^ 23) by (apply Z2Pos.id; lia).
  change (SpecFloat.emin (23 + 1) (2 ^ (ew float32 - 1))) with (-149).
  replace (exponent float32 x + -149 - 1) with (exponent float32 x - 150) by ring.
  destruct (sgn float32 x); cbn [cond_Zopp]; rewrite ?opp_IZR, H; ring.
Qed.

Lemma fin_fields x : exponent float32 x <> 255 -> fin x.
Proof. intro H. apply fin_val. unfold isfinite. change (2 ^ ew float32 - 1) with 255. apply negb_true_iff, Z.eqb_neq, H. Qed.

(** Constants: numerator and denominator of the value. *)
Definition cnum (x : Z) : Z :=
  let m := (if sgn float32 x then -1 else 1) * (mantissa float32 x + 2 ^ 23) in
  if 150 <=? exponent float32 x then m * 2 ^ (exponent float32 x - 150) else m.
Definition cden (x : Z) : Z := if 150 <=? exponent float32 x then 1 else 2 ^ (150 - exponent float32 x).
Definition cok (x : Z) : bool := negb (exponent float32 x =? 0) && negb (exponent float32 x =? 255) && (0 <=? x) && (x <? 2 ^ 32).

Lemma const_ok x n d : cok x = true -> cnum x = n -> cden x = d -> pattern float32 x /\ fin x /\ V x = (IZR n / IZR d)%R.
Proof.
  unfold cok. intros C <- <-. apply andb_true_iff in C. destruct C as [C C4]. apply andb_true_iff in C. destruct C as [C C3].
  apply andb_true_iff in C. destruct C as [C1 C2]. apply negb_true_iff, Z.eqb_neq in C1. apply negb_true_iff, Z.eqb_neq in C2.
  apply Z.leb_le in C3. apply Z.ltb_lt in C4.
  split; [split; [exact C3|exact C4]|]. split; [now apply fin_fields|].
  rewrite V_fields by assumption. unfold cnum, cden. destruct (Z.leb_spec 150 (exponent float32 x)) as [L|L].
  - rewrite mult_IZR, mult_IZR. rewrite (IZR_Zpower radix2) by lia. destruct (sgn float32 x); field.
  - rewrite mult_IZR. pose proof (IZR_Zpower radix2 (150 - exponent float32 x)) as P. change (radix2 : Z) with 2 in P. rewrite P by lia.
    unfold Rdiv. rewrite <- bpow_opp. replace (- (150 - exponent float32 x)) with (exponent float32 x - 150) by ring.
    destruct (sgn float32 x); ring.
Qed.

(** ** Errors *)
Lemma small150 : (bpow radix2 (-150) <= / 10 ^ 40)%R.
Proof.
  change (-150) with (- (150)). rewrite bpow_opp. change (bpow radix2 150) with (IZR (2 ^ 150)). rewrite (pow_IZR 10 40).
  apply Rinv_le; [apply IZR_lt; reflexivity|]. apply IZR_le. vm_compute. discriminate.
Qed.

Definition eta : R := (/ 10 ^ 40)%R.

Lemma rnd_err' y M : (Rabs y <= M)%R -> (Rabs (rnd y - y) <= M / 16777216 + eta)%R.
Proof.
  intro H. pose proof (rnd_err y) as E. change (bpow radix2 (-24)) with (/ 16777216)%R in E. pose proof small150. unfold eta. lra.
Qed.

Lemma eta_pos : (0 < eta)%R. Proof. unfold eta. apply Rinv_0_lt_compat, pow_lt. lra. Qed.
Lemma eta_small : (eta <= / 1000000000000000000000000000000)%R.
Proof. unfold eta. rewrite (pow_IZR 10 40). apply Rinv_le; [lra|]. apply IZR_le. vm_compute. discriminate. Qed.

Lemma big127 : (10 ^ 30 <= bpow radix2 127)%R.
Proof. change (bpow radix2 127) with (IZR (2 ^ 127)). rewrite (pow_IZR 10 30). apply IZR_le. vm_compute. discriminate. Qed.

(** One Horner step r := x*r + c, with the running error. *)
Lemma horner x r c p X Mp S d d' :
  fin x -> fin r -> fin c -> (Rabs (V x) <= X)%R -> (Rabs (V r - p) <= d)%R -> (Rabs p <= Mp)%R ->
  (Rabs (V x * p + V c) <= S)%R -> (X <= 10 ^ 6)%R -> (Mp + d <= 10 ^ 6)%R -> (S <= 10 ^ 6)%R ->
  (X * d + X * (Mp + d) / 16777216 + eta + (S + X * d + X * (Mp + d) / 16777216 + eta) / 16777216 + eta <= d')%R ->
  (fin (madd x r c) /\ Rabs (V (madd x r c) - (V x * p + V c)) <= d')%R /\
  (fin (madd r x c) /\ Rabs (V (madd r x c) - (V x * p + V c)) <= d')%R.
Proof.
  intros Fx Fr Fc HX Hd Hp HS BX BM BS Hd'.
  pose proof eta_pos as E0. pose proof eta_small as E1. pose proof big127 as BB.
  assert (X0 : (0 <= X)%R) by (apply Rle_trans with (2 := HX); apply Rabs_pos).
  assert (d0 : (0 <= d)%R) by (apply Rle_trans with (2 := Hd); apply Rabs_pos).
  assert (M0 : (0 <= Mp)%R) by (apply Rle_trans with (2 := Hp); apply Rabs_pos).
  assert (R1 : (Rabs (V r) <= Mp + d)%R).
  { replace (V r) with (p + (V r - p))%R by ring. apply Rle_trans with (1 := Rabs_triang _ _). lra. }
  assert (P1 : (Rabs (V x * V r) <= X * (Mp + d))%R).
  { rewrite Rabs_mult. apply Rmult_le_compat; try apply Rabs_pos; assumption. }
  assert (P2 : (X * (Mp + d) <= 10 ^ 12)%R).
  { replace (10 ^ 12)%R with (10 ^ 6 * 10 ^ 6)%R by ring. apply Rmult_le_compat; lra. }
  assert (B1 : (Rabs (V x * V r) <= bpow radix2 127)%R).
  { apply Rle_trans with (1 := P1). apply Rle_trans with (1 := P2). apply Rle_trans with (2 := BB). lra. }
  assert (G : forall y, fin y -> V y = rnd (V x * V r) ->
    (fin (addf y c) /\ Rabs (V (addf y c) - (V x * p + V c)) <= d')%R).
  { intros y Fy Vy. pose proof (rnd_err' _ _ P1) as E.
    assert (A : (Rabs (V y - V x * p) <= X * d + X * (Mp + d) / 16777216 + eta)%R).
    { rewrite Vy. replace (rnd (V x * V r) - V x * p)%R with ((rnd (V x * V r) - V x * V r) + V x * (V r - p))%R by ring.
      apply Rle_trans with (1 := Rabs_triang _ _). rewrite (Rabs_mult (V x)).
      assert (Rabs (V x) * Rabs (V r - p) <= X * d)%R by (apply Rmult_le_compat; try apply Rabs_pos; assumption). lra. }
    assert (Sm : (Rabs (V y + V c) <= S + X * d + X * (Mp + d) / 16777216 + eta)%R).
    { replace (V y + V c)%R with ((V x * p + V c) + (V y - V x * p))%R by ring.
      apply Rle_trans with (1 := Rabs_triang _ _). lra. }
    assert (Xd : (X * d <= 10 ^ 12)%R).
    { replace (10 ^ 12)%R with (10 ^ 6 * 10 ^ 6)%R by ring. apply Rmult_le_compat; lra. }
    destruct (add_ok y c Fy Fc) as [Fa Va].
    { apply Rle_trans with (1 := Sm). apply Rle_trans with (2 := BB). lra. }
    split; [exact Fa|]. rewrite Va. pose proof (rnd_err' _ _ Sm) as E2.
    replace (rnd (V y + V c) - (V x * p + V c))%R with ((rnd (V y + V c) - (V y + V c)) + (V y - V x * p))%R by ring.
    apply Rle_trans with (1 := Rabs_triang _ _). lra. }
  destruct (mul_ok x r Fx Fr B1) as [Fm Vm].
  destruct (mul_ok r x Fr Fx) as [Fm' Vm']; [now rewrite Rmult_comm|].
  split; unfold madd; apply G; try assumption. now rewrite Vm', Rmult_comm.
Qed.

(** ** Comparisons, conversions *)
Lemma flt_ok a b : fin a -> fin b -> flt float32 a b = Rlt_bool (V a) (V b).
Proof.
  intros A B. unfold flt. pose proof (Bcompare_correct 24 128 (b32_of_bits a) (b32_of_bits b) A B) as C.
  change (Bcompare _ _ (val float32 a) (val float32 b)) with (Bcompare 24 128 (b32_of_bits a) (b32_of_bits b)).
  rewrite C. fold (V a) (V b). unfold Rlt_bool. destruct (Rcompare (V a) (V b)); reflexivity.
Qed.
Lemma fgt_ok a b : fin a -> fin b -> fgt float32 a b = Rlt_bool (V b) (V a).
Proof. intros A B. rewrite gt_lt. now apply flt_ok. Qed.

Lemma feq_ok a b : fin a -> fin b -> feq float32 a b = Req_bool (V a) (V b).
Proof.
  intros A B. unfold feq. pose proof (Bcompare_correct 24 128 (b32_of_bits a) (b32_of_bits b) A B) as C.
  change (Bcompare _ _ (val float32 a) (val float32 b)) with (Bcompare 24 128 (b32_of_bits a) (b32_of_bits b)).
  rewrite C. fold (V a) (V b). unfold Req_bool. destruct (Rcompare (V a) (V b)); reflexivity.
Qed.

Lemma f2i_ok x : fin x -> (-2147483649 < V x < 2147483648)%R ->
  f2i x = Ok (Ztrunc (V x)) /\ - 2 ^ 31 <= Ztrunc (V x) < 2 ^ 31.
Proof.
  intros F H. destruct (to_int_ok float32 (b32_of_bits x) F) as [E B].
  { change (B2R _ _ (b32_of_bits x)) with (V x). lra. }
  split; [|exact B]. unfold f2i. rewrite F. cbv zeta.
  destruct (trunc_frac float32 (b32_of_bits x) F) as (t & T1 & T2 & _).
  change (Btrunc (mw float32 + 1) (2 ^ (ew float32 - 1)) (b32_of_bits x)) with (Btrunc 24 128 (b32_of_bits x)) in T1.
  rewrite T1, T2. change (B2R _ _ (b32_of_bits x)) with (V x) in *.
  destruct (Z.leb_spec (- 2 ^ 31) (Ztrunc (V x))); [|lia]. destruct (Z.ltb_spec (Ztrunc (V x)) (2 ^ 31)); [|lia]. reflexivity.
Qed.

Lemma f2i_bad x : (fin x -> (V x <= -2147483649)%R \/ (2147483648 <= V x)%R) -> f2i x = UB BadArith.
Proof.
  intro H. pose proof (to_int_bad float32 (b32_of_bits x)) as E.
  unfold to_int in E. unfold f2i.
  change (is_finite _ _ (b32_of_bits x)) with (is_finite 24 128 (b32_of_bits x)) in E.
  destruct (is_finite 24 128 (b32_of_bits x)) eqn:F; [|reflexivity]. cbv zeta in *.
  change (Btrunc (mw float32 + 1) (2 ^ (ew float32 - 1)) (b32_of_bits x)) with (Btrunc 24 128 (b32_of_bits x)) in E.
  destruct ((- 2 ^ 31 <=? Btrunc 24 128 (b32_of_bits x)) && (Btrunc 24 128 (b32_of_bits x) <? 2 ^ 31)); [|reflexivity].
  assert (X : (inl (Btrunc 24 128 (b32_of_bits x)) : Z + unit) = inr tt); [|discriminate].
  apply E. intros _. destruct (H F) as [A|A]; [left|right]; change (B2R _ _ (b32_of_bits x)) with (V x); lra.
Qed.

(** Truncation is exact: x - (int)x is representable. *)
Lemma trunc_sub x : fin x -> (Rabs (V x) <= 10 ^ 6)%R ->
  fin (subf x (i2f (Ztrunc (V x)))) /\ V (subf x (i2f (Ztrunc (V x)))) = (V x - IZR (Ztrunc (V x)))%R.
Proof.
  intros F H. destruct (trunc_frac float32 (b32_of_bits x) F) as (t & T1 & T2 & _ & G & _).
  change (B2R _ _ (b32_of_bits x)) with (V x) in *. clear T1. subst t.
  assert (L : (Rabs (V x - IZR (Ztrunc (V x))) < 1)%R) by apply trunc_lt.
  assert (B : Z.abs (Ztrunc (V x)) < 2 ^ 24).
  { apply lt_IZR. rewrite abs_IZR. change (IZR (2 ^ 24)) with 16777216%R.
    replace (IZR (Ztrunc (V x))) with (V x - (V x - IZR (Ztrunc (V x))))%R by ring.
    apply Rle_lt_trans with (1 := Rabs_triang _ _). rewrite Rabs_Ropp. lra. }
  destruct (i2f_ok _ B) as [Fi Vi].
  destruct (sub_ok x (i2f (Ztrunc (V x))) F Fi) as [Fs Vs].
  { rewrite Vi. apply Rle_trans with 1%R; [lra|]. pose proof big127. lra. }
  split; [exact Fs|]. rewrite Vs, Vi. apply rnd_format. exact G.
Qed.

(** fabs and copysign *)
Lemma fabs_ok' x : pattern float32 x -> fin x -> pattern float32 (fabs float32 x) /\ fin (fabs float32 x) /\ V (fabs float32 x) = Rabs (V x).
Proof.
  intros P F. assert (F' := F). apply fin_val in F'. destruct (FpProofs.fabs_ok float32 x P (fin_nan _ _ F')) as (A & _ & B & _).
  split; [exact A|]. split.
  - apply fin_val. unfold isfinite in *. now rewrite B.
  - exact (FpProofs.fabs_R float32 x P F').
Qed.

Lemma sgn_V x : pattern float32 x -> fin x -> (sgn float32 x = true -> (V x <= 0)%R) /\ (sgn float32 x = false -> (0 <= V x)%R).
Proof.
  intros P F. rewrite V_val, val_R, aux_cases. apply fin_val in F. unfold isfinite in F. apply negb_true_iff in F. rewrite F.
  destruct (exponent float32 x =? 0); [destruct (mantissa float32 x)|]; cbn [FF2R]; split; intros S; rewrite ?S; cbn [cond_Zopp]; try lra;
    (apply F2R_ge_0 || apply F2R_le_0); cbn [Fnum]; lia.
Qed.

(** the magnitude of a pattern depends on its fields only *)
Lemma V_sign_fields x : fin x -> V x = ((if sgn float32 x then -1 else 1) * Rabs (V x))%R.
Proof.
  intro F. rewrite V_val, val_R, aux_cases. apply fin_val in F. unfold isfinite in F. apply negb_true_iff in F. rewrite F.
  destruct (exponent float32 x =? 0); [destruct (mantissa float32 x)|]; cbn [FF2R]; rewrite ?Rabs_R0; try ring;
    destruct (sgn float32 x); cbn [cond_Zopp];
    try (rewrite <- F2R_Zabs; cbn [Z.abs]; rewrite ?Rmult_1_l; unfold F2R; cbn [Fnum Fexp]; rewrite ?opp_IZR; try ring).
  all: try (change (IZR (Z.neg p)) with (- IZR (Z.pos p))%R; ring).
  all: cbn; ring.
Qed.

Lemma abs_V_fields x y : fin x -> mantissa float32 x = mantissa float32 y -> exponent float32 x = exponent float32 y ->
  Rabs (V x) = Rabs (V y).
Proof.
  intros F M E. rewrite !V_val. destruct (Z.eq_dec (exponent float32 x) 0) as [Z0|Z0].
  - rewrite !abs_R_sub by congruence. now rewrite M.
  - assert (exponent float32 x <> 2 ^ ew float32 - 1).
    { apply fin_val in F. unfold isfinite in F. apply negb_true_iff in F. now apply Z.eqb_neq. }
    rewrite !abs_R_norm by congruence. now rewrite M, E.
Qed.

Lemma copysign_ok x y : pattern float32 x -> pattern float32 y -> fin x ->
  pattern float32 (copysign x y) /\ fin (copysign x y) /\
  V (copysign x y) = ((if sgn float32 y then -1 else 1) * Rabs (V x))%R.
Proof.
  intros Px Py F. destruct (copysign_bits x y Px Py) as (P & M & E & S).
  assert (Fc : fin (copysign x y)) by (apply fin_val; apply fin_val in F; unfold isfinite in *; now rewrite E).
  split; [exact P|]. split; [exact Fc|]. rewrite (V_sign_fields _ Fc).
  rewrite (abs_V_fields _ x Fc M E).
  rewrite !sgn_bit in S by assumption. destruct (sgn float32 (copysign x y)), (sgn float32 y); try reflexivity; discriminate.
Qed.

(** copysign (x, y) where x is meant to have the sign of y *)
Lemma copysign_odd x y w d : pattern float32 x -> pattern float32 y -> fin x -> fin y -> (0 <= w)%R ->
  (Rabs (V x - w) <= d)%R -> (V y <> 0)%R ->
  (Rabs (V (copysign x y) - (if Rlt_dec (V y) 0 then - w else w)) <= d)%R.
Proof.
  intros Px Py Fx Fy W D N. destruct (copysign_ok x y Px Py Fx) as (_ & _ & ->).
  destruct (sgn_V y Py Fy) as [S1 S2].
  assert (A : (Rabs (Rabs (V x) - w) <= d)%R).
  { rewrite <- (Rabs_pos_eq w W) at 1. apply Rle_trans with (1 := Rabs_triang_inv2 _ _). exact D. }
  destruct (sgn float32 y).
  - specialize (S1 eq_refl). destruct (Rlt_dec (V y) 0); [|lra].
    replace (-1 * Rabs (V x) - - w)%R with (- (Rabs (V x) - w))%R by ring. now rewrite Rabs_Ropp.
  - specialize (S2 eq_refl). destruct (Rlt_dec (V y) 0); [lra|]. now rewrite Rmult_1_l.
Qed.

(** ** Exponent arithmetic on patterns *)
Lemma sgn_small x : 0 <= x -> sgn float32 x = false <-> x < 2 ^ 31.
Proof. intro H. unfold sgn. change (2 ^ mw float32 * 2 ^ ew float32) with (2 ^ 31). destruct (Z.leb_spec (2 ^ 31) x); split; intros; try lia; try discriminate; reflexivity. Qed.

Lemma split32 x : 0 <= x < 2 ^ 31 -> x = exponent float32 x * 2 ^ 23 + mantissa float32 x /\ 0 <= exponent float32 x < 256 /\ 0 <= mantissa float32 x < 2 ^ 23.
Proof.
  intro H. unfold exponent, mantissa. change (mw float32) with 23. change (ew float32) with 8.
  rewrite (Z.mod_small (x / 2 ^ 23)).
  - pose proof (Z.div_mod x (2 ^ 23)). pose proof (Z.mod_pos_bound x (2 ^ 23)).
    split; [lia|]. split; [|lia]. split; [apply Z.div_pos; lia|]. apply Z.div_lt_upper_bound; lia.
  - split; [apply Z.div_pos; lia|]. apply Z.div_lt_upper_bound; lia.
Qed.

Lemma mk32 E M : 0 <= E < 256 -> 0 <= M < 2 ^ 23 ->
  exponent float32 (E * 2 ^ 23 + M) = E /\ mantissa float32 (E * 2 ^ 23 + M) = M /\ sgn float32 (E * 2 ^ 23 + M) = false /\
  pattern float32 (E * 2 ^ 23 + M).
Proof.
  intros HE HM. unfold exponent, mantissa. change (mw float32) with 23. change (ew float32) with 8.
  replace (E * 2 ^ 23 + M) with (M + E * 2 ^ 23) by ring. rewrite Z.div_add, Z.mod_add by lia.
  rewrite (Z.div_small M), (Z.mod_small M) by lia. rewrite Z.mod_small by (change (2 ^ 8) with 256; lia).
  split; [lia|]. split; [reflexivity|]. split; [apply sgn_small; lia|]. unfold pattern. change (2 ^ (mw float32 + ew float32 + 1)) with (2 ^ 32). lia.
Qed.

Lemma V_mk E M : 0 < E < 255 -> 0 <= M < 2 ^ 23 -> fin (E * 2 ^ 23 + M) /\ V (E * 2 ^ 23 + M) = (IZR (2 ^ 23 + M) * bpow radix2 (E - 150))%R.
Proof.
  intros HE HM. destruct (mk32 E M) as (A & B & C & D); try lia. split.
  - apply fin_fields. lia.
  - rewrite V_fields by lia. rewrite A, B, C. rewrite (Z.add_comm M). ring.
Qed.

Lemma V_mk0 M : 0 <= M < 2 ^ 23 -> fin M /\ V M = (IZR M * bpow radix2 (-149))%R.
Proof.
  intros HM. destruct (mk32 0 M) as (A & B & C & D); try lia. cbn [Z.mul Z.add] in *. 
  assert (F : fin M) by (apply fin_fields; lia). split; [exact F|].
  rewrite (V_sign_fields M F), C. rewrite V_val, abs_R_sub by exact A. rewrite B. cbn. ring.
Qed.

Lemma V_pos_fields x : pattern float32 x -> fin x -> (0 < V x)%R -> 0 <= x < 255 * 2 ^ 23.
Proof.
  intros P F H. assert (S : sgn float32 x = false).
  { destruct (sgn float32 x) eqn:E; [|reflexivity]. apply sgn_V in E; [|assumption..]. lra. }
  unfold pattern in P. apply sgn_small in S; [|lia]. destruct (split32 x) as (E & A & B); [lia|].
  apply fin_val in F. unfold isfinite in F. apply negb_true_iff in F. apply Z.eqb_neq in F. change (2 ^ ew float32 - 1) with 255 in F. nia.
Qed.

(** binades *)
Lemma V_binade x k : pattern float32 x -> fin x -> (bpow radix2 k <= V x)%R -> -126 <= k -> k + 127 <= exponent float32 x.
Proof.
  intros P F H K. pose proof (bpow_gt_0 radix2 k).
  pose proof (V_pos_fields x P F ltac:(lra)) as B. destruct (split32 x) as (E & A & M); [lia|].
  destruct (Z.le_gt_cases (k + 127) (exponent float32 x)) as [L|L]; [exact L|]. exfalso.
  destruct (Z.eq_dec (exponent float32 x) 0) as [Z0|Z0].
  - rewrite Z0 in E. cbn [Z.mul Z.add] in E. destruct (V_mk0 (mantissa float32 x) M) as [_ VM]. rewrite <- E in VM.
    assert (V x < bpow radix2 (-126))%R.
    { rewrite VM. change (-126) with (23 + -149). rewrite bpow_plus. apply Rmult_lt_compat_r; [apply bpow_gt_0|].
      change (bpow radix2 23) with (IZR (2 ^ 23)). apply IZR_lt. lia. }
    assert (bpow radix2 (-126) <= bpow radix2 k)%R by (apply bpow_le; lia). lra.
  - destruct (V_mk (exponent float32 x) (mantissa float32 x)) as [_ VM]; [lia|lia|]. rewrite <- E in VM.
    assert (V x < bpow radix2 (exponent float32 x - 126))%R.
    { rewrite VM. replace (exponent float32 x - 126) with (24 + (exponent float32 x - 150)) by ring. rewrite bpow_plus.
      apply Rmult_lt_compat_r; [apply bpow_gt_0|]. change (bpow radix2 24) with (IZR (2 ^ 24)). apply IZR_lt. lia. }
    assert (bpow radix2 (exponent float32 x - 126) <= bpow radix2 k)%R by (apply bpow_le; lia). lra.
Qed.

Lemma V_binade_up x k : pattern float32 x -> fin x -> (0 < V x < bpow radix2 k)%R -> -126 <= k -> exponent float32 x < k + 127.
Proof.
  intros P F [H0 H] K. pose proof (V_pos_fields x P F H0) as B. destruct (split32 x) as (E & A & M); [lia|].
  destruct (Z.lt_ge_cases (exponent float32 x) (k + 127)) as [L|L]; [exact L|]. exfalso.
  destruct (V_mk (exponent float32 x) (mantissa float32 x)) as [_ VM]; [lia|lia|]. rewrite <- E in VM.
  assert (bpow radix2 (exponent float32 x - 127) <= V x)%R.
  { rewrite VM. replace (exponent float32 x - 127) with (23 + (exponent float32 x - 150)) by ring. rewrite bpow_plus.
    apply Rmult_le_compat_r; [apply bpow_ge_0|]. change (bpow radix2 23) with (IZR (2 ^ 23)). apply IZR_le. lia. }
  assert (bpow radix2 k <= bpow radix2 (exponent float32 x - 127))%R by (apply bpow_le; lia). lra.
Qed.
