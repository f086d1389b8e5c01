(** Running error bounds through float operations. *)
From Coq Require Import ZArith Bool Lia Reals Lra Psatz.
From Flocq Require Import Core IEEE754.Binary IEEE754.Bits.
From Interval Require Import Tactic.
From Verif Require Import Mem AlgoModel FpModel FpProofs RoundModel RoundProofs LitModel LimModel FmathModel FmathReal.
Open Scope R_scope.

(** a is finite and within d of p *)
Definition appr (a : Z) (p d : R) : Prop := fin a /\ Rabs (V a - p) <= d.

Lemma appr_exact a : fin a -> appr a (V a) 0.
Proof. intro F. split; [exact F|]. rewrite Rminus_diag_eq, Rabs_R0 by reflexivity. lra. Qed.

Lemma appr_val a p : fin a -> V a = p -> appr a p 0.
Proof. intros F <-. now apply appr_exact. Qed.

Lemma appr_weaken a p d d' : appr a p d -> d <= d' -> appr a p d'.
Proof. intros [F H] L. split; [exact F|lra]. Qed.

Lemma appr_d a p d : appr a p d -> 0 <= d.
Proof. intros [_ H]. apply Rle_trans with (2 := H). apply Rabs_pos. Qed.

Lemma appr_bound a p d M : appr a p d -> Rabs p <= M -> Rabs (V a) <= M + d.
Proof.
  intros [_ H] B. replace (V a) with (p + (V a - p)) by ring. apply Rle_trans with (1 := Rabs_triang _ _). lra.
Qed.

Lemma appr_shift a p q d e d' : appr a p d -> Rabs (p - q) <= e -> d + e <= d' -> appr a q d'.
Proof.
  intros [F H] E L. split; [exact F|]. replace (V a - q) with ((V a - p) + (p - q)) by ring.
  apply Rle_trans with (1 := Rabs_triang _ _). lra.
Qed.

Lemma appr_eq a p q d : appr a p d -> p = q -> appr a q d.
Proof. now intros H <-. Qed.

Lemma le127 y M : Rabs y <= M -> M <= 10 ^ 30 -> Rabs y <= bpow radix2 127.
Proof. intros. pose proof big127. lra. Qed.

Lemma mul_dist a b p q da db Ma Mb : Rabs (a - p) <= da -> Rabs (b - q) <= db -> Rabs p <= Ma -> Rabs q <= Mb ->
  Rabs (a * b - p * q) <= Ma * db + Mb * da + da * db.
Proof.
  intros A B P Q. replace (a * b - p * q) with (p * (b - q) + q * (a - p) + (a - p) * (b - q)) by ring.
  apply Rle_trans with (1 := Rabs_triang _ _). apply Rplus_le_compat.
  - apply Rle_trans with (1 := Rabs_triang _ _). rewrite !Rabs_mult. apply Rplus_le_compat; apply Rmult_le_compat; try apply Rabs_pos; assumption.
  - rewrite Rabs_mult. apply Rmult_le_compat; try apply Rabs_pos; assumption.
Qed.

Lemma appr_mul a b p q da db Ma Mb d' : appr a p da -> appr b q db -> Rabs p <= Ma -> Rabs q <= Mb ->
  (Ma + da) * (Mb + db) <= 10 ^ 30 ->
  Ma * db + Mb * da + da * db + (Ma + da) * (Mb + db) / 16777216 + eta <= d' ->
  appr (mulf a b) (p * q) d'.
Proof.
  intros A B P Q L D. pose proof (appr_bound _ _ _ _ A P) as BA. pose proof (appr_bound _ _ _ _ B Q) as BB.
  destruct A as [FA A], B as [FB B].
  assert (X : Rabs (V a * V b) <= (Ma + da) * (Mb + db)) by (rewrite Rabs_mult; apply Rmult_le_compat; try apply Rabs_pos; assumption).
  destruct (mul_ok a b FA FB (le127 _ _ X L)) as [F E]. split; [exact F|]. rewrite E.
  pose proof (rnd_err' _ _ X) as R. pose proof (mul_dist _ _ _ _ _ _ _ _ A B P Q) as W.
  replace (rnd (V a * V b) - p * q) with ((rnd (V a * V b) - V a * V b) + (V a * V b - p * q)) by ring.
  apply Rle_trans with (1 := Rabs_triang _ _). lra.
Qed.

Lemma appr_add a b p q da db S d' : appr a p da -> appr b q db -> Rabs (p + q) <= S ->
  S + da + db <= 10 ^ 30 -> da + db + (S + da + db) / 16777216 + eta <= d' ->
  appr (addf a b) (p + q) d'.
Proof.
  intros [FA A] [FB B] P L D.
  assert (W : Rabs (V a + V b - (p + q)) <= da + db).
  { replace (V a + V b - (p + q)) with ((V a - p) + (V b - q)) by ring. apply Rle_trans with (1 := Rabs_triang _ _). lra. }
  assert (X : Rabs (V a + V b) <= S + da + db).
  { replace (V a + V b) with ((p + q) + (V a + V b - (p + q))) by ring. apply Rle_trans with (1 := Rabs_triang _ _). lra. }
  destruct (add_ok a b FA FB (le127 _ _ X L)) as [F E]. split; [exact F|]. rewrite E.
  pose proof (rnd_err' _ _ X) as R.
  replace (rnd (V a + V b) - (p + q)) with ((rnd (V a + V b) - (V a + V b)) + (V a + V b - (p + q))) by ring.
  apply Rle_trans with (1 := Rabs_triang _ _). lra.
Qed.

Lemma appr_sub a b p q da db S d' : appr a p da -> appr b q db -> Rabs (p - q) <= S ->
  S + da + db <= 10 ^ 30 -> da + db + (S + da + db) / 16777216 + eta <= d' ->
  appr (subf a b) (p - q) d'.
Proof.
  intros [FA A] [FB B] P L D.
  assert (W : Rabs (V a - V b - (p - q)) <= da + db).
  { replace (V a - V b - (p - q)) with ((V a - p) - (V b - q)) by ring. apply Rle_trans with (1 := Rabs_triang _ _). rewrite Rabs_Ropp. lra. }
  assert (X : Rabs (V a - V b) <= S + da + db).
  { replace (V a - V b) with ((p - q) + (V a - V b - (p - q))) by ring. apply Rle_trans with (1 := Rabs_triang _ _). lra. }
  destruct (sub_ok a b FA FB (le127 _ _ X L)) as [F E]. split; [exact F|]. rewrite E.
  pose proof (rnd_err' _ _ X) as R.
  replace (rnd (V a - V b) - (p - q)) with ((rnd (V a - V b) - (V a - V b)) + (V a - V b - (p - q))) by ring.
  apply Rle_trans with (1 := Rabs_triang _ _). lra.
Qed.

(** Sums bounded by a power of two: half an ulp of that binade. *)
Lemma appr_add_k k a b p q da db d' : (-100 <= k <= 100)%Z -> appr a p da -> appr b q db -> Rabs (p + q) + da + db <= bpow radix2 k ->
  da + db + bpow radix2 (k - 25) <= d' -> appr (addf a b) (p + q) d'.
Proof.
  intros K [FA A] [FB B] P D.
  assert (W : Rabs (V a + V b - (p + q)) <= da + db).
  { replace (V a + V b - (p + q)) with ((V a - p) + (V b - q)) by ring. apply Rle_trans with (1 := Rabs_triang _ _). lra. }
  assert (X : Rabs (V a + V b) <= bpow radix2 k).
  { replace (V a + V b) with ((p + q) + (V a + V b - (p + q))) by ring. apply Rle_trans with (1 := Rabs_triang _ _). lra. }
  destruct (add_ok a b FA FB) as [F E]. { apply Rle_trans with (1 := X). apply bpow_le. lia. }
  split; [exact F|]. rewrite E.
  assert (R : Rabs (rnd (V a + V b) - (V a + V b)) <= bpow radix2 (k - 25)) by (apply rnd_err_bpow; [lia|exact X]).
  replace (rnd (V a + V b) - (p + q)) with ((rnd (V a + V b) - (V a + V b)) + (V a + V b - (p + q))) by ring.
  apply Rle_trans with (1 := Rabs_triang _ _). lra.
Qed.

Lemma appr_mul_k k a b p q da db Ma Mb d' : (-100 <= k <= 100)%Z -> appr a p da -> appr b q db -> Rabs p <= Ma -> Rabs q <= Mb ->
  (Ma + da) * (Mb + db) <= bpow radix2 k ->
  Ma * db + Mb * da + da * db + bpow radix2 (k - 25) <= d' -> appr (mulf a b) (p * q) d'.
Proof.
  intros K A B P Q L D. pose proof (appr_bound _ _ _ _ A P) as BA. pose proof (appr_bound _ _ _ _ B Q) as BB.
  destruct A as [FA A], B as [FB B].
  assert (X : Rabs (V a * V b) <= bpow radix2 k).
  { apply Rle_trans with (2 := L). rewrite Rabs_mult; apply Rmult_le_compat; try apply Rabs_pos; assumption. }
  destruct (mul_ok a b FA FB) as [F E]. { apply Rle_trans with (1 := X). apply bpow_le. lia. }
  split; [exact F|]. rewrite E.
  assert (R : Rabs (rnd (V a * V b) - V a * V b) <= bpow radix2 (k - 25)) by (apply rnd_err_bpow; [lia|exact X]).
  pose proof (mul_dist _ _ _ _ _ _ _ _ A B P Q) as W.
  replace (rnd (V a * V b) - p * q) with ((rnd (V a * V b) - V a * V b) + (V a * V b - p * q)) by ring.
  apply Rle_trans with (1 := Rabs_triang _ _). lra.
Qed.

(** r := x * r + c *)
Lemma appr_madd a b c p q w da db dc Ma Mb S d1 d' : appr a p da -> appr b q db -> appr c w dc -> Rabs p <= Ma -> Rabs q <= Mb ->
  (Ma + da) * (Mb + db) <= 10 ^ 30 ->
  Ma * db + Mb * da + da * db + (Ma + da) * (Mb + db) / 16777216 + eta <= d1 ->
  Rabs (p * q + w) <= S -> S + d1 + dc <= 10 ^ 30 -> d1 + dc + (S + d1 + dc) / 16777216 + eta <= d' ->
  appr (madd a b c) (p * q + w) d'.
Proof.
  intros A B C P Q L D1 HS L2 D. unfold madd. apply (appr_add _ _ _ _ d1 dc S); try assumption.
  apply (appr_mul _ _ _ _ da db Ma Mb); assumption.
Qed.

Lemma appr_neg a p d : pattern float32 a -> appr a p d -> appr (negf a) (- p) d.
Proof.
  intros P [F H]. destruct (neg_ok a P F) as (_ & F' & E). split; [exact F'|]. rewrite E.
  replace (- V a - - p) with (- (V a - p)) by ring. now rewrite Rabs_Ropp.
Qed.

(** ** Tactics: constants, and one step of a running error bound.
    The numbers are a bound on the exact operands or results and the new error. *)
Lemma appr_const x n d : cok x = true -> cnum x = n -> cden x = d -> appr x (IZR n / IZR d) 0.
Proof. intros A B C. destruct (const_ok x n d A B C) as (_ & F & E). now apply appr_val. Qed.

Tactic Notation "getk" ident(H) constr(c) :=
  let n := eval vm_compute in (cnum c) in let d := eval vm_compute in (cden c) in
  assert (H : appr c (IZR n / IZR d) 0) by (apply appr_const; vm_compute; reflexivity).

Ltac sideR := unfold eta; interval with (i_prec 60).
Ltac iv t := interval with (i_bisect t, i_prec 40, i_depth 25).

Tactic Notation "stepm" ident(H) constr(A) constr(B) constr(Ma) constr(Mb) constr(d) ident(t) :=
  pose proof (appr_mul _ _ _ _ _ _ Ma Mb d A B ltac:(iv t) ltac:(iv t) ltac:(sideR) ltac:(sideR)) as H.
Tactic Notation "stepa" ident(H) constr(A) constr(B) constr(S) constr(d) ident(t) :=
  pose proof (appr_add _ _ _ _ _ _ S d A B ltac:(iv t) ltac:(sideR) ltac:(sideR)) as H.
Tactic Notation "steps" ident(H) constr(A) constr(B) constr(S) constr(d) ident(t) :=
  pose proof (appr_sub _ _ _ _ _ _ S d A B ltac:(iv t) ltac:(sideR) ltac:(sideR)) as H.
Tactic Notation "stepf" ident(H) constr(A) constr(B) constr(C) constr(Ma) constr(Mb) constr(S) constr(d1) constr(d) ident(t) :=
  pose proof (appr_madd _ _ _ _ _ _ _ _ _ Ma Mb S d1 d A B C ltac:(iv t) ltac:(iv t) ltac:(sideR) ltac:(sideR) ltac:(iv t) ltac:(sideR) ltac:(sideR)) as H.
