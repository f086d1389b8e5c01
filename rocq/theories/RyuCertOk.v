(** The certificates check out; each family of "multiply by a table row and shift" operations of
    f2d, d2d, s2f and s2d therefore computes the exact floor. *)
From Coq Require Import ZArith List Bool Lia.
From Verif Require Import Mem RyuTables RyuModel RyuArith RyuTab RyuCert RyuCertData.
Import ListNotations.
Open Scope Z_scope.

(** ** exponents used by the four algorithms *)
Definition dqp (n : Z) : Z := L105 n - b2z (1 <? n).        (* d2d, n = -e2 > 0 *)
Definition dqi (e : Z) : Z := L102 e - b2z (3 <? e).        (* d2d, e2 >= 0 *)

Definition idZ (e : Z) : Z := e.
Definition chk_dpow := pow_check (2 ^ 55) 0 125 dqp (fun n => n - dqp n).
Definition chk_dinv := inv_check (2 ^ 55) 0 0 125 (fun e => e - dqi e) (fun e => - e + dqi e + (L25 (dqi e) + 125)) dqi.
Definition chk_fpow := pow_check (2 ^ 26) 0 61 L105 (fun n => n - L105 n).
Definition chk_fpow1 := pow_check (2 ^ 24) 2 61 (fun n => L105 n - 1) (fun n => n - L105 n + 1).
Definition chk_finv := inv_check (2 ^ 26) 0 0 61 (fun e => e - L102 e) (fun e => - e + L102 e + (L25 (L102 e) + 61)) L102.
Definition chk_finv1 := inv_check (2 ^ 24) 2 0 61 (fun e => e - (L102 e - 1)) (fun e => - e + (L102 e - 1) + (L25 (L102 e - 1) + 61)) (fun e => L102 e - 1).
Definition chk_s2dpow := pow_check (2 ^ 57) 0 125 (fun e => L25 e + 3) idZ.
Definition chk_s2dinv := inv_check (2 ^ 57) 0 0 125 (fun e => L25 e - 2) (fun _ => 127) idZ.
Definition chk_s2fpow := pow_check (2 ^ 30) 0 61 (fun e => L25 e + 5) idZ.
Definition chk_s2finv := inv_check (2 ^ 30) 0 4 61 L25 (fun _ => 65) idZ.

Lemma ok_dpow : cwalk chk_dpow (fun n => n - dqp n) dpow_certs 1 0 (5 ^ 0) = true.
Proof. vm_compute. reflexivity. Qed.
Lemma ok_dinv : cwalk chk_dinv dqi dinv_certs 0 0 (5 ^ 0) = true.
Proof. vm_compute. reflexivity. Qed.
Lemma ok_fpow : cwalk chk_fpow (fun n => n - L105 n) fpow_certs 1 0 (5 ^ 0) = true.
Proof. vm_compute. reflexivity. Qed.
Lemma ok_fpow1_a : cwalk chk_fpow1 (fun n => n - L105 n + 1) fpow1_certs_a 2 0 (5 ^ 0) = true.
Proof. vm_compute. reflexivity. Qed.
Lemma ok_fpow1_b : cwalk chk_fpow1 (fun n => n - L105 n + 1) fpow1_certs_b 85 27 (5 ^ 27) = true.
Proof. vm_compute. reflexivity. Qed.
Lemma ok_finv : cwalk chk_finv L102 finv_certs 0 0 (5 ^ 0) = true.
Proof. vm_compute. reflexivity. Qed.
Lemma ok_finv1 : cwalk chk_finv1 (fun e => L102 e - 1) finv1_certs 4 0 (5 ^ 0) = true.
Proof. vm_compute. reflexivity. Qed.
Lemma ok_s2dpow : cwalk chk_s2dpow idZ s2dpow_certs 0 0 (5 ^ 0) = true.
Proof. vm_compute. reflexivity. Qed.
Lemma ok_s2dinv : cwalk chk_s2dinv idZ s2dinv_certs 1 0 (5 ^ 0) = true.
Proof. vm_compute. reflexivity. Qed.
Lemma ok_s2fpow : cwalk chk_s2fpow idZ s2fpow_certs 0 0 (5 ^ 0) = true.
Proof. vm_compute. reflexivity. Qed.
Lemma ok_s2finv_a : cwalk chk_s2finv idZ s2finv_certs_a 1 0 (5 ^ 0) = true.
Proof. vm_compute. reflexivity. Qed.
Lemma ok_s2finv_b : cwalk chk_s2finv idZ s2finv_certs_b 27 27 (5 ^ 27) = true.
Proof. vm_compute. reflexivity. Qed.

(** ** consequences, in terms of table rows *)
Ltac unlog := unfold L25, L102, L105 in *; Z.to_euclidean_division_equations; lia.

Lemma b2z_lt a b : b2z (a <? b) = 1 /\ a < b \/ b2z (a <? b) = 0 /\ b <= a.
Proof. destruct (Z.ltb_spec a b); cbn; lia. Qed.

Lemma dqp_range n : 1 <= n <= 1076 ->
  0 <= dqp n /\ 0 <= n - dqp n < 326 /\ 117 <= dqp n + 125 - (L25 (n - dqp n) + 1) <= 126.
Proof. intro H. unfold dqp. destruct (b2z_lt 1 n) as [[-> ?]|[-> ?]]; unlog. Qed.
Lemma dqi_range e : 0 <= e <= 970 ->
  0 <= dqi e < 342 /\ 0 <= e - dqi e /\ 117 <= - e + dqi e + (L25 (dqi e) + 125) <= 126.
Proof. intro H. unfold dqi. destruct (b2z_lt 3 e) as [[-> ?]|[-> ?]]; unlog. Qed.

Lemma dpow_floor n : 1 <= n <= 1076 ->
  exists r, tab DOUBLE_POW5_SPLIT (n - dqp n) = Ok r /\ pow_good (5 ^ (n - dqp n)) (n - dqp n) r /\
  forall m, 0 < m <= 2 ^ 55 ->
    m * row r / 2 ^ (dqp n + 125 - (L25 (n - dqp n) + 1)) = m * 5 ^ (n - dqp n) / 2 ^ dqp n.
Proof.
  intro H. destruct (dqp_range n H) as (R1 & R2 & _). destruct (pow_row (n - dqp n) R2) as (r & E & G).
  exists r. split; [exact E|]. split; [exact G|]. intros m Hm.
  destruct (cwalk_at _ _ _ _ _ n ok_dpow ltac:(lia)) as (c & Hi & C). { change (Z.of_nat (length dpow_certs)) with 1076. lia. }
  destruct G as (_ & _ & G & _).
  pose proof (pow_check_ok (2 ^ 55) 0 125 dqp (fun n => n - dqp n) n c Hi C ltac:(lia) ltac:(lia) (row r) m Hm G) as (_ & _ & P).
  change (2 ^ 0) with 1 in P. rewrite !Z.mul_1_r in P. exact P.
Qed.

Lemma dinv_floor e : 0 <= e <= 970 ->
  exists r, tab DOUBLE_POW5_INV_SPLIT (dqi e) = Ok r /\ inv_good (5 ^ dqi e) (dqi e) r /\
  forall m, 0 < m <= 2 ^ 55 ->
    m * row r / 2 ^ (- e + dqi e + (L25 (dqi e) + 125)) = m * 2 ^ (e - dqi e) / 5 ^ dqi e.
Proof.
  intro H. destruct (dqi_range e H) as (R1 & R2 & _). destruct (inv_row (dqi e) R1) as (r & E & G).
  exists r. split; [exact E|]. split; [exact G|]. intros m Hm.
  destruct (cwalk_at _ _ _ _ _ e ok_dinv ltac:(lia)) as (c & Hi & C). { change (Z.of_nat (length dinv_certs)) with 971. lia. }
  destruct G as (_ & _ & _ & G & _).
  pose proof (inv_check_ok (2 ^ 55) 0 0 125 (fun e => e - dqi e) (fun e => - e + dqi e + (L25 (dqi e) + 125)) dqi e c Hi C ltac:(lia) ltac:(lia) ltac:(lia) (row r) m Hm ltac:(lia)) as (_ & _ & P).
  change (2 ^ 0) with 1 in P. rewrite !Z.mul_1_r in P. exact P.
Qed.

(** the 61-bit rows used by the float algorithms are the high words *)
Lemma high_pow i r : 0 <= i -> pow_good (5 ^ i) i r ->
  snd r * 2 ^ (L25 i + 1) <= 5 ^ i * 2 ^ 61 < (snd r + 1) * 2 ^ (L25 i + 1).
Proof.
  intros Hi ((R1 & R2) & _ & (G1 & G2) & _). unfold row in *. pose proof (L25_nonneg i Hi).
  assert (P : 0 < 2 ^ (L25 i + 1)) by (apply Z.pow_pos_nonneg; lia). set (X := 2 ^ (L25 i + 1)) in *.
  change (2 ^ 125) with (2 ^ 61 * 2 ^ 64) in *. set (W := 2 ^ 64) in *. assert (0 < W) by (unfold W; lia). set (K := 5 ^ i * 2 ^ 61).
  replace (5 ^ i * (2 ^ 61 * W)) with (K * W) in * by (unfold K; ring). clearbody K W X. nia.
Qed.
Lemma high_inv i r : 0 <= i -> inv_good (5 ^ i) i r ->
  (snd r + 1 - 1) * 5 ^ i <= 2 ^ (L25 i + 61) <= (snd r + 1) * 5 ^ i.
Proof.
  intros Hi ((R1 & R2) & _ & R3 & (G1 & G2) & _). unfold row in *. pose proof (L25_nonneg i Hi).
  assert (P : 0 < 5 ^ i) by (apply Z.pow_pos_nonneg; lia). set (X := 5 ^ i) in *.
  replace (L25 i + 125) with (L25 i + 61 + 64) in * by lia. rewrite (Z.pow_add_r 2 (L25 i + 61) 64) in * by lia.
  set (W := 2 ^ 64) in *. assert (0 < W) by (unfold W; lia). set (K := 2 ^ (L25 i + 61)) in *. clearbody K W X. nia.
Qed.

Lemma fqp_range n : 1 <= n <= 151 ->
  0 <= L105 n /\ 0 <= n - L105 n < 60 /\ 54 <= L105 n + 61 - (L25 (n - L105 n) + 1) <= 63.
Proof. intro H. unlog. Qed.
Lemma fqi_range e : 0 <= e <= 104 ->
  0 <= L102 e < 40 /\ 0 <= e - L102 e /\ 54 <= - e + L102 e + (L25 (L102 e) + 61) <= 63.
Proof. intro H. unlog. Qed.

Lemma fpow_floor n : 1 <= n <= 151 ->
  exists r, tab DOUBLE_POW5_SPLIT (n - L105 n) = Ok r /\ pow_good (5 ^ (n - L105 n)) (n - L105 n) r /\
  forall m, 0 < m <= 2 ^ 26 ->
    m * snd r / 2 ^ (L105 n + 61 - (L25 (n - L105 n) + 1)) = m * 5 ^ (n - L105 n) / 2 ^ L105 n.
Proof.
  intro H. destruct (fqp_range n H) as (R1 & R2 & _). destruct (pow_row (n - L105 n) ltac:(lia)) as (r & E & G).
  exists r. split; [exact E|]. split; [exact G|]. intros m Hm.
  destruct (cwalk_at _ _ _ _ _ n ok_fpow ltac:(lia)) as (c & Hi & C). { change (Z.of_nat (length fpow_certs)) with 151. lia. }
  pose proof (pow_check_ok (2 ^ 26) 0 61 L105 (fun n => n - L105 n) n c Hi C ltac:(lia) ltac:(lia) (snd r) m Hm (high_pow _ _ Hi G)) as (_ & _ & P).
  change (2 ^ 0) with 1 in P. rewrite !Z.mul_1_r in P. exact P.
Qed.

Lemma fpow1_84 m : 0 < m <= 2 ^ 24 ->
  m * 2 ^ 2 * 1862645149230957031 / 2 ^ 55 = m * 2 ^ 2 * 5 ^ 27 / 2 ^ 57.
Proof.
  intro Hm. rewrite <- !(Z.mul_assoc m).
  apply (floor_below (2 ^ 2 * 5 ^ 27) (2 ^ 57) 14855922 3072132665 11242945 2324986533 (2 ^ 24) (2 ^ 55) (2 ^ 2 * 1862645149230957031) (2 ^ 57 + 1) m);
    try exact Hm; vm_compute; first [reflexivity | split; [discriminate|reflexivity] | discriminate].
Qed.

Lemma fpow1_floor n : 2 <= n <= 151 ->
  exists r, tab DOUBLE_POW5_SPLIT (n - L105 n + 1) = Ok r /\ pow_good (5 ^ (n - L105 n + 1)) (n - L105 n + 1) r /\
  forall m, 0 < m <= 2 ^ 24 ->
    4 * m * snd r / 2 ^ (L105 n - 1 + 61 - (L25 (n - L105 n + 1) + 1)) = 4 * m * 5 ^ (n - L105 n + 1) / 2 ^ (L105 n - 1).
Proof.
  intro H. destruct (fqp_range n ltac:(lia)) as (R1 & R2 & _). destruct (pow_row (n - L105 n + 1) ltac:(lia)) as (r & E & G).
  exists r. split; [exact E|]. split; [exact G|]. intros m Hm. rewrite (Z.mul_comm 4 m).
  destruct (Z.eq_dec n 84) as [->|Ne].
  - assert (R : snd r = 1862645149230957031).
    { vm_compute in E. injection E as <-. reflexivity. }
    rewrite R. exact (fpow1_84 m Hm).
  - assert (C : exists c, 0 <= n - L105 n + 1 /\ chk_fpow1 n (5 ^ (n - L105 n + 1)) c = true).
    { destruct (Z.lt_ge_cases n 84).
      - apply (cwalk_at _ _ _ _ _ n ok_fpow1_a); [lia|]. change (Z.of_nat (length fpow1_certs_a)) with 82. lia.
      - apply (cwalk_at _ _ _ _ _ n ok_fpow1_b); [lia|]. change (Z.of_nat (length fpow1_certs_b)) with 67. lia. }
    destruct C as (c & Hi & C).
    pose proof (pow_check_ok (2 ^ 24) 2 61 (fun n => L105 n - 1) (fun n => n - L105 n + 1) n c Hi C ltac:(lia) ltac:(lia) (snd r) m Hm (high_pow _ _ Hi G)) as (_ & _ & P).
    exact P.
Qed.

Lemma finv_floor e : 0 <= e <= 104 ->
  exists r, tab DOUBLE_POW5_INV_SPLIT (L102 e) = Ok r /\ inv_good (5 ^ L102 e) (L102 e) r /\
  forall m, 0 < m <= 2 ^ 26 ->
    m * (snd r + 1) / 2 ^ (- e + L102 e + (L25 (L102 e) + 61)) = m * 2 ^ (e - L102 e) / 5 ^ L102 e.
Proof.
  intro H. destruct (fqi_range e H) as (R1 & R2 & _). destruct (inv_row (L102 e) ltac:(lia)) as (r & E & G).
  exists r. split; [exact E|]. split; [exact G|]. intros m Hm.
  destruct (cwalk_at _ _ _ _ _ e ok_finv ltac:(lia)) as (c & Hi & C). { change (Z.of_nat (length finv_certs)) with 105. lia. }
  pose proof (inv_check_ok (2 ^ 26) 0 0 61 (fun e => e - L102 e) (fun e => - e + L102 e + (L25 (L102 e) + 61)) L102 e c Hi C ltac:(lia) ltac:(lia) ltac:(lia) (snd r + 1) m Hm (high_inv _ _ Hi G)) as (_ & _ & P).
  change (2 ^ 0) with 1 in P. rewrite !Z.mul_1_r in P. exact P.
Qed.

Lemma finv1_floor e : 4 <= e <= 104 ->
  exists r, tab DOUBLE_POW5_INV_SPLIT (L102 e - 1) = Ok r /\ inv_good (5 ^ (L102 e - 1)) (L102 e - 1) r /\
  forall m, 0 < m <= 2 ^ 24 ->
    4 * m * (snd r + 1) / 2 ^ (- e + (L102 e - 1) + (L25 (L102 e - 1) + 61)) = 4 * m * 2 ^ (e - (L102 e - 1)) / 5 ^ (L102 e - 1).
Proof.
  intro H. assert (R1 : 0 <= L102 e - 1 < 40) by unlog. destruct (inv_row (L102 e - 1) ltac:(lia)) as (r & E & G).
  exists r. split; [exact E|]. split; [exact G|]. intros m Hm. rewrite (Z.mul_comm 4 m).
  destruct (cwalk_at _ _ _ _ _ e ok_finv1 ltac:(lia)) as (c & Hi & C). { change (Z.of_nat (length finv1_certs)) with 101. lia. }
  pose proof (inv_check_ok (2 ^ 24) 2 0 61 (fun e => e - (L102 e - 1)) (fun e => - e + (L102 e - 1) + (L25 (L102 e - 1) + 61)) (fun e => L102 e - 1) e c Hi C ltac:(lia) ltac:(lia) ltac:(lia) (snd r + 1) m Hm (high_inv _ _ Hi G)) as (_ & _ & P).
  change (2 ^ 0) with 1 in P. rewrite Z.mul_1_r in P. exact P.
Qed.

Lemma s2dpow_floor e : 0 <= e <= 309 ->
  exists r, tab DOUBLE_POW5_SPLIT e = Ok r /\ pow_good (5 ^ e) e r /\
  forall m, 0 < m <= 2 ^ 57 -> m * row r / 2 ^ 127 = m * 5 ^ e / 2 ^ (L25 e + 3).
Proof.
  intro H. destruct (pow_row e ltac:(lia)) as (r & E & G).
  exists r. split; [exact E|]. split; [exact G|]. intros m Hm.
  destruct (cwalk_at _ _ _ _ _ e ok_s2dpow ltac:(lia)) as (c & Hi & C). { change (Z.of_nat (length s2dpow_certs)) with 310. lia. }
  destruct G as (_ & _ & G & _).
  pose proof (pow_check_ok (2 ^ 57) 0 125 (fun e => L25 e + 3) idZ e c Hi C ltac:(lia) ltac:(lia) (row r) m Hm G) as (_ & _ & P).
  unfold idZ in P. change (2 ^ 0) with 1 in P. rewrite !Z.mul_1_r in P.
  replace (L25 e + 3 + 125 - (L25 e + 1)) with 127 in P by lia. exact P.
Qed.
Lemma s2dinv_floor e : 1 <= e <= 341 ->
  exists r, tab DOUBLE_POW5_INV_SPLIT e = Ok r /\ inv_good (5 ^ e) e r /\
  forall m, 0 < m <= 2 ^ 57 -> m * row r / 2 ^ 127 = m * 2 ^ (L25 e - 2) / 5 ^ e.
Proof.
  intro H. destruct (inv_row e ltac:(lia)) as (r & E & G).
  exists r. split; [exact E|]. split; [exact G|]. intros m Hm.
  destruct (cwalk_at _ _ _ _ _ e ok_s2dinv ltac:(lia)) as (c & Hi & C). { change (Z.of_nat (length s2dinv_certs)) with 341. lia. }
  destruct G as (_ & _ & _ & G & _).
  pose proof (inv_check_ok (2 ^ 57) 0 0 125 (fun e => L25 e - 2) (fun _ => 127) idZ e c Hi C ltac:(lia) ltac:(lia) ltac:(lia) (row r) m Hm) as P.
  unfold idZ in P. specialize (P ltac:(lia)). destruct P as (_ & _ & P).
  change (2 ^ 0) with 1 in P. rewrite !Z.mul_1_r in P. exact P.
Qed.

Lemma s2fpow_floor e : 0 <= e <= 40 ->
  exists r, tab DOUBLE_POW5_SPLIT e = Ok r /\ pow_good (5 ^ e) e r /\
  forall m, 0 < m <= 2 ^ 30 -> m * snd r / 2 ^ 65 = m * 5 ^ e / 2 ^ (L25 e + 5).
Proof.
  intro H. destruct (pow_row e ltac:(lia)) as (r & E & G).
  exists r. split; [exact E|]. split; [exact G|]. intros m Hm.
  destruct (cwalk_at _ _ _ _ _ e ok_s2fpow ltac:(lia)) as (c & Hi & C). { change (Z.of_nat (length s2fpow_certs)) with 41. lia. }
  pose proof (pow_check_ok (2 ^ 30) 0 61 (fun e => L25 e + 5) idZ e c Hi C ltac:(lia) ltac:(lia) (snd r) m Hm (high_pow _ _ Hi G)) as (_ & _ & P).
  unfold idZ in P. change (2 ^ 0) with 1 in P. rewrite !Z.mul_1_r in P.
  replace (L25 e + 5 + 61 - (L25 e + 1)) with 65 in P by lia. exact P.
Qed.

(** here the floor is off by one for a single mantissa at two exponents *)
Definition s2f_exception (e m : Z) : Prop := (e = 25 \/ e = 26) /\ m = 614426533.

Lemma s2finv_exc e r m m1 n1 n2 : e = 25 \/ e = 26 -> inv_good (5 ^ e) e r ->
  m1 * n2 - 614426533 * n1 = 1 -> 0 < m1 -> 2 ^ 30 < m1 + 614426533 ->
  0 <= 2 ^ L25 e * m1 - 5 ^ e * 2 ^ 4 * n1 -> 2 ^ L25 e * 614426533 - 5 ^ e * 2 ^ 4 * n2 < 0 ->
  2 ^ 30 * (5 ^ e * 2 ^ 4) < (2 ^ L25 e * m1 - 5 ^ e * 2 ^ 4 * n1) * 2 ^ 65 ->
  0 < m <= 2 ^ 30 -> m <> 614426533 ->
  m * (snd r + 1) / 2 ^ 65 = m * 2 ^ L25 e / (5 ^ e * 2 ^ 4).
Proof.
  intros He G H1 H2 H3 H4 H5 H6 Hm Ne. pose proof (high_inv e r ltac:(lia) G) as [A B].
  pose proof (L25_nonneg e ltac:(lia)). assert (P : 0 < 5 ^ e) by (apply Z.pow_pos_nonneg; lia).
  apply (floor_above_except (2 ^ L25 e) (5 ^ e * 2 ^ 4) m1 n1 614426533 n2 (2 ^ 30) (2 ^ 65) (snd r + 1) (5 ^ e * 2 ^ 4) m);
    try (assumption || lia).
  rewrite Z.pow_add_r in A, B by lia. change (2 ^ 65) with (2 ^ 61 * 2 ^ 4). split; lia.
Qed.

Lemma s2finv_floor e : 1 <= e <= 55 ->
  exists r, tab DOUBLE_POW5_INV_SPLIT e = Ok r /\ inv_good (5 ^ e) e r /\
  forall m, 0 < m <= 2 ^ 30 -> ~ s2f_exception e m ->
    m * (snd r + 1) / 2 ^ 65 = m * 2 ^ L25 e / (5 ^ e * 2 ^ 4).
Proof.
  intro H. destruct (inv_row e ltac:(lia)) as (r & E & G).
  exists r. split; [exact E|]. split; [exact G|]. intros m Hm NE.
  destruct (Z.eq_dec e 25) as [E5|N5]; [|destruct (Z.eq_dec e 26) as [E6|N6]].
  - assert (m <> 614426533) by (intros ->; apply NE; split; [now left|reflexivity]).
    apply (s2finv_exc e r m 684224000 41358803 37139805); subst e; try assumption; try (now left); vm_compute; (reflexivity || discriminate).
  - assert (m <> 614426533) by (intros ->; apply NE; split; [now right|reflexivity]).
    apply (s2finv_exc e r m 855280000 41358803 29711844); subst e; try assumption; try (now right); vm_compute; (reflexivity || discriminate).
  - assert (C : exists c, 0 <= idZ e /\ chk_s2finv e (5 ^ idZ e) c = true).
    { destruct (Z.lt_ge_cases e 25).
      - apply (cwalk_at _ _ _ _ _ e ok_s2finv_a); [lia|]. change (Z.of_nat (length s2finv_certs_a)) with 24. lia.
      - apply (cwalk_at _ _ _ _ _ e ok_s2finv_b); [lia|]. change (Z.of_nat (length s2finv_certs_b)) with 29. lia. }
    destruct C as (c & Hi & C).
    pose proof (inv_check_ok (2 ^ 30) 0 4 61 L25 (fun _ => 65) idZ e c Hi C ltac:(lia) ltac:(lia) ltac:(lia) (snd r + 1) m Hm (high_inv _ _ Hi G)) as (_ & _ & P).
    unfold idZ in P. change (2 ^ 0) with 1 in P. rewrite Z.mul_1_r in P. exact P.
Qed.
