(** What step 3 of f2d / d2d must deliver, and what step 4 then returns. *)
From Coq Require Import ZArith List Bool Lia.
From Verif Require Import Mem RyuModel RyuArith RyuShort RyuOpt.
Import ListNotations.
Open Scope Z_scope.

(** c / D is 2^e2 in units of 10^e10 *)
Definition scale (e2 e10 c D : Z) : Prop :=
  (0 <= e2 /\ 0 <= e10 /\ c * 10 ^ e10 = 2 ^ e2 * D) \/
  (e2 < 0 /\ e10 <= 0 /\ c * 2 ^ (- e2) = D * 10 ^ (- e10)).

(** The numbers [mm], [mv], [mp] times 2^e2 are the lower end, the value and the upper end of the
    rounding interval; [s] holds them scaled to units of 10^e10 and truncated. *)
Definition good3 (mm mv mp e2 : Z) (acc : bool) (s : step3) (c D : Z) : Prop :=
  0 < D /\ D <= c /\ scale e2 (e10 s) c D /\
  vr s = mv * c / D /\ vm s = mm * c / D /\ 0 <= vm s /\ vm s < vp s /\
  (vmZ s = true -> acc = true /\ (D | mm * c)) /\
  (vmZ s = false -> acc = true -> (D | mm * c) -> vm s mod 10 <> 0 /\ vm s < vr s) /\
  (vp s = (if acc then mp * c / D else (mp * c - 1) / D) \/
   (acc = false /\ vp s = mp * c / D /\ vp s mod 10 <> 0 /\ vr s + 1 < vp s)) /\
  (last0 s = (10 * (mv * c) / D) mod 10 \/ vm s / 10 < vp s / 10) /\
  (vrZ s = true -> (D | mv * c) \/ (vr s mod 5 = 2 /\ 2 * (mv * c) = (2 * vr s + 1) * D)).

Definition best (mm mv mp c D : Z) (acc : bool) (o r : Z) : Prop :=
  0 <= r /\ inI acc (mm * c) (mp * c) (o * 10 ^ r * D) /\
  (forall n, inI acc (mm * c) (mp * c) (n * 10 ^ r * D) -> Z.abs (o * 10 ^ r * D - mv * c) <= Z.abs (n * 10 ^ r * D - mv * c)) /\
  (forall t n, r < t -> ~ inI acc (mm * c) (mp * c) (n * 10 ^ t * D)).

Lemma step4_best mm mv mp e2 acc s c D r st :
  0 < mm -> mm < mv -> mv < mp -> mv - mm <= mp - mv -> good3 mm mv mp e2 acc s c D ->
  at_level (Loop (vr s) (vp s) (vm s) (vmZ s) (vrZ s) (last0 s) 0) r st ->
  stops_at (Loop (vr s) (vp s) (vm s) (vmZ s) (vrZ s) (last0 s) 0) r ->
  let o := lr st + b2z (round_up acc st) in
  best mm mv mp c D acc o r /\ 1 <= o <= vp s /\ (o = vr s / 10 ^ r \/ o = vr s / 10 ^ r + 1).
Proof.
  intros H0 H1 H2 H3 (HD & Hc & _ & Evr & Evm & Hm & Hmp & F1 & F2 & Hp & Hl & Hfr) A S o.
  assert (0 < c) by lia.
  pose proof (opt_true D (mm * c) (mv * c) (mp * c) acc (vr s) (vp s) (vm s) (vmZ s) (vrZ s) (last0 s) r st HD
    ltac:(nia) ltac:(nia) ltac:(nia) Evr Evm Hmp F1 F2 Hp Hl Hfr A S) as (K1 & K2 & K3 & K4). fold o in K1, K2, K3, K4.
  pose proof S as (Hr & _). pose proof (pow10_pos r Hr) as Pr.
  split; [split; [exact Hr|split; [exact K2|split; [exact K3|exact K4]]]|]. split; [|exact K1].
  assert (L : 0 < mm * c) by nia.
  assert (B : mm * c <= o * 10 ^ r * D <= mp * c) by (unfold inI in K2; destruct acc; lia).
  assert (O1 : 1 <= o). { apply Z.nlt_ge. intro Q. assert (o * 10 ^ r <= 0) by nia. nia. }
  split; [exact O1|].
  assert (X : o * 10 ^ r <= vp s).
  { destruct Hp as [->|(Ea & -> & _)]; unfold inI in K2.
    - destruct acc; apply (proj1 (le_floor (o * 10 ^ r) D _ HD)); lia.
    - rewrite Ea in K2. apply (proj1 (le_floor (o * 10 ^ r) D _ HD)); lia. }
  nia.
Qed.

Lemma f2d_step4_best mm mv mp e2 acc s c D :
  0 < mm -> mm < mv -> mv < mp -> mv - mm <= mp - mv -> good3 mm mv mp e2 acc s c D -> vp s < 2 ^ 32 ->
  (vmZ s = true -> 0 < vm s) ->
  exists o r, f2d_step4 s acc = Ok (o, r) /\ 1 <= o /\ best mm mv mp c D acc o r /\ (o = vr s / 10 ^ r \/ o = vr s / 10 ^ r + 1).
Proof.
  intros H0 H1 H2 H3 G Hp Hz. pose proof G as (_ & _ & _ & _ & _ & G1 & G2 & _).
  destruct (f2d_step4_ok s acc) as (r & st & A & S & E); [lia|lia|lia|exact Hz|].
  pose proof (step4_best mm mv mp e2 acc s c D r st H0 H1 H2 H3 G A S) as (B & O & K).
  exists (lr st + b2z (round_up acc st)), r. rewrite E, u32_id by lia.
  split; [reflexivity|]. split; [lia|]. split; [exact B|exact K].
Qed.

Lemma d2d_step4_best mm mv mp e2 acc s c D :
  0 < mm -> mm < mv -> mv < mp -> mv - mm <= mp - mv -> good3 mm mv mp e2 acc s c D -> vp s < 2 ^ 64 ->
  (vmZ s = true -> 0 < vm s) -> last0 s = 0 ->
  exists o r, d2d_step4 s acc = Ok (o, r) /\ 1 <= o /\ best mm mv mp c D acc o r /\ (o = vr s / 10 ^ r \/ o = vr s / 10 ^ r + 1).
Proof.
  intros H0 H1 H2 H3 G Hp Hz Hl. pose proof G as (_ & _ & _ & _ & _ & G1 & G2 & _).
  destruct (d2d_step4_ok s acc) as (r & st & A & S & E); [lia|lia|lia|exact Hz|exact Hl|].
  replace (Loop (vr s) (vp s) (vm s) (vmZ s) (vrZ s) 0 0) with (Loop (vr s) (vp s) (vm s) (vmZ s) (vrZ s) (last0 s) 0) in A, S by now rewrite Hl.
  pose proof (step4_best mm mv mp e2 acc s c D r st H0 H1 H2 H3 G A S) as (B & O & K).
  exists (lr st + b2z (round_up acc st)), r. rewrite E, u64_id by lia.
  split; [reflexivity|]. split; [lia|]. split; [exact B|exact K].
Qed.

(** ** Helpers for step 3 *)
Lemma floor_gap a b c D k : 0 < D -> D <= c -> 0 <= k -> a + k <= b -> a * c / D + k <= b * c / D.
Proof.
  intros HD Hc Hk Hab. rewrite <- Z.div_add by lia. apply Z.div_le_mono; [exact HD|].
  assert ((a + k) * c <= b * c) by (apply Z.mul_le_mono_nonneg_r; lia). nia.
Qed.
Lemma pred_floor_div x D : 0 < D -> (D | x) -> (x - 1) / D = x / D - 1.
Proof.
  intros HD [k ->]. rewrite Z.div_mul by lia. symmetry. apply Z.div_unique with (D - 1); lia.
Qed.
Lemma pred_floor_ndiv x D : 0 < D -> ~ (D | x) -> (x - 1) / D = x / D.
Proof.
  intros HD N. pose proof (Z.div_mod x D ltac:(lia)) as E. pose proof (Z.mod_pos_bound x D HD) as B.
  assert (x mod D <> 0) by (intro Q; apply N; apply Z.mod_divide; lia).
  symmetry. apply Z.div_unique with (x mod D - 1); lia.
Qed.

Lemma pow5_pos q : 0 <= q -> 0 < 5 ^ q. Proof. intro. apply Z.pow_pos_nonneg; lia. Qed.
Lemma pow2_pos q : 0 <= q -> 0 < 2 ^ q. Proof. intro. apply Z.pow_pos_nonneg; lia. Qed.
Lemma coprime52 q k : 0 <= q -> 0 <= k -> Znumtheory.rel_prime (5 ^ q) (2 ^ k).
Proof. intros Hq Hk. apply Zpow_facts.rel_prime_Zpower; try lia. apply Znumtheory.Zgcd_1_rel_prime. reflexivity. Qed.
Lemma div5_pow q m k : 0 <= q -> 0 <= k -> (5 ^ q | m * 2 ^ k) -> (5 ^ q | m).
Proof. intros Hq Hk H. rewrite Z.mul_comm in H. apply (Znumtheory.Gauss _ (2 ^ k)); [exact H|]. now apply coprime52. Qed.
Lemma div2_pow q m k : 0 <= q -> 0 <= k -> (2 ^ q | m * 5 ^ k) -> (2 ^ q | m).
Proof. intros Hq Hk H. rewrite Z.mul_comm in H. apply (Znumtheory.Gauss _ (5 ^ k)); [exact H|]. apply Znumtheory.rel_prime_sym. now apply coprime52. Qed.

(** an exact quotient x = m 2^k / 5^q that is a multiple of ten needs one more factor five *)
Lemma no_ten q m k : 0 <= q -> 0 <= k -> ~ (5 ^ (q + 1) | m) -> (5 ^ q | m * 2 ^ k) -> (m * 2 ^ k / 5 ^ q) mod 10 <> 0.
Proof.
  intros Hq Hk N [y Hy] M. rewrite Hy, Z.div_mul in M by (pose proof (pow5_pos q Hq); lia).
  apply N. apply (div5_pow (q + 1) m k); [lia|exact Hk|]. rewrite Hy. apply Z.mod_divide in M; [|lia]. destruct M as [z ->].
  exists (z * 2). rewrite Z.pow_add_r by lia. change (5 ^ 1) with 5. ring.
Qed.

(** ** The flags of step 3, shared by f2d and d2d *)
Definition pos_out (Q : bool) (q mv mm mp : Z) (acc : bool) (r p m last : Z) : step3 :=
  if Q then
    if mv mod 5 =? 0 then Step3 r p m q false (mv mod 5 ^ q =? 0) last
    else if acc then Step3 r p m q (mm mod 5 ^ q =? 0) false last
    else Step3 r (p - b2z (mp mod 5 ^ q =? 0)) m q false false last
  else Step3 r p m q false false last.

Lemma div_mod0 x D : 0 < D -> (x mod D =? 0) = true -> (D | x).
Proof. intros H E. apply Z.eqb_eq in E. apply Z.mod_divide; lia. Qed.
Lemma ndiv_mod0 x D : 0 < D -> (x mod D =? 0) = false -> ~ (D | x).
Proof. intros H E X. apply Z.eqb_neq in E. apply E. apply Z.mod_divide; [lia|exact X]. Qed.

Lemma pos_good Q q k m s acc last : 0 <= q -> 0 <= k -> 5 ^ q <= 2 ^ k -> 0 < m -> (s = 0 \/ s = 1) ->
  let mv := 4 * m in let mp := 4 * m + 2 in let mm := 4 * m - 1 - s in
  let c := 2 ^ k in let D := 5 ^ q in
  (Q = false -> (acc = true -> ~ (5 ^ (q + 1) | mm)) /\ (acc = false -> ~ (5 ^ (q + 1) | mp))) ->
  (last = (10 * (mv * c) / D) mod 10 \/ mm * c / D / 10 < (mp * c / D - 1) / 10) ->
  let o := pos_out Q q mv mm mp acc (mv * c / D) (mp * c / D) (mm * c / D) last in
  good3 mm mv mp (q + k) acc o c D /\ vp o <= mp * c / D /\ 0 < vm o /\ last0 o = last.
Proof.
  intros Hq Hk Hc Hm Hs mv mp mm c D HQ Hl o.
  assert (HD : 0 < D) by (apply pow5_pos; exact Hq). assert (Hc0 : 0 < c) by (apply pow2_pos; exact Hk). fold c D in Hc.
  assert (G1 : mm * c / D + 3 <= mp * c / D) by (apply floor_gap; unfold mm, mp; lia).
  assert (G2 : mm * c / D + 1 <= mv * c / D) by (apply floor_gap; unfold mm, mv; lia).
  assert (G3 : mv * c / D + 2 <= mp * c / D) by (apply floor_gap; unfold mv, mp; lia).
  assert (G4 : 1 <= mm * c / D). { pose proof (floor_gap 0 mm c D 1 HD Hc ltac:(lia)) as X. rewrite Z.mul_0_l, Z.div_0_l in X by lia. apply X. unfold mm. lia. }
  assert (Sc : scale (q + k) q c D).
  { left. split; [lia|]. split; [exact Hq|]. unfold c, D. rewrite (Z.pow_add_r 2 q k) by lia. replace 10 with (2 * 5) by lia. rewrite Z.pow_mul_l. ring. }
  assert (HW : ~ (5 ^ (q + 1) | mm) -> (D | mm * c) -> (mm * c / D) mod 10 <> 0) by (intros N; apply no_ten; assumption).
  assert (HP : ~ (5 ^ (q + 1) | mp) -> acc = false -> mp * c / D = (mp * c - 1) / D \/ (acc = false /\ mp * c / D = mp * c / D /\ (mp * c / D) mod 10 <> 0 /\ mv * c / D + 1 < mp * c / D)).
  { intros N Ha. destruct (Znumtheory.Zdivide_dec D (mp * c)) as [Dv|Nd].
    - right. split; [exact Ha|]. split; [reflexivity|]. split; [apply no_ten; assumption|lia].
    - left. symmetry. apply pred_floor_ndiv; assumption. }
  assert (Hl' : forall p, mp * c / D - 1 <= p -> last = (10 * (mv * c) / D) mod 10 \/ mm * c / D / 10 < p / 10).
  { intros p Hp. destruct Hl as [Hl|Hl]; [now left|right]. apply Z.lt_le_trans with (1 := Hl). apply Z.div_le_mono; lia. }
  (* the two "nothing special" shapes *)
  assert (Plain : forall fr, (fr = true -> (D | mv * c)) -> (acc = true -> ~ (5 ^ (q + 1) | mm)) -> (acc = false -> ~ (5 ^ (q + 1) | mp)) ->
            good3 mm mv mp (q + k) acc (Step3 (mv * c / D) (mp * c / D) (mm * c / D) q false fr last) c D).
  { intros fr Hfr N1 N2. unfold good3. cbn [vr vp vm e10 vmZ vrZ last0].
    split; [exact HD|]. split; [exact Hc|]. split; [exact Sc|]. split; [reflexivity|]. split; [reflexivity|].
    split; [lia|]. split; [lia|]. split; [discriminate|]. split; [intros _ A X; split; [apply HW; [now apply N1|exact X]|lia]|].
    split; [destruct acc; [now left|apply HP; [now apply N2|reflexivity]]|]. split; [apply Hl'; lia|]. intro F. left. now apply Hfr. }
  unfold o, pos_out. destruct Q.
  - destruct (Z.eqb_spec (mv mod 5) 0) as [M|M].
    + assert (N5 : forall x, x mod 5 <> 0 -> ~ (5 ^ (q + 1) | x)).
      { intros x Nx [y ->]. apply Nx. rewrite Z.pow_add_r by lia. change (5 ^ 1) with 5. rewrite Z.mul_assoc. apply Z.mod_mul. lia. }
      split; [|cbn; lia]. apply Plain.
      * intro F. apply div_mod0 in F; [|exact HD]. destruct F as [y F]. exists (y * c). rewrite F. unfold D. ring.
      * intros _. apply N5. unfold mm. fold mv. intro X. apply Z.mod_divide in M; [|lia]. apply Z.mod_divide in X; [|lia]. destruct M as [a Ma], X as [b Mb]. unfold mv in Ma. lia.
      * intros _. apply N5. unfold mp. intro X. apply Z.mod_divide in M; [|lia]. apply Z.mod_divide in X; [|lia]. destruct M as [a Ma], X as [b Mb]. unfold mv in Ma. lia.
    + destruct acc.
      * split; [|cbn; lia]. unfold good3. cbn [vr vp vm e10 vmZ vrZ last0].
        split; [exact HD|]. split; [exact Hc|]. split; [exact Sc|]. split; [reflexivity|]. split; [reflexivity|].
        split; [lia|]. split; [lia|].
        split. { intro F. split; [reflexivity|]. apply div_mod0 in F; [|exact HD]. destruct F as [y F]. exists (y * c). rewrite F. unfold D. ring. }
        split. { intros F _ X. exfalso. apply ndiv_mod0 in F; [|exact HD]. apply F. apply (div5_pow q mm k); assumption. }
        split; [now left|]. split; [apply Hl'; lia|discriminate].
      * assert (B : 0 <= b2z (mp mod 5 ^ q =? 0) <= 1) by (destruct (mp mod 5 ^ q =? 0); cbn; lia).
        split; [|cbn [vp vm last0]; lia]. unfold good3. cbn [vr vp vm e10 vmZ vrZ last0].
        split; [exact HD|]. split; [exact Hc|]. split; [exact Sc|]. split; [reflexivity|]. split; [reflexivity|].
        split; [lia|]. split; [lia|]. split; [discriminate|]. split; [discriminate|].
        split.
        { left. destruct (mp mod 5 ^ q =? 0) eqn:F; cbn [b2z].
          - symmetry. apply pred_floor_div; [exact HD|]. apply div_mod0 in F; [|exact HD]. destruct F as [y F]. exists (y * c). rewrite F. unfold D. ring.
          - rewrite Z.sub_0_r. symmetry. apply pred_floor_ndiv; [exact HD|]. intro X. apply ndiv_mod0 in F; [|exact HD]. apply F. apply (div5_pow q mp k); assumption. }
        split; [apply Hl'; lia|discriminate].
  - destruct (HQ eq_refl) as [N1 N2]. split; [|cbn; lia]. apply Plain; [discriminate|exact N1|exact N2].
Qed.

Definition neg_out (q s e : Z) (acc fr : bool) (r p m last : Z) : step3 :=
  if q <=? 1 then
    if acc then Step3 r p m e (s =? 1) true last else Step3 r (p - 1) m e false true last
  else Step3 r p m e false fr last.

Lemma odd_mul_pow5 a i : 0 <= i -> Z.odd (a * 5 ^ i) = Z.odd a.
Proof.
  intro H. rewrite Z.odd_mul. replace (Z.odd (5 ^ i)) with true; [apply andb_true_r|].
  destruct (Z.eq_dec i 0) as [->|N]; [reflexivity|]. rewrite Z.odd_pow by lia. reflexivity.
Qed.

Lemma neg_good q i m s acc fr last : 0 <= q -> 1 <= i -> 2 ^ q <= 5 ^ i -> 0 < m -> (s = 0 \/ s = 1) ->
  let mv := 4 * m in let mp := 4 * m + 2 in let mm := 4 * m - 1 - s in
  let c := 5 ^ i in let D := 2 ^ q in
  (1 < q -> fr = true -> (D | mv * c) \/ ((mv * c / D) mod 5 = 2 /\ 2 * (mv * c) = (2 * (mv * c / D) + 1) * D)) ->
  (last = (10 * (mv * c) / D) mod 10 \/ mm * c / D / 10 < (mp * c / D - 1) / 10) ->
  let o := neg_out q s (- i) acc fr (mv * c / D) (mp * c / D) (mm * c / D) last in
  good3 mm mv mp (- (q + i)) acc o c D /\ vp o <= mp * c / D /\ 0 < vm o /\ last0 o = last.
Proof.
  intros Hq Hi Hc Hm Hs mv mp mm c D Hf Hl o.
  assert (HD : 0 < D) by (apply pow2_pos; exact Hq). assert (Hc0 : 0 < c) by (apply pow5_pos; lia). fold c D in Hc.
  assert (G1 : mm * c / D + 3 <= mp * c / D) by (apply floor_gap; unfold mm, mp; lia).
  assert (G2 : mm * c / D + 1 <= mv * c / D) by (apply floor_gap; unfold mm, mv; lia).
  assert (G3 : mv * c / D + 2 <= mp * c / D) by (apply floor_gap; unfold mv, mp; lia).
  assert (G4 : 1 <= mm * c / D). { pose proof (floor_gap 0 mm c D 1 HD Hc ltac:(lia)) as X. rewrite Z.mul_0_l, Z.div_0_l in X by lia. apply X. unfold mm. lia. }
  assert (Sc : scale (- (q + i)) (- i) c D).
  { right. split; [lia|]. split; [lia|]. unfold c, D. rewrite !Z.opp_involutive. rewrite (Z.pow_add_r 2 q i) by lia. replace 10 with (2 * 5) by lia. rewrite Z.pow_mul_l. ring. }
  assert (Hl' : forall p, mp * c / D - 1 <= p -> last = (10 * (mv * c) / D) mod 10 \/ mm * c / D / 10 < p / 10).
  { intros p Hp. destruct Hl as [Hl|Hl]; [now left|right]. apply Z.lt_le_trans with (1 := Hl). apply Z.div_le_mono; lia. }
  unfold o, neg_out. destruct (Z.leb_spec q 1) as [Q1|Q1].
  - assert (D2 : (D | 2)). { assert (E : q = 0 \/ q = 1) by lia. destruct E as [E|E]; unfold D; rewrite E; [exists 2|exists 1]; reflexivity. }
    assert (Dv : (D | mv * c)). { apply Z.divide_mul_l. apply Z.divide_trans with (1 := D2). exists (2 * m). unfold mv. ring. }
    assert (Dp : (D | mp * c)). { apply Z.divide_mul_l. apply Z.divide_trans with (1 := D2). exists (2 * m + 1). unfold mp. ring. }
    destruct acc.
    + split; [|cbn; lia]. unfold good3. cbn [vr vp vm e10 vmZ vrZ last0].
      split; [exact HD|]. split; [exact Hc|]. split; [exact Sc|]. split; [reflexivity|]. split; [reflexivity|].
      split; [lia|]. split; [lia|].
      split. { intro F. split; [reflexivity|]. apply Z.eqb_eq in F. apply Z.divide_mul_l. apply Z.divide_trans with (1 := D2). exists (2 * m - 1). unfold mm. rewrite F. ring. }
      split. { intros F _ X. split; [|lia]. apply Z.eqb_neq in F. assert (Es : s = 0) by lia.
        intro Z0. destruct X as [y Hy]. rewrite Hy, Z.div_mul in Z0 by lia.
        assert (O : Z.odd (mm * c) = true). { unfold c. rewrite odd_mul_pow5 by lia. unfold mm. rewrite Es. replace (4 * m - 1 - 0) with (1 + 2 * (2 * m - 1)) by ring. rewrite Z.odd_add_mul_2. reflexivity. }
        rewrite Hy, Z.odd_mul in O. apply andb_prop in O. destruct O as [O _]. apply Z.mod_divide in Z0; [|lia]. destruct Z0 as [w ->].
        rewrite Z.odd_mul in O. rewrite andb_false_r in O. discriminate O. }
      split; [now left|]. split; [apply Hl'; lia|]. intros _. now left.
    + split; [|cbn; lia]. unfold good3. cbn [vr vp vm e10 vmZ vrZ last0].
      split; [exact HD|]. split; [exact Hc|]. split; [exact Sc|]. split; [reflexivity|]. split; [reflexivity|].
      split; [lia|]. split; [lia|]. split; [discriminate|]. split; [discriminate|].
      split; [left; symmetry; now apply pred_floor_div|]. split; [apply Hl'; lia|]. intros _. now left.
  - assert (D4 : (4 | D)). { exists (2 ^ (q - 2)). unfold D. change 4 with (2 ^ 2). rewrite <- Z.pow_add_r by lia. f_equal. lia. }
    assert (N4 : forall x, x mod 4 <> 0 -> ~ (D | x * c)).
    { intros x Nx Dx. apply Nx. apply Z.mod_divide; [lia|]. apply (div2_pow 2 x i); [lia|lia|]. apply Z.divide_trans with (1 := D4). exact Dx. }
    assert (Np : ~ (D | mp * c)). { apply N4. unfold mp. rewrite Z.add_comm, Z.mul_comm, Z.mod_add by lia. discriminate. }
    assert (Nm : ~ (D | mm * c)). { apply N4. unfold mm. replace (4 * m - 1 - s) with (- 1 - s + m * 4) by ring. rewrite Z.mod_add by lia. destruct Hs as [-> | ->]; discriminate. }
    split; [|cbn; lia]. unfold good3. cbn [vr vp vm e10 vmZ vrZ last0].
    split; [exact HD|]. split; [exact Hc|]. split; [exact Sc|]. split; [reflexivity|]. split; [reflexivity|].
    split; [lia|]. split; [lia|]. split; [discriminate|]. split; [intros _ _ X; now destruct Nm|].
    split; [left; destruct acc; [reflexivity|symmetry; now apply pred_floor_ndiv]|]. split; [apply Hl'; lia|].
    intro F. apply Hf; [exact Q1|exact F].
Qed.

(** [o * 10^k] is the optimal decimal for m * 2^(e2+2) with rounding interval
    [(4m-1-s) * 2^e2, (4m+2) * 2^e2] *)
Definition optimal (m s e2 o k : Z) : Prop :=
  exists c D r e, 0 < D /\ 0 < c /\ scale e2 e c D /\ k = e + r /\ 1 <= o /\
    best (4 * m - 1 - s) (4 * m) (4 * m + 2) c D (Z.even m) o r.

Lemma accept_even m : (Z.land m 1 =? 0) = Z.even m.
Proof.
  change (Z.land m 1) with (Z.land m (Z.ones 1)). rewrite (Z.land_ones m 1) by lia. change (2 ^ 1) with 2. rewrite Zmod_odd, <- Z.negb_even. destruct (Z.even m); reflexivity.
Qed.
Lemma lor_top k m : 0 <= k -> 0 <= m < 2 ^ k -> Z.lor (2 ^ k) m = 2 ^ k + m.
Proof. intros Hk Hm. replace (2 ^ k) with (1 * 2 ^ k) by lia. now apply lor_add. Qed.
