(** bigint.h: the operations on limb vectors compute with the integers they represent, as long as
    the result fits the fixed capacity. *)
From Coq Require Import ZArith List Bool Lia.
From Verif Require Import Mem RyuArith FfModel FfWord.
Import ListNotations.
Open Scope Z_scope.
Local Notation len l := (Z.of_nat (length l)).

Section T.
Variable t : target.
Notation lb := (limb_bits t).
Notation B := (2 ^ lb).
Notation cap := (capacity t).

Lemma lb_cases : (is_64bit t = true /\ lb = 64 /\ cap = 62) \/ (is_64bit t = false /\ lb = 32 /\ cap = 125).
Proof. unfold capacity, limb_bits. destruct (is_64bit t); [left|right]; repeat split; reflexivity. Qed.
Lemma lb_range : 32 <= lb <= 64.
Proof. destruct lb_cases as [(_ & -> & _)|(_ & -> & _)]; lia. Qed.
Lemma B_pos : 2 ^ 32 <= B.
Proof. apply Z.pow_le_mono_r; [lia|apply lb_range]. Qed.
Lemma Bk k : 0 <= k -> 0 < B ^ k.
Proof. intro. pose proof B_pos. apply Z.pow_pos_nonneg; lia. Qed.
Lemma Bk1 k : 0 <= k -> B ^ (k + 1) = B * B ^ k.
Proof. intro. rewrite Z.pow_add_r by lia. lia. Qed.

Definition limb (x : Z) : Prop := 0 <= x < B.
(** the integer of a vector *)
Fixpoint bv (v : list Z) : Z := match v with [] => 0 | x :: r => x + B * bv r end.
Definition limbs (v : list Z) : Prop := Forall limb v.
(** no zero at the top *)
Definition norm (v : list Z) : Prop := v <> [] -> B ^ (len v - 1) <= bv v.
Definition big (v : list Z) (n : Z) : Prop := limbs v /\ norm v /\ bv v = n.

Lemma bv_app a c : bv (a ++ c) = bv a + B ^ len a * bv c.
Proof.
  induction a as [|x a IH]; [cbn [app length bv]; change (B ^ Z.of_nat 0) with 1; lia|]. cbn [app length bv]. rewrite IH. replace (Z.of_nat (S (length a))) with (len a + 1) by lia. rewrite Bk1 by lia. ring.
Qed.
Lemma bv_bound v : limbs v -> 0 <= bv v < B ^ len v.
Proof.
  induction v as [|x v IH]; intro F; [cbn; lia|]. inversion_clear F as [|? ? Hx F']. specialize (IH F'). unfold limb in Hx. cbn [bv length]. replace (Z.of_nat (S (length v))) with (len v + 1) by lia. rewrite Bk1 by lia. pose proof B_pos. nia.
Qed.
Lemma norm_len v k : limbs v -> norm v -> 0 <= k -> bv v < B ^ k -> len v <= k.
Proof.
  intros F N Hk H. destruct v as [|x v]; [cbn; lia|]. specialize (N ltac:(discriminate)). assert (L : B ^ (len (x :: v) - 1) < B ^ k) by lia.
  apply Z.pow_lt_mono_r_iff in L; [lia| |lia]. pose proof B_pos. lia.
Qed.
Lemma ulimb_ok x : limb (ulimb t x).
Proof. unfold limb, ulimb. apply Z.mod_pos_bound. pose proof B_pos. lia. Qed.
Lemma norm_nil : norm []. Proof. intro H. now elim H. Qed.

Lemma scalar_add_ok x y z o : limb x -> limb y -> scalar_add t x y = (z, o) -> limb z /\ z + B * b2z o = x + y.
Proof.
  unfold limb, scalar_add, ulimb. intros Hx Hy E. injection E as <- <-. pose proof B_pos as P. split; [apply Z.mod_pos_bound; lia|].
  destruct (Z.lt_ge_cases (x + y) B) as [L|L].
  - rewrite Z.mod_small by lia. destruct (visual_studio t); [replace (x + y <? x) with false by lia|replace (B <=? x + y) with false by lia]; cbn [b2z]; lia.
  - replace ((x + y) mod B) with (x + y - B) by (apply Z.mod_unique with 1; lia). destruct (visual_studio t); [replace (x + y - B <? x) with true by lia|replace (B <=? x + y) with true by lia]; cbn [b2z]; lia.
Qed.
Lemma scalar_mul_ok x y carry z c : limb x -> limb y -> limb carry -> scalar_mul t x y carry = (z, c) -> limb z /\ limb c /\ z + B * c = x * y + carry.
Proof.
  intros Hx Hy Hc E. pose proof B_pos as P. unfold scalar_mul in E.
  assert (U : 0 <= x * y + carry < B * B) by (unfold limb in *; nia).
  destruct (is_64bit t && visual_studio t) eqn:K.
  - apply andb_true_iff in K. destruct K as [K K2]. assert (EB : B = 2 ^ 64) by (unfold limb_bits; now rewrite K).
    assert (Hx' := Hx). assert (Hy' := Hy). unfold limb in Hx', Hy'. rewrite EB in Hx', Hy'. rewrite full_multiplication_ok in E by assumption.
    destruct (scalar_add t ((x * y) mod 2 ^ 64) carry) as [low o] eqn:SA. injection E as <- <-.
    apply scalar_add_ok in SA; [|unfold limb; rewrite EB; apply Z.mod_pos_bound; lia|exact Hc]. destruct SA as [Hl Hs]. rewrite EB in Hs.
    pose proof (Z.div_mod (x * y) (2 ^ 64) ltac:(lia)) as D. split; [exact Hl|].
    assert (Q : low + 2 ^ 64 * (x * y / 2 ^ 64 + b2z o) = x * y + carry) by lia.
    assert (R : 0 <= x * y / 2 ^ 64 + b2z o < 2 ^ 64). { unfold limb in Hl. rewrite EB in Hl, U. assert (0 <= x * y / 2 ^ 64) by (apply Z.div_pos; [apply Z.mul_nonneg_nonneg|]; lia). split; [destruct o; unfold b2z; lia|]. set (KK := x * y / 2 ^ 64 + b2z o) in *. clearbody KK. lia. }
    unfold u64. rewrite Z.mod_small by exact R. split; [unfold limb; rewrite EB; exact R|rewrite EB; exact Q].
  - injection E as <- <-. split; [apply ulimb_ok|]. split; [apply ulimb_ok|]. unfold ulimb. pose proof (Z.div_mod (x * y + carry) B ltac:(lia)) as D.
    rewrite (Z.mod_small ((x * y + carry) / B)); [lia|]. split; [apply Z.div_pos; lia|apply Z.div_lt_upper_bound; lia].
Qed.

Lemma add_carry_ok v : forall carry r c, limbs v -> limb carry -> add_carry t v carry = (r, c) -> limbs r /\ limb c /\ length r = length v /\ bv r + B ^ len v * c = bv v + carry.
Proof.
  induction v as [|x v IH]; intros carry r c F Hc E; cbn [add_carry] in E.
  - injection E as <- <-. split; [constructor|]. split; [exact Hc|]. split; [reflexivity|]. cbn [bv length b2z]. change (B ^ Z.of_nat 0) with 1. lia.
  - inversion_clear F as [|? ? Hx F']. destruct (Z.eqb_spec carry 0) as [->|N].
    + injection E as <- <-. split; [now constructor|]. split; [unfold limb; pose proof B_pos; lia|]. split; [reflexivity|lia].
    + destruct (scalar_add t x carry) as [z o] eqn:SA. apply scalar_add_ok in SA; try assumption. destruct SA as [Hz Hs].
      destruct (add_carry t v (b2z o)) as [r' c'] eqn:AC. apply IH in AC; [|assumption|unfold limb; pose proof B_pos; destruct o; cbn; lia]. destruct AC as (A1 & A2 & A3 & A4).
      injection E as <- <-. split; [now constructor|]. split; [exact A2|]. split; [cbn; now rewrite A3|]. cbn [bv length]. replace (Z.of_nat (S (length v))) with (len v + 1) by lia. rewrite Bk1 by lia. nia.
Qed.
Lemma push_ok v c : limbs v -> limb c -> c <> 0 -> bv v + B ^ len v * c < B ^ cap -> try_push t v c = (true, v ++ [c]) /\ limbs (v ++ [c]) /\ norm (v ++ [c]) /\ bv (v ++ [c]) = bv v + B ^ len v * c.
Proof.
  intros F Hc N H. pose proof (bv_bound v F) as Hv. unfold limb in Hc. pose proof (Bk (len v) ltac:(lia)) as P.
  assert (L : len v < cap). { assert (L : B ^ len v < B ^ cap) by nia. apply Z.pow_lt_mono_r_iff in L; [lia|pose proof B_pos; lia|destruct lb_cases as [(_ & _ & ->)|(_ & _ & ->)]; lia]. }
  unfold try_push. replace (len v <? cap) with true by lia. split; [reflexivity|]. assert (E : bv (v ++ [c]) = bv v + B ^ len v * c) by (rewrite bv_app; cbn [bv]; lia).
  split; [apply Forall_app; split; [exact F|repeat constructor; unfold limb; lia]|]. split; [|exact E]. intros _. rewrite E, app_length. cbn [length]. replace (Z.of_nat (length v + 1) - 1) with (len v) by lia. nia.
Qed.

Lemma small_add_ok v n y : big v n -> limb y -> n + y < B ^ cap -> exists r, small_add t v y = (true, r) /\ big r (n + y).
Proof.
  intros (F & N & <-) Hy H. unfold small_add, small_add_from. cbn [skipn firstn app]. destruct (add_carry t v y) as [r c] eqn:E. apply add_carry_ok in E; try assumption. destruct E as (A1 & A2 & A3 & A4).
  assert (L : len r = len v) by lia. unfold limb in Hy.
  destruct (Z.eqb_spec c 0) as [->|C].
  - exists r. split; [reflexivity|]. split; [exact A1|]. rewrite Z.mul_0_r, Z.add_0_r in A4. split; [|exact A4]. intro NE. rewrite L, A4. assert (v <> []) as NV by (intros ->; destruct r; [now apply NE|discriminate A3]). specialize (N NV). lia.
  - rewrite <- L in A4. destruct (push_ok r c A1 A2 C ltac:(lia)) as (P1 & P2 & P3 & P4). rewrite P1. eexists. split; [reflexivity|]. split; [exact P2|]. split; [exact P3|]. lia.
Qed.

Lemma mul_carry_ok v : forall y carry r c, limbs v -> limb y -> limb carry -> mul_carry t v y carry = (r, c) -> limbs r /\ limb c /\ length r = length v /\ bv r + B ^ len v * c = bv v * y + carry.
Proof.
  induction v as [|x v IH]; intros y carry r c F Hy Hc E; cbn [mul_carry] in E.
  - injection E as <- <-. split; [constructor|]. split; [exact Hc|]. split; [reflexivity|]. cbn [bv length b2z]. change (B ^ Z.of_nat 0) with 1. lia.
  - inversion_clear F as [|? ? Hx F']. destruct (scalar_mul t x y carry) as [z k] eqn:SM. apply scalar_mul_ok in SM; try assumption. destruct SM as (M1 & M2 & M3).
    destruct (mul_carry t v y k) as [r' c'] eqn:MC. apply IH in MC; try assumption. destruct MC as (A1 & A2 & A3 & A4). injection E as <- <-.
    split; [now constructor|]. split; [exact A2|]. split; [cbn; now rewrite A3|]. cbn [bv length]. replace (Z.of_nat (S (length v))) with (len v + 1) by lia. rewrite Bk1 by lia.
    assert (E1 : B * (bv r' + B ^ len v * c') = B * (bv v * y + k)) by (now rewrite A4). lia.
Qed.
Lemma small_mul_ok v n y : big v n -> 1 <= y < B -> n * y < B ^ cap -> exists r, small_mul t v y = (true, r) /\ big r (n * y).
Proof.
  intros (F & N & <-) Hy H. unfold small_mul. destruct (mul_carry t v y 0) as [r c] eqn:E. apply mul_carry_ok in E; try assumption; [|unfold limb; lia|unfold limb; pose proof B_pos; lia]. destruct E as (A1 & A2 & A3 & A4).
  assert (L : len r = len v) by lia. rewrite Z.add_0_r in A4. pose proof (bv_bound v F) as Bv.
  destruct (Z.eqb_spec c 0) as [->|C].
  - exists r. split; [reflexivity|]. split; [exact A1|]. rewrite Z.mul_0_r, Z.add_0_r in A4. split; [|exact A4]. intro NE. rewrite L, A4. assert (v <> []) as NV by (intros ->; destruct r; [now apply NE|discriminate A3]). specialize (N NV). nia.
  - rewrite <- L in A4. destruct (push_ok r c A1 A2 C ltac:(lia)) as (P1 & P2 & P3 & P4). rewrite P1. eexists. split; [reflexivity|]. split; [exact P2|]. split; [exact P3|]. lia.
Qed.

Lemma add_limbs_ok x : forall y carry r c, limbs x -> limbs y -> (length y <= length x)%nat -> add_limbs t x y carry = (r, c) ->
  limbs r /\ length r = length x /\ bv r + B ^ len y * b2z c = bv x + bv y + b2z carry.
Proof.
  induction x as [|xi x IH]; intros [|yi y] carry r c Fx Fy L E; cbn [add_limbs] in E; cbn [length] in L; try lia.
  - injection E as <- <-. split; [constructor|]. split; [reflexivity|]. cbn [bv length b2z]. change (B ^ Z.of_nat 0) with 1. lia.
  - injection E as <- <-. split; [exact Fx|]. split; [reflexivity|]. cbn [bv length]. change (B ^ Z.of_nat 0) with 1. lia.
  - inversion_clear Fx as [|? ? Hx Fx']. inversion_clear Fy as [|? ? Hy Fy'].
    destruct (scalar_add t xi yi) as [z c1] eqn:S1. apply scalar_add_ok in S1; try assumption. destruct S1 as [Z1 E1].
    destruct (if carry then scalar_add t z 1 else (z, false)) as [z2 c2] eqn:S2.
    assert (Q : limb z2 /\ z2 + B * b2z c2 = z + b2z carry). { destruct carry; [apply scalar_add_ok in S2; [exact S2|exact Z1|unfold limb; pose proof B_pos; lia]|injection S2 as <- <-; cbn; split; [exact Z1|lia]]. }
    destruct Q as [Z2 E2]. destruct (add_limbs t x y (c1 || c2)) as [r' c'] eqn:AL. apply IH in AL; [|assumption|assumption|lia]. destruct AL as (A1 & A2 & A3). injection E as <- <-.
    split; [now constructor|]. split; [cbn; now rewrite A2|]. cbn [bv length]. replace (Z.of_nat (S (length y))) with (len y + 1) by lia. rewrite Bk1 by lia.
    assert (CC : b2z (c1 || c2) = b2z c1 + b2z c2). { unfold limb in *. destruct c1, c2; cbn [orb b2z] in *; try reflexivity. exfalso. pose proof B_pos. destruct carry; cbn [b2z] in *; lia. }
    rewrite CC in A3. assert (E3 : B * (bv r' + B ^ len y * b2z c') = B * (bv x + bv y + (b2z c1 + b2z c2))) by (now rewrite A3). lia.
Qed.
Lemma bv_zeros n : bv (repeat 0 n) = 0.
Proof. induction n; cbn [repeat bv]; lia. Qed.
Lemma limbs_zeros n : limbs (repeat 0 n).
Proof. apply Forall_forall. intros x Hx. apply repeat_spec in Hx. subst. unfold limb. pose proof B_pos. lia. Qed.
Lemma bv_split v n : (n <= length v)%nat -> bv v = bv (firstn n v) + B ^ Z.of_nat n * bv (skipn n v).
Proof. intro H. rewrite <- (firstn_skipn n v) at 1. rewrite bv_app, firstn_length_le by exact H. reflexivity. Qed.
Lemma limbs_split v n : limbs v -> limbs (firstn n v) /\ limbs (skipn n v).
Proof. intro H. rewrite <- (firstn_skipn n v) in H. now apply Forall_app in H. Qed.

Lemma large_add_from_ok x y start : limbs x -> limbs y -> len x <= cap -> len y + Z.of_nat start <= cap -> bv x + B ^ Z.of_nat start * bv y < B ^ cap ->
  exists r, large_add_from t x y start = (true, r) /\ limbs r /\ len r <= cap /\ bv r = bv x + B ^ Z.of_nat start * bv y.
Proof.
  intros Fx Fy Lx Ly H. unfold large_add_from.
  assert (R : exists x', (if (len x <? Z.of_nat start) || (len x - Z.of_nat start <? len y) then try_resize t x (len y + Z.of_nat start) 0 else (true, x)) = (true, x') /\
    limbs x' /\ len x' <= cap /\ (length y + start <= length x')%nat /\ bv x' = bv x).
  { destruct ((len x <? Z.of_nat start) || (len x - Z.of_nat start <? len y)) eqn:K.
    - unfold try_resize. replace (cap <? len y + Z.of_nat start) with false by lia. replace (len x <? len y + Z.of_nat start) with true by lia. eexists. split; [reflexivity|].
      split; [apply Forall_app; split; [exact Fx|apply limbs_zeros]|]. rewrite app_length, repeat_length. split; [lia|]. split; [lia|]. rewrite bv_app, bv_zeros. lia.
    - exists x. split; [reflexivity|]. split; [exact Fx|]. split; [exact Lx|]. split; [lia|reflexivity]. }
  destruct R as (x' & -> & Fx' & Lx' & Ls & Ex). cbn [negb].
  destruct (limbs_split x' start Fx') as [F1 F2]. pose proof (bv_split x' start ltac:(lia)) as Sp.
  destruct (add_limbs t (skipn start x') y false) as [r c] eqn:AL. apply add_limbs_ok in AL; [|assumption|assumption|rewrite skipn_length; lia]. destruct AL as (A1 & A2 & A3). cbn [b2z] in A3.
  assert (P : 0 < B ^ Z.of_nat start) by (apply Bk; lia). assert (Lf : len (firstn start x') = Z.of_nat start) by (rewrite firstn_length_le; lia).
  assert (Lr : len (firstn start x' ++ r) = len x') by (rewrite app_length, A2, skipn_length, firstn_length_le; lia).
  assert (Vr : bv (firstn start x' ++ r) = bv (firstn start x') + B ^ Z.of_nat start * bv r) by (rewrite bv_app, Lf; reflexivity).
  assert (Fr : limbs (firstn start x' ++ r)) by (apply Forall_app; now split).
  destruct c; cbn [b2z] in A3.
  - unfold small_add_from. set (u := firstn start x' ++ r) in *. set (k := (length y + start)%nat).
    destruct (limbs_split u k Fr) as [G1 G2]. pose proof (bv_split u k ltac:(unfold k; lia)) as Su.
    destruct (add_carry t (skipn k u) 1) as [r2 c2] eqn:AC. apply add_carry_ok in AC; [|assumption|unfold limb; pose proof B_pos; lia]. destruct AC as (C1 & C2 & C3 & C4).
    assert (Lk : len (firstn k u) = Z.of_nat k) by (rewrite firstn_length_le; unfold k; lia).
    assert (Vk : bv (firstn k u ++ r2) = bv (firstn k u) + B ^ Z.of_nat k * bv r2) by (rewrite bv_app, Lk; reflexivity).
    assert (Lu : len (firstn k u ++ r2) = len x') by (rewrite app_length, C3, skipn_length, firstn_length_le; unfold k; lia).
    assert (EK : B ^ Z.of_nat k = B ^ len y * B ^ Z.of_nat start) by (unfold k; rewrite <- Z.pow_add_r by lia; f_equal; lia).
    assert (Ek : B ^ len (firstn k u ++ r2) = B ^ Z.of_nat k * B ^ len (skipn k u)) by (rewrite <- Z.pow_add_r by lia; f_equal; rewrite app_length, C3; lia).
    assert (Tot : bv (firstn k u ++ r2) + B ^ len (firstn k u ++ r2) * c2 = bv x + B ^ Z.of_nat start * bv y).
    { rewrite Vk, Ek. replace (bv (firstn k u) + B ^ Z.of_nat k * bv r2 + B ^ Z.of_nat k * B ^ len (skipn k u) * c2) with (bv (firstn k u) + B ^ Z.of_nat k * (bv r2 + B ^ len (skipn k u) * c2)) by ring.
      rewrite C4. replace (bv (firstn k u) + B ^ Z.of_nat k * (bv (skipn k u) + 1)) with (bv u + B ^ Z.of_nat k) by lia. rewrite Vr, EK, <- Ex, Sp.
      replace (bv r) with (bv (skipn start x') + bv y - B ^ len y) by lia. ring. }
    assert (Fu : limbs (firstn k u ++ r2)) by (apply Forall_app; now split).
    destruct (Z.eqb_spec c2 0) as [->|N2].
    + eexists. split; [reflexivity|]. split; [exact Fu|]. split; [lia|]. lia.
    + destruct (push_ok _ c2 Fu C2 N2 ltac:(lia)) as (P1 & P2 & P3 & P4). rewrite P1. eexists. split; [reflexivity|]. split; [exact P2|]. split; [|lia].
      unfold try_push in P1. destruct (Z.ltb_spec (len (firstn k u ++ r2)) cap); [|discriminate P1]. rewrite app_length. cbn [length]. lia.
  - eexists. split; [reflexivity|]. split; [exact Fr|]. split; [lia|]. rewrite Vr, <- Ex, Sp. replace (bv r) with (bv (skipn start x') + bv y) by lia. ring.
Qed.

Lemma drop_zeros_ok r : limbs r -> limbs (drop_zeros r) /\ bv (rev (drop_zeros r)) = bv (rev r) /\ match drop_zeros r with [] => True | x :: _ => x <> 0 end.
Proof.
  induction r as [|x r IH]; intro F; [cbn; auto|]. inversion_clear F as [|? ? Hx F']. destruct (IH F') as (A & C & D). cbn [drop_zeros]. destruct x.
  - split; [exact A|]. split; [|exact D]. cbn [rev]. rewrite bv_app. cbn [bv]. lia.
  - split; [now constructor|]. split; [reflexivity|discriminate].
  - split; [now constructor|]. split; [reflexivity|discriminate].
Qed.
Lemma limbs_rev v : limbs v -> limbs (rev v).
Proof. unfold limbs. rewrite !Forall_forall. intros H x Hx. apply H. now rewrite in_rev. Qed.
Lemma top_norm v x : limbs v -> limb x -> x <> 0 -> norm (v ++ [x]).
Proof. intros F Hx N _. rewrite bv_app, app_length. cbn [bv length]. replace (Z.of_nat (length v + 1) - 1) with (len v) by lia. pose proof (bv_bound v F). pose proof (Bk (len v) ltac:(lia)). unfold limb in Hx. nia. Qed.
Lemma normalize_ok v : limbs v -> big (normalize v) (bv v).
Proof.
  intro F. unfold normalize. destruct (drop_zeros_ok (rev v) (limbs_rev v F)) as (A & C & D). rewrite rev_involutive in C. split; [now apply limbs_rev|]. split; [|exact C].
  destruct (drop_zeros (rev v)) as [|x r]; [apply norm_nil|]. cbn [rev]. inversion_clear A as [|? ? Hx A']. apply top_norm; [now apply limbs_rev|exact Hx|exact D].
Qed.

Lemma mul_rows_ok zs n : big zs n -> 0 < n -> len zs <= cap -> forall y x index, limbs y -> limbs x -> len x <= cap -> bv x + B ^ Z.of_nat index * (n * bv y) < B ^ cap ->
  exists r, mul_rows t x zs y index = (true, r) /\ limbs r /\ len r <= cap /\ bv r = bv x + B ^ Z.of_nat index * (n * bv y).
Proof.
  intros Hz Hn Lz. pose proof Hz as (Fz & Nz & Ez). pose proof (bv_bound zs Fz) as Bz.
  induction y as [|yi y IH]; intros x index Fy Fx Lx H; cbn [mul_rows].
  - exists x. split; [reflexivity|]. split; [exact Fx|]. split; [exact Lx|]. cbn [bv]. lia.
  - inversion_clear Fy as [|? ? Hy Fy']. pose proof (bv_bound y Fy') as By. pose proof (bv_bound x Fx) as Bx. pose proof (Bk (Z.of_nat index) ltac:(lia)) as Pi. pose proof B_pos as PB. unfold limb in Hy.
    cbn [bv] in H. replace (B ^ Z.of_nat index * (n * (yi + B * bv y))) with (B ^ Z.of_nat index * (n * yi) + B ^ Z.of_nat (S index) * (n * bv y)) in H
      by (replace (Z.of_nat (S index)) with (Z.of_nat index + 1) by lia; rewrite Bk1 by lia; ring).
    assert (P2 : 0 <= B ^ Z.of_nat (S index) * (n * bv y)) by (apply Z.mul_nonneg_nonneg; [pose proof (Bk (Z.of_nat (S index)) ltac:(lia)); lia|apply Z.mul_nonneg_nonneg; lia]).
    assert (S : exists x', (if yi =? 0 then (true, x) else
          let '(ok, zi) := try_extend t [] zs in if negb ok then (false, x) else
            let '(ok, zi) := small_mul t zi yi in if negb ok then (false, x) else large_add_from t x zi index) = (true, x') /\ limbs x' /\ len x' <= cap /\ bv x' = bv x + B ^ Z.of_nat index * (n * yi)).
    { destruct (Z.eqb_spec yi 0) as [->|N0]; [exists x; split; [reflexivity|]; split; [exact Fx|]; split; [exact Lx|]; rewrite Z.mul_0_r, Z.mul_0_r; lia|].
      unfold try_extend. cbn [length app]. change (Z.of_nat 0) with 0. replace (0 + len zs <=? cap) with true by lia. cbn [negb].
      assert (Q : B ^ Z.of_nat index * (n * yi) < B ^ cap) by lia.
      destruct (small_mul_ok zs n yi Hz ltac:(lia) ltac:(nia)) as (zi & -> & (Fi & Ni & Ei)). cbn [negb].
      assert (Li : len zi + Z.of_nat index <= cap).
      { destruct zi as [|z0 zi']; [cbn [bv] in Ei; nia|].
        specialize (Ni ltac:(discriminate)). rewrite Ei in Ni. assert (W : B ^ (len (z0 :: zi') - 1 + Z.of_nat index) < B ^ cap).
        { rewrite Z.pow_add_r by (cbn [length]; lia). nia. }
        apply Z.pow_lt_mono_r_iff in W; [lia|lia|destruct lb_cases as [(_ & _ & ->)|(_ & _ & ->)]; lia]. }
      destruct (large_add_from_ok x zi index Fx Fi Lx Li ltac:(rewrite Ei; lia)) as (r & E & A1 & A2 & A3). exists r. rewrite E, <- Ei. auto. }
    destruct S as (x' & -> & Fx' & Lx' & Ex'). cbn [negb].
    destruct (IH x' (S index) Fy' Fx' Lx' ltac:(lia)) as (r & E & A1 & A2 & A3). exists r. split; [exact E|]. split; [exact A1|]. split; [exact A2|]. rewrite A3, Ex'. cbn [bv].
    replace (Z.of_nat (S index)) with (Z.of_nat index + 1) by lia. rewrite Bk1 by lia. ring.
Qed.
Lemma big_len v n : big v n -> n < B ^ cap -> len v <= cap.
Proof. intros (F & N & <-) H. apply norm_len; try assumption. destruct lb_cases as [(_ & _ & ->)|(_ & _ & ->)]; lia. Qed.
Lemma large_mul_ok x n y0 y : big x n -> 0 < n -> limbs (y0 :: y) -> 1 <= y0 -> n * bv (y0 :: y) < B ^ cap ->
  exists r, large_mul t x (y0 :: y) = (true, r) /\ big r (n * bv (y0 :: y)).
Proof.
  intros Hx Hn Fy H0 H. inversion_clear Fy as [|? ? Hy Fy']. unfold limb in Hy. pose proof (bv_bound y Fy') as By. pose proof B_pos as PB. cbn [bv] in *.
  assert (Lx : len x <= cap) by (apply (big_len x n Hx); nia).
  destruct (small_mul_ok x n y0 Hx ltac:(lia) ltac:(nia)) as (r & E & Hr).
  destruct y as [|y1 y].
  { cbn [large_mul]. exists r. split; [exact E|]. cbn [bv]. now replace (n * (y0 + B * 0)) with (n * y0) by lia. }
  unfold large_mul, long_mul. rewrite E. cbn [negb]. pose proof Hr as (Fr & Nr & Er).
  destruct (mul_rows_ok x n Hx Hn Lx (y1 :: y) r 1 Fy' Fr) as (r2 & E2 & A1 & A2 & A3).
  - apply (big_len r _ Hr). nia.
  - rewrite Er. change (B ^ Z.of_nat 1) with (B ^ 1). rewrite Z.pow_1_r. replace (n * y0 + B * (n * bv (y1 :: y))) with (n * (y0 + B * bv (y1 :: y))) by ring. exact H.
  - rewrite E2. cbn [negb]. eexists. split; [reflexivity|]. pose proof (normalize_ok r2 A1) as N. rewrite A3, Er in N. change (B ^ Z.of_nat 1) with (B ^ 1) in N. rewrite Z.pow_1_r in N.
    replace (n * (y0 + B * bv (y1 :: y))) with (n * y0 + B * (n * bv (y1 :: y))) by ring. exact N.
Qed.

Lemma mul_steps_ok mul step : 1 <= step -> (forall v n, big v n -> 0 < n -> n * 5 ^ step < B ^ cap -> exists r, mul v = (true, r) /\ big r (n * 5 ^ step)) ->
  forall fuel v n exp, (Z.to_nat exp <= fuel)%nat -> 0 <= exp -> big v n -> 0 < n -> n * 5 ^ exp < B ^ cap ->
  exists r e, mul_steps mul step fuel v exp = (true, r, e) /\ 0 <= e < step /\ e <= exp /\ big r (n * 5 ^ (exp - e)).
Proof.
  intros Hs Hm. induction fuel as [|fuel IH]; intros v n exp Hf He Hv Hn H; cbn [mul_steps].
  - exists v, exp. assert (exp = 0) as -> by lia. split; [reflexivity|]. split; [lia|]. split; [lia|]. change (5 ^ (0 - 0)) with 1. now rewrite Z.mul_1_r.
  - destruct (Z.ltb_spec exp step) as [L|L].
    + exists v, exp. split; [reflexivity|]. split; [lia|]. split; [lia|]. rewrite Z.sub_diag. change (5 ^ 0) with 1. now rewrite Z.mul_1_r.
    + assert (S1 : 5 ^ exp = 5 ^ step * 5 ^ (exp - step)) by (rewrite <- Z.pow_add_r by lia; f_equal; lia). assert (P1 : 0 < 5 ^ step) by (apply Z.pow_pos_nonneg; lia). assert (P2 : 0 < 5 ^ (exp - step)) by (apply Z.pow_pos_nonneg; lia).
      destruct (Hm v n Hv Hn) as (r & -> & Hr); [rewrite S1 in H; nia|]. cbn [negb].
      destruct (IH r (n * 5 ^ step) (exp - step)) as (r2 & e & E & A1 & A2 & A3); [lia|lia|exact Hr|nia|rewrite <- Z.mul_assoc, <- S1; exact H|].
      exists r2, e. split; [exact E|]. split; [exact A1|]. split; [lia|]. rewrite <- Z.mul_assoc, <- Z.pow_add_r in A3 by lia. replace (step + (exp - step - e)) with (exp - e) in A3 by lia. exact A3.
Qed.

Lemma big_pow5_ok v n exp : big v n -> 0 < n -> 0 <= exp -> n * 5 ^ exp < B ^ cap -> exists r, big_pow5 t v exp = (true, r) /\ big r (n * 5 ^ exp).
Proof.
  intros Hv Hn He H. unfold big_pow5.
  assert (L1 : forall v n, big v n -> 0 < n -> n * 5 ^ large_step < B ^ cap -> exists r, large_mul t v (large_power_of_5 t) = (true, r) /\ big r (n * 5 ^ large_step)).
  { intros v0 n0 H0 Hn0 Hc.
    assert (K : exists y0 y, large_power_of_5 t = y0 :: y /\ limbs (y0 :: y) /\ 1 <= y0 /\ bv (y0 :: y) = 5 ^ large_step).
    { unfold large_power_of_5, limbs, limb, bv, limb_bits. destruct (is_64bit t).
      - do 2 eexists. split; [reflexivity|]. split; [|split; [lia|vm_compute; reflexivity]]. repeat constructor; vm_compute; discriminate.
      - do 2 eexists. split; [reflexivity|]. split; [|split; [lia|vm_compute; reflexivity]]. repeat constructor; vm_compute; discriminate. }
    destruct K as (y0 & y & -> & Fy & Hy & Vy). rewrite <- Vy in Hc |- *. now apply large_mul_ok. }
  assert (L2 : forall v n, big v n -> 0 < n -> n * 5 ^ small_step t < B ^ cap -> exists r, small_mul t v (max_native t) = (true, r) /\ big r (n * 5 ^ small_step t)).
  { intros v0 n0 H0 Hn0 Hc. assert (K : max_native t = 5 ^ small_step t /\ 1 <= max_native t < B) by (unfold max_native, small_step, limb_bits; destruct (is_64bit t); vm_compute; repeat split; discriminate).
    destruct K as [K1 K2]. rewrite <- K1 in Hc |- *. now apply small_mul_ok. }
  destruct (mul_steps_ok _ large_step ltac:(unfold large_step; lia) L1 (Z.to_nat exp) v n exp ltac:(lia) He Hv Hn H) as (r1 & e1 & -> & A1 & A2 & A3). cbn [negb].
  assert (S1 : 5 ^ exp = 5 ^ (exp - e1) * 5 ^ e1) by (rewrite <- Z.pow_add_r by lia; f_equal; lia). assert (P1 : 0 < 5 ^ (exp - e1)) by (apply Z.pow_pos_nonneg; lia).
  destruct (mul_steps_ok _ (small_step t) ltac:(unfold small_step; destruct (is_64bit t); lia) L2 (Z.to_nat e1) r1 (n * 5 ^ (exp - e1)) e1 ltac:(lia) ltac:(lia) A3 ltac:(nia)) as (r2 & e2 & -> & B1 & B2 & B3);
    [rewrite <- Z.mul_assoc, <- S1; exact H|]. cbn [negb].
  rewrite <- Z.mul_assoc, <- Z.pow_add_r in B3 by lia. replace (exp - e1 + (e1 - e2)) with (exp - e2) in B3 by lia.
  destruct (Z.eqb_spec e2 0) as [->|N]; [exists r2; split; [reflexivity|]; now rewrite Z.sub_0_r in B3|].
  assert (K : ulimb t (nth (Z.to_nat e2) small_power_of_5 0) = 5 ^ e2 /\ 1 <= 5 ^ e2 < B).
  { unfold ulimb, limb_bits. unfold small_step in B1.
    assert (C : forall k, (k < 27)%nat -> nth k small_power_of_5 0 = 5 ^ Z.of_nat k).
    { intros k Hk. do 27 (destruct k as [|k]; [vm_compute; reflexivity|]). lia. }
    assert (P : 0 < 5 ^ e2) by (apply Z.pow_pos_nonneg; lia).
    assert (D : 5 ^ e2 < 2 ^ (if is_64bit t then 64 else 32)). { destruct (is_64bit t); [apply Z.le_lt_trans with (5 ^ 26)|apply Z.le_lt_trans with (5 ^ 12)]; try (apply Z.pow_le_mono_r; lia); reflexivity. }
    rewrite C by (destruct (is_64bit t); lia). rewrite Z2Nat.id by lia. rewrite Z.mod_small by lia. lia. }
  destruct K as [K1 K2]. rewrite K1. assert (S2 : 5 ^ exp = 5 ^ (exp - e2) * 5 ^ e2) by (rewrite <- Z.pow_add_r by lia; f_equal; lia).
  rewrite S2, Z.mul_assoc. apply small_mul_ok; [exact B3|exact K2|]. rewrite <- Z.mul_assoc, <- S2. exact H.
Qed.

Lemma shift_limbs_ok n v : 0 < n < lb -> forall prev r last, limbs v -> limb prev -> shift_limbs t n v prev = (r, last) ->
  limbs r /\ limb last /\ length r = length v /\ bv r + B ^ len v * (last / 2 ^ (lb - n)) = bv v * 2 ^ n + prev / 2 ^ (lb - n).
Proof.
  intro Hn. assert (P1 : 0 < 2 ^ n) by (apply Z.pow_pos_nonneg; lia). assert (P2 : 0 < 2 ^ (lb - n)) by (apply Z.pow_pos_nonneg; lia). assert (PB : B = 2 ^ n * 2 ^ (lb - n)) by (rewrite <- Z.pow_add_r by lia; f_equal; lia).
  induction v as [|x v IH]; intros prev r last F Hp E; cbn [shift_limbs] in E.
  - injection E as <- <-. split; [constructor|]. split; [exact Hp|]. split; [reflexivity|]. cbn [bv length]. change (B ^ Z.of_nat 0) with 1. lia.
  - inversion_clear F as [|? ? Hx F']. destruct (shift_limbs t n v x) as [r' l'] eqn:SL. apply IH in SL; try assumption. destruct SL as (A1 & A2 & A3 & A4). injection E as <- <-.
    unfold limb in Hp, Hx. assert (Q : 0 <= prev / 2 ^ (lb - n) < 2 ^ n) by (split; [apply Z.div_pos; lia|apply Z.div_lt_upper_bound; lia]).
    assert (U : ulimb t (x * 2 ^ n) = x mod 2 ^ (lb - n) * 2 ^ n) by (unfold ulimb; rewrite PB, (Z.mul_comm (2 ^ n)), Z.mul_mod_distr_r by lia; reflexivity).
    rewrite U, lor_add by lia. pose proof (Z.div_mod x (2 ^ (lb - n)) ltac:(lia)) as D. pose proof (Z.mod_pos_bound x (2 ^ (lb - n)) P2) as M.
    split; [constructor; [unfold limb; rewrite PB; nia|exact A1]|]. split; [exact A2|]. split; [cbn; now rewrite A3|]. cbn [bv length]. replace (Z.of_nat (S (length v))) with (len v + 1) by lia. rewrite Bk1 by lia.
    assert (E1 : B * (bv r' + B ^ len v * (l' / 2 ^ (lb - n))) = B * (bv v * 2 ^ n + x / 2 ^ (lb - n))) by (now rewrite A4).
    assert (E2 : x * 2 ^ n = x mod 2 ^ (lb - n) * 2 ^ n + B * (x / 2 ^ (lb - n))) by (rewrite PB; rewrite D at 1; ring). lia.
Qed.

Lemma big_shl_ok v n k : big v n -> 0 < n -> 0 <= k -> n * 2 ^ k < B ^ cap -> exists r, big_shl t v k = (true, r) /\ big r (n * 2 ^ k).
Proof.
  intros Hv Hn Hk H. unfold big_shl. pose proof lb_range as LR. pose proof (Z.div_mod k lb ltac:(lia)) as D. pose proof (Z.mod_pos_bound k lb ltac:(lia)) as M. assert (Dp : 0 <= k / lb) by (apply Z.div_pos; lia).
  set (rem := k mod lb) in *. set (dv := k / lb) in *. clearbody rem dv.
  assert (PK : 2 ^ k = 2 ^ rem * B ^ dv) by (rewrite D, <- Z.pow_mul_r, <- Z.pow_add_r by lia; f_equal; lia).
  assert (P1 : 0 < 2 ^ rem) by (apply Z.pow_pos_nonneg; lia). pose proof (Bk dv Dp) as P2. rewrite PK in H.
  assert (S : exists r, (if rem =? 0 then (true, v) else shl_bits t v rem) = (true, r) /\ big r (n * 2 ^ rem)).
  { destruct (Z.eqb_spec rem 0) as [->|N]; [exists v; split; [reflexivity|]; change (2 ^ 0) with 1; now rewrite Z.mul_1_r|].
    unfold shl_bits. destruct Hv as (F & Nv & Ev). destruct (shift_limbs t rem v 0) as [r last] eqn:SL. apply shift_limbs_ok in SL; [|lia|exact F|unfold limb; pose proof B_pos; lia]. destruct SL as (A1 & A2 & A3 & A4).
    rewrite (Z.div_0_l (2 ^ (lb - rem))), Z.add_0_r, Ev in A4 by (pose proof (Z.pow_pos_nonneg 2 (lb - rem)); lia).
    assert (PL : 0 < 2 ^ (lb - rem)) by (apply Z.pow_pos_nonneg; lia). unfold limb in A2. assert (Q : 0 <= last / 2 ^ (lb - rem) < B) by (split; [apply Z.div_pos; lia|apply Z.div_lt_upper_bound; nia]).
    set (c := last / 2 ^ (lb - rem)) in *. clearbody c. assert (L : len r = len v) by lia.
    destruct (Z.eqb_spec c 0) as [->|C].
    - exists r. split; [reflexivity|]. split; [exact A1|]. rewrite Z.mul_0_r, Z.add_0_r in A4. split; [|exact A4]. intro NE. rewrite L, A4. assert (v <> []) as NV by (intros ->; destruct r; [now apply NE|discriminate A3]). specialize (Nv NV). nia.
    - rewrite <- L in A4. destruct (push_ok r c A1 Q C ltac:(nia)) as (Q1 & Q2 & Q3 & Q4). rewrite Q1. eexists. split; [reflexivity|]. split; [exact Q2|]. split; [exact Q3|]. lia. }
  destruct S as (r & -> & Hr). cbn [negb]. rewrite PK, Z.mul_assoc.
  destruct (Z.eqb_spec dv 0) as [->|N]; [exists r; split; [reflexivity|]; change (B ^ 0) with 1; now rewrite Z.mul_1_r|].
  unfold shl_limbs. destruct Hr as (F & Nr & Er). assert (NE : r <> []) by (intros ->; cbn in Er; nia). specialize (Nr NE).
  assert (L : len r - 1 + dv < cap).
  { assert (W : B ^ (len r - 1 + dv) < B ^ cap) by (rewrite Z.pow_add_r by (destruct r; [now elim NE|cbn [length]; lia]); nia). apply Z.pow_lt_mono_r_iff in W; [lia|pose proof B_pos; lia|destruct lb_cases as [(_ & _ & ->)|(_ & _ & ->)]; lia]. }
  replace (cap <? dv + len r) with false by lia. destruct r as [|r0 r']; [now elim NE|]. eexists. split; [reflexivity|]. set (r := r0 :: r') in *.
  split; [apply Forall_app; split; [apply limbs_zeros|exact F]|].
  assert (V : bv (repeat 0 (Z.to_nat dv) ++ r) = n * 2 ^ rem * B ^ dv) by (rewrite bv_app, bv_zeros, repeat_length, Z2Nat.id, Er by lia; ring).
  split; [|exact V]. intros _. rewrite V, app_length, repeat_length. replace (Z.of_nat (Z.to_nat dv + length r) - 1) with ((len r - 1) + dv) by lia. rewrite Z.pow_add_r by (unfold r; cbn [length]; lia). nia.
Qed.
Lemma big_pow10_ok v n exp : big v n -> 0 < n -> 0 <= exp -> n * 10 ^ exp < B ^ cap -> exists r, big_pow10 t v exp = (true, r) /\ big r (n * 10 ^ exp).
Proof.
  intros Hv Hn He H. unfold big_pow10. assert (P : 10 ^ exp = 5 ^ exp * 2 ^ exp) by (rewrite <- Z.pow_mul_l; reflexivity). assert (P1 : 0 < 5 ^ exp) by (apply Z.pow_pos_nonneg; lia). assert (P2 : 0 < 2 ^ exp) by (apply Z.pow_pos_nonneg; lia). rewrite P in *.
  destruct (big_pow5_ok v n exp Hv Hn He ltac:(nia)) as (r & -> & Hr). cbn [negb]. rewrite Z.mul_assoc in *. apply big_shl_ok; try assumption. nia.
Qed.

Lemma compare_limbs_ok x : forall y, length x = length y -> limbs x -> limbs y ->
  compare_limbs x y = match bv (rev x) ?= bv (rev y) with Lt => -1 | Eq => 0 | Gt => 1 end.
Proof.
  induction x as [|xi x IH]; intros [|yi y] L Fx Fy; try discriminate L; [reflexivity|]. cbn [compare_limbs rev]. inversion_clear Fx as [|? ? Hx Fx']. inversion_clear Fy as [|? ? Hy Fy']. injection L as L.
  rewrite !bv_app, !rev_length, <- L. cbn [bv]. pose proof (bv_bound (rev x) (limbs_rev x Fx')) as Bx. pose proof (bv_bound (rev y) (limbs_rev y Fy')) as By. rewrite rev_length in Bx, By. rewrite <- L in By. pose proof (Bk (len x) ltac:(lia)) as P.
  unfold limb in *. rewrite !Z.mul_0_r, !Z.add_0_r. destruct (Z.ltb_spec yi xi) as [G|G].
  - replace (bv (rev x) + B ^ len x * xi ?= bv (rev y) + B ^ len x * yi) with Gt; [reflexivity|]. symmetry. apply Z.compare_gt_iff. nia.
  - destruct (Z.ltb_spec xi yi) as [G2|G2].
    + replace (bv (rev x) + B ^ len x * xi ?= bv (rev y) + B ^ len x * yi) with Lt; [reflexivity|]. symmetry. apply Z.compare_lt_iff. nia.
    + assert (xi = yi) as -> by lia. rewrite IH by assumption. destruct (Z.compare_spec (bv (rev x)) (bv (rev y))) as [E|E|E]; destruct (Z.compare_spec (bv (rev x) + B ^ len x * yi) (bv (rev y) + B ^ len x * yi)); try reflexivity; lia.
Qed.
Lemma big_compare_ok x a y b : big x a -> big y b -> big_compare x y = match a ?= b with Lt => -1 | Eq => 0 | Gt => 1 end.
Proof.
  intros (Fx & Nx & <-) (Fy & Ny & <-). unfold big_compare. pose proof (bv_bound x Fx) as Bx. pose proof (bv_bound y Fy) as By. pose proof B_pos as PB.
  destruct (Nat.ltb_spec (length y) (length x)) as [L|L].
  - replace (bv x ?= bv y) with Gt; [reflexivity|]. symmetry. apply Z.compare_gt_iff. specialize (Nx ltac:(intros ->; cbn in L; lia)). assert (B ^ len y <= B ^ (len x - 1)) by (apply Z.pow_le_mono_r; lia). lia.
  - destruct (Nat.ltb_spec (length x) (length y)) as [L2|L2].
    + replace (bv x ?= bv y) with Lt; [reflexivity|]. symmetry. apply Z.compare_lt_iff. specialize (Ny ltac:(intros ->; cbn in L2; lia)). assert (B ^ len x <= B ^ (len y - 1)) by (apply Z.pow_le_mono_r; lia). lia.
    + rewrite compare_limbs_ok; [now rewrite !rev_involutive|rewrite !rev_length; lia|now apply limbs_rev|now apply limbs_rev].
Qed.

Lemma bigint_of_ok x : 0 <= x < 2 ^ 64 -> big (bigint_of t x) x.
Proof.
  intro H. unfold bigint_of. destruct lb_cases as [(-> & E & _)|(-> & E & _)].
  - replace x with (bv [x]) at 2 by (cbn [bv]; lia). apply normalize_ok. repeat constructor; rewrite ?E; lia.
  - unfold u32. pose proof (Z.div_mod x (2 ^ 32) ltac:(lia)). pose proof (Z.mod_pos_bound x (2 ^ 32) ltac:(lia)). assert (0 <= x / 2 ^ 32 < 2 ^ 32) by (split; [apply Z.div_pos; lia|apply Z.div_lt_upper_bound; lia]).
    rewrite (Z.mod_small (x / 2 ^ 32)) by assumption. replace x with (bv [x mod 2 ^ 32; x / 2 ^ 32]) at 3 by (cbn [bv]; rewrite E; lia). apply normalize_ok. repeat constructor; rewrite ?E; lia.
Qed.

(** the top 64 bits of a number, and whether the others are not all zero *)
Definition top64 (n : Z) : Z := let bl := Z.log2 n + 1 in if bl <=? 64 then n * 2 ^ (64 - bl) else n / 2 ^ (bl - 64).
Definition low_bits (n : Z) : bool := let bl := Z.log2 n + 1 in if bl <=? 64 then false else negb (n mod 2 ^ (bl - 64) =? 0).

Lemma hi64_1_ok n : 0 < n < 2 ^ 64 -> hi64_1 t n = Ok (top64 n, low_bits n).
Proof.
  intro H. unfold hi64_1. rewrite leading_zeroes_ok by exact H. cbn [bind]. pose proof (Z.log2_spec n ltac:(lia)) as L. pose proof (Z.log2_nonneg n).
  assert (Z.log2 n < 64) by (apply Z.log2_lt_pow2; lia). unfold shl. replace ((0 <=? 63 - Z.log2 n) && (63 - Z.log2 n <? 64)) with true by lia. cbn [bind]. unfold top64, low_bits. replace (Z.log2 n + 1 <=? 64) with true by lia.
  replace (64 - (Z.log2 n + 1)) with (63 - Z.log2 n) by lia. unfold u64. rewrite Z.mod_small; [reflexivity|]. assert (P : 0 < 2 ^ (63 - Z.log2 n)) by (apply Z.pow_pos_nonneg; lia).
  assert (E : 2 ^ 64 = 2 ^ Z.succ (Z.log2 n) * 2 ^ (63 - Z.log2 n)) by (rewrite <- Z.pow_add_r by lia; f_equal; lia). rewrite E. nia.
Qed.
Lemma hi64_2_ok r0 r1 rho j : 0 < r0 < 2 ^ 64 -> 0 <= r1 < 2 ^ 64 -> 0 <= j -> 0 <= rho < 2 ^ j ->
  let n := rho + 2 ^ j * (r1 + 2 ^ 64 * r0) in
  exists tr, hi64_2 t r0 r1 = Ok (top64 n, tr) /\ tr || negb (rho =? 0) = low_bits n.
Proof.
  intros H0 H1 Hj Hr n. unfold hi64_2. rewrite leading_zeroes_ok by exact H0. cbn [bind]. pose proof (Z.log2_spec r0 ltac:(lia)) as L. pose proof (Z.log2_nonneg r0).
  assert (L64 : Z.log2 r0 < 64) by (apply Z.log2_lt_pow2; lia). set (l := Z.log2 r0) in *. clearbody l.
  assert (Pj : 0 < 2 ^ j) by (apply Z.pow_pos_nonneg; lia). assert (Pl : 0 < 2 ^ l) by (apply Z.pow_pos_nonneg; lia). rewrite Z.pow_succ_r in L by lia.
  assert (Ln : Z.log2 n = j + 64 + l).
  { apply Z.log2_unique; [lia|]. rewrite Z.pow_succ_r by lia. replace (2 ^ (j + 64 + l)) with (2 ^ j * (2 ^ 64 * 2 ^ l)) by (rewrite <- !Z.pow_add_r by lia; f_equal; lia). unfold n.
    assert (Q : r1 + 2 ^ 64 * r0 + 1 <= 2 * (2 ^ 64 * 2 ^ l)) by lia. assert (Q2 : 2 ^ 64 * 2 ^ l <= r1 + 2 ^ 64 * r0) by lia. set (K := r1 + 2 ^ 64 * r0) in *. clearbody K. set (M := 2 ^ 64 * 2 ^ l) in *. clearbody M. nia. }
  unfold top64, low_bits. rewrite Ln. replace (j + 64 + l + 1 <=? 64) with false by lia. replace (j + 64 + l + 1 - 64) with (j + (l + 1)) by lia.
  assert (R0 : r0 * 2 ^ (63 - l) < 2 ^ 64).
  { assert (P : 0 < 2 ^ (63 - l)) by (apply Z.pow_pos_nonneg; lia). replace (2 ^ 64) with (2 * 2 ^ l * 2 ^ (63 - l)) by (rewrite <- Z.mul_assoc, <- Z.pow_add_r, <- (Z.pow_succ_r 2) by lia; f_equal; lia). nia. }
  set (s := 63 - l) in *. replace (l + 1) with (64 - s) by (unfold s; lia). assert (Hs : 0 <= s <= 63) by lia. clearbody s. clear Ln L Pl.
  assert (P64 : 2 ^ 64 = 2 ^ s * 2 ^ (64 - s)) by (rewrite <- Z.pow_add_r by lia; f_equal; lia). assert (Ps : 0 < 2 ^ s) by (apply Z.pow_pos_nonneg; lia). assert (Pt : 0 < 2 ^ (64 - s)) by (apply Z.pow_pos_nonneg; lia).
  pose proof (Z.div_mod r1 (2 ^ (64 - s)) ltac:(lia)) as D1. pose proof (Z.mod_pos_bound r1 (2 ^ (64 - s)) Pt) as M1. assert (D1p : 0 <= r1 / 2 ^ (64 - s) < 2 ^ s) by (split; [apply Z.div_pos; lia|apply Z.div_lt_upper_bound; lia]).
  set (hi := r1 / 2 ^ (64 - s)) in *. set (lo := r1 mod 2 ^ (64 - s)) in *.
  rewrite (Z.pow_add_r 2 j) by lia.
  assert (EN : n = (2 ^ j * 2 ^ (64 - s)) * (r0 * 2 ^ s + hi) + (rho + 2 ^ j * lo)) by (unfold n; rewrite P64, D1; ring).
  assert (Bd : 0 <= rho + 2 ^ j * lo < 2 ^ j * 2 ^ (64 - s)) by nia.
  assert (DN : n / (2 ^ j * 2 ^ (64 - s)) = r0 * 2 ^ s + hi) by (symmetry; apply Z.div_unique with (rho + 2 ^ j * lo); lia).
  assert (MN : n mod (2 ^ j * 2 ^ (64 - s)) = rho + 2 ^ j * lo) by (symmetry; apply Z.mod_unique with (r0 * 2 ^ s + hi); lia).
  rewrite DN, MN. assert (Z0 : (rho + 2 ^ j * lo =? 0) = (lo =? 0) && (rho =? 0)) by (destruct (Z.eqb_spec lo 0) as [->|?], (Z.eqb_spec rho 0) as [->|?]; cbn [andb]; nia).
  rewrite Z0, negb_andb. destruct (Z.eqb_spec s 0) as [->|N].
  - change (2 ^ 0) with 1 in *. rewrite Z.mul_1_r. assert (hi = 0) as -> by lia. rewrite Z.add_0_r. exists (negb (lo =? 0)). split; [|reflexivity]. f_equal. f_equal. f_equal. f_equal. rewrite D1. lia.
  - unfold shl, shr. replace ((0 <=? s) && (s <? 64)) with true by lia. replace ((0 <=? 64 - s) && (64 - s <? 64)) with true by lia. cbn [bind]. fold hi.
    assert (U1 : u64 (r1 * 2 ^ s) = lo * 2 ^ s) by (unfold u64, lo; rewrite P64, (Z.mul_comm (2 ^ s)), Z.mul_mod_distr_r by lia; reflexivity).
    assert (U0 : u64 (r0 * 2 ^ s) = r0 * 2 ^ s) by (unfold u64; apply Z.mod_small; nia).
    rewrite U0, U1, lor_add by lia. exists (negb (lo * 2 ^ s =? 0)). split; [reflexivity|]. f_equal. f_equal. destruct (Z.eqb_spec lo 0) as [->|?]; [reflexivity|]. apply Z.eqb_neq. nia.
Qed.

Lemma nonzero_ok rest top : limbs rest -> nonzero (rest ++ top) (length top) = negb (bv rest =? 0).
Proof.
  intro F. unfold nonzero. rewrite rev_app_distr, skipn_app, rev_length, Nat.sub_diag, skipn_all2 by (rewrite rev_length; lia). cbn [skipn app].
  induction rest as [|x rest IH]; [reflexivity|]. inversion_clear F as [|? ? Hx F']. cbn [rev]. rewrite existsb_app, IH by exact F'. cbn [existsb bv]. rewrite orb_false_r. pose proof (bv_bound rest F'). pose proof B_pos. unfold limb in Hx.
  destruct (Z.eqb_spec x 0) as [->|N], (Z.eqb_spec (bv rest) 0) as [E|E]; cbn [negb orb]; symmetry; rewrite ?negb_true_iff, ?negb_false_iff, ?Z.eqb_neq, ?Z.eqb_eq; nia.
Qed.
Lemma snoc_cases (v : list Z) : v = [] \/ (exists x, v = [x]) \/ (exists x y, v = [x; y]) \/ exists r x y z, v = r ++ [x; y; z].
Proof.
  destruct v as [|v0 v] using rev_ind; [now left|]. clear IHv. right. destruct v as [|v1 v] using rev_ind; [left; now exists v0|]. clear IHv. right.
  destruct v as [|v2 v] using rev_ind; [left; now exists v1, v0|]. clear IHv. right. exists v, v2, v1, v0. now rewrite <- !app_assoc.
Qed.
Lemma norm_top r x : limbs (r ++ [x]) -> norm (r ++ [x]) -> 1 <= x < B.
Proof.
  intros F N. apply Forall_app in F. destruct F as [Fr Fx]. inversion_clear Fx as [|? ? Hx _]. unfold limb in Hx. specialize (N ltac:(destruct r; discriminate)).
  rewrite app_length in N. cbn [length] in N. replace (Z.of_nat (length r + 1) - 1) with (len r) in N by lia. rewrite bv_app in N. cbn [bv] in N. pose proof (bv_bound r Fr). split; [|lia]. destruct (Z.eq_dec x 0) as [->|]; lia.
Qed.
Lemma hi64_ok v n : big v n -> 0 < n -> hi64 t v = Ok (top64 n, low_bits n).
Proof.
  intros (F & N & E) Hn. unfold hi64. destruct (snoc_cases v) as [->|[(x & ->)|[(x & y & ->)|(r & x & y & z & ->)]]]; [cbn in E; lia| | |].
  - pose proof (norm_top [] x F N) as Hx. cbn [bv] in E. pose proof lb_range. assert (B <= 2 ^ 64) by (apply Z.pow_le_mono_r; lia). replace x with n in * by lia. cbn [length rindex rev app nth]. rewrite hi64_1_ok by lia. now destruct (is_64bit t).
  - pose proof (norm_top [x] y F N) as Hy. inversion_clear F as [|? ? Hx _]. unfold limb in Hx. cbn [bv] in E. cbn [length]. unfold rindex. cbn [rev app nth]. destruct lb_cases as [(-> & EB & _)|(-> & EB & _)]; rewrite EB in *.
    + destruct (hi64_2_ok y x 0 0 ltac:(lia) ltac:(lia) ltac:(lia) ltac:(cbn; lia)) as (tr & E2 & E3). cbv zeta in E2, E3. replace (0 + 2 ^ 0 * (x + 2 ^ 64 * y)) with n in * by (change (2 ^ 0) with 1; lia). rewrite E2. cbn [bind].
      change (nonzero [x; y] 2) with (nonzero ([] ++ [x; y]) (length [x; y])). rewrite (nonzero_ok [] [x; y]) by constructor. cbn [bv]. now rewrite E3.
    + unfold join32, u64. rewrite Z.mod_small by lia. rewrite lor_add by lia. replace (y * 2 ^ 32 + x) with n by lia. rewrite hi64_1_ok by lia. reflexivity.
  - assert (Hz : 1 <= z < B) by (apply (norm_top (r ++ [x; y])); rewrite <- app_assoc; assumption). apply Forall_app in F. destruct F as [Fr Ft]. inversion_clear Ft as [|? ? Hx Ft2]. inversion_clear Ft2 as [|? ? Hy _]. unfold limb in Hx, Hy.
    pose proof (bv_bound r Fr) as Br. rewrite bv_app in E. cbn [bv] in E. assert (PR : B ^ len r = 2 ^ (lb * len r)) by (rewrite Z.pow_mul_r by (pose proof lb_range; lia); reflexivity).
    rewrite app_length. cbn [length]. replace (length r + 3)%nat with (S (S (S (length r)))) by lia. unfold rindex. rewrite rev_app_distr. cbn [rev app nth]. destruct lb_cases as [(-> & EB & _)|(-> & EB & _)].
    + rewrite EB in *. destruct (hi64_2_ok z y (bv r + 2 ^ (64 * len r) * x) (64 * len r + 64) ltac:(lia) ltac:(lia) ltac:(lia)) as (tr & E2 & E3).
      { rewrite Z.pow_add_r by lia. rewrite <- PR. nia. }
      cbv zeta in E2, E3. replace (bv r + 2 ^ (64 * len r) * x + 2 ^ (64 * len r + 64) * (y + 2 ^ 64 * z)) with n in * by (rewrite Z.pow_add_r, <- PR by lia; lia).
      rewrite E2. cbn [bind]. change (r ++ [x; y; z]) with (r ++ [x] ++ [y; z]). rewrite app_assoc. assert (Frx : limbs (r ++ [x])) by (apply Forall_app; split; [exact Fr|constructor; [unfold limb; rewrite EB; exact Hx|constructor]]).
      change 2%nat with (length [y; z]). rewrite (nonzero_ok (r ++ [x]) [y; z] Frx). rewrite bv_app. cbn [bv]. rewrite EB, PR. replace (x + 2 ^ 64 * 0) with x by lia. now rewrite E3.
    + rewrite EB in *. unfold join32, u64. rewrite Z.mod_small by lia. rewrite lor_add by lia.
      destruct (hi64_2_ok z (y * 2 ^ 32 + x) (bv r) (32 * len r) ltac:(lia) ltac:(lia) ltac:(lia) ltac:(rewrite <- PR; exact Br)) as (tr & E2 & E3).
      cbv zeta in E2, E3. replace (bv r + 2 ^ (32 * len r) * (y * 2 ^ 32 + x + 2 ^ 64 * z)) with n in * by (rewrite <- PR; change (2 ^ 64) with (2 ^ 32 * 2 ^ 32); lia).
      rewrite E2. cbn [bind]. change 3%nat with (length [x; y; z]). rewrite (nonzero_ok r [x; y; z] Fr). now rewrite E3.
Qed.
Lemma bit_length_ok v n : big v n -> 0 < n -> bit_length t v = Ok (Z.log2 n + 1).
Proof.
  intros (F & N & E) Hn. unfold bit_length, ctlz. destruct v as [|v0 v'] eqn:EV; [cbn in E; lia|]. rewrite <- EV in *. clear EV.
  destruct v as [|x r _] using rev_ind; [cbn in E; lia|]. pose proof (norm_top r x F N) as Hx. apply Forall_app in F. destruct F as [Fr _]. pose proof (bv_bound r Fr) as Br. rewrite bv_app in E. cbn [bv] in E.
  pose proof (Z.log2_spec x ltac:(lia)) as L. pose proof (Z.log2_nonneg x). pose proof lb_range as LR. assert (PR : B ^ len r = 2 ^ (lb * len r)) by (rewrite Z.pow_mul_r by lia; reflexivity). pose proof (Bk (len r) ltac:(lia)) as P.
  assert (LN : Z.log2 n = lb * len r + Z.log2 x). { apply Z.log2_unique; [lia|]. rewrite <- Z.add_succ_r, !Z.pow_add_r by lia. rewrite <- PR. nia. }
  unfold rindex. rewrite rev_app_distr. cbn [rev app nth]. assert (LZ : (if is_64bit t then leading_zeroes t x else leading_zeroes t (u64 (x * 2 ^ 32))) = Ok (lb - 1 - Z.log2 x)).
  { destruct lb_cases as [(-> & EB & _)|(-> & EB & _)]; rewrite EB in *.
    - rewrite leading_zeroes_ok by lia. reflexivity.
    - unfold u64. rewrite Z.mod_small by lia. rewrite leading_zeroes_ok by lia. f_equal. rewrite Z.log2_mul_pow2 by lia. lia. }
  rewrite LZ. cbn [bind]. f_equal. rewrite LN, app_length. cbn [length]. lia.
Qed.
End T.
