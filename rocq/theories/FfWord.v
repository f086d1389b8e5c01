(** 64-bit words in fast_float: eight digits at a time, byte order, leading zeros, products. *)
From Coq Require Import ZArith List Bool Lia Zpow_facts.
From Verif Require Import Mem RyuArith FfModel.
Import ListNotations.
Open Scope Z_scope.
Local Notation len l := (Z.of_nat (length l)).

Definition byte (b : Z) : Prop := 0 <= b < 256.

(** ** Bitwise operations byte by byte *)
Lemma byte_split a0 a' : byte a0 -> (a0 + 256 * a') mod 2 ^ 8 = a0 /\ (a0 + 256 * a') / 2 ^ 8 = a'.
Proof.
  unfold byte. intro H. change (2 ^ 8) with 256. split.
  - symmetry. apply Z.mod_unique with a'; lia.
  - symmetry. apply Z.div_unique with a0; lia.
Qed.
Lemma bitop_byte (op : Z -> Z -> Z) : (forall a b n, 0 <= n -> Z.shiftr (op a b) n = op (Z.shiftr a n) (Z.shiftr b n)) ->
  (forall a b, (op a b) mod 2 ^ 8 = (op (a mod 2 ^ 8) (b mod 2 ^ 8)) mod 2 ^ 8) ->
  (forall a b, byte a -> byte b -> byte (op a b)) ->
  forall a0 a' b0 b', byte a0 -> byte b0 -> op (a0 + 256 * a') (b0 + 256 * b') = op a0 b0 + 256 * op a' b'.
Proof.
  intros S M B a0 a' b0 b' Ha Hb. pose proof (Z.div_mod (op (a0 + 256 * a') (b0 + 256 * b')) (2 ^ 8) ltac:(lia)) as E.
  rewrite E, M. rewrite <- (Z.shiftr_div_pow2 _ 8) by lia. rewrite S by lia. rewrite !Z.shiftr_div_pow2 by lia.
  destruct (byte_split a0 a' Ha) as [-> ->], (byte_split b0 b' Hb) as [-> ->].
  pose proof (B a0 b0 Ha Hb) as Bo. unfold byte in Bo. rewrite (Z.mod_small (op a0 b0)) by (change (2 ^ 8) with 256; lia). change (2 ^ 8) with 256. lia.
Qed.
Lemma byte_ones a : byte a <-> Z.land a (Z.ones 8) = a.
Proof. rewrite Z.land_ones by lia. unfold byte. change 256 with (2 ^ 8). split; [apply Z.mod_small|intro H; rewrite <- H; apply Z.mod_pos_bound; lia]. Qed.
Lemma land_mod a b n : 0 <= n -> (Z.land a b) mod 2 ^ n = Z.land (a mod 2 ^ n) (b mod 2 ^ n).
Proof. intro H. rewrite <- !Z.land_ones by exact H. apply Z.bits_inj'. intros i Hi. rewrite !Z.land_spec. destruct (Z.testbit a i), (Z.testbit b i), (Z.testbit (Z.ones n) i); reflexivity. Qed.
Lemma lor_mod a b n : 0 <= n -> (Z.lor a b) mod 2 ^ n = Z.lor (a mod 2 ^ n) (b mod 2 ^ n).
Proof. intro H. rewrite <- !Z.land_ones by exact H. apply Z.land_lor_distr_l. Qed.
Lemma land_byte a0 a' b0 b' : byte a0 -> byte b0 -> Z.land (a0 + 256 * a') (b0 + 256 * b') = Z.land a0 b0 + 256 * Z.land a' b'.
Proof.
  apply bitop_byte.
  - intros. apply Z.shiftr_land.
  - intros a b. rewrite land_mod by lia. symmetry. rewrite land_mod by lia. now rewrite !Z.mod_mod by lia.
  - intros a b Ha Hb. apply byte_ones. apply byte_ones in Hb. now rewrite <- Z.land_assoc, Hb.
Qed.
Lemma lor_byte a0 a' b0 b' : byte a0 -> byte b0 -> Z.lor (a0 + 256 * a') (b0 + 256 * b') = Z.lor a0 b0 + 256 * Z.lor a' b'.
Proof.
  apply bitop_byte.
  - intros. apply Z.shiftr_lor.
  - intros a b. rewrite lor_mod by lia. symmetry. rewrite lor_mod by lia. now rewrite !Z.mod_mod by lia.
  - intros a b Ha Hb. apply byte_ones. apply byte_ones in Ha, Hb. now rewrite Z.land_lor_distr_l, Ha, Hb.
Qed.
Lemma land_bytes a b : byte a -> byte b -> byte (Z.land a b).
Proof. intros Ha Hb. apply byte_ones. apply byte_ones in Hb. now rewrite <- Z.land_assoc, Hb. Qed.
Lemma lor_bytes a b : byte a -> byte b -> byte (Z.lor a b).
Proof. intros Ha Hb. apply byte_ones. apply byte_ones in Ha, Hb. now rewrite Z.land_lor_distr_l, Ha, Hb. Qed.

(** ** Eight digits? *)
Definition digit (c : Z) : Prop := 48 <= c <= 57.
(** n bytes, each k *)
Fixpoint rep (k : Z) (n : nat) : Z := match n with O => 0 | S n => k + 256 * rep k n end.
Definition digit_test (l : list Z) : Z :=
  Z.land (Z.lor ((le_value l + rep 70 (length l)) mod 256 ^ len l) ((le_value l - rep 48 (length l)) mod 256 ^ len l)) (rep 128 (length l)).

Lemma byte_test b : byte b -> (Z.land (Z.lor ((b + 70) mod 256) ((b - 48) mod 256)) 128 =? 0) = ((48 <=? b) && (b <=? 57)).
Proof.
  intro H.
  assert (A : forallb (fun b => Bool.eqb (Z.land (Z.lor ((b + 70) mod 256) ((b - 48) mod 256)) 128 =? 0) ((48 <=? b) && (b <=? 57))) (map Z.of_nat (seq 0 256)) = true) by (vm_compute; reflexivity).
  rewrite forallb_forall in A. apply eqb_prop. apply A. apply in_map_iff. exists (Z.to_nat b). unfold byte in H. split; [lia|]. apply in_seq. lia.
Qed.
Lemma mod_byte x0 x' n : 0 <= n -> byte x0 -> (x0 + 256 * x') mod 256 ^ (n + 1) = x0 + 256 * (x' mod 256 ^ n).
Proof.
  intros Hn H. unfold byte in H. rewrite Z.pow_add_r by lia. change (256 ^ 1) with 256. assert (0 < 256 ^ n) by (apply Z.pow_pos_nonneg; lia).
  pose proof (Z.div_mod x' (256 ^ n) ltac:(lia)) as E. pose proof (Z.mod_pos_bound x' (256 ^ n) ltac:(lia)).
  symmetry. apply Z.mod_unique with (x' / 256 ^ n); [left; nia|]. rewrite E at 1. ring.
Qed.
Lemma land_nonneg a b : 0 <= b -> 0 <= Z.land a b.
Proof. intro H. apply Z.land_nonneg. now right. Qed.
Lemma rep_nonneg k n : 0 <= k -> 0 <= rep k n.
Proof. intro H. induction n; cbn [rep]; lia. Qed.

Lemma digit_test_ok l : Forall byte l -> (digit_test l =? 0) = forallb is_integer l.
Proof.
  induction l as [|b l IH]; intro F; [reflexivity|]. inversion_clear F as [|? ? Hb F']. specialize (IH F').
  unfold digit_test. cbn [le_value length rep forallb]. replace (Z.of_nat (S (length l))) with (len l + 1) by lia.
  assert (M : forall x', Z.land (Z.lor (((b + 70) mod 256) + 256 * x') (((b - 48) mod 256) + 256 * 0)) (128 + 256 * rep 128 (length l)) = 0 -> True) by trivial. clear M.
  assert (B1 : byte ((b + 70) mod 256)) by (apply Z.mod_pos_bound; lia). assert (B2 : byte ((b - 48) mod 256)) by (apply Z.mod_pos_bound; lia).
  assert (B3 : byte 128) by (unfold byte; lia).
  assert (E1 : (b + 256 * le_value l + (70 + 256 * rep 70 (length l))) = (b + 70) mod 256 + 256 * ((b + 70) / 256 + (le_value l + rep 70 (length l)))) by (pose proof (Z.div_mod (b + 70) 256 ltac:(lia)); lia).
  assert (E2 : (b + 256 * le_value l - (48 + 256 * rep 48 (length l))) = (b - 48) mod 256 + 256 * ((b - 48) / 256 + (le_value l - rep 48 (length l)))) by (pose proof (Z.div_mod (b - 48) 256 ltac:(lia)); lia).
  rewrite E1, E2, !mod_byte by (try lia; assumption). rewrite lor_byte, land_byte by (try assumption; now apply lor_bytes).
  pose proof (byte_test b Hb) as T. fold (is_integer b) in T.
  set (X := Z.lor (((b + 70) / 256 + _) mod _) _) in *. set (l0 := Z.land (Z.lor _ _) 128) in *.
  assert (L0 : 0 <= l0) by (apply land_nonneg; lia). assert (L1 : 0 <= Z.land X (rep 128 (length l))) by (apply land_nonneg, rep_nonneg; lia).
  destruct (is_integer b) eqn:D.
  - assert (D' : digit b) by (unfold is_integer in D; unfold digit; lia). unfold digit in D'.
    assert (X = Z.lor ((le_value l + rep 70 (length l)) mod 256 ^ len l) ((le_value l - rep 48 (length l)) mod 256 ^ len l)) as ->.
    { unfold X. rewrite (Z.div_small (b + 70)), (Z.div_small (b - 48)) by lia. reflexivity. }
    fold (digit_test l) in *. rewrite andb_true_l, <- IH. apply Z.eqb_eq in T. rewrite T. destruct (Z.eqb_spec (digit_test l) 0) as [->|N]; [reflexivity|].
    apply Z.eqb_neq. lia.
  - rewrite andb_false_l. apply Z.eqb_neq. apply Z.eqb_neq in T. lia.
Qed.

Lemma eight_test l : length l = 8%nat -> Forall byte l -> is_made_of_eight_digits_fast (le_value l) = forallb is_integer l.
Proof. intros L F. rewrite <- digit_test_ok by exact F. unfold digit_test. rewrite L. reflexivity. Qed.

(** ** Their value *)
Lemma land_select a b : byte a -> byte b -> Z.land a 255 = a /\ Z.land a 0 = 0.
Proof. intros Ha _. split; [now apply byte_ones|apply Z.land_0_r]. Qed.

Lemma swar d0 d1 d2 d3 d4 d5 d6 d7 : 0 <= d0 <= 9 -> 0 <= d1 <= 9 -> 0 <= d2 <= 9 -> 0 <= d3 <= 9 -> 0 <= d4 <= 9 -> 0 <= d5 <= 9 -> 0 <= d6 <= 9 -> 0 <= d7 <= 9 ->
  parse_eight_digits_unrolled (le_value (map (Z.add 48) [d0; d1; d2; d3; d4; d5; d6; d7])) =
  d7 + 10 * (d6 + 10 * (d5 + 10 * (d4 + 10 * (d3 + 10 * (d2 + 10 * (d1 + 10 * d0)))))).
Proof.
  intros. unfold parse_eight_digits_unrolled. cbn [map le_value].
  set (v := u64 (_ - 0x3030303030303030)).
  assert (V : v = d0 + 256 * (d1 + 256 * (d2 + 256 * (d3 + 256 * (d4 + 256 * (d5 + 256 * (d6 + 256 * d7))))))).
  { unfold v, u64. change (2 ^ 64) with 18446744073709551616. rewrite Z.mod_small by lia. lia. }
  clearbody v. subst v.
  set (e0 := 10 * d0 + d1). set (e1 := 10 * d1 + d2). set (e2 := 10 * d2 + d3). set (e3 := 10 * d3 + d4). set (e4 := 10 * d4 + d5).
  set (e5 := 10 * d5 + d6). set (e6 := 10 * d6 + d7). set (e7 := 10 * d7).
  assert (B : byte e0 /\ byte e1 /\ byte e2 /\ byte e3 /\ byte e4 /\ byte e5 /\ byte e6 /\ byte e7) by (unfold byte, e0, e1, e2, e3, e4, e5, e6, e7; lia).
  destruct B as (B0 & B1 & B2 & B3 & B4 & B5 & B6 & B7).
  set (w := u64 (_ + _ / 2 ^ 8)).
  assert (W : w = e0 + 256 * (e1 + 256 * (e2 + 256 * (e3 + 256 * (e4 + 256 * (e5 + 256 * (e6 + 256 * e7))))))).
  { unfold w, u64. change (2 ^ 64) with 18446744073709551616. destruct (byte_split d0 (d1 + 256 * (d2 + 256 * (d3 + 256 * (d4 + 256 * (d5 + 256 * (d6 + 256 * d7)))))) ltac:(unfold byte; lia)) as [_ ->].
    rewrite (Z.mod_small (_ * 10)) by lia. rewrite Z.mod_small by lia. unfold e0, e1, e2, e3, e4, e5, e6, e7. ring. }
  clearbody w. subst w.
  replace 0x000000FF000000FF with (255 + 256 * (0 + 256 * (0 + 256 * (0 + 256 * (255 + 256 * (0 + 256 * (0 + 256 * 0))))))) by reflexivity.
  assert (F : byte 255) by (unfold byte; lia). assert (Zr : byte 0) by (unfold byte; lia).
  replace ((e0 + 256 * (e1 + 256 * (e2 + 256 * (e3 + 256 * (e4 + 256 * (e5 + 256 * (e6 + 256 * e7))))))) / 2 ^ 16)
    with (e2 + 256 * (e3 + 256 * (e4 + 256 * (e5 + 256 * (e6 + 256 * (e7 + 256 * (0 + 256 * 0))))))).
  2:{ apply Z.div_unique with (e0 + 256 * e1); [unfold byte in B0, B1; lia|ring]. }
  rewrite !land_byte by assumption. rewrite !Z.land_0_r.
  rewrite !(fun x H => proj1 (byte_ones x) H) by assumption.
  repeat match goal with |- context [Z.land ?x 255] => replace (Z.land x 255) with x by (symmetry; now apply byte_ones) end.
  change (2 ^ 64) with 18446744073709551616. unfold u64, u32. change (2 ^ 64) with 18446744073709551616. change (2 ^ 32) with 4294967296.
  unfold byte in *. clear F Zr.
  assert (A1 : ((e0 + 256 * (0 + 256 * (0 + 256 * (0 + 256 * (e4 + 256 * (0 + 256 * (0 + 256 * 0))))))) * 0x000F424000000064) mod 18446744073709551616 = 100 * e0 + 4294967296 * (100 * e4 + 1000000 * e0)).
  { symmetry. apply Z.mod_unique with (1000000 * e4); [left|]; lia. }
  assert (A2 : ((e2 + 256 * (0 + 256 * (0 + 256 * (0 + 256 * (e6 + 256 * (0 + 256 * (0 + 256 * 0))))))) * 0x0000271000000001) mod 18446744073709551616 = e2 + 4294967296 * (e6 + 10000 * e2)).
  { symmetry. apply Z.mod_unique with (10000 * e6); [left|]; lia. }
  rewrite A1, A2.
  assert (A3 : (100 * e0 + 4294967296 * (100 * e4 + 1000000 * e0) + (e2 + 4294967296 * (e6 + 10000 * e2))) mod 18446744073709551616 / 4294967296 = 100 * e4 + 1000000 * e0 + e6 + 10000 * e2).
  { rewrite Z.mod_small by lia. symmetry. apply Z.div_unique with (100 * e0 + e2); lia. }
  rewrite A3. rewrite Z.mod_small by (unfold e0, e2, e4, e6; lia). unfold e0, e2, e4, e6. ring.
Qed.

(** ** Byte order *)
Lemma le_bound l : Forall byte l -> 0 <= le_value l < 256 ^ len l.
Proof.
  induction l as [|b l IH]; intro F; [cbn; lia|]. inversion_clear F as [|? ? Hb F']. specialize (IH F'). unfold byte in Hb. cbn [le_value length].
  replace (Z.of_nat (S (length l))) with (len l + 1) by lia. rewrite Z.pow_add_r by lia. change (256 ^ 1) with 256. lia.
Qed.
Ltac byte_ok := first [assumption | unfold byte; lia | (apply land_bytes; byte_ok) | (apply lor_bytes; byte_ok)].
Lemma byteswap_ok b0 b1 b2 b3 b4 b5 b6 b7 : Forall byte [b0; b1; b2; b3; b4; b5; b6; b7] ->
  byteswap (le_value [b7; b6; b5; b4; b3; b2; b1; b0]) = le_value [b0; b1; b2; b3; b4; b5; b6; b7].
Proof.
  intro F. repeat match goal with H : Forall _ (_ :: _) |- _ => inversion_clear H end.
  unfold byteswap. cbn [le_value].
  replace 0xFF00000000000000 with (0 + 256 * (0 + 256 * (0 + 256 * (0 + 256 * (0 + 256 * (0 + 256 * (0 + 256 * (255 + 256 * 0)))))))) by reflexivity.
  replace 0x00FF000000000000 with (0 + 256 * (0 + 256 * (0 + 256 * (0 + 256 * (0 + 256 * (0 + 256 * (255 + 256 * (0 + 256 * 0)))))))) by reflexivity.
  replace 0x0000FF0000000000 with (0 + 256 * (0 + 256 * (0 + 256 * (0 + 256 * (0 + 256 * (255 + 256 * (0 + 256 * (0 + 256 * 0)))))))) by reflexivity.
  replace 0x000000FF00000000 with (0 + 256 * (0 + 256 * (0 + 256 * (0 + 256 * (255 + 256 * (0 + 256 * (0 + 256 * (0 + 256 * 0)))))))) by reflexivity.
  replace 0x00000000FF000000 with (0 + 256 * (0 + 256 * (0 + 256 * (255 + 256 * (0 + 256 * (0 + 256 * (0 + 256 * (0 + 256 * 0)))))))) by reflexivity.
  replace 0x0000000000FF0000 with (0 + 256 * (0 + 256 * (255 + 256 * (0 + 256 * (0 + 256 * (0 + 256 * (0 + 256 * (0 + 256 * 0)))))))) by reflexivity.
  replace 0x000000000000FF00 with (0 + 256 * (255 + 256 * (0 + 256 * (0 + 256 * (0 + 256 * (0 + 256 * (0 + 256 * (0 + 256 * 0)))))))) by reflexivity.
  replace 0x00000000000000FF with (255 + 256 * (0 + 256 * (0 + 256 * (0 + 256 * (0 + 256 * (0 + 256 * (0 + 256 * (0 + 256 * 0)))))))) by reflexivity.
  assert (F255 : byte 255) by (unfold byte; lia). assert (Zr : byte 0) by (unfold byte; lia).
  rewrite !land_byte by assumption. rewrite !Z.land_0_r.
  assert (L : forall b, byte b -> Z.land b 255 = b) by (intros b Hb; now apply byte_ones). rewrite !L by assumption. clear L.
  unfold u64. unfold byte in *. change (0 + 256 * 0) with 0. repeat change (0 + 256 * 0) with 0. rewrite !(Z.mul_0_r 256), !Z.add_0_r.
  replace ((0 + 256 * (0 + 256 * (0 + 256 * (0 + 256 * (0 + 256 * (0 + 256 * (0 + 256 * b0))))))) / 2 ^ 56) with (b0 + 256 * 0) by (apply Z.div_unique with 0; [left|]; lia).
  replace ((0 + 256 * (0 + 256 * (0 + 256 * (0 + 256 * (0 + 256 * (0 + 256 * b1)))))) / 2 ^ 40) with (0 + 256 * (b1 + 256 * 0)) by (apply Z.div_unique with 0; [left|]; lia).
  replace ((0 + 256 * (0 + 256 * (0 + 256 * (0 + 256 * (0 + 256 * b2))))) / 2 ^ 24) with (0 + 256 * (0 + 256 * (b2 + 256 * 0))) by (apply Z.div_unique with 0; [left|]; lia).
  replace ((0 + 256 * (0 + 256 * (0 + 256 * (0 + 256 * b3)))) / 2 ^ 8) with (0 + 256 * (0 + 256 * (0 + 256 * (b3 + 256 * 0)))) by (apply Z.div_unique with 0; [left|]; lia).
  replace (((0 + 256 * (0 + 256 * (0 + 256 * b4))) * 2 ^ 8) mod 2 ^ 64) with (0 + 256 * (0 + 256 * (0 + 256 * (0 + 256 * (b4 + 256 * 0))))) by (change (2 ^ 64) with 18446744073709551616; rewrite Z.mod_small; lia).
  replace (((0 + 256 * (0 + 256 * b5)) * 2 ^ 24) mod 2 ^ 64) with (0 + 256 * (0 + 256 * (0 + 256 * (0 + 256 * (0 + 256 * (b5 + 256 * 0)))))) by (change (2 ^ 64) with 18446744073709551616; rewrite Z.mod_small; lia).
  replace (((0 + 256 * b6) * 2 ^ 40) mod 2 ^ 64) with (0 + 256 * (0 + 256 * (0 + 256 * (0 + 256 * (0 + 256 * (0 + 256 * (b6 + 256 * 0))))))) by (change (2 ^ 64) with 18446744073709551616; rewrite Z.mod_small; lia).
  replace ((b7 * 2 ^ 56) mod 2 ^ 64) with (0 + 256 * (0 + 256 * (0 + 256 * (0 + 256 * (0 + 256 * (0 + 256 * (0 + 256 * (b7 + 256 * 0)))))))) by (change (2 ^ 64) with 18446744073709551616; rewrite Z.mod_small; lia).
  repeat first [rewrite Z.lor_0_r | rewrite Z.lor_0_l | rewrite lor_byte by byte_ok | rewrite (Z.mul_0_r 256) | rewrite Z.add_0_r ].
  reflexivity.
Qed.

Lemma read_u64_ok t l : (8 <= length l)%nat -> Forall byte l -> read_u64 t l = le_value (firstn 8 l).
Proof.
  intros L F. unfold read_u64, load_u64. destruct (big_endian t); [|reflexivity].
  do 8 (destruct l as [|? l]; [cbn in L; lia|]). cbn [firstn rev app].
  apply byteswap_ok. apply (Forall_app byte [z; z0; z1; z2; z3; z4; z5; z6] l) in F. apply F.
Qed.
(** comparing eight bytes with "00000000" does not depend on the byte order *)
Lemma load_zeros t l : (8 <= length l)%nat -> Forall byte l -> (load_u64 t l =? 0x3030303030303030) = forallb (Z.eqb 48) (firstn 8 l).
Proof.
  intros L F. unfold load_u64. do 8 (destruct l as [|? l]; [cbn in L; lia|]). cbn [firstn rev app forallb].
  repeat match goal with H : Forall _ (_ :: _) |- _ => inversion_clear H end. unfold byte in *.
  destruct (big_endian t); cbn [le_value]; lia.
Qed.

(** ** Leading zeros and products *)
Lemma land_high x k n : 0 <= k -> 0 <= n -> 0 <= x < 2 ^ (k + n) -> (Z.land x ((2 ^ n - 1) * 2 ^ k) =? 0) = (x <? 2 ^ k).
Proof.
  intros Hk Hn Hx. pose proof (Z.div_mod x (2 ^ k) ltac:(pose proof (Z.pow_pos_nonneg 2 k); lia)) as E.
  assert (P : 0 < 2 ^ k) by (apply Z.pow_pos_nonneg; lia). pose proof (Z.mod_pos_bound x (2 ^ k) P) as M.
  assert (D : 0 <= x / 2 ^ k < 2 ^ n). { split; [apply Z.div_pos; lia|]. apply Z.div_lt_upper_bound; [lia|]. rewrite <- Z.pow_add_r by lia. lia. }
  assert (Z.land x ((2 ^ n - 1) * 2 ^ k) = x / 2 ^ k * 2 ^ k) as ->.
  { rewrite <- !Z.shiftl_mul_pow2, <- Z.shiftr_div_pow2 by lia. replace (2 ^ n - 1) with (Z.ones n) by (rewrite Z.ones_equiv; lia).
    apply Z.bits_inj'. intros i Hi. rewrite Z.land_spec, !Z.shiftl_spec by lia. destruct (Z.ltb_spec i k).
    - rewrite !(Z.testbit_neg_r _ (i - k)) by lia. apply andb_false_r.
    - rewrite Z.shiftr_spec by lia. replace (i - k + k) with i by lia. rewrite Z.testbit_ones_nonneg by lia. destruct (Z.ltb_spec (i - k) n); [now rewrite andb_true_r|].
      rewrite andb_false_r. symmetry. rewrite <- (Z.mod_small x (2 ^ (k + n))) by lia. apply Z.mod_pow2_bits_high. lia. }
  destruct (Z.ltb_spec x (2 ^ k)).
  - rewrite Z.div_small by lia. reflexivity.
  - assert (1 <= x / 2 ^ k) by (apply Z.div_le_lower_bound; lia). apply Z.eqb_neq. nia.
Qed.
Lemma clz_step_ok mask s x b : 0 < s -> mask = (2 ^ s - 1) * 2 ^ s -> 0 < x < 2 ^ (2 * s) -> Z.land b (2 * s - 1) = 0 -> 0 <= b -> Z.land b s = 0 ->
  exists x' b', clz_step mask s (x, b) = (x', b') /\ 0 < x' < 2 ^ s /\ b' + Z.log2 x' = b + Z.log2 x /\ (b' = b \/ b' = b + s).
Proof.
  intros Hs -> Hx _ Hb Hbs. unfold clz_step. rewrite (land_high x s s) by (try lia; replace (s + s) with (2 * s) by lia; lia).
  assert (P : 0 < 2 ^ s) by (apply Z.pow_pos_nonneg; lia). assert (E : 2 ^ (2 * s) = 2 ^ s * 2 ^ s) by (rewrite <- Z.pow_add_r by lia; f_equal; lia).
  destruct (Z.ltb_spec x (2 ^ s)).
  - exists x, b. repeat split; try lia; auto.
  - exists (x / 2 ^ s), (Z.lor b s). assert (D : 1 <= x / 2 ^ s) by (apply Z.div_le_lower_bound; lia).
    assert (D2 : x / 2 ^ s < 2 ^ s) by (apply Z.div_lt_upper_bound; lia).
    assert (L : Z.lor b s = b + s) by (rewrite Z.add_nocarry_lxor by assumption; symmetry; apply Z.bits_inj'; intros i Hi; rewrite Z.lxor_spec, Z.lor_spec; assert (Q : Z.testbit (Z.land b s) i = false) by (rewrite Hbs; apply Z.bits_0); rewrite Z.land_spec in Q; destruct (Z.testbit b i), (Z.testbit s i); cbn in *; congruence).
    split; [reflexivity|]. split; [lia|]. split; [|auto]. rewrite L.
    assert (Z.log2 (x / 2 ^ s) = Z.log2 x - s); [|lia]. rewrite <- Z.shiftr_div_pow2 by lia. rewrite Z.log2_shiftr by lia. apply Z.max_r.
    assert (s <= Z.log2 x); [|lia]. apply Z.log2_le_pow2; lia.
Qed.
Lemma leading_zeroes_ok t x : 0 < x < 2 ^ 64 -> leading_zeroes t x = Ok (63 - Z.log2 x).
Proof.
  intro H. unfold leading_zeroes, ff_assert. replace (0 <? x) with true by lia. destruct (visual_studio t); [|reflexivity].
  destruct (clz_step_ok 0xffffffff00000000 32 x 0 ltac:(lia) eq_refl ltac:(exact H) eq_refl ltac:(lia) eq_refl) as (x1 & b1 & -> & H1 & E1 & C1).
  assert (K1 : b1 = 0 \/ b1 = 32) by lia. clear C1.
  destruct (clz_step_ok 0xffff0000 16 x1 b1 ltac:(lia) eq_refl ltac:(exact H1) ltac:(destruct K1 as [->| ->]; reflexivity) ltac:(lia) ltac:(destruct K1 as [->| ->]; reflexivity)) as (x2 & b2 & -> & H2 & E2 & C2).
  assert (K2 : b2 = 0 \/ b2 = 16 \/ b2 = 32 \/ b2 = 48) by lia. clear C2 K1.
  destruct (clz_step_ok 0xff00 8 x2 b2 ltac:(lia) eq_refl ltac:(exact H2) ltac:(destruct K2 as [->|[->|[->| ->]]]; reflexivity) ltac:(lia) ltac:(destruct K2 as [->|[->|[->| ->]]]; reflexivity)) as (x3 & b3 & -> & H3 & E3 & C3).
  assert (K3 : exists k, b3 = 8 * k /\ 0 <= k < 8) by (destruct K2 as [->|[->|[->| ->]]]; (destruct C3 as [C3|C3]; eexists (b3 / 8); rewrite C3; cbv; repeat split; discriminate)). clear C3 K2.
  destruct K3 as (k3 & -> & K3).
  assert (P3 : Z.land (8 * k3) 7 = 0 /\ Z.land (8 * k3) 4 = 0).
  { assert (Q : k3 = 0 \/ k3 = 1 \/ k3 = 2 \/ k3 = 3 \/ k3 = 4 \/ k3 = 5 \/ k3 = 6 \/ k3 = 7) by lia. repeat (destruct Q as [->|Q]; [split; reflexivity|]). subst. split; reflexivity. }
  destruct (clz_step_ok 0xf0 4 x3 (8 * k3) ltac:(lia) eq_refl ltac:(exact H3) ltac:(apply P3) ltac:(lia) ltac:(apply P3)) as (x4 & b4 & -> & H4 & E4 & C4).
  assert (K4 : exists k, b4 = 4 * k /\ 0 <= k < 16) by (destruct C4; [exists (2 * k3)|exists (2 * k3 + 1)]; lia). clear C4 P3 K3. destruct K4 as (k4 & -> & K4).
  assert (P4 : Z.land (4 * k4) 3 = 0 /\ Z.land (4 * k4) 2 = 0).
  { split; [change 3 with (2 ^ 2 - 1); rewrite land_mask by lia; rewrite Z.mul_comm; apply Z.mod_mul; lia|].
    apply Z.bits_inj'. intros i Hi. rewrite Z.bits_0, Z.land_spec. change (4 * k4) with (2 ^ 2 * k4). rewrite Z.mul_comm, Z.mul_pow2_bits by lia. change 2 with (2 ^ 1) at 2. rewrite Z.pow2_bits_eqb by lia.
    destruct (Z.eqb_spec 1 i); [subst; rewrite Z.testbit_neg_r by lia; reflexivity|apply andb_false_r]. }
  destruct (clz_step_ok 0xc 2 x4 (4 * k4) ltac:(lia) eq_refl ltac:(exact H4) ltac:(apply P4) ltac:(lia) ltac:(apply P4)) as (x5 & b5 & -> & H5 & E5 & C5).
  assert (K5 : exists k, b5 = 2 * k /\ 0 <= k < 32) by (destruct C5; [exists (2 * k4)|exists (2 * k4 + 1)]; lia). clear C5 P4 K4. destruct K5 as (k5 & -> & K5).
  assert (P5 : Z.land (2 * k5) 1 = 0).
  { change 1 with (2 ^ 1 - 1). rewrite land_mask by lia. rewrite Z.mul_comm. apply Z.mod_mul; lia. }
  destruct (clz_step_ok 0x2 1 x5 (2 * k5) ltac:(lia) eq_refl ltac:(exact H5) ltac:(exact P5) ltac:(lia) ltac:(exact P5)) as (x6 & b6 & -> & H6 & E6 & C6).
  cbn [snd]. assert (x6 = 1) by lia. subst x6. change (Z.log2 1) with 0 in E6. do 2 f_equal. lia.
Qed.

Lemma full_multiplication_ok t a b : 0 <= a < 2 ^ 64 -> 0 <= b < 2 ^ 64 -> full_multiplication t a b = ((a * b) mod 2 ^ 64, a * b / 2 ^ 64).
Proof.
  intros Ha Hb. unfold full_multiplication. destruct (is_64bit t); [reflexivity|]. unfold umul128, emulu, u32, u64.
  change (2 ^ 64) with (2 ^ 32 * 2 ^ 32) in *. set (B := 2 ^ 32) in *. assert (HB : B = 4294967296) by reflexivity.
  pose proof (Z.div_mod a B ltac:(lia)) as Ea. pose proof (Z.mod_pos_bound a B ltac:(lia)) as Ra.
  pose proof (Z.div_mod b B ltac:(lia)) as Eb. pose proof (Z.mod_pos_bound b B ltac:(lia)) as Rb.
  assert (Da : 0 <= a / B < B) by (split; [apply Z.div_pos; lia|apply Z.div_lt_upper_bound; lia]).
  assert (Db : 0 <= b / B < B) by (split; [apply Z.div_pos; lia|apply Z.div_lt_upper_bound; lia]).
  rewrite (Z.mod_small (a / B)), (Z.mod_small (b / B)) by lia.
  set (a1 := a / B) in *. set (a0 := a mod B) in *. set (b1 := b / B) in *. set (b0 := b mod B) in *. clearbody a1 a0 b1 b0. subst a b. clear Ha Hb.
  set (ad := a1 * b0). set (bc := a0 * b1). set (bd := a0 * b0). set (ac := a1 * b1).
  assert (Rad : 0 <= ad <= (B - 1) * (B - 1)) by (unfold ad; nia). assert (Rbc : 0 <= bc <= (B - 1) * (B - 1)) by (unfold bc; nia).
  assert (Rbd : 0 <= bd <= (B - 1) * (B - 1)) by (unfold bd; nia). assert (Rac : 0 <= ac <= (B - 1) * (B - 1)) by (unfold ac; nia).
  replace ((B * a1 + a0) * (B * b1 + b0)) with (B * B * ac + B * (ad + bc) + bd) by (unfold ac, ad, bc, bd; ring).
  clearbody ad bc bd ac. clear Ra Rb Da Db a1 a0 b1 b0.
  rewrite (Z.mod_small ad), (Z.mod_small bc), (Z.mod_small ac), ?(Z.mod_small bd) by lia.
  (* adbc *)
  set (c := if B * B <=? ad + bc then 1 else 0). set (adbc := (ad + bc) mod (B * B)).
  assert (Es : ad + bc = B * B * c + adbc /\ 0 <= adbc < B * B /\ (adbc <? ad) = (B * B <=? ad + bc) /\ 0 <= c <= 1).
  { unfold adbc, c. destruct (Z.leb_spec (B * B) (ad + bc)).
    - assert ((ad + bc) mod (B * B) = ad + bc - B * B) as -> by (symmetry; apply Z.mod_unique with 1; lia). repeat split; try lia.
    - rewrite Z.mod_small by lia. repeat split; try lia. }
  destruct Es as (Es & Ra & Ec & Rc). rewrite Ec. replace (b2z (B * B <=? ad + bc)) with c by (unfold c; destruct (B * B <=? ad + bc); reflexivity). clearbody c adbc. clear Ec.
  pose proof (Z.div_mod adbc B ltac:(lia)) as E1. pose proof (Z.mod_pos_bound adbc B ltac:(lia)) as R1.
  assert (D1 : 0 <= adbc / B < B) by (split; [apply Z.div_pos; lia|apply Z.div_lt_upper_bound; lia]).
  set (h := adbc / B) in *. set (l := adbc mod B) in *. clearbody h l.
  assert (El : (adbc * B) mod (B * B) = l * B) by (symmetry; apply Z.mod_unique with h; [left; nia|nia]). rewrite El.
  set (d := if B * B <=? bd + l * B then 1 else 0). set (lo := (bd + l * B) mod (B * B)).
  assert (Eo : bd + l * B = B * B * d + lo /\ 0 <= lo < B * B /\ (lo <? bd) = (B * B <=? bd + l * B) /\ 0 <= d <= 1).
  { unfold lo, d. destruct (Z.leb_spec (B * B) (bd + l * B)).
    - assert ((bd + l * B) mod (B * B) = bd + l * B - B * B) as -> by (symmetry; apply Z.mod_unique with 1; nia). repeat split; try lia; nia.
    - rewrite Z.mod_small by nia. repeat split; try lia; nia. }
  destruct Eo as (Eo & Ro & Eq & Rd). rewrite Eq. replace (b2z (B * B <=? bd + l * B)) with d by (unfold d; destruct (B * B <=? bd + l * B); reflexivity). clearbody d lo. clear Eq.
  assert (Ef : B * B * ac + B * (ad + bc) + bd = B * B * (ac + h + c * B + d) + lo) by nia.
  assert (U : ac + h + c * B + d < B * B) by nia.
  f_equal.
  - apply Z.mod_unique with (ac + h + c * B + d); [left; lia|exact Ef].
  - rewrite (Z.mod_small (c * B)) by nia. rewrite Z.mod_small by nia. apply Z.div_unique with lo; [left; lia|exact Ef].
Qed.
