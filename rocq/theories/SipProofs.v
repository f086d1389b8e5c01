(** Proofs for src/hash.cc. *)
From Coq Require Import ZArith List Bool Lia.
From Verif Require Import Mem SipModel SipSpec.
Import ListNotations.
Open Scope Z_scope.

Definition word (x : Z) : Prop := 0 <= x < 2 ^ 64.

Lemma lor_low : forall a b k, 0 <= k -> 0 <= a < 2 ^ k -> Z.lor a (b * 2 ^ k) = a + b * 2 ^ k.
Proof.
  intros a b k Hk Ha.
  assert (L : Z.land a (b * 2 ^ k) = 0).
  { apply Z.bits_inj'. intros n Hn. rewrite Z.land_spec, Z.bits_0.
    rewrite <- Z.shiftl_mul_pow2 by lia.
    destruct (Z.ltb_spec n k).
    - rewrite (Z.shiftl_spec_low b k n) by lia. apply andb_false_r.
    - assert (E : a = a mod 2 ^ k) by (rewrite Z.mod_small; lia).
      rewrite E, Z.mod_pow2_bits_high by lia. reflexivity. }
  rewrite Z.add_nocarry_lxor by exact L.
  now rewrite Z.lxor_lor.
Qed.

Lemma word_lxor : forall a b, word a -> word b -> word (Z.lxor a b).
Proof.
  unfold word. intros a b Ha Hb. split.
  - apply Z.lxor_nonneg. lia.
  - destruct (Z.eq_dec (Z.lxor a b) 0) as [E|E]; [rewrite E; lia|].
    apply Z.log2_lt_pow2.
    + assert (0 <= Z.lxor a b) by (apply Z.lxor_nonneg; lia). lia.
    + eapply Z.le_lt_trans; [apply Z.log2_lxor; lia|].
      apply Z.max_lub_lt; [destruct (Z.eq_dec a 0)|destruct (Z.eq_dec b 0)]; subst;
        try (cbn; lia); apply Z.log2_lt_pow2; lia.
Qed.

Lemma word_mod : forall a, word (a mod 2 ^ 64).
Proof. intro. apply Z.mod_pos_bound. lia. Qed.

Lemma rotl_rot : forall x b, word x -> 0 < b < 64 -> rotl x b = rot x b /\ word (rot x b).
Proof.
  unfold word, rotl, rot, w64s. intros x b Hx Hb.
  rewrite Z.shiftl_mul_pow2, Z.shiftr_div_pow2 by lia.
  replace (2 ^ 64) with (2 ^ b * 2 ^ (64 - b)) in * by (rewrite <- Z.pow_add_r; [f_equal|..]; lia).
  assert (0 < 2 ^ b) by (apply Z.pow_pos_nonneg; lia).
  assert (0 < 2 ^ (64 - b)) by (apply Z.pow_pos_nonneg; lia).
  assert (Hq : 0 <= x / 2 ^ (64 - b) < 2 ^ b).
  { split; [apply Z.div_pos; lia|]. apply Z.div_lt_upper_bound; lia. }
  rewrite (Z.mul_comm x), Zmult_mod_distr_l.
  pose proof (Z.mod_pos_bound x (2 ^ (64 - b)) ltac:(lia)).
  rewrite (Z.mul_comm (2 ^ b) (x mod _)), Z.lor_comm, lor_low by lia.
  split; [lia|nia].
Qed.

(** The model state and the specification state agree, and all are words. *)
Definition agree (s : st4) (t : word4) : Prop :=
  let '(a, b, c, d) := t in
  s = St4 a b c d /\ word a /\ word b /\ word c /\ word d.

Lemma agree_round : forall s t, agree s t -> agree (sipround s) (sip_round t).
Proof.
  intros s [[[a b] c] d] (-> & Ha & Hb & Hc & Hd). unfold sipround, sip_round, w64s, add64.
  set (a1 := (a + b) mod _). set (c1 := (c + d) mod _).
  assert (word a1) by apply word_mod. assert (word c1) by apply word_mod.
  destruct (rotl_rot b 13) as [-> ?]; [assumption|lia|].
  destruct (rotl_rot d 16) as [-> ?]; [assumption|lia|].
  set (b1 := Z.lxor (rot b 13) a1). set (d1 := Z.lxor (rot d 16) c1).
  assert (word b1) by (apply word_lxor; assumption).
  assert (word d1) by (apply word_lxor; assumption).
  destruct (rotl_rot a1 32) as [-> ?]; [assumption|lia|].
  destruct (rotl_rot b1 17) as [-> ?]; [assumption|lia|].
  destruct (rotl_rot d1 21) as [-> ?]; [assumption|lia|].
  set (c2 := (c1 + b1) mod _). set (a3 := (rot a1 32 + d1) mod _).
  assert (word c2) by apply word_mod. assert (word a3) by apply word_mod.
  destruct (rotl_rot c2 32) as [-> ?]; [assumption|lia|].
  unfold agree. split; [reflexivity|]. repeat split; try apply word_lxor; try assumption;
    match goal with |- _ <= _ => idtac | _ => idtac end; unfold word in *; try lia.
Qed.

Lemma agree_rounds2 : forall s t, agree s t -> agree (rounds 2 s) (sip_round (sip_round t)).
Proof. intros. cbn [rounds Nat.iter nat_rect]. now do 2 apply agree_round. Qed.
Lemma agree_rounds4 : forall s t, agree s t -> agree (rounds 4 s) (four t).
Proof. intros. unfold four. cbn [rounds Nat.iter nat_rect]. now do 4 apply agree_round. Qed.

(** ** Bytes *)
Lemma le_bound : forall l, is_bytes l -> 0 <= le l < 2 ^ (8 * Z.of_nat (length l)).
Proof.
  induction l as [|b l IH]; intro H; [cbn; lia|]. inversion H; subst.
  specialize (IH H3). cbn [le length].
  replace (8 * Z.of_nat (S (length l))) with (8 + 8 * Z.of_nat (length l)) by lia.
  rewrite Z.pow_add_r by lia. change (2 ^ 8) with 256. nia.
Qed.

Lemma le_app : forall l1 l2, le (l1 ++ l2) = le l1 + 2 ^ (8 * Z.of_nat (length l1)) * le l2.
Proof.
  induction l1 as [|b l IH]; intro l2; [cbn [le app length]; change (2 ^ (8 * Z.of_nat 0)) with 1; lia|].
  cbn [le app length]. rewrite IH.
  replace (8 * Z.of_nat (S (length l))) with (8 + 8 * Z.of_nat (length l)) by lia.
  rewrite Z.pow_add_r by lia. change (2 ^ 8) with 256. lia.
Qed.

Lemma rdb_ok : forall a off i, 0 <= off -> 0 <= i -> off + i < Z.of_nat (length a) ->
  rdb a off i = Ok (nth (Z.to_nat i) (skipn (Z.to_nat off) a) 0).
Proof.
  intros. unfold rdb.
  destruct (Z.leb_spec 0 (off + i)); [|lia]. destruct (Z.ltb_spec (off + i) (Z.of_nat (length a))); [|lia].
  cbn [andb]. f_equal. rewrite Z2Nat.inj_add by lia.
  rewrite <- (firstn_skipn (Z.to_nat off) a) at 1.
  rewrite app_nth2 by (rewrite firstn_length_le; lia). rewrite firstn_length_le by lia. f_equal. lia.
Qed.

Lemma is_bytes_skipn : forall n l, is_bytes l -> is_bytes (skipn n l).
Proof.
  induction n; intros [|b l] H; try assumption. inversion H; subst. cbn. now apply IHn.
Qed.
Lemma is_bytes_firstn : forall n l, is_bytes l -> is_bytes (firstn n l).
Proof.
  induction n; intros [|b l] H; cbn [firstn]; try (now constructor); inversion H; subst; constructor; [assumption|]. now apply IHn.
Qed.

Lemma u8to64_ok : forall a off, is_bytes a -> 0 <= off -> off + 8 <= Z.of_nat (length a) ->
  u8to64_le a off = Ok (le (firstn 8 (skipn (Z.to_nat off) a))).
Proof.
  intros a off Hb Ho Hl. unfold u8to64_le.
  rewrite !rdb_ok by lia. cbn [bind].
  pose proof (is_bytes_skipn (Z.to_nat off) a Hb) as Hs.
  assert (Ls : (8 <= length (skipn (Z.to_nat off) a))%nat) by (rewrite skipn_length; lia).
  remember (skipn (Z.to_nat off) a) as l eqn:El. clear El.
  do 8 (destruct l as [|? l]; [cbn [length] in Ls; lia|]).
  change (Z.to_nat 0) with 0%nat. change (Z.to_nat 1) with 1%nat. change (Z.to_nat 2) with 2%nat.
  change (Z.to_nat 3) with 3%nat. change (Z.to_nat 4) with 4%nat. change (Z.to_nat 5) with 5%nat.
  change (Z.to_nat 6) with 6%nat. change (Z.to_nat 7) with 7%nat. cbn [nth firstn].
  f_equal.
  repeat match goal with H : is_bytes (_ :: _) |- _ => inversion H; subst; clear H
    | H : Forall _ (_ :: _) |- _ => inversion H; subst; clear H end.
  rewrite !Z.shiftl_mul_pow2 by lia.
  rewrite (lor_low z z0 8) by lia.
  rewrite (lor_low _ z1 16) by lia.
  rewrite (lor_low _ z2 24) by lia.
  rewrite (lor_low _ z3 32) by lia.
  rewrite (lor_low _ z4 40) by lia.
  rewrite (lor_low _ z5 48) by lia.
  rewrite (lor_low _ z6 56) by lia.
  cbn [le]. lia.
Qed.

(** ** The block loop *)
Definition blocks (s : word4) (ms : list Z) := fold_left compress ms s.

(** the full 8-byte words of a message *)
Fixpoint full_words (n : nat) (l : list Z) : list Z :=
  match n with O => [] | S k => le (firstn 8 l) :: full_words k (skipn 8 l) end.

Lemma words_split : forall n fuel len l, (n < fuel)%nat -> length l = (8 * n + length (skipn (8 * n) l))%nat ->
  (length (skipn (8 * n) l) < 8)%nat ->
  words fuel len l = full_words n l ++ [le (skipn (8 * n) l) + (len mod 256) * 2 ^ 56].
Proof.
  induction n; intros fuel len l Hf Hl Hr; (destruct fuel as [|fuel]; [lia|]).
  - cbn [Nat.mul skipn] in *. cbn [words full_words app].
    destruct (Nat.ltb_spec (length l) 8); [reflexivity|lia].
  - cbn [words full_words app]. destruct (Nat.ltb_spec (length l) 8); [lia|].
    assert (E : skipn (8 * S n) l = skipn (8 * n) (skipn 8 l)).
    { replace (8 * S n)%nat with (8 + 8 * n)%nat by lia.
      clear. do 8 (destruct l as [|? l]; [cbn [skipn]; now rewrite ?skipn_nil|]). reflexivity. }
    rewrite E in *. f_equal. apply IHn; [lia| |assumption]. rewrite skipn_length. lia.
Qed.

Lemma agree_compress : forall s t m, agree s t -> word m -> agree (absorb m s) (compress t m).
Proof.
  intros s [[[a b] c] d] m (-> & Ha & Hb & Hc & Hd) Hm.
  unfold absorb, compress.
  assert (A : agree (xor3 m (St4 a b c d)) (a, b, c, Z.lxor d m)).
  { split; [reflexivity|]. repeat split; try apply word_lxor; try assumption; unfold word in *; lia. }
  apply agree_rounds2 in A.
  destruct (sip_round (sip_round (a, b, c, Z.lxor d m))) as [[[a' b'] c'] d'].
  destruct A as (-> & ? & ? & ? & ?).
  split; [reflexivity|]. split; [now apply word_lxor|]. auto.
Qed.

Lemma agree_xor1 : forall s a b c d m, agree s (a, b, c, d) -> word m -> agree (xor1 m s) (a, Z.lxor b m, c, d).
Proof. intros s a b c d m (-> & ? & ? & ? & ?) ?. split; [reflexivity|]. split; [assumption|]. split; [now apply word_lxor|]. auto. Qed.
Lemma agree_xor2 : forall s a b c d m, agree s (a, b, c, d) -> word m -> agree (xor2 m s) (a, b, Z.lxor c m, d).
Proof. intros s a b c d m (-> & ? & ? & ? & ?) ?. split; [reflexivity|]. split; [assumption|]. split; [assumption|]. split; [now apply word_lxor|auto]. Qed.

Lemma agree_fold4 : forall s t, agree s t -> fold4 s = final_xor t /\ 0 <= final_xor t.
Proof.
  intros s [[[a b] c] d] (-> & Ha & Hb & Hc & Hd). unfold fold4, final_xor. cbn [v0 v1 v2 v3].
  rewrite !Z.lxor_assoc. split; [reflexivity|].
  assert (word (Z.lxor a (Z.lxor b (Z.lxor c d)))) by (repeat apply word_lxor; assumption).
  unfold word in *. lia.
Qed.

Lemma block_loop_ok : forall n fuel a off s t, is_bytes a -> (n <= fuel)%nat -> 0 <= off ->
  off + 8 * Z.of_nat n <= Z.of_nat (length a) -> agree s t ->
  exists s', block_loop fuel a off (off + 8 * Z.of_nat n) s = Ok (off + 8 * Z.of_nat n, s') /\
    agree s' (blocks t (full_words n (skipn (Z.to_nat off) a))).
Proof.
  induction n; intros fuel a off s t Hb Hf Ho Hl A.
  - replace (off + 8 * Z.of_nat 0) with off by lia.
    exists s. split; [|exact A]. destruct fuel; cbn [block_loop]; now rewrite Z.eqb_refl.
  - destruct fuel as [|fuel]; [lia|]. cbn [block_loop].
    destruct (Z.eqb_spec off (off + 8 * Z.of_nat (S n))); [lia|].
    rewrite u8to64_ok by (assumption || lia). cbn [bind].
    assert (Hm : word (le (firstn 8 (skipn (Z.to_nat off) a)))).
    { pose proof (le_bound (firstn 8 (skipn (Z.to_nat off) a)) (is_bytes_firstn _ _ (is_bytes_skipn _ _ Hb))).
      rewrite firstn_length_le in H by (rewrite skipn_length; lia). exact H. }
    pose proof (agree_compress s t _ A Hm) as A'.
    destruct (IHn fuel a (off + 8) _ _ Hb ltac:(lia) ltac:(lia) ltac:(lia) A') as (s' & E & AA).
    replace (off + 8 * Z.of_nat (S n)) with (off + 8 + 8 * Z.of_nat n) by lia.
    exists s'. split; [exact E|]. cbn [full_words blocks fold_left].
    replace (skipn 8 (skipn (Z.to_nat off) a)) with (skipn (Z.to_nat (off + 8)) a); [exact AA|].
    rewrite Z2Nat.inj_add by lia. change (Z.to_nat 8) with 8%nat. clear.
    generalize (Z.to_nat off) as k. induction a; intro k; [now rewrite !skipn_nil|].
    destruct k; [reflexivity|]. cbn [Nat.add skipn]. apply IHa.
Qed.

(** ** The tail *)
Lemma tail_ok : forall n a off b, is_bytes a -> 0 <= off -> off + Z.of_nat n <= Z.of_nat (length a) ->
  (n <= 7)%nat -> 0 <= b ->
  tail_switch n a off (b * 2 ^ (8 * Z.of_nat n)) =
  Ok (le (firstn n (skipn (Z.to_nat off) a)) + b * 2 ^ (8 * Z.of_nat n)).
Proof.
  induction n; intros a off b Ha Ho Hl Hn Hb.
  - cbn [tail_switch firstn le]. f_equal.
  - cbn [tail_switch]. rewrite rdb_ok by lia. cbn [bind]. rewrite Nat2Z.id.
    rewrite Z.shiftl_mul_pow2 by lia.
    set (l := skipn (Z.to_nat off) a).
    assert (Hsl : is_bytes l) by now apply is_bytes_skipn.
    assert (Ll : (n < length l)%nat) by (unfold l; rewrite skipn_length; lia).
    assert (Hx : 0 <= nth n l 0 < 256).
    { apply (proj1 (Forall_forall _ _) Hsl). now apply nth_In. }
    replace (Z.lor (b * 2 ^ (8 * Z.of_nat (S n))) (nth n l 0 * 2 ^ (8 * Z.of_nat n)))
      with ((nth n l 0 + b * 256) * 2 ^ (8 * Z.of_nat n)).
    2:{ replace (8 * Z.of_nat (S n)) with (8 + 8 * Z.of_nat n) by lia.
        rewrite Z.pow_add_r by lia. change (2 ^ 8) with 256.
        rewrite Z.mul_assoc.
        rewrite <- !(Z.shiftl_mul_pow2 _ (8 * Z.of_nat n)) by lia.
        rewrite <- Z.shiftl_lor. f_equal. rewrite Z.lor_comm.
        change 256 with (2 ^ 8). rewrite lor_low by (change (2 ^ 8) with 256; lia). reflexivity. }
    rewrite IHn by (assumption || lia). f_equal. fold l.
    assert (E : firstn (S n) l = firstn n l ++ [nth n l 0]).
    { clear -Ll. revert n Ll. induction l; intros n Ll; [cbn in Ll; lia|].
      destruct n; [reflexivity|]. cbn [firstn nth app]. rewrite <- IHl; [reflexivity|cbn [length] in Ll; lia]. }
    rewrite E, le_app. rewrite firstn_length_le by lia. cbn [le].
    replace (8 * Z.of_nat (S n)) with (8 + 8 * Z.of_nat n) by lia.
    rewrite Z.pow_add_r by lia. change (2 ^ 8) with 256. lia.
Qed.

Lemma tail_full : forall a off len, is_bytes a -> 0 <= off -> off + 8 > Z.of_nat (length a) ->
  off <= Z.of_nat (length a) -> 0 <= len ->
  tail_switch (Z.to_nat (Z.of_nat (length a) - off)) a off (w64s (Z.shiftl len 56)) =
  Ok (le (skipn (Z.to_nat off) a) + (len mod 256) * 2 ^ 56).
Proof.
  intros a off len Ha Ho H1 H2 Hlen.
  set (n := Z.to_nat (Z.of_nat (length a) - off)).
  assert (Hn : (n <= 7)%nat) by lia.
  assert (E : w64s (Z.shiftl len 56) = (len mod 256 * 2 ^ (8 * (7 - Z.of_nat n))) * 2 ^ (8 * Z.of_nat n)).
  { unfold w64s. rewrite Z.shiftl_mul_pow2 by lia.
    rewrite <- Z.mul_assoc, <- Z.pow_add_r by lia.
    replace (8 * (7 - Z.of_nat n) + 8 * Z.of_nat n) with 56 by lia.
    change (2 ^ 64) with (256 * 2 ^ 56). now rewrite Zmult_mod_distr_r. }
  rewrite E. rewrite tail_ok; try assumption; try lia.
  - f_equal. rewrite <- E. rewrite firstn_all2 by (rewrite skipn_length; lia).
    f_equal. unfold w64s. rewrite Z.shiftl_mul_pow2 by lia.
    change (2 ^ 64) with (256 * 2 ^ 56). now rewrite Zmult_mod_distr_r.
  - apply Z.mul_nonneg_nonneg; [apply Z.mod_pos_bound; lia|apply Z.pow_nonneg; lia].
Qed.

(** ** Output *)
Lemma set_nth_app : forall {A} (p : list A) i (x y : A) q, i = length p ->
  set_nth (p ++ y :: q) i x = p ++ x :: q.
Proof. induction p; intros i x y q ->; cbn; [reflexivity|f_equal; now apply IHp]. Qed.

Lemma wrb_app : forall p y q off i v, 0 <= off + i -> off + i = Z.of_nat (length p) ->
  wrb (p ++ y :: q) off i v = Ok (p ++ v mod 256 :: q).
Proof.
  intros. unfold wrb. rewrite app_length. cbn [length].
  destruct (Z.leb_spec 0 (off + i)); [|lia].
  destruct (Z.ltb_spec (off + i) (Z.of_nat (length p + S (length q)))); [|lia].
  cbn [andb]. f_equal. apply set_nth_app. lia.
Qed.

Lemma u32to8_app : forall p a b c d q off v, off = Z.of_nat (length p) ->
  u32to8_le (p ++ a :: b :: c :: d :: q) off v =
  Ok (p ++ [v mod 256; Z.shiftr v 8 mod 256; Z.shiftr v 16 mod 256; Z.shiftr v 24 mod 256] ++ q).
Proof.
  intros p a b c d q off v ->. unfold u32to8_le.
  rewrite wrb_app by lia. cbn [bind].
  change (p ++ v mod 256 :: b :: c :: d :: q) with (p ++ [v mod 256] ++ b :: c :: d :: q).
  rewrite app_assoc, wrb_app by (rewrite ?app_length; cbn [length]; lia). cbn [bind].
  rewrite <- app_assoc. cbn [app].
  change (p ++ v mod 256 :: Z.shiftr v 8 mod 256 :: c :: d :: q)
    with (p ++ [v mod 256; Z.shiftr v 8 mod 256] ++ c :: d :: q).
  rewrite app_assoc, wrb_app by (rewrite ?app_length; cbn [length]; lia). cbn [bind].
  rewrite <- app_assoc. cbn [app].
  change (p ++ v mod 256 :: Z.shiftr v 8 mod 256 :: Z.shiftr v 16 mod 256 :: d :: q)
    with (p ++ [v mod 256; Z.shiftr v 8 mod 256; Z.shiftr v 16 mod 256] ++ d :: q).
  rewrite app_assoc, wrb_app by (rewrite ?app_length; cbn [length]; lia).
  now rewrite <- app_assoc.
Qed.

Lemma u64to8_app : forall p o q off v, off = Z.of_nat (length p) -> length o = 8%nat -> 0 <= v ->
  u64to8_le (p ++ o ++ q) off v = Ok (p ++ to_le 8 v ++ q).
Proof.
  intros p o q off v -> Ho Hv.
  do 8 (destruct o as [|? o]; [discriminate|]). destruct o; [|discriminate]. clear Ho.
  unfold u64to8_le. cbn [app]. rewrite u32to8_app by reflexivity. cbn [bind app].
  match goal with |- u32to8_le (p ++ ?b0 :: ?b1 :: ?b2 :: ?b3 :: ?t) _ _ = _ =>
    change (p ++ b0 :: b1 :: b2 :: b3 :: t) with (p ++ [b0; b1; b2; b3] ++ t) end.
  rewrite app_assoc, u32to8_app by (rewrite app_length; cbn [length]; lia).
  rewrite <- app_assoc. cbn [app to_le]. 
  rewrite !Z.shiftr_div_pow2 by lia.
  assert (M : forall j, 0 <= j <= 24 -> (v mod 2 ^ 32 / 2 ^ j) mod 256 = (v / 2 ^ j) mod 256).
  { intros j Hj. change 256 with (2 ^ 8).
    replace (2 ^ 32) with (2 ^ j * 2 ^ (32 - j)) by (rewrite <- Z.pow_add_r by lia; f_equal; lia).
    rewrite Z.rem_mul_r by (try apply Z.pow_nonzero; try apply Z.pow_pos_nonneg; lia).
    rewrite Z.mul_comm, Z.div_add, (Z.div_small (v mod 2 ^ j)) by
      (try apply Z.pow_nonzero; try apply Z.mod_pos_bound; try apply Z.pow_pos_nonneg; lia).
    rewrite Z.add_0_l.
    replace (2 ^ (32 - j)) with (2 ^ 8 * 2 ^ (24 - j)) by (rewrite <- Z.pow_add_r by lia; f_equal; lia).
    rewrite Z.rem_mul_r by (try apply Z.pow_nonzero; try apply Z.pow_pos_nonneg; lia).
    rewrite Z.mul_comm, Z.mod_add by lia. apply Z.mod_mod. lia. }
  assert (M' : forall j, 0 <= j <= 24 -> ((v / 2 ^ 32) mod 2 ^ 32 / 2 ^ j) mod 256 = (v / 2 ^ (32 + j)) mod 256).
  { intros j Hj. change 256 with (2 ^ 8).
    replace (2 ^ (32 + j)) with (2 ^ 32 * 2 ^ j) by (rewrite <- Z.pow_add_r by lia; f_equal; lia).
    rewrite <- Z.div_div by (try apply Z.pow_nonzero; try apply Z.pow_pos_nonneg; lia).
    generalize (v / 2 ^ 32). intro u.
    replace (2 ^ 32) with (2 ^ j * 2 ^ (32 - j)) by (rewrite <- Z.pow_add_r by lia; f_equal; lia).
    rewrite Z.rem_mul_r by (try apply Z.pow_nonzero; try apply Z.pow_pos_nonneg; lia).
    rewrite Z.mul_comm, Z.div_add, (Z.div_small (u mod 2 ^ j)) by
      (try apply Z.pow_nonzero; try apply Z.mod_pos_bound; try apply Z.pow_pos_nonneg; lia).
    rewrite Z.add_0_l.
    replace (2 ^ (32 - j)) with (2 ^ 8 * 2 ^ (24 - j)) by (rewrite <- Z.pow_add_r by lia; f_equal; lia).
    rewrite Z.rem_mul_r by (try apply Z.pow_nonzero; try apply Z.pow_pos_nonneg; lia).
    rewrite Z.mul_comm, Z.mod_add by lia. apply Z.mod_mod. lia. }
  pose proof (M 0 ltac:(lia)) as M0. pose proof (M' 0 ltac:(lia)) as M0'.
  change (2 ^ 0) with 1 in M0, M0'. rewrite !Z.div_1_r in M0; rewrite Z.div_1_r in M0'.
  rewrite M0, M0'. rewrite !M, !M' by lia.
  rewrite !Z.div_div by lia. rewrite ?Z.div_1_r. reflexivity.
Qed.

(** The part common to both output lengths: the state after absorbing. *)
Lemma absorb_ok : forall key msg s, length key = 16%nat -> is_bytes key -> is_bytes msg -> 
  forall wide, agree s (init key wide) ->
  exists off s' b,
    block_loop (S (length msg)) msg 0 (Z.of_nat (length msg) - Z.of_nat (length msg) mod 8) s = Ok (off, s') /\
    tail_switch (Z.to_nat (Z.land (Z.of_nat (length msg)) 7)) msg off
      (w64s (Z.shiftl (Z.of_nat (length msg)) 56)) = Ok b /\
    agree (absorb b s') (absorbed key msg wide).
Proof.
  intros key msg s Lk Bk Bm wide A.
  set (N := Z.of_nat (length msg)).
  set (n := Z.to_nat (N / 8)).
  pose proof (Z.div_mod N 8 ltac:(lia)) as DM. pose proof (Z.mod_pos_bound N 8 ltac:(lia)) as MB.
  assert (HN : 0 <= N) by lia.
  assert (Hn : 8 * Z.of_nat n = N - N mod 8) by (unfold n; rewrite Z2Nat.id by (apply Z.div_pos; lia); lia).
  destruct (block_loop_ok n (S (length msg)) msg 0 s (init key wide) Bm) as (s' & E & A');
    [lia|lia|lia|exact A|].
  rewrite Z.add_0_l, Hn in E.
  exists (N - N mod 8), s'. eexists. split; [exact E|].
  replace (Z.land N 7) with (N mod 8) by (change 7 with (Z.ones 3); rewrite Z.land_ones by lia; reflexivity).
  replace (Z.to_nat (N mod 8)) with (Z.to_nat (Z.of_nat (length msg) - (N - N mod 8))) by (f_equal; lia).
  split; [apply tail_full; try assumption; lia|].
  assert (Sk : length (skipn (8 * n) msg) = Z.to_nat (N mod 8)) by (rewrite skipn_length; lia).
  assert (W : absorbed key msg wide =
    compress (blocks (init key wide) (full_words n msg))
      (le (skipn (Z.to_nat (N - N mod 8)) msg) + (N mod 256) * 2 ^ 56)).
  { unfold absorbed. rewrite (words_split n) by lia. rewrite fold_left_app. cbn [fold_left].
    unfold blocks. do 3 f_equal. f_equal. lia. }
  rewrite W. apply agree_compress; [exact A'|].
  pose proof (le_bound (skipn (Z.to_nat (N - N mod 8)) msg) (is_bytes_skipn _ _ Bm)) as LB.
  pose proof (Z.mod_pos_bound N 256 ltac:(lia)).
  assert (LL : 2 ^ (8 * Z.of_nat (length (skipn (Z.to_nat (N - N mod 8)) msg))) <= 2 ^ 56).
  { apply Z.pow_le_mono_r; [lia|]. rewrite skipn_length. lia. }
  unfold word. change (2 ^ 64) with (256 * 2 ^ 56). nia.
Qed.

Lemma siphash_ok : forall key msg out rest wide,
  length key = 16%nat -> is_bytes key -> is_bytes msg ->
  length out = (if wide : bool then 16 else 8)%nat ->
  siphash msg (Z.of_nat (length msg)) key (out ++ rest) (Z.of_nat (length out)) =
  Ok (0, (if wide then siphash_2_4_128 key msg else siphash_2_4 key msg) ++ rest).
Proof.
  intros key msg out rest wide Lk Bk Bm Lo. unfold siphash.
  assert (NB : negb ((Z.of_nat (length out) =? 8) || (Z.of_nat (length out) =? 16)) = false)
    by (rewrite Lo; destruct wide; reflexivity).
  rewrite NB.
  rewrite (u8to64_ok key 0) by (assumption || lia). rewrite (u8to64_ok key 8) by (assumption || lia).
  change (Z.to_nat 0) with 0%nat. change (Z.to_nat 8) with 8%nat. cbn [skipn bind].
  rewrite (firstn_all2 (skipn 8 key)) by (rewrite skipn_length; lia).
  assert (K0 : word (le (firstn 8 key))).
  { pose proof (le_bound (firstn 8 key) (is_bytes_firstn _ _ Bk)) as H.
    rewrite firstn_length_le in H by lia. exact H. }
  assert (K1 : word (le (skipn 8 key))).
  { pose proof (le_bound (skipn 8 key) (is_bytes_skipn _ _ Bk)) as H.
    rewrite skipn_length, Lk in H. exact H. }
  set (s0 := sip_init _ _ _).
  assert (A : agree s0 (init key wide)).
  { unfold s0. clear s0. revert K0 K1. unfold init, sip_init, xor0, xor1, xor2, xor3.
    generalize (le (firstn 8 key)) as k0. generalize (le (skipn 8 key)) as k1.
    intros k1 k0 K0 K1. cbn [v0 v1 v2 v3]. rewrite Lo.
    rewrite !(Z.lxor_comm k0). rewrite !(Z.lxor_comm k1).
    destruct wide; [change (Z.of_nat 16 =? 16) with true|change (Z.of_nat 8 =? 16) with false]; cbv iota.
    2: rewrite Z.lxor_0_r.
    all: split; [reflexivity|]; repeat apply conj; repeat apply word_lxor; try assumption; unfold word; lia. }
  clearbody s0.
  destruct (absorb_ok key msg _ Lk Bk Bm wide A) as (off & s' & b & E1 & E2 & A').
  rewrite E1. cbn [bind]. rewrite E2. cbn [bind]. clear E1 E2 A.
  generalize dependent (absorb b s'). intros s A'.
  unfold siphash_2_4, siphash_2_4_128, finish, finish2.
  destruct wide; rewrite Lo.
  - change (Z.of_nat 16 =? 16) with true. change (Z.of_nat 16 =? 8) with false. cbv iota.
    destruct (absorbed key msg true) as [[[a b'] c] d].
    apply (agree_xor2 _ _ _ _ _ 238) in A'; [|unfold word; lia].
    apply agree_rounds4 in A'.
    destruct (four (a, b', Z.lxor c 238, d)) as [[[a2 b2] c2] d2].
    generalize dependent (rounds 4 (xor2 238 s)). intros s2 A2.
    destruct (agree_fold4 _ _ A2) as [-> F2].
    rewrite <- (firstn_skipn 8 out), <- app_assoc.
    assert (L1 : length (firstn 8 out) = 8%nat) by (rewrite firstn_length_le; lia).
    assert (L2 : length (skipn 8 out) = 8%nat) by (rewrite skipn_length; lia).
    rewrite (u64to8_app [] (firstn 8 out) (skipn 8 out ++ rest)); [|reflexivity|exact L1|exact F2].
    cbn [bind app].
    apply (agree_xor1 _ _ _ _ _ 221) in A2; [|unfold word; lia].
    apply agree_rounds4 in A2.
    generalize dependent (rounds 4 (xor1 221 s2)). intros s3 A3.
    destruct (agree_fold4 _ _ A3) as [-> F3].
    rewrite u64to8_app; [|reflexivity|exact L2|exact F3]. cbn [bind]. now rewrite <- app_assoc.
  - change (Z.of_nat 8 =? 16) with false. change (Z.of_nat 8 =? 8) with true. cbv iota.
    destruct (absorbed key msg false) as [[[a b'] c] d].
    apply (agree_xor2 _ _ _ _ _ 255) in A'; [|unfold word; lia].
    apply agree_rounds4 in A'.
    generalize dependent (rounds 4 (xor2 255 s)). intros s2 A2.
    destruct (agree_fold4 _ _ A2) as [-> F2].
    rewrite (u64to8_app [] out rest); [|reflexivity|exact Lo|exact F2]. reflexivity.
Qed.

Lemma sip_bad_outlen : forall key msg out n, n <> 8 -> n <> 16 ->
  siphash msg (Z.of_nat (length msg)) key out n = Throw.
Proof.
  intros. unfold siphash. destruct (Z.eqb_spec n 8); [lia|]. destruct (Z.eqb_spec n 16); [lia|]. reflexivity.
Qed.
