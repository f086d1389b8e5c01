From Coq Require Import ZArith List Lia Bool ZifyBool ZifyNat.
From Verif Require Import Mem VecProofs IntStrModel IntStrSpec.
Import ListNotations.
Open Scope Z_scope.

Ltac Zify.zify_post_hook ::= Z.to_euclidean_division_equations.

Lemma len_app_cells (p : list Z) (r : buf) : Z.of_nat (length (map Some p ++ r)) = Z.of_nat (length p) + Z.of_nat (length r).
Proof. rewrite app_length, map_length. lia. Qed.

Lemma bstore_push p c x r : bstore (map Some p ++ x :: r) (Z.of_nat (length p)) c =
  Ok (map Some (p ++ [c mod 256]) ++ r).
Proof.
  unfold bstore. rewrite len_app_cells. cbn [length].
  replace ((0 <=? Z.of_nat (length p)) && (Z.of_nat (length p) <? Z.of_nat (length p) + Z.of_nat (S (length r)))) with true by lia.
  f_equal. rewrite Nat2Z.id. rewrite set_nth_split by (rewrite app_length, map_length; cbn; lia).
  rewrite firstn_app, firstn_all2, map_length, Nat.sub_diag by (rewrite map_length; lia).
  cbn [firstn]. rewrite app_nil_r, map_app, <- app_assoc. cbn [map app]. f_equal. f_equal.
  rewrite skipn_app, skipn_all2 by (rewrite map_length; lia). rewrite map_length.
  replace (S (length p) - length p)%nat with 1%nat by lia. reflexivity.
Qed.

Lemma bstore_full p c : bstore (map Some p) (Z.of_nat (length p)) c = UB OutOfBounds.
Proof.
  unfold bstore. rewrite map_length.
  replace ((0 <=? Z.of_nat (length p)) && (Z.of_nat (length p) <? Z.of_nat (length p))) with false by lia.
  reflexivity.
Qed.

(** Least-significant-first digit characters. *)
Fixpoint ldigits (fuel : nat) (n : Z) : list Z :=
  match fuel with
  | O => []
  | S f => if n =? 0 then [] else (48 + Z.rem n 10) :: ldigits f (Z.quot n 10)
  end.

Lemma ldigits_zero f : ldigits f 0 = [].
Proof. destruct f; reflexivity. Qed.

Lemma digit_loop_ok fuel : forall p r n, Z.abs n < 10 ^ Z.of_nat fuel ->
  (length (ldigits fuel n) <= length r)%nat ->
  digit_loop fuel (map Some p ++ r) n (Z.of_nat (length p)) =
  Ok (map Some (p ++ ldigits fuel n) ++ skipn (length (ldigits fuel n)) r,
      Z.of_nat (length p + length (ldigits fuel n))).
Proof.
  induction fuel as [|f IH]; intros p r n Hn Hl.
  - change (10 ^ Z.of_nat 0) with 1 in Hn. replace n with 0 by lia. cbn. rewrite app_nil_r.
    do 2 f_equal. lia.
  - rewrite Nat2Z.inj_succ, Z.pow_succ_r in Hn by lia. cbn [digit_loop ldigits] in *.
    destruct (Z.eqb_spec n 0) as [->|Hz].
    + cbn. rewrite app_nil_r. do 2 f_equal. lia.
    + destruct r as [|x r]; [cbn in Hl; lia|]. cbn [length] in Hl.
      set (d := Z.rem n 10) in *. assert (Hd : -10 < d < 10) by (unfold d; lia).
      replace (10 <=? d) with false by lia. rewrite bstore_push. cbn [bind].
      replace ((48 + d) mod 256) with (48 + d) by lia.
      replace (Z.of_nat (length p) + 1) with (Z.of_nat (length (p ++ [48 + d]))) by (rewrite app_length; cbn [length]; lia).
      rewrite IH by (try lia).
      rewrite <- app_assoc. cbn [app skipn length]. rewrite app_length. cbn [length].
      do 2 f_equal. lia.
Qed.

Lemma bload_at p x r : bload (map Some p ++ Some x :: r) (Z.of_nat (length p)) = Ok x.
Proof.
  unfold bload. rewrite len_app_cells. cbn [length].
  replace ((0 <=? Z.of_nat (length p)) && (Z.of_nat (length p) <? Z.of_nat (length p) + Z.of_nat (S (length r)))) with true by lia.
  rewrite Nat2Z.id, app_nth2 by (rewrite map_length; lia).
  rewrite map_length, Nat.sub_diag. reflexivity.
Qed.

Definition isb c := 0 <= c < 256.

Lemma bstore_at p c x r : isb c -> bstore (map Some p ++ x :: r) (Z.of_nat (length p)) c =
  Ok (map Some p ++ Some c :: r).
Proof.
  intros Hc. rewrite bstore_push. unfold isb in Hc. replace (c mod 256) with c by lia.
  rewrite map_app, <- app_assoc. reflexivity.
Qed.

Lemma list_ends {A} (m : list A) : m = [] \/ (exists x, m = [x]) \/ exists x m' y, m = x :: m' ++ [y].
Proof.
  destruct m as [|x [|z t]]; [auto|right; left; eauto|right; right].
  destruct (exists_last (l := z :: t)) as (m' & y & E); [discriminate|].
  exists x, m', y. rewrite E. reflexivity.
Qed.

Lemma myreverse_ok k : forall m p r fuel, (length m <= k)%nat -> Forall isb m ->
  (length m <= 2 * fuel + 1)%nat ->
  myreverse fuel (map Some (p ++ m) ++ r) (Z.of_nat (length p)) (Z.of_nat (length p + length m) - 1) =
  Ok (map Some (p ++ rev m) ++ r).
Proof.
  induction k as [|k IH]; intros m p r fuel Hk Fb Hf;
    destruct (list_ends m) as [->|[[x ->]|(x & m' & y & ->)]]; try (cbn in Hk; lia);
    try (cbn [length]; destruct fuel; cbn [myreverse];
         match goal with |- context [?a <? ?b] => replace (a <? b) with false by lia end; reflexivity).
  rewrite app_comm_cons, app_length in Hk, Hf. cbn [length] in Hk, Hf.
  destruct fuel as [|fuel]; [lia|]. cbn [myreverse].
  assert (Ln : length (x :: m' ++ [y]) = S (S (length m'))) by (cbn; rewrite app_length; cbn; lia).
  rewrite Ln.
  match goal with |- context [?a <? ?b] => replace (a <? b) with true by lia end.
  apply Forall_cons_iff in Fb. destruct Fb as [Bx Fb]. apply Forall_app in Fb. destruct Fb as [Fm By].
  apply Forall_cons_iff in By. destruct By as [By _].
  assert (E1 : map Some (p ++ x :: m' ++ [y]) ++ r = map Some (p ++ x :: m') ++ Some y :: r).
  { rewrite !map_app. cbn [map]. rewrite map_app. cbn [map]. rewrite <- !app_assoc. cbn. rewrite <- app_assoc. reflexivity. }
  assert (J : Z.of_nat (length p + S (S (length m'))) - 1 = Z.of_nat (length (p ++ x :: m'))).
  { rewrite app_length. cbn. lia. }
  rewrite J, E1, bload_at. cbn [bind].
  assert (E2 : map Some (p ++ x :: m') ++ Some y :: r = map Some p ++ Some x :: (map Some m' ++ Some y :: r)).
  { rewrite map_app. cbn [map]. rewrite <- app_assoc. reflexivity. }
  rewrite E2, bload_at. cbn [bind]. rewrite <- E2, bstore_at by auto. cbn [bind].
  assert (E3 : map Some (p ++ x :: m') ++ Some x :: r = map Some p ++ Some x :: (map Some m' ++ Some x :: r)).
  { rewrite map_app. cbn [map]. rewrite <- app_assoc. reflexivity. }
  rewrite E3, bstore_at by auto. cbn [bind].
  assert (E4 : map Some p ++ Some y :: map Some m' ++ Some x :: r = map Some ((p ++ [y]) ++ m') ++ (Some x :: r)).
  { rewrite !map_app. cbn [map]. rewrite <- !app_assoc. reflexivity. }
  rewrite E4.
  replace (Z.of_nat (length p) + 1) with (Z.of_nat (length (p ++ [y]))) by (rewrite app_length; cbn [length]; lia).
  replace (Z.of_nat (length (p ++ x :: m')) - 1) with (Z.of_nat (length (p ++ [y]) + length m') - 1)
    by (rewrite !app_length; cbn; lia).
  rewrite IH by (auto; lia).
  f_equal. cbn [rev]. rewrite rev_app_distr. cbn [rev app].
  rewrite <- !app_assoc, !map_app. cbn [app map]. rewrite map_app. rewrite <- !app_assoc. cbn [map app].
  rewrite <- app_assoc. reflexivity.
Qed.

Lemma read_cstr_ok t : forall r, Forall (fun c => c <> 0) t -> read_cstr (map Some t ++ Some 0 :: r) = Ok t.
Proof.
  induction t as [|c t IH]; intros r F; cbn; [reflexivity|].
  inversion F; subst. replace (c =? 0) with false by lia. rewrite IH by auto. reflexivity.
Qed.

Definition nonempty_digits (n : Z) : list Z :=
  match ldigits 64 n with [] => [48] | l => l end.

Lemma ldigits_range f : forall n, Forall (fun c => 38 < c < 58) (ldigits f n).
Proof.
  induction f as [|f IH]; intros n; cbn [ldigits]; [constructor|].
  destruct (n =? 0); constructor; auto. lia.
Qed.

Lemma nd_range n : Forall (fun c => 38 < c < 58) (nonempty_digits n).
Proof.
  unfold nonempty_digits. pose proof (ldigits_range 64 n). destruct (ldigits 64 n); auto.
  constructor; auto. lia.
Qed.

(** The result for any n of at most 64 digits, when the buffer is large enough. *)
Lemma itoa_fits size (neg : bool) n : Z.abs n < 10 ^ 64 ->
  (length (nonempty_digits n) + (if neg then 1 else 0) + 1 <= size)%nat ->
  itoa size neg n = Ok ((if neg then [45] else []) ++ rev (nonempty_digits n)).
Proof.
  intros Hn Hs. unfold itoa. cbv zeta.
  change (digit_loop 64 (repeat None size) n 0) with
    (digit_loop 64 (map Some (@nil Z) ++ repeat None size) n (Z.of_nat (length (@nil Z)))).
  rewrite digit_loop_ok; [|exact Hn|].
  2:{ rewrite repeat_length. unfold nonempty_digits in Hs. destruct (ldigits 64 n); cbn [length] in *; lia. }
  cbn [app bind length Nat.add].
  assert (K : exists r, (length (nonempty_digits n) + length r = size)%nat /\
   (if Z.of_nat (length (ldigits 64 n)) =? 0
    then b <- bstore (map Some (ldigits 64 n) ++ skipn (length (ldigits 64 n)) (repeat None size))
                (Z.of_nat (length (ldigits 64 n))) 48 ;; Ok (b, Z.of_nat (length (ldigits 64 n)) + 1)
    else Ok (map Some (ldigits 64 n) ++ skipn (length (ldigits 64 n)) (repeat None size),
             Z.of_nat (length (ldigits 64 n)))) =
   Ok (map Some (nonempty_digits n) ++ r, Z.of_nat (length (nonempty_digits n)))).
  { unfold nonempty_digits in *. remember (ldigits 64 n) as d eqn:Ed. destruct d as [|c d].
    - cbn [length Z.of_nat Z.eqb map app skipn].
      destruct size as [|size]; [cbn [length] in Hs; lia|]. cbn [repeat].
      exists (repeat None size). rewrite repeat_length. split; [reflexivity|].
      change (bstore (None :: repeat None size) 0 48) with
        (bstore (map Some (@nil Z) ++ None :: repeat None size) (Z.of_nat (length (@nil Z))) 48).
      rewrite bstore_push. reflexivity.
    - exists (skipn (length (c :: d)) (repeat None size)). split.
      + rewrite skipn_length, repeat_length. lia.
      + reflexivity. }
  destruct K as (r & Lr & ->). cbn [bind].
  set (d := nonempty_digits n) in *.
  pose proof (nd_range n) as Rd. fold d in Rd.
  assert (Bd : Forall isb d) by (eapply Forall_impl; [|exact Rd]; unfold isb; intros; lia).
  destruct neg.
  - destruct r as [|x r]; [cbn [length] in Lr; lia|]. rewrite bstore_push. cbn [bind].
    destruct r as [|y r]; [cbn [length] in Lr; lia|].
    replace (Z.of_nat (length d) + 1) with (Z.of_nat (length (d ++ [45 mod 256]))) by (rewrite app_length; cbn [length]; lia).
    rewrite bstore_push. cbn [bind]. change (45 mod 256) with 45. change (0 mod 256) with 0.
    rewrite map_app, <- app_assoc. cbn [map app].
    pose proof (myreverse_ok (length (d ++ [45])) (d ++ [45]) [] (Some 0 :: r) (Z.to_nat (Z.of_nat (length (d ++ [45]))))) as Rv.
    cbn [app length Nat.add Z.of_nat] in Rv. rewrite Rv; [|lia| |lia].
    2:{ apply Forall_app. split; auto. constructor; auto. unfold isb; lia. }
    cbn [bind]. rewrite read_cstr_ok.
    + rewrite rev_app_distr. reflexivity.
    + rewrite rev_app_distr. cbn. constructor; [lia|]. apply Forall_rev. eapply Forall_impl; [|exact Rd]; cbn; intros; lia.
  - cbn [bind]. destruct r as [|y r]; [cbn [length] in Lr; lia|].
    rewrite bstore_push. cbn [bind]. change (0 mod 256) with 0.
    rewrite map_app, <- app_assoc. cbn [map app].
    pose proof (myreverse_ok (length d) d [] (Some 0 :: r) (Z.to_nat (Z.of_nat (length d)))) as Rv.
    cbn [app length Nat.add Z.of_nat] in Rv. rewrite Rv; [|lia|exact Bd|lia].
    cbn [bind]. rewrite read_cstr_ok; [reflexivity|].
    apply Forall_rev. eapply Forall_impl; [|exact Rd]; cbn; intros; lia.
Qed.

(** When only the terminator does not fit, the store of the terminator is out of bounds. *)
Lemma itoa_overflow size n : Z.abs n < 10 ^ 64 ->
  (length (nonempty_digits n) + 1 = size)%nat -> n <> 0 ->
  itoa size true n = UB OutOfBounds.
Proof.
  intros Hn Hs Hz. unfold itoa. cbv zeta.
  change (digit_loop 64 (repeat None size) n 0) with
    (digit_loop 64 (map Some (@nil Z) ++ repeat None size) n (Z.of_nat (length (@nil Z)))).
  assert (E : nonempty_digits n = ldigits 64 n).
  { unfold nonempty_digits. change (ldigits 64 n) with
      (if n =? 0 then [] else (48 + Z.rem n 10) :: ldigits 63 (Z.quot n 10)).
    replace (n =? 0) with false by lia. reflexivity. }
  assert (L1 : (0 < length (nonempty_digits n))%nat).
  { unfold nonempty_digits. destruct (ldigits 64 n); cbn [length]; lia. }
  rewrite E in *.
  rewrite digit_loop_ok; [|exact Hn|rewrite repeat_length; lia].
  cbn [app bind length Nat.add].
  replace (Z.of_nat (length (ldigits 64 n)) =? 0) with false by lia. cbn [bind].
  destruct (skipn (length (ldigits 64 n)) (repeat None size)) as [|x r] eqn:Es.
  { assert (length (skipn (length (ldigits 64 n)) (repeat (@None Z) size)) = 0%nat) by (rewrite Es; reflexivity).
    rewrite skipn_length, repeat_length in H. lia. }
  assert (Lr : length r = 0%nat).
  { assert (length (skipn (length (ldigits 64 n)) (repeat (@None Z) size)) = S (length r)) by (rewrite Es; reflexivity).
    rewrite skipn_length, repeat_length in H. lia. }
  destruct r; [|discriminate].
  rewrite bstore_push. cbn [bind]. rewrite app_nil_r.
  replace (Z.of_nat (length (ldigits 64 n)) + 1) with (Z.of_nat (length (ldigits 64 n ++ [45 mod 256])))
    by (rewrite app_length; cbn [length]; lia).
  rewrite bstore_full. reflexivity.
Qed.

(** Number of digits. *)
Lemma ldigits_len f : forall n k, Z.abs n < 10 ^ Z.of_nat k -> (length (ldigits f n) <= k)%nat.
Proof.
  induction f as [|f IH]; intros n k Hk; cbn [ldigits length]; [lia|].
  destruct (Z.eqb_spec n 0); [cbn; lia|]. destruct k as [|k].
  - change (10 ^ Z.of_nat 0) with 1 in Hk. lia.
  - cbn [length]. rewrite Nat2Z.inj_succ, Z.pow_succ_r in Hk by lia.
    assert (length (ldigits f (Z.quot n 10)) <= k)%nat by (apply IH; lia). lia.
Qed.
Lemma ldigits_len_ge f : forall n k, 10 ^ Z.of_nat k <= Z.abs n -> (k < f)%nat -> (S k <= length (ldigits f n))%nat.
Proof.
  induction f as [|f IH]; intros n k Hk Hf; [lia|]. cbn [ldigits].
  assert (0 < 10 ^ Z.of_nat k) by (apply Z.pow_pos_nonneg; lia).
  replace (n =? 0) with false by lia. cbn [length]. destruct k as [|k]; [lia|].
  rewrite Nat2Z.inj_succ, Z.pow_succ_r in Hk by lia.
  assert (S k <= length (ldigits f (Z.quot n 10)))%nat by (apply IH; lia). lia.
Qed.

(** Reading the reversed digits back. *)
Lemma ldigits_value f : forall n, 0 <= n < 10 ^ Z.of_nat f -> digits_value (rev (ldigits f n)) = n.
Proof.
  unfold digits_value. intros n. rewrite <- fold_left_rev_right, rev_involutive.
  revert n. induction f as [|f IH]; intros n Hn; cbn [ldigits].
  - change (10 ^ Z.of_nat 0) with 1 in Hn. cbn. lia.
  - destruct (Z.eqb_spec n 0) as [->|]; [reflexivity|].
    rewrite Nat2Z.inj_succ, Z.pow_succ_r in Hn by lia.
    cbn [fold_right]. rewrite IH by lia. lia.
Qed.

Lemma ldigits_head f : forall n, 0 < n < 10 ^ Z.of_nat f -> hd 0 (rev (ldigits f n)) <> 48.
Proof.
  induction f as [|f IH]; intros n Hn; cbn [ldigits].
  - change (10 ^ Z.of_nat 0) with 1 in Hn. lia.
  - rewrite Nat2Z.inj_succ, Z.pow_succ_r in Hn by lia.
    replace (n =? 0) with false by lia. cbn [rev].
    destruct (Z.eq_dec (Z.quot n 10) 0) as [E|E].
    + rewrite E, ldigits_zero. cbn [rev app hd]. lia.
    + specialize (IH (Z.quot n 10) ltac:(lia)).
      destruct (rev (ldigits f (Z.quot n 10))) as [|c t] eqn:Er; [|cbn in *; exact IH].
      exfalso. assert (length (rev (ldigits f (Z.quot n 10))) = 0%nat) by (rewrite Er; reflexivity).
      rewrite rev_length in H. destruct f as [|f]; [cbn in Hn; lia|]. cbn [ldigits] in H.
      replace (Z.quot n 10 =? 0) with false in H by lia. discriminate.
Qed.

Lemma nd_decimal z : Z.abs z < 10 ^ 64 ->
  decimal z ((if z <? 0 then [45] else []) ++ rev (nonempty_digits (Z.abs z))).
Proof.
  intros Hz. exists (rev (nonempty_digits (Z.abs z))). split; [reflexivity|].
  unfold nonempty_digits. destruct (Z.eq_dec z 0) as [->|Hn].
  - cbn. repeat split; auto; try discriminate. constructor; [lia|constructor].
  - pose proof (ldigits_value 64 (Z.abs z) ltac:(change (Z.of_nat 64) with 64; lia)) as V.
    pose proof (ldigits_head 64 (Z.abs z) ltac:(change (Z.of_nat 64) with 64; lia)) as H.
    assert (Rg : Forall (fun c => 48 <= c <= 57) (ldigits 64 (Z.abs z))).
    { assert (G : forall f n, 0 <= n -> Forall (fun c => 48 <= c <= 57) (ldigits f n)).
      { induction f as [|f IH]; intros n H0; cbn [ldigits]; [constructor|].
        destruct (n =? 0); constructor; [lia|apply IH; lia]. }
      apply G. lia. }
    destruct (ldigits 64 (Z.abs z)) as [|c t] eqn:El; [unfold digits_value in V; cbn in V; lia|].
    split; [|split; [|split; [exact V|intros X; contradiction]]].
    + cbn. intros X. apply app_eq_nil in X. destruct X; discriminate.
    + apply Forall_rev. exact Rg.
Qed.

(** Decimal texts determine the number, and conversely. *)
Lemma fold_digits l : forall a, fold_left (fun a c => 10 * a + (c - 48)) l a =
  10 ^ Z.of_nat (length l) * a + digits_value l.
Proof.
  unfold digits_value. induction l as [|c t IH]; intros a; cbn [fold_left length]; [change (10 ^ Z.of_nat 0) with 1; lia|].
  rewrite IH, (IH (10 * 0 + (c - 48))). rewrite Nat2Z.inj_succ, Z.pow_succ_r by lia. ring.
Qed.
Lemma dv_cons c t : digits_value (c :: t) = 10 ^ Z.of_nat (length t) * (c - 48) + digits_value t.
Proof. unfold digits_value at 1. cbn [fold_left]. rewrite fold_digits. f_equal. Qed.
Lemma dv_bound l : Forall (fun c => 48 <= c <= 57) l -> 0 <= digits_value l < 10 ^ Z.of_nat (length l).
Proof.
  induction l as [|c t IH]; intros F; [cbn; lia|].
  inversion F as [|? ? Hc Ft]; subst. rewrite dv_cons. cbn [length].
  rewrite Nat2Z.inj_succ, Z.pow_succ_r by lia. specialize (IH Ft).
  set (P := 10 ^ Z.of_nat (length t)) in *. nia.
Qed.
Lemma dv_same_len l : forall k, length l = length k -> Forall (fun c => 48 <= c <= 57) l ->
  Forall (fun c => 48 <= c <= 57) k -> digits_value l = digits_value k -> l = k.
Proof.
  induction l as [|c t IH]; intros [|d u] L Fl Fk E; cbn in L; try discriminate; auto.
  inversion Fl as [|? ? Hc Ft]; inversion Fk as [|? ? Hd Fu]; subst. rewrite !dv_cons in E.
  injection L as L. rewrite L in E. pose proof (dv_bound t Ft) as B1. pose proof (dv_bound u Fu) as B2.
  rewrite L in B1. set (P := 10 ^ Z.of_nat (length u)) in *.
  assert (c = d) by nia. subst. f_equal. apply IH; auto. lia.
Qed.
Lemma dv_len l k : Forall (fun c => 48 <= c <= 57) l -> Forall (fun c => 48 <= c <= 57) k ->
  l <> [] -> (hd 0 l = 48 -> l = [48]) -> k <> [] ->
  digits_value l = digits_value k -> (length l <= length k)%nat.
Proof.
  intros Fl Fk Nl Hl Nk E. destruct l as [|c t]; [congruence|].
  destruct (Z.eq_dec c 48) as [->|Hc].
  - rewrite (Hl eq_refl). destruct k; [congruence|]. cbn. lia.
  - inversion Fl as [|? ? Bc Ft]; subst. rewrite dv_cons in E.
    pose proof (dv_bound t Ft) as B1. pose proof (dv_bound k Fk) as B2.
    destruct (Nat.le_gt_cases (length (c :: t)) (length k)) as [|G]; auto. exfalso.
    cbn [length] in G.
    assert (10 ^ Z.of_nat (length k) <= 10 ^ Z.of_nat (length t)) by (apply Z.pow_le_mono_r; lia).
    nia.
Qed.
Lemma decimal_unique z t t' : decimal z t -> decimal z t' -> t = t'.
Proof.
  intros (l & -> & Nl & Fl & Vl & Hl) (k & -> & Nk & Fk & Vk & Hk). f_equal.
  apply dv_same_len; auto; [|lia].
  pose proof (dv_len l k Fl Fk Nl Hl Nk ltac:(lia)).
  pose proof (dv_len k l Fk Fl Nk Hk Nl ltac:(lia)). lia.
Qed.
Lemma decimal_injective z z' t : decimal z t -> decimal z' t -> z = z'.
Proof.
  intros (l & -> & Nl & Fl & Vl & Hl) (k & E & Nk & Fk & Vk & Hk).
  destruct (Z.ltb_spec z 0), (Z.ltb_spec z' 0); cbn [app] in E.
  - inversion E; subst. lia.
  - destruct k as [|c k]; [congruence|]. inversion E; subst. inversion Fk; subst. lia.
  - destruct l as [|c l]; [congruence|]. inversion E; subst. inversion Fl; subst. lia.
  - subst. lia.
Qed.

Lemma to_string_int_ok value : - 10 ^ 9 < value < 2 ^ 31 ->
  exists t, to_string_int value = Ok t /\ decimal value t.
Proof.
  intros Hv. unfold to_string_int. replace (value =? - 2 ^ 31) with false by lia.
  eexists. split; [|apply nd_decimal; lia].
  replace (if value <? 0 then - value else value) with (Z.abs value) by (destruct (Z.ltb_spec value 0); lia).
  apply itoa_fits; [lia|].
  assert (L : (length (ldigits 64 (Z.abs value)) <= (if Z.ltb value 0 then 9 else 10))%nat).
  { apply ldigits_len. destruct (Z.ltb_spec value 0).
    - change (Z.of_nat 9) with 9. lia.
    - change (Z.of_nat 10) with 10. lia. }
  unfold nonempty_digits. destruct (ldigits 64 (Z.abs value)); destruct (value <? 0); cbn [length] in *; lia.
Qed.

Lemma to_string_int_overflow value : - 2 ^ 31 <= value <= - 10 ^ 9 ->
  exists u, to_string_int value = UB u.
Proof.
  intros Hv. unfold to_string_int. destruct (Z.eqb_spec value (- 2 ^ 31)); [eexists; reflexivity|].
  replace (value <? 0) with true by lia. eexists. apply itoa_overflow; try lia.
  pose proof (ldigits_len 64 (- value) 10 ltac:(change (Z.of_nat 10) with 10; lia)).
  pose proof (ldigits_len_ge 64 (- value) 9 ltac:(change (Z.of_nat 9) with 9; lia) ltac:(lia)).
  unfold nonempty_digits. destruct (ldigits 64 (- value)) eqn:E; cbn [length] in *; lia.
Qed.

Lemma wrap32s_id z : - 2 ^ 31 <= z < 2 ^ 31 -> wrap32s z = z.
Proof. intros H. unfold wrap32s. lia. Qed.

Lemma itoa20 (neg : bool) n : - 2 ^ 31 <= n < 2 ^ 31 ->
  itoa 20 neg n = Ok ((if neg then [45] else []) ++ rev (nonempty_digits n)).
Proof.
  intros Hn. apply itoa_fits; [lia|].
  pose proof (ldigits_len 64 n 10 ltac:(change (Z.of_nat 10) with 10; lia)).
  unfold nonempty_digits. destruct (ldigits 64 n); destruct neg; cbn [length] in *; lia.
Qed.

Lemma to_string_int64_ok value : - 2 ^ 31 < value < 2 ^ 31 ->
  exists t, to_string_int64 value = Ok t /\ decimal value t.
Proof.
  intros Hv. unfold to_string_int64. replace (value =? - 2 ^ 63) with false by lia.
  eexists. split; [|apply nd_decimal; lia].
  replace (if value <? 0 then - value else value) with (Z.abs value) by (destruct (Z.ltb_spec value 0); lia).
  rewrite wrap32s_id by lia. apply itoa20. lia.
Qed.

(** Outside the range of int the printed text is never right. *)
Lemma to_string_int64_wrong value t : - 2 ^ 63 <= value < 2 ^ 63 -> 2 ^ 31 <= Z.abs value ->
  to_string_int64 value = Ok t -> ~ decimal value t.
Proof.
  intros Hv Hb E D. unfold to_string_int64 in E. destruct (value =? - 2 ^ 63); [discriminate|].
  replace (if value <? 0 then - value else value) with (Z.abs value) in E by (destruct (Z.ltb_spec value 0); lia).
  set (n := wrap32s (Z.abs value)) in E. assert (Hn : - 2 ^ 31 <= n < 2 ^ 31) by (unfold n, wrap32s; lia).
  rewrite itoa20 in E by exact Hn. injection E as E. subst t.
  destruct (Z.ltb_spec n 0) as [Hneg|Hpos].
  - (* a character below '0' is printed *)
    destruct D as (ds & E & _ & Fd & _).
    assert (ds = rev (nonempty_digits n)) by (destruct (value <? 0); cbn in E; congruence). subst ds.
    assert (X : exists f, ldigits 64 n = (48 + Z.rem n 10) :: ldigits f (Z.quot n 10)).
    { exists 63%nat. cbn [ldigits]. replace (n =? 0) with false by lia. reflexivity. }
    (* n in [-2^31,-1] has some nonzero digit, hence one below '0' *)
    assert (G : forall f m, m < 0 -> Z.abs m < 10 ^ Z.of_nat f -> exists c, In c (ldigits f m) /\ c < 48).
    { induction f as [|f IH]; intros m Hm Hl.
      - change (10 ^ Z.of_nat 0) with 1 in Hl. lia.
      - rewrite Nat2Z.inj_succ, Z.pow_succ_r in Hl by lia. cbn [ldigits].
        replace (m =? 0) with false by lia.
        destruct (Z.eq_dec (Z.rem m 10) 0) as [E0|E0].
        + destruct (IH (Z.quot m 10)) as (c & Hc & Hlt); [lia|lia|]. exists c. cbn. auto.
        + exists (48 + Z.rem m 10). split; [left; reflexivity|lia]. }
    destruct (G 64%nat n Hneg ltac:(change (Z.of_nat 64) with 64; lia)) as (c & Hc & Hlt).
    rewrite Forall_forall in Fd. specialize (Fd c). 
    assert (In c (rev (nonempty_digits n))).
    { apply -> in_rev. unfold nonempty_digits. destruct (ldigits 64 n); [destruct Hc|exact Hc]. }
    specialize (Fd H). lia.
  - assert (D' : decimal (if value <? 0 then - n else n) ((if value <? 0 then [45] else []) ++ rev (nonempty_digits n)) \/ (value < 0 /\ n = 0)).
    { destruct (Z.ltb_spec value 0).
      - destruct (Z.eq_dec n 0); [auto|left].
        pose proof (nd_decimal (- n) ltac:(lia)) as D'. replace (- n <? 0) with true in D' by lia.
        replace (Z.abs (- n)) with n in D' by lia. exact D'.
      - left. pose proof (nd_decimal n ltac:(lia)) as D'. replace (n <? 0) with false in D' by lia.
        replace (Z.abs n) with n in D' by lia. exact D'. }
    destruct D' as [D'|[Hv0 Hn0]].
    + pose proof (decimal_injective _ _ _ D D'). destruct (Z.ltb_spec value 0); lia.
    + rewrite Hn0 in D. destruct D as (ds & E & _ & _ & V & _).
      replace (value <? 0) with true in E by lia. cbn in E. inversion E; subst ds.
      unfold digits_value in V. cbn in V. lia.
Qed.
