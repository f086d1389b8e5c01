(** Proofs about the compile-time sequences (SeqModel.v). *)
From Coq Require Import ZArith List Bool Lia.
From Verif Require Import SeqModel.
Import ListNotations.
Open Scope Z_scope.
Local Notation len l := (Z.of_nat (length l)).

Definition iota (n : nat) : list Z := map Z.of_nat (seq 0 n).
Definition total (l : list Z) : Z := fold_right Z.add 0 l.
Definition small : Z := 1048576.

Lemma len_iota n : length (iota n) = n.
Proof. unfold iota. now rewrite map_length, seq_length. Qed.
Lemma iota_app a b : iota (a + b) = iota a ++ map (fun n => n + Z.of_nat a) (iota b).
Proof.
  unfold iota. rewrite seq_app, map_app. f_equal. rewrite map_map.
  replace (seq (0 + a) b) with (map (fun x => (x + a)%nat) (seq 0 b)).
  2: { rewrite Nat.add_0_l. clear. revert a. induction b; intro a; [reflexivity|].
       cbn [seq map]. f_equal. rewrite <- (IHb (S a)), <- seq_shift, map_map.
       apply map_ext. intro. lia. }
  rewrite map_map. apply map_ext. intro. lia.
Qed.

Lemma double_step N k (S : Z) V :
  0 <= N -> S = N / 2 ^ (k + 1) -> V = Z.testbit N k -> 0 <= k ->
  (if V then 2 * S + 1 else 2 * S) = N / 2 ^ k.
Proof.
  intros H -> -> Hk. rewrite Z.pow_add_r, Z.pow_1_r by lia.
  rewrite <- Z.div_div by (try lia; apply Z.pow_nonzero; lia).
  rewrite (Z.testbit_odd N k), Z.shiftr_div_pow2 by lia.
  set (q := N / 2 ^ k). assert (D := Z.div_mod q 2 ltac:(lia)). rewrite Zmod_odd in D. destruct (Z.odd q); lia.
Qed.
Lemma double_list (S : Z) (V : bool) :
  0 <= S ->
  iota (Z.to_nat S) ++ map (fun n => n + S) (iota (Z.to_nat S)) ++ (if V then [2 * S] else [])
  = iota (Z.to_nat (if V then 2 * S + 1 else 2 * S)).
Proof.
  intro H. rewrite app_assoc.
  assert (E : iota (Z.to_nat S) ++ map (fun n => n + S) (iota (Z.to_nat S)) = iota (Z.to_nat (2 * S))).
  { replace (Z.to_nat (2 * S)) with (Z.to_nat S + Z.to_nat S)%nat by lia. rewrite iota_app. f_equal.
    apply map_ext. intro. lia. }
  rewrite E. destruct V; [|now rewrite app_nil_r].
  replace (Z.to_nat (2 * S + 1)) with (Z.to_nat (2 * S) + 1)%nat by lia. rewrite iota_app. f_equal. change (iota 1) with [0]. cbn [map]. f_equal. lia.
Qed.
Lemma land_pow2 N k : 0 <= N -> 0 <= k -> negb (Z.land N (2 ^ k) =? 0) = Z.testbit N k.
Proof.
  intros H Hk. destruct (Z.testbit N k) eqn:E.
  - apply negb_true_iff, Z.eqb_neq. intro Z0.
    assert (Z.testbit (Z.land N (2 ^ k)) k = true) by (rewrite Z.land_spec, E, Z.pow2_bits_true by lia; reflexivity).
    rewrite Z0, Z.bits_0 in H0. discriminate.
  - apply negb_false_iff, Z.eqb_eq. apply Z.bits_inj'. intros i Hi. rewrite Z.land_spec, Z.bits_0.
    destruct (Z.eq_dec i k) as [->|NE]; [now rewrite E|]. rewrite Z.pow2_bits_false by lia. apply andb_false_r.
Qed.
Lemma generate_ok k : forall fuel V N S,
  0 <= N -> V = Z.testbit N (Z.of_nat k) -> S = N / 2 ^ (Z.of_nat k + 1) -> (k < fuel)%nat ->
  generate fuel V false (2 ^ Z.of_nat k) N S (iota (Z.to_nat S)) = Some (iota (Z.to_nat N)).
Proof.
  induction k; intros fuel V N S HN HV HS HF; (destruct fuel; [lia|]); cbn [generate].
  - assert (HP := double_step N (Z.of_nat 0) S V HN HS HV ltac:(lia)).
    assert (0 <= S) by (subst S; apply Z.div_pos; [lia|apply Z.pow_pos_nonneg; lia]).
    rewrite double_list by assumption. rewrite HP.
    change (2 ^ Z.of_nat 0 / 2) with 0. rewrite Z.land_0_r. cbn [negb Z.eqb].
    destruct fuel; cbn [generate]; f_equal; f_equal; change (2 ^ Z.of_nat 0) with 1; now rewrite Z.div_1_r.
  - assert (HP := double_step N (Z.of_nat (Datatypes.S k)) S V HN HS HV ltac:(lia)).
    assert (0 <= S) by (subst S; apply Z.div_pos; [lia|apply Z.pow_pos_nonneg; lia]).
    rewrite double_list by assumption. rewrite HP.
    assert (HM : 2 ^ Z.of_nat (Datatypes.S k) / 2 = 2 ^ Z.of_nat k).
    { replace (Z.of_nat (Datatypes.S k)) with (Z.of_nat k + 1) by lia. rewrite Z.pow_add_r by lia. apply Z.div_mul. lia. }
    rewrite HM. assert (0 < 2 ^ Z.of_nat k) by (apply Z.pow_pos_nonneg; lia).
    replace (2 ^ Z.of_nat k =? 0) with false by (symmetry; apply Z.eqb_neq; lia).
    apply IHk; [assumption|apply land_pow2; lia| |lia].
    f_equal. f_equal. lia.
Qed.
Lemma generate_start k N : 0 <= N < 2 ^ Z.of_nat k -> (k < 22)%nat ->
  generate 22 false false (2 ^ Z.of_nat k) N 0 [] = Some (iota (Z.to_nat N)).
Proof.
  intros H Hk. change (@nil Z) with (iota (Z.to_nat 0)). apply generate_ok; [lia| | |assumption].
  - symmetry. destruct (Z.eq_dec N 0) as [->|]; [apply Z.bits_0|]. apply Z.bits_above_log2; [lia|].
    apply Z.log2_lt_pow2; lia.
  - symmetry. apply Z.div_small. split; [lia|]. rewrite Z.pow_add_r by lia. lia.
Qed.
Lemma make_ok N : 0 <= N < small -> make_index_sequence N = Some (iota (Z.to_nat N)).
Proof.
  unfold small. intro H. unfold make_index_sequence. destruct (Z.ltb_spec N 1048576); [|lia].
  unfold start_bit.
  repeat match goal with |- context [?a <? ?b] => destruct (Z.ltb_spec a b) end.
  1-10: match goal with |- generate _ _ _ ?m _ _ _ = _ => let k := eval vm_compute in (Z.to_nat (Z.log2 m)) in
    apply (generate_start k); [change (2 ^ Z.of_nat k) with m; lia|lia] end.
  apply (generate_start 20); [change (2 ^ Z.of_nat 20) with 1048576; lia|lia].
Qed.
Lemma make_big N : small <= N -> make_index_sequence N = None.
Proof. unfold small, make_index_sequence. intro. destruct (Z.ltb_spec N 1048576); [lia|reflexivity]. Qed.
Lemma make_len {A} (l : list A) : len l < small -> make_index_sequence (len l) = Some (iota (length l)).
Proof. intro. rewrite make_ok by lia. now rewrite Nat2Z.id. Qed.

(** packs *)
Lemma expand_map {A B} (f : A -> option B) (g : A -> B) l :
  (forall a, In a l -> f a = Some (g a)) -> expand f l = Some (map g l).
Proof.
  induction l; intro H; [reflexivity|]. cbn. rewrite H by now left. cbn. rewrite IHl; [reflexivity|].
  intros; apply H; now right.
Qed.
Lemma expand2_combine {A B C} (f : A -> B -> option C) l : forall m,
  length l = length m -> expand2 f l m = expand (fun p => f (fst p) (snd p)) (combine l m).
Proof.
  induction l; intros [|b m] H; cbn in *; try discriminate; [reflexivity|].
  destruct (f a b); cbn; [|reflexivity]. rewrite IHl by lia. reflexivity.
Qed.
Lemma expand_nth {A B} (f : A -> option B) l m :
  length l = length m -> (forall i a b, nth_error l i = Some a -> nth_error m i = Some b -> f a = Some b) -> expand f l = Some m.
Proof.
  revert m. induction l; intros [|b m] H K; cbn in *; try discriminate; [reflexivity|].
  rewrite (K 0%nat a b) by reflexivity. cbn. rewrite (IHl m); [reflexivity|lia|]. intros i x y. apply (K (S i)).
Qed.
Lemma nth_iota n i : (i < n)%nat -> nth_error (iota n) i = Some (Z.of_nat i).
Proof.
  intro H. unfold iota. rewrite nth_error_map, (nth_error_nth' _ 0%nat) by now rewrite seq_length. cbn.
  now rewrite seq_nth.
Qed.

(** at_index *)
Lemma filter_iota {A} (l : list A) k I :
  filter (fun p => fst p =? I) (combine (map Z.of_nat (seq k (length l))) l)
  = match (if I <? Z.of_nat k then None else nth_error l (Z.to_nat (I - Z.of_nat k))) with Some a => [(I, a)] | None => [] end.
Proof.
  revert k. induction l as [|a l IH]; intro k; cbn [length seq map combine filter].
  { destruct (I <? Z.of_nat k); [reflexivity|]. now destruct (Z.to_nat (I - Z.of_nat k)). }
  cbn [fst]. destruct (Z.eqb_spec (Z.of_nat k) I) as [E|E].
  - destruct (Z.ltb_spec I (Z.of_nat k)); [lia|]. rewrite IH.
    replace (I <? Z.of_nat (S k)) with true by (symmetry; apply Z.ltb_lt; lia).
    replace (Z.to_nat (I - Z.of_nat k)) with 0%nat by lia. cbn. now rewrite E.
  - rewrite IH. destruct (Z.ltb_spec I (Z.of_nat k)).
    + replace (I <? Z.of_nat (S k)) with true by (symmetry; apply Z.ltb_lt; lia). reflexivity.
    + replace (I <? Z.of_nat (S k)) with false by (symmetry; apply Z.ltb_ge; lia).
      replace (Z.to_nat (I - Z.of_nat k)) with (S (Z.to_nat (I - Z.of_nat (S k)))) by lia. reflexivity.
Qed.
Lemma at_index_gen {A} (l : list A) I : len l < small ->
  at_index I l = if I <? 0 then None else nth_error l (Z.to_nat I).
Proof.
  intro H. unfold at_index, index_sequence_for. rewrite make_len by assumption. cbn [bind]. unfold iota.
  rewrite filter_iota. change (Z.of_nat 0) with 0. rewrite Z.sub_0_r. destruct (I <? 0); [reflexivity|].
  destruct (nth_error l (Z.to_nat I)); reflexivity.
Qed.
Lemma at_index_ok {A} (l : list A) i : len l < small -> at_index (Z.of_nat i) l = nth_error l i.
Proof.
  intro H. rewrite at_index_gen by assumption. replace (Z.of_nat i <? 0) with false by (symmetry; apply Z.ltb_ge; lia).
  now rewrite Nat2Z.id.
Qed.

(** is_all *)
Lemma is_all_ok fold Bs : is_all fold Bs = true <-> forall b, In b Bs -> b = true.
Proof.
  unfold is_all. destruct fold.
  - induction Bs as [|b Bs IH]; cbn; [split; [intros _ b []|reflexivity]|].
    rewrite andb_true_iff, IH. split.
    + intros [-> H] b' [<-|K]; [reflexivity|now apply H].
    + intro H. split; [apply H; now left|intros; apply H; now right].
  - destruct (list_eq_dec bool_dec (true :: Bs) (Bs ++ [true])) as [E|N].
    + split; [intros _|reflexivity]. revert E. induction Bs as [|b Bs IH]; [intros _ b []|].
      cbn. intros E. injection E as <- E. intros b' [<-|K]; [reflexivity|]. now apply IH.
    + split; [discriminate|]. intro H. exfalso. apply N. clear N.
      induction Bs as [|b Bs IH]; [reflexivity|]. cbn. rewrite (H b) by now left. f_equal. apply IH. intros; apply H; now right.
Qed.

(** sums *)
Lemma total_app a b : total (a ++ b) = total a + total b.
Proof. induction a; cbn; [reflexivity|]. unfold total in *. lia. Qed.
Lemma total_nonneg l : Forall (fun n => 0 <= n) l -> 0 <= total l.
Proof. induction 1; cbn; unfold total in *; lia. Qed.
Lemma total_succ l : fold_right Z.add 0 (map (fun n => n + 1) l) = total l + len l.
Proof. induction l; cbn [map fold_right length total]; [reflexivity|]. unfold total in *. cbn. lia. Qed.
Lemma fold_unsigned t l : is_signed t = false ->
  fold_right (fun n s => bind s (fun s => arith t (n + s))) (Some 0) l = Some (total l mod 2 ^ width t).
Proof.
  intro H. induction l; cbn [fold_right total]; [now rewrite Zmod_0_l|]. rewrite IHl. cbn [bind]. unfold arith. rewrite H.
  f_equal. now rewrite Zplus_mod_idemp_r.
Qed.
Lemma collector_ok l : Forall (fun n => 0 <= n) l -> len l < small -> total l + len l < 2 ^ 63 ->
  sizeof_collector l = Some (total l + len l).
Proof.
  intros P L H. unfold sizeof_collector. rewrite make_len by assumption. cbn [bind].
  rewrite len_iota, Nat.eqb_refl, total_succ. destruct (Z.ltb_spec (total l + len l) (2 ^ 63)); [reflexivity|lia].
Qed.
Lemma sum_unsigned_ok t l : Forall (fun n => 0 <= n) l -> len l < small -> total l + len l < 2 ^ 63 ->
  sum_unsigned t l = Some (convert t (total l)).
Proof.
  intros P L H. unfold sum_unsigned. rewrite collector_ok by assumption. cbn [bind]. do 2 f_equal.
  assert (0 <= total l) by now apply total_nonneg.
  assert (2 ^ 63 < 2 ^ 64) by reflexivity.
  rewrite Z.mod_small by lia. lia.
Qed.
Lemma sum_u_ok fold t l : is_signed t = false -> Forall (fun n => 0 <= n) l -> len l + 1 < small -> total l + len l + 1 < 2 ^ 63 ->
  sum fold t l = Some (total l mod 2 ^ width t).
Proof.
  intros U P L H. unfold sum. destruct fold; [now apply fold_unsigned|]. rewrite U.
  assert (E : total (l ++ [0]) = total l) by (rewrite total_app; cbn; lia).
  rewrite sum_unsigned_ok, E.
  - unfold convert. rewrite U. reflexivity.
  - apply Forall_app. split; [assumption|]. repeat constructor; lia.
  - rewrite app_length. cbn. lia.
  - rewrite E, app_length. cbn [length]. lia.
Qed.

Definition pos (l : list Z) : Z := total (map (fun n => if 0 <? n then n else 0) l).
Definition neg (l : list Z) : Z := total (map (fun n => if n <? 0 then - n else 0) l).
Lemma pos_neg l : total l = pos l - neg l.
Proof.
  induction l; [reflexivity|]. unfold pos, neg, total in *. cbn [map fold_right].
  destruct (Z.ltb_spec 0 a), (Z.ltb_spec a 0); lia.
Qed.
Lemma pos_nn l : 0 <= pos l.
Proof. apply total_nonneg, Forall_map, Forall_forall. intros n _. destruct (Z.ltb_spec 0 n); lia. Qed.
Lemma neg_nn l : 0 <= neg l.
Proof. apply total_nonneg, Forall_map, Forall_forall. intros n _. destruct (Z.ltb_spec n 0); lia. Qed.
Lemma pos_cons a l : pos (a :: l) = (if 0 <? a then a else 0) + pos l.
Proof. reflexivity. Qed.
Lemma neg_cons a l : neg (a :: l) = (if a <? 0 then - a else 0) + neg l.
Proof. reflexivity. Qed.
Lemma fits_signed t x : is_signed t = true -> - 2 ^ (width t - 1) <= x < 2 ^ (width t - 1) -> fits t x = true.
Proof. intros H K. unfold fits. rewrite H. apply andb_true_iff. split; [apply Z.leb_le|apply Z.ltb_lt]; lia. Qed.
Lemma fold_signed t l : is_signed t = true -> pos l < 2 ^ (width t - 1) -> neg l < 2 ^ (width t - 1) ->
  fold_right (fun n s => bind s (fun s => arith t (n + s))) (Some 0) l = Some (total l).
Proof.
  intros H. induction l; intros P N; [reflexivity|]. cbn [fold_right].
  assert (PN := pos_nn l). assert (NN := neg_nn l). assert (E := pos_neg (a :: l)).
  rewrite pos_cons in P, E. rewrite neg_cons in N, E.
  rewrite IHl.
  2: { destruct (Z.ltb_spec 0 a); lia. }
  2: { destruct (Z.ltb_spec a 0); lia. }
  cbn [bind]. unfold arith. rewrite H, fits_signed; [reflexivity|assumption|].
  change (a + total l) with (total (a :: l)).
  destruct (Z.ltb_spec 0 a), (Z.ltb_spec a 0); lia.
Qed.
Lemma convert_signed t x : is_signed t = true -> 0 < width t -> 0 <= x < 2 ^ (width t - 1) -> convert t x = x.
Proof.
  intros H W K. unfold convert. rewrite H.
  assert (2 ^ width t = 2 * 2 ^ (width t - 1)) by (rewrite <- Z.pow_succ_r by lia; f_equal; lia).
  rewrite Z.mod_small by lia. cbn [andb]. destruct (Z.leb_spec (2 ^ (width t - 1)) x); [lia|reflexivity].
Qed.
Lemma sum_s_ok fold t l : is_signed t = true -> 0 < width t -> len l + 1 < small ->
  pos l < 2 ^ (width t - 1) -> neg l < 2 ^ (width t - 1) ->
  pos l + len l + 1 < 2 ^ 63 -> neg l + len l + 1 < 2 ^ 63 ->
  sum fold t l = Some (total l).
Proof.
  intros H W L P N P3 N3. unfold sum.
  destruct fold; [apply fold_signed; [assumption|lia|lia]|]. rewrite H.
  set (l0 := l ++ [0]).
  assert (EL : len l0 = len l + 1) by (unfold l0; rewrite app_length; cbn; lia).
  assert (EP : pos l0 = pos l) by (unfold l0, pos; rewrite map_app, total_app; cbn; lia).
  assert (EN : neg l0 = neg l) by (unfold l0, neg; rewrite map_app, total_app; cbn; lia).
  assert (ET : total l0 = total l) by (unfold l0; rewrite total_app; cbn; lia).
  assert (PN := pos_nn l). assert (NN := neg_nn l).
  unfold sum_signed. erewrite expand_map by (intros; reflexivity). cbn [bind].
  fold (pos l0). rewrite sum_unsigned_ok.
  2: { apply Forall_map, Forall_forall. intros n _. destruct (Z.ltb_spec 0 n); lia. }
  2: { rewrite map_length. lia. }
  2: { rewrite map_length. fold (pos l0). lia. }
  cbn [bind]. fold (pos l0).
  rewrite (expand_map _ (fun n => if n <? 0 then - n else 0)).
  2: { intros n Hn. destruct (Z.ltb_spec n 0) as [Hneg|]; [|reflexivity]. unfold arith. rewrite H, fits_signed; [reflexivity|assumption|].
       assert (- n <= neg l0).
       { clear -Hn Hneg. induction l0 as [|a l0 IH]; [destruct Hn|]. rewrite neg_cons. assert (X := neg_nn l0).
         destruct Hn as [->|Hn]; [destruct (Z.ltb_spec n 0); lia|]. specialize (IH Hn). destruct (Z.ltb_spec a 0); lia. }
       lia. }
  cbn [bind]. rewrite sum_unsigned_ok.
  2: { apply Forall_map, Forall_forall. intros n _. destruct (Z.ltb_spec n 0); lia. }
  2: { rewrite map_length. lia. }
  2: { rewrite map_length. fold (neg l0). lia. }
  cbn [bind]. fold (neg l0). rewrite EP, EN, !convert_signed by (assumption || lia).
  unfold arith. rewrite H, fits_signed by (assumption || lia). f_equal. symmetry. apply pos_neg.
Qed.

(** scans *)
Section Scan.
  Context (fold : bool) (t : ity) (U : is_signed t = false).
  Definition ok (l : list Z) := Forall (fun n => 0 <= n) l /\ len l + 1 < small /\ total l + len l + 1 < 2 ^ 63.
  Lemma mask_ok I l : forall k,
    expand2 (fun i n => Some (if i <? Z.of_nat I then n else 0)) (map Z.of_nat (seq k (length l))) l
    = Some (firstn (I - k) l ++ repeat 0 (length l - (I - k))).
  Proof.
    induction l; intro k; cbn [length seq map expand2]; [now rewrite firstn_nil|].
    cbn [bind]. rewrite IHl. cbn [bind]. destruct (Z.ltb_spec (Z.of_nat k) (Z.of_nat I)).
    - replace (I - k)%nat with (S (I - S k)) by lia. cbn. reflexivity.
    - replace (I - k)%nat with 0%nat by lia. replace (I - S k)%nat with 0%nat by lia. rewrite Nat.sub_0_r. reflexivity.
  Qed.
  Lemma total_repeat n : total (repeat 0 n) = 0.
  Proof. induction n; cbn; [reflexivity|]. unfold total in IHn. lia. Qed.
  Lemma total_firstn_le i l : Forall (fun n => 0 <= n) l -> 0 <= total (firstn i l) <= total l.
  Proof.
    intro H. rewrite <- (firstn_skipn i l) at 3. rewrite total_app.
    rewrite <- (firstn_skipn i l) in H. apply Forall_app in H. destruct H as [H1 H2].
    apply total_nonneg in H1, H2. lia.
  Qed.
  Lemma partial_sum_ok i l : ok l -> (i <= length l)%nat ->
    partial_sum fold t (Z.of_nat i) l = Some (total (firstn i l) mod 2 ^ width t).
  Proof.
    intros (P & L & T) Hi. unfold partial_sum. rewrite make_len by lia. cbn [bind]. rewrite len_iota.
    destruct (Z.ltb_spec (len l) (Z.of_nat i)); [lia|]. unfold iota. rewrite mask_ok, Nat.sub_0_r. cbn [bind].
    assert (E : total (firstn i l ++ repeat 0 (length l - i)) = total (firstn i l)) by (rewrite total_app, total_repeat; lia).
    assert (B := total_firstn_le i l P).
    rewrite sum_u_ok, E; [reflexivity|exact U| | |].
    - apply Forall_app. split.
      + rewrite <- (firstn_skipn i l) in P. apply Forall_app in P. apply P.
      + apply Forall_forall. intros x Hx. apply repeat_spec in Hx. lia.
    - rewrite app_length, firstn_length, repeat_length. lia.
    - rewrite E, app_length, firstn_length, repeat_length. lia.
  Qed.
  Lemma exclusive_ok l : ok l ->
    exclusive_scan fold t l = Some (map (fun i => total (firstn i l) mod 2 ^ width t) (seq 0 (length l))).
  Proof.
    intro H. unfold exclusive_scan. rewrite make_len by (destruct H; lia). cbn [bind].
    rewrite (expand_map _ (fun i => total (firstn (Z.to_nat i) l) mod 2 ^ width t)).
    - f_equal. unfold iota. rewrite map_map. apply map_ext. intro. now rewrite Nat2Z.id.
    - intros a Ha. unfold iota in Ha. apply in_map_iff in Ha. destruct Ha as (i & <- & Hi). apply in_seq in Hi.
      rewrite Nat2Z.id. apply partial_sum_ok; [assumption|lia].
  Qed.
  Lemma zip_ok (f : Z -> Z -> option Z) (g : Z -> Z -> Z) l m :
    (forall a b, f a b = Some (g a b)) -> length l = length m ->
    expand2 f l m = Some (map (fun p => g (fst p) (snd p)) (combine l m)).
  Proof. intros H E. rewrite expand2_combine by assumption. apply expand_map. intros; apply H. Qed.
  Lemma firstn_S_total i (l : list Z) n : nth_error l i = Some n -> total (firstn (S i) l) = total (firstn i l) + n.
  Proof.
    revert l; induction i; intros [|a l] H; try discriminate H.
    - injection H as ->. cbn. lia.
    - cbn [nth_error] in H. rewrite !firstn_cons. unfold total in *. cbn [fold_right]. rewrite IHi by assumption. lia.
  Qed.
  Lemma inclusive_ok l : ok l ->
    inclusive_scan fold t l = Some (map (fun i => total (firstn (S i) l) mod 2 ^ width t) (seq 0 (length l))).
  Proof.
    intro H. unfold inclusive_scan. rewrite exclusive_ok by assumption. cbn [bind]. unfold plus.
    rewrite expand2_combine by now rewrite map_length, seq_length.
    apply expand_nth.
    - rewrite combine_length, !map_length, seq_length. lia.
    - intros i [a b] c Hab Hc.
      assert (Hi : (i < length l)%nat).
      { assert (X : nth_error (combine (map (fun i => total (firstn i l) mod 2 ^ width t) (seq 0 (length l))) l) i <> None) by congruence.
        apply nth_error_Some in X. rewrite combine_length in X. lia. }
      assert (Hb : nth_error l i = Some b /\ a = total (firstn i l) mod 2 ^ width t).
      { clear Hc. assert (G : forall (m : list Z) (n : list Z) j x y, nth_error (combine m n) j = Some (x, y) -> nth_error m j = Some x /\ nth_error n j = Some y).
        { intros m n j. revert m n. induction j; intros [|m0 m] [|n0 n] x y HH; cbn in HH; try discriminate HH.
          - injection HH as -> ->. now split.
          - now apply IHj. }
        apply G in Hab. destruct Hab as [Ha Hb]. split; [assumption|].
        rewrite nth_error_map, (nth_error_nth' _ 0%nat) in Ha by now rewrite seq_length. cbn [option_map] in Ha.
        rewrite seq_nth in Ha by assumption. cbn [Nat.add] in Ha. injection Ha as <-. reflexivity. }
      destruct Hb as [Hb ->]. cbn [fst snd]. unfold arith. rewrite U.
      rewrite nth_error_map, (nth_error_nth' _ 0%nat) in Hc by now rewrite seq_length. cbn [option_map] in Hc.
      rewrite seq_nth in Hc by assumption. rewrite Nat.add_0_l in Hc.
      assert (Hc' : total (firstn (S i) l) mod 2 ^ width t = c) by (revert Hc; generalize (total (firstn (S i) l) mod 2 ^ width t); congruence).
      rewrite <- Hc'.
      rewrite (firstn_S_total _ _ _ Hb). f_equal. apply Zplus_mod_idemp_l.
  Qed.
End Scan.
