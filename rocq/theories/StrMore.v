From Coq Require Import ZArith List Lia Bool ZifyBool ZifyNat.
From Verif Require Import Mem VecModel VecSpec VecProofs VecRefine VecMore StrModel StrSpec StrProofs.
Import ListNotations.
Open Scope Z_scope.

(** Pushing an element of the array the vector itself owns, heap level. *)
Lemma push_own_spare (h : hpz) v i : wfv h v -> 0 <= i < size v -> size v < capacity v -> size v + 1 < 2 ^ 62 ->
  exists v' h', push_back_ref h v (elements v) i = Ok (v', h') /\ wfv h' v' /\ frame h v h' v' /\
    elements v' = elements v /\ capacity v' = capacity v /\ size v' = size v + 1 /\
    contents h' v' = contents h v ++ [nth (Z.to_nat i) (contents h v) None].
Proof.
  intros W Hi Hc Lm. pose proof W as (Hs & Hcap & He). unfold push_back_ref.
  rewrite w64_small by lia. unfold resize.
  replace (size v + 1 <? 1) with false by lia.
  replace (capacity v <? size v + 1) with false by lia. cbn [bind elements size].
  rewrite vload_ok by (auto; lia). cbn [bind].
  replace (size v + 1 - 1) with (size v) by lia. rewrite w64_small by lia.
  destruct (vstore_ok h v (size v) (nth (Z.to_nat i) (arr h v) None) W ltac:(lia))
    as (h' & E & W' & F & A & _). rewrite E. cbn [bind].
  eexists _, _. split; [reflexivity|]. cbn [elements capacity size].
  split; [apply W'; cbn; auto; lia|]. split; [exact F|]. split; [reflexivity|].
  split; [reflexivity|]. split; [reflexivity|].
  pose proof (wfv_len _ _ W) as L.
  unfold contents at 1. cbn [size].
  change (arr h' (Vec (elements v) (capacity v) (size v + 1))) with (arr h' v). rewrite A.
  replace (Z.to_nat (size v + 1)) with (S (Z.to_nat (size v))) by lia.
  rewrite (firstn_S_nth _ _ None) by (rewrite set_nth_length; lia).
  rewrite firstn_set_nth_ge by lia. rewrite nth_set_nth, Nat.eqb_refl by lia.
  rewrite contents_nth by (auto; lia). reflexivity.
Qed.

Lemma push_own_full (h : hpz) v i : wfv h v -> freshok h -> 0 <= i < size v -> size v = capacity v ->
  size v + 1 < 2 ^ 62 -> push_back_ref h v (elements v) i = UB UseAfterFree.
Proof.
  intros W Fr Hi Hc Hm.
  destruct (resize_ok h v (size v + 1) W Fr ltac:(lia))
    as (v1 & h1 & E & W1 & S1 & C1 & Ne & (F1 & D1 & _) & _ & _ & G).
  destruct (G ltac:(lia)) as (_ & _ & _ & Hne).
  pose proof W as (Hs & Hcap & He).
  destruct (elements v) as [b|] eqn:Ev; [|lia].
  unfold push_back_ref. rewrite w64_small by lia. rewrite E. cbn [bind]. unfold load.
  destruct D1 as [D1|[_ D1]]; [congruence|].
  rewrite (D1 b eq_refl). reflexivity.
Qed.

Lemma self_loop l : tlen l < max_text -> forall k (h : hpz) v j, wfv h v -> freshok h -> 0 <= j ->
  Z.of_nat k = tlen l - j -> contents h v = map Some (l ++ firstn (Z.to_nat j) l) ->
  if 2 * tlen l <=? capacity v
  then exists v' h', assign_loop k h v (elements v) j = Ok (v', h') /\ wfv h' v' /\ frame h v h' v' /\
         contents h' v' = map Some (l ++ l)
  else assign_loop k h v (elements v) j = UB UseAfterFree.
Proof.
  intros B. unfold max_text in B.
  induction k as [|k IH]; intros h v j W Fr Hj Hk C.
  - pose proof (size_of h v _ W C) as Sv.
    rewrite app_length, firstn_all2 in Sv by (unfold tlen in *; lia).
    pose proof W as (Hs & _).
    replace (2 * tlen l <=? capacity v) with true by (unfold tlen in *; lia).
    exists v, h. cbn. rewrite C, firstn_all2 by (unfold tlen in *; lia). auto using frame_refl.
  - pose proof (size_of h v _ W C) as Sv.
    rewrite app_length, firstn_length_le in Sv by (unfold tlen in *; lia).
    pose proof W as (Hs & _). cbn [assign_loop].
    destruct (Z.eq_dec (size v) (capacity v)) as [Hf|Hf].
    + replace (2 * tlen l <=? capacity v) with false by (unfold tlen in *; lia).
      rewrite push_own_full; auto; unfold tlen in *; try lia.
    + destruct (push_own_spare h v j W) as (v1 & h1 & E & W1 & F1 & E1 & Cp1 & S1 & C1);
        try (unfold tlen in *; lia).
      rewrite E. cbn [bind]. rewrite <- E1, <- Cp1.
      assert (X := IH h1 v1 (j + 1) W1 (proj2 (proj2 F1) Fr) ltac:(lia) ltac:(lia)).
      assert (Cx : contents h1 v1 = map Some (l ++ firstn (Z.to_nat (j + 1)) l)).
      { rewrite C1, C. replace (Z.to_nat (j + 1)) with (S (Z.to_nat j)) by lia.
        rewrite (firstn_S_nth l _ 0) by (unfold tlen in *; lia).
        rewrite app_assoc, (map_app Some (l ++ firstn (Z.to_nat j) l) [_]). f_equal. cbn [map]. f_equal.
        rewrite (nth_indep _ None (Some 0)) by (rewrite map_length, app_length; unfold tlen in *; lia).
        rewrite (map_nth Some). rewrite app_nth1 by (unfold tlen in *; lia). reflexivity. }
      specialize (X Cx). destruct (2 * tlen l <=? capacity v1); [|exact X].
      destruct X as (v2 & h2 & E2 & W2 & F2 & C2). exists v2, h2. split; [exact E2|].
      split; [exact W2|]. split; [eapply frame_trans; eauto|exact C2].
Qed.

(** Reachable string states. *)
Definition sreach (w : sworld) (x : nat) (v : str) (l : text) : Prop :=
  exists ops outs s outs', tspec_run tspec0 ops = Some (outs, s) /\ srun world0 ops = Ok (outs', w) /\
    vecs w x = Some v /\ s x = Some l.

Lemma sreach_inv w x v l : sreach w x v l ->
  Inv w /\ vecs w x = Some v /\ wfv (hp w) v /\ contents (hp w) v = cells l /\ Forall byte l /\ tlen l < max_text.
Proof.
  intros (ops & outs & s & outs' & E & E' & Hv & Hl).
  destruct (srun_refines ops tspec0 world0 outs s inv0 sr0 E) as (o & w' & H & _ & I & HR).
  rewrite H in E'. inversion E'; subst. specialize (HR x). rewrite Hl, Hv in HR.
  destruct HR as (C & Fb & B). pose proof (inv_wf w I x v Hv). auto 10.
Qed.

Lemma self_append (w : sworld) x v l : sreach w x v l ->
  if 2 * tlen l <=? capacity v
  then exists w' v', sstep w (SAppend x x) = Ok (TNone, w') /\ vecs w' x = Some v' /\
         size v' = 2 * tlen l /\ str_size v' = (2 * tlen l - 1) mod 2 ^ 64 /\
         (forall i, 0 <= i < 2 * tlen l -> str_at (hp w') v' i = Ok (nth (Z.to_nat i) (l ++ l) 0))
  else sstep w (SAppend x x) = UB UseAfterFree.
Proof.
  intros R. destruct (sreach_inv w x v l R) as (I & Hv & W & C & Fb & B).
  cbn [sstep]. unfold find. rewrite Hv. cbn [bind]. rewrite Nat.eqb_refl.
  unfold str_append_self. cbv zeta.
  destruct (pop_contents (hp w) v l W C B) as (-> & Wp & Cp). cbn [size].
  assert (X := self_loop l B (Z.to_nat (tlen l)) (hp w) _ 0 Wp (inv_fresh w I) ltac:(lia)).
  cbn [capacity] in X.
  specialize (X ltac:(unfold tlen; lia)).
  rewrite Cp in X. cbn [Z.to_nat firstn] in X. rewrite app_nil_r in X. specialize (X eq_refl).
  destruct (2 * tlen l <=? capacity v).
  - destruct X as (v' & h' & E & W' & F' & C'). rewrite E. cbn [bind].
    eexists _, _. split; [reflexivity|]. cbn [put vecs hp]. rewrite upd_same.
    split; [reflexivity|]. pose proof (size_of _ _ _ W' C') as S'. rewrite app_length in S'.
    assert (S2 : size v' = 2 * tlen l) by (unfold tlen; lia).
    split; [exact S2|]. split; [unfold str_size, w64; rewrite S2; reflexivity|].
    intros i Hi. apply byte_at_ok; auto. rewrite app_length. unfold tlen in Hi; lia.
  - rewrite X. reflexivity.
Qed.

Lemma empty_never (w : sworld) x v l : sreach w x v l -> sstep w (SEmpty x) = Ok (TBool false, w).
Proof.
  intros R. destruct (sreach_inv w x v l R) as (I & Hv & W & C & Fb & B).
  cbn [sstep]. unfold find. rewrite Hv. cbn [bind]. unfold str_empty.
  rewrite (size_cells _ _ _ W C). replace (tlen l + 1 =? 0) with false by (unfold tlen; lia). reflexivity.
Qed.

Lemma srefines ops outs s : tspec_run tspec0 ops = Some (outs, s) ->
  exists outs' w, srun world0 ops = Ok (outs', w) /\ Forall2 xout_ok outs outs' /\
    (forall x l, s x = Some l -> exists v, vecs w x = Some v /\ size v = tlen l + 1 /\
       forall i, 0 <= i <= tlen l -> str_at (hp w) v i = Ok (nth (Z.to_nat i) (l ++ [0]) 0)) /\
    ((forall x, s x = None) -> forall b, mem (hp w) b = None).
Proof.
  intros E. destruct (srun_refines ops tspec0 world0 outs s inv0 sr0 E) as (o & w & H & O & I & HR).
  exists o, w. split; [exact H|]. split; [exact O|]. split.
  - intros x l Hl. destruct (sr_get s w x l HR Hl) as (v & Hv & C & Fb & B).
    pose proof (inv_wf w I x v Hv) as W.
    exists v. split; [exact Hv|]. split; [eapply size_cells; eauto|]. intros i Hi.
    apply byte_at_ok; auto. rewrite app_length. unfold tlen in Hi. cbn. lia.
  - intros Hn b. destruct (mem (hp w) b) eqn:Eb; [|reflexivity]. exfalso.
    destruct (inv_noleak w I b) as (x & v & Hx & _); [congruence|].
    specialize (HR x). rewrite Hn, Hx in HR. exact HR.
Qed.

(** Lexicographic order laws. *)
Lemma lex_eq a : forall b, lex a b = Eq <-> a = b.
Proof.
  induction a as [|x a IH]; intros [|y b]; cbn; split; intros H; try discriminate; auto.
  - destruct (Z.compare_spec x y); try discriminate. subst. f_equal. apply IH; auto.
  - inversion H; subst. rewrite Z.compare_refl. apply IH; auto.
Qed.
Lemma lex_antisym a : forall b, lex b a = CompOpp (lex a b).
Proof.
  induction a as [|x a IH]; intros [|y b]; cbn; auto.
  rewrite (Z.compare_antisym x y). destruct (x ?= y); cbn; auto.
Qed.
Lemma lex_trans a : forall b c, lex a b = Lt -> lex b c = Lt -> lex a c = Lt.
Proof.
  induction a as [|x a IH]; intros [|y b] [|z c]; cbn; intros H1 H2; try discriminate; auto.
  destruct (Z.compare_spec x y), (Z.compare_spec y z); try discriminate; subst.
  - rewrite Z.compare_refl. eapply IH; eauto.
  - replace (y ?= z) with Lt by (symmetry; apply Z.compare_lt_iff; lia). reflexivity.
  - replace (x ?= z) with Lt by (symmetry; apply Z.compare_lt_iff; lia). reflexivity.
  - replace (x ?= z) with Lt by (symmetry; apply Z.compare_lt_iff; lia). reflexivity.
Qed.

Lemma tspec_run_app a : forall b s o1 s1 o2 s2,
  tspec_run s a = Some (o1, s1) -> tspec_run s1 b = Some (o2, s2) ->
  tspec_run s (a ++ b) = Some (o1 ++ o2, s2).
Proof.
  induction a as [|o t IH]; cbn [tspec_run app]; intros b s o1 s1 o2 s2 E1 E2.
  - inversion E1; subst. exact E2.
  - destruct (tspec_step s o) as [[r s']|]; [|discriminate].
    destruct (tspec_run s' t) as [[rs s'']|] eqn:E; [|discriminate].
    inversion E1; subst. rewrite (IH b s' rs s1 o2 s2 E E2). reflexivity.
Qed.

Definition fresh5 (s : tstate) n := forall k, (n <= k)%nat -> s k = None.

Lemma tset_same s x l : tset s x l x = l.
Proof. unfold tset. rewrite Nat.eqb_refl. reflexivity. Qed.
Lemma tset_other s x l y : y <> x -> tset s x l y = s y.
Proof. unfold tset. destruct (Nat.eqb_spec y x); congruence. Qed.

Ltac tstep := cbn [tspec_run tspec_step]; unfold tget, tnew, tupd;
  repeat first [rewrite tset_same | rewrite tset_other by lia].

Lemma concat_laws ops outs s a b c la lb lc n :
  tspec_run tspec0 ops = Some (outs, s) -> s a = Some la -> s b = Some lb -> s c = Some lc ->
  (a < n)%nat -> (b < n)%nat -> (c < n)%nat -> fresh5 s n ->
  tlen (la ++ lb ++ lc) < max_text ->
  let t1 := n in let t2 := S n in let u1 := S (S n) in let u2 := S (S (S n)) in
  let e := S (S (S (S n))) in let p := S (S (S (S (S n)))) in
  let q := S (S (S (S (S (S n))))) in
  exists o w, srun world0 (ops ++
      [SPlus t1 a b; SPlus t2 t1 c;       (* t2 = (a+b)+c *)
       SPlus u1 b c; SPlus u2 a u1;       (* u2 = a+(b+c) *)
       SNew e; SPlus p e a; SPlus q a e;  (* p = ""+a, q = a+"" *)
       SText t2; SText u2; SEq t2 u2; SEq p a; SEq q a; SSize t1; SText a; SText b;
       SAppend e a; SAppend e b; SEq e t1]) =
    Ok (o ++ [TText (la ++ lb ++ lc); TText (la ++ lb ++ lc); TBool true; TBool true; TBool true;
              TZ (tlen la + tlen lb); TText la; TText lb; TNone; TNone; TBool true], w).
Proof.
  intros E Ea Eb Ec Ha Hb Hc Hf B t1 t2 u1 u2 e p q.
  assert (Bl : tlen (la ++ lb ++ lc) = tlen la + tlen lb + tlen lc).
  { unfold tlen. rewrite !app_length. lia. }
  assert (T2 : forall x y, tlen (x ++ y) = tlen x + tlen y) by (intros; unfold tlen; rewrite app_length; lia).
  assert (P : forall x, 0 <= tlen x) by (intros; unfold tlen; lia).
  pose proof (P la); pose proof (P lb); pose proof (P lc).
  assert (Hn : forall k, (n <= k)%nat -> s k = None) by exact Hf.
  assert (L0 : forall x, lex x x = Eq) by (intros; apply lex_eq; reflexivity).
  assert (S2 : exists s2, tspec_run s
      [SPlus t1 a b; SPlus t2 t1 c; SPlus u1 b c; SPlus u2 a u1; SNew e; SPlus p e a; SPlus q a e;
       SText t2; SText u2; SEq t2 u2; SEq p a; SEq q a; SSize t1; SText a; SText b;
       SAppend e a; SAppend e b; SEq e t1] =
     Some ([XNone;XNone;XNone;XNone;XNone;XNone;XNone] ++
           [XText ((la ++ lb) ++ lc); XText (la ++ lb ++ lc);
            XBool true; XBool true; XBool true; XZ (tlen (la++lb)); XText la; XText lb;
            XNone; XNone; XBool true], s2)).
  { unfold t1, t2, u1, u2, e, p, q. cbn [tspec_run tspec_step]. unfold tget, tnew, tupd.
    Ltac sl Ea Eb Ec Hn := repeat first
      [ rewrite tset_same | rewrite tset_other by lia | rewrite Ea | rewrite Eb | rewrite Ec
      | rewrite Hn by lia ].
    sl Ea Eb Ec Hn.
    replace (tlen (la ++ lb) <? max_text) with true by (rewrite T2; lia). sl Ea Eb Ec Hn.
    replace (tlen ((la ++ lb) ++ lc) <? max_text) with true by (rewrite !T2; lia). sl Ea Eb Ec Hn.
    replace (tlen (lb ++ lc) <? max_text) with true by (rewrite T2; lia). sl Ea Eb Ec Hn.
    replace (tlen (la ++ lb ++ lc) <? max_text) with true by lia. sl Ea Eb Ec Hn.
    change (tlen [] <? max_text) with true. cbv iota. sl Ea Eb Ec Hn. cbn [app].
    replace (tlen la <? max_text) with true by lia. sl Ea Eb Ec Hn.
    rewrite app_nil_r. replace (tlen la <? max_text) with true by lia. sl Ea Eb Ec Hn.
    replace (S (S (S (S n))) =? a)%nat with false by lia.
    replace (S (S (S (S n))) =? b)%nat with false by lia. sl Ea Eb Ec Hn. cbn [app].
    replace (tlen la <? max_text) with true by lia. sl Ea Eb Ec Hn.
    replace (tlen (la ++ lb) <? max_text) with true by (rewrite T2; lia). sl Ea Eb Ec Hn.
    rewrite <- !app_assoc. rewrite !L0. eexists. reflexivity. }
  destruct S2 as (s2 & E2).
  pose proof (tspec_run_app ops _ _ _ _ _ _ E E2) as E3.
  destruct (srefines _ _ _ E3) as (o & w & Er & Fo & _).
  rewrite app_assoc in Fo. apply Forall2_app_inv_l in Fo. destruct Fo as (o1 & o2 & _ & F2 & ->).
  exists o1, w. rewrite Er. f_equal. f_equal. f_equal.
  rewrite <- app_assoc in F2.
  repeat match goal with
    | H : Forall2 xout_ok (_ :: _) _ |- _ => inversion H; clear H; subst
    | H : Forall2 xout_ok [] _ |- _ => inversion H; clear H; subst
    end.
  repeat match goal with
    | H : xout_ok _ ?y |- _ => destruct y; cbn in H; try contradiction; subst
    end.
  rewrite T2. reflexivity.
Qed.

(** The (first, last) and (s, count) constructors. *)
Lemma str_range_loop_ok l k : forall (h : hpz) v i t, wfv h v -> freshok h ->
  contents h v = map Some t -> 0 <= i -> i + Z.of_nat k <= tlen l -> size v + Z.of_nat k < 2 ^ 62 ->
  exists v' h', str_range_loop h v (Some l) k i = Ok (v', h') /\ wfv h' v' /\
    contents h' v' = map Some (t ++ firstn k (skipn (Z.to_nat i) l)).
Proof.
  induction k as [|k IH]; intros h v i t W Fr C Hi Hk B; cbn [str_range_loop].
  - exists v, h. cbn. rewrite app_nil_r. auto.
  - unfold ext_at. replace ((0 <=? i) && (i <? Z.of_nat (length l))) with true by (unfold tlen in Hk; lia).
    cbn [bind].
    destruct (push_back_ok h v (Some (nth (Z.to_nat i) l 0)) W Fr ltac:(lia)) as (v1 & h1 & E & W1 & F1 & C1 & S1 & _).
    rewrite E. cbn [bind].
    destruct (IH h1 v1 (i + 1) (t ++ [nth (Z.to_nat i) l 0])) as (v2 & h2 & E2 & W2 & C2); auto; try lia.
    { apply F1; auto. }
    { rewrite C1, C, map_app. reflexivity. }
    exists v2, h2. split; [exact E2|]. split; [exact W2|]. rewrite C2. f_equal.
    rewrite <- app_assoc. f_equal.
    rewrite (skipn_nth_cons l (Z.to_nat i) 0) by (unfold tlen in Hk; lia).
    replace (Z.to_nat (i + 1)) with (S (Z.to_nat i)) by lia. reflexivity.
Qed.

Lemma str_count_size (h : hpz) l n : freshok h -> 0 <= n <= tlen l -> n < max_text ->
  exists v h', str_count h (Some l) n = Ok (v, h') /\ str_size v = (n - 1) mod 2 ^ 64 /\
    size v = n /\ (forall i, 0 <= i < n -> str_at h' v i = Ok (nth (Z.to_nat i) l 0)).
Proof.
  intros Fr Hn B. unfold max_text in B. unfold str_count.
  destruct (str_range_loop_ok l (Z.to_nat n) h vec_new 0 [] (wfv_new h) Fr eq_refl) as (v & h' & E & W & C).
  1-3: cbn; unfold tlen in *; lia.
  cbn [app skipn Z.to_nat] in C.
  exists v, h'. split; [exact E|]. pose proof (size_of _ _ _ W C) as S.
  rewrite firstn_length_le in S by (unfold tlen in *; lia).
  split; [unfold str_size, w64; rewrite S; f_equal; lia|]. split; [lia|].
  intros i Hi. unfold str_at. rewrite (byte_at_ok h' v _ i W C) by (rewrite firstn_length_le; unfold tlen in *; lia). f_equal.
  rewrite <- (firstn_skipn (Z.to_nat n) l) at 2. rewrite app_nth1; auto.
  rewrite firstn_length_le; unfold tlen in *; lia.
Qed.

Lemma cstr_unterminated n : forall fuel (h : hpz) v k i, wfv h v -> contents h v = map Some k ->
  Forall byte k -> size v = capacity v -> 0 <= i -> Z.of_nat n = size v - i -> (n < fuel)%nat ->
  0 < size v ->
  cstr_loop fuel h (elements v) i = UB OutOfBounds.
Proof.
  induction n as [|n IH]; intros fuel h v k i W C Fb Hc Hi Hn Hf Hp; (destruct fuel as [|fuel]; [lia|]);
    cbn [cstr_loop].
  - pose proof (wfv_len h v W) as L. destruct W as (Hs & _ & He). unfold byte_at, load, arr in *.
    destruct (elements v) as [b|]; [|lia]. destruct He as (_ & a & Ha & La). rewrite Ha in *.
    replace ((0 <=? i) && (i <? Z.of_nat (length a))) with false by lia. reflexivity.
  - pose proof (size_of h v k W C) as S.
    rewrite (byte_at_ok h v k i W C) by lia. cbn [bind].
    assert (nth (Z.to_nat i) k 0 <> 0).
    { rewrite Forall_forall in Fb. specialize (Fb (nth (Z.to_nat i) k 0)).
      unfold byte in Fb. assert (In (nth (Z.to_nat i) k 0) k) by (apply nth_In; lia). specialize (Fb H). lia. }
    replace (nth (Z.to_nat i) k 0 =? 0) with false by lia.
    rewrite (IH fuel h v k (i+1)) by (auto; lia). reflexivity.
Qed.

Lemma str_range_beyond l k : forall (h : hpz) v i t, wfv h v -> freshok h ->
  contents h v = map Some t -> 0 <= i <= tlen l -> tlen l < i + Z.of_nat k -> size v + Z.of_nat k < 2 ^ 62 ->
  str_range_loop h v (Some l) k i = UB OutOfBounds.
Proof.
  induction k as [|k IH]; intros h v i t W Fr C Hi Hk B; cbn [str_range_loop]; [lia|].
  unfold ext_at. destruct (Z.eq_dec i (tlen l)) as [E|N].
  - replace ((0 <=? i) && (i <? Z.of_nat (length l))) with false by (unfold tlen in *; lia). reflexivity.
  - replace ((0 <=? i) && (i <? Z.of_nat (length l))) with true by (unfold tlen in *; lia). cbn [bind].
    destruct (push_back_ok h v (Some (nth (Z.to_nat i) l 0)) W Fr ltac:(lia)) as (v1 & h1 & E & W1 & F1 & C1 & S1 & _).
    rewrite E. cbn [bind]. apply (IH h1 v1 (i + 1) (t ++ [nth (Z.to_nat i) l 0])); auto; try lia.
    { apply F1; auto. }
    rewrite C1, C, map_app. reflexivity.
Qed.
Lemma str_range_size (h : hpz) l n : freshok h -> 0 <= n -> n + 1 < max_text ->
  (n < tlen l -> exists v h', str_range h (Some l) n = Ok (v, h') /\ str_size v = n /\
     forall i, 0 <= i <= n -> str_at h' v i = Ok (nth (Z.to_nat i) l 0)) /\
  (tlen l <= n -> str_range h (Some l) n = UB OutOfBounds).
Proof.
  intros Fr Hn B. unfold max_text in B. unfold str_range. split; intros L.
  - destruct (str_range_loop_ok l (Z.to_nat (n + 1)) h vec_new 0 [] (wfv_new h) Fr eq_refl) as (v & h' & E & W & C).
    1-3: cbn; unfold tlen in *; lia.
    cbn [app skipn Z.to_nat] in C.
    exists v, h'. split; [exact E|]. pose proof (size_of _ _ _ W C) as S.
    rewrite firstn_length_le in S by (unfold tlen in *; lia).
    split; [unfold str_size, w64; rewrite S; rewrite Z.mod_small; lia|].
    intros i Hi. unfold str_at. rewrite (byte_at_ok h' v _ i W C) by (rewrite firstn_length_le; unfold tlen in *; lia). f_equal.
    rewrite <- (firstn_skipn (Z.to_nat (n + 1)) l) at 2. rewrite app_nth1; auto.
    rewrite firstn_length_le; unfold tlen in *; lia.
  - apply (str_range_beyond l _ h vec_new 0 [] (wfv_new h) Fr eq_refl); cbn; unfold tlen in *; lia.
Qed.
