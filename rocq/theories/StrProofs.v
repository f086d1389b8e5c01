From Coq Require Import ZArith List Lia Bool ZifyBool ZifyNat.
From Verif Require Import Mem VecModel VecSpec VecProofs VecRefine VecMore StrModel StrSpec.
Import ListNotations.
Open Scope Z_scope.

Definition byte c := 0 < c < 256.
Definition cells (l : text) : list (option Z) := map Some (l ++ [0]).

Lemma wfv_new (h : hpz) : wfv h vec_new.
Proof. unfold wfv, vec_new; cbn; lia. Qed.
Lemma contents_new (h : hpz) : contents h vec_new = [].
Proof. reflexivity. Qed.
Lemma wfv_clear (h : hpz) v : wfv h v -> wfv h (clear v).
Proof. intros (?&?&?). unfold wfv, clear; cbn. repeat split; auto; lia. Qed.
Lemma contents_clear (h : hpz) v : contents h (clear v) = [].
Proof. reflexivity. Qed.
Lemma frame_clear (h : hpz) v h' v' : frame h (clear v) h' v' -> frame h v h' v'.
Proof. intros F; exact F. Qed.

Lemma contents_nth (h : hpz) v i : wfv h v -> 0 <= i < size v ->
  nth (Z.to_nat i) (arr h v) None = nth (Z.to_nat i) (contents h v) None.
Proof.
  intros W Hi. unfold contents. pose proof (wfv_len h v W).
  rewrite <- (firstn_skipn (Z.to_nat (size v)) (arr h v)) at 1.
  rewrite app_nth1; auto. rewrite firstn_length. destruct W as (?&?&?). lia.
Qed.

Lemma byte_at_ok (h : hpz) v k i : wfv h v -> contents h v = map Some k ->
  0 <= i < Z.of_nat (length k) -> byte_at h (elements v) i = Ok (nth (Z.to_nat i) k 0).
Proof.
  intros W C Hi. pose proof (contents_length h v W) as L. rewrite C, map_length in L.
  unfold byte_at. rewrite vload_ok by (auto; destruct W as (?&_); lia). cbn [bind].
  rewrite contents_nth by (auto; lia). rewrite C.
  rewrite (nth_indep _ None (Some 0)) by (rewrite map_length; lia).
  rewrite (map_nth Some k 0). reflexivity.
Qed.

Lemma size_of (h : hpz) v k : wfv h v -> contents h v = map Some k -> size v = Z.of_nat (length k).
Proof. intros W C. pose proof (contents_length h v W) as L. rewrite C, map_length in L. lia. Qed.

Lemma size_cells (h : hpz) v l : wfv h v -> contents h v = cells l -> size v = tlen l + 1.
Proof. intros W C. rewrite (size_of h v _ W C), app_length. unfold tlen; cbn; lia. Qed.

(** set 0 after resize 1 *)
Lemma resize_set_ok (h : hpz) v : wfv h v -> freshok h -> size v = 0 ->
  exists v' h', ('(v1, h1) <- resize h v 1 ;; h2 <- set h1 v1 0 (Some 0) ;; Ok (v1, h2)) = Ok (v', h') /\
    wfv h' v' /\ frame h v h' v' /\ contents h' v' = cells [].
Proof.
  intros W Fr S0.
  destruct (resize_ok h v 1 W Fr ltac:(lia)) as (v1 & h1 & E & W1 & S1 & C1 & Ne & F1 & _).
  rewrite E. cbn [bind]. unfold set.
  destruct (vstore_ok h1 v1 0 (Some 0) W1) as (h2 & E2 & W2 & F2 & A2 & _).
  { destruct W1 as (?&_); lia. }
  rewrite E2. cbn [bind]. exists v1, h2. split; [reflexivity|].
  split; [apply W2; auto; apply W1|]. split; [eapply frame_trans; eauto|].
  unfold contents. rewrite S1, A2. pose proof (wfv_len h1 v1 W1) as L.
  destruct (arr h1 v1) as [|a t]; cbn in *; [destruct W1 as (?&_); lia|reflexivity].
Qed.

Lemma str_new_ok (h : hpz) : freshok h ->
  exists v' h', str_new h = Ok (v', h') /\ wfv h' v' /\ frame h vec_new h' v' /\ contents h' v' = cells [].
Proof. intros Fr. apply (resize_set_ok h vec_new (wfv_new h) Fr eq_refl). Qed.

Lemma str_clear_ok (h : hpz) v : wfv h v -> freshok h ->
  exists v' h', str_clear h v = Ok (v', h') /\ wfv h' v' /\ frame h v h' v' /\ contents h' v' = cells [].
Proof. intros W Fr. apply (resize_set_ok h (clear v) (wfv_clear h v W) Fr eq_refl). Qed.

Lemma cstring_byte m : forall l, cstring m = Some l -> Forall byte l.
Proof.
  induction m as [|c t IH]; cbn; intros l E; [discriminate|].
  destruct (c =? 0); [inversion E; constructor|].
  destruct (is_byte c) eqn:Eb; [|discriminate]. destruct (cstring t) as [k|]; [|discriminate].
  inversion E; subst. constructor; auto. unfold is_byte, byte in *; lia.
Qed.

Lemma str_lit_loop_ok m : forall l (h : hpz) v k, cstring m = Some l -> wfv h v -> freshok h ->
  contents h v = map Some k -> size v + tlen l + 1 < 2 ^ 62 ->
  exists v' h', str_lit_loop h v m = Ok (v', h') /\ wfv h' v' /\ frame h v h' v' /\
    contents h' v' = cells (k ++ l).
Proof.
  induction m as [|c t IH]; cbn [cstring]; intros l h v k E W Fr C B; [discriminate|].
  cbn [str_lit_loop]. destruct (c =? 0).
  - inversion E; subst. unfold tlen in B; cbn in B.
    destruct (push_back_ok h v (Some 0) W Fr ltac:(lia)) as (v' & h' & Ep & W' & F' & C' & _).
    exists v', h'. rewrite app_nil_r. repeat split; auto; try apply W'; try apply F'.
    rewrite C', C. unfold cells. rewrite map_app. reflexivity.
  - destruct (is_byte c) eqn:Eb; [|discriminate]. destruct (cstring t) as [l'|]; [|discriminate].
    inversion E; subst. unfold tlen in B; cbn in B.
    destruct (push_back_ok h v (Some c) W Fr ltac:(lia)) as (v1 & h1 & Ep & W1 & F1 & C1 & S1 & _).
    rewrite Ep. cbn [bind].
    destruct (IH l' h1 v1 (k ++ [c])) as (v2 & h2 & E2 & W2 & F2 & C2); auto.
    { apply F1; auto. }
    { rewrite C1, C, map_app. reflexivity. }
    { unfold tlen. lia. }
    exists v2, h2. split; [exact E2|]. split; [exact W2|]. split; [eapply frame_trans; eauto|].
    rewrite C2, <- app_assoc. reflexivity.
Qed.

Lemma str_lit_ok m l (h : hpz) : match m with None => Some [] | Some t => cstring t end = Some l ->
  freshok h -> tlen l < max_text ->
  exists v' h', str_lit h m = Ok (v', h') /\ wfv h' v' /\ frame h vec_new h' v' /\
    contents h' v' = cells l.
Proof.
  intros E Fr B. unfold max_text in B. destruct m as [m|]; cbn [str_lit].
  - apply (str_lit_loop_ok m l h vec_new [] E (wfv_new h) Fr eq_refl). cbn; lia.
  - inversion E; subst.
    destruct (push_back_ok h vec_new (Some 0) (wfv_new h) Fr) as (v' & h' & Ep & W' & F' & C' & _).
    { cbn; lia. }
    exists v', h'. auto.
Qed.

Lemma assign_cells (h : hpz) v y l : wfv h v -> wfv h y -> freshok h ->
  (forall b, elements y = Some b -> elements v <> Some b) ->
  contents h y = cells l -> tlen l < max_text ->
  exists v' h', assign h v (elements y) 0 (size y) = Ok (v', h') /\ wfv h' v' /\ frame h v h' v' /\
    contents h' v' = cells l.
Proof.
  intros W Wy Fr D C B. pose proof (size_cells h y l Wy C) as Sy. unfold max_text in B.
  destruct (assign_ok h v y 0 (size y) W Wy Fr D) as (v' & h' & E & W' & F' & C').
  1-3: unfold tlen in *; lia.
  exists v', h'. repeat split; auto; try apply W'; try apply F'.
  rewrite C', C. cbn [skipn Z.to_nat]. rewrite Z.sub_0_r, Sy. apply firstn_all2.
  unfold cells. rewrite map_length, app_length. unfold tlen; cbn; lia.
Qed.

Lemma firstn_contents (h : hpz) v k : wfv h v -> 0 <= k <= size v ->
  firstn (Z.to_nat k) (arr h v) = firstn (Z.to_nat k) (contents h v).
Proof. intros W Hk. unfold contents. rewrite firstn_firstn. f_equal. lia. Qed.

Lemma pop_contents (h : hpz) v l : wfv h v -> contents h v = cells l ->
  tlen l < max_text ->
  (if size v <? 1 then v else pop_back v) = Vec (elements v) (capacity v) (tlen l) /\
  wfv h (Vec (elements v) (capacity v) (tlen l)) /\
  contents h (Vec (elements v) (capacity v) (tlen l)) = map Some l.
Proof.
  intros W C B. pose proof (size_cells h v l W C) as S. unfold max_text in B.
  assert (0 <= tlen l) by (unfold tlen; lia).
  replace (size v <? 1) with false by lia.
  split; [|split].
  - unfold pop_back. rewrite w64_small by lia. f_equal. lia.
  - destruct W as (?&?&?). unfold wfv; cbn. repeat split; auto; lia.
  - change (firstn (Z.to_nat (tlen l)) (arr h v) = map Some l).
    rewrite firstn_contents by (auto; lia). rewrite C. unfold cells.
    rewrite map_app, firstn_app, map_length, firstn_all2 by (rewrite map_length; unfold tlen; lia).
    replace (Z.to_nat (tlen l) - length l)%nat with 0%nat by (unfold tlen; lia).
    cbn. apply app_nil_r.
Qed.

Lemma str_append_ok (h : hpz) v y a b : wfv h v -> wfv h y -> freshok h ->
  (forall p, elements y = Some p -> elements v <> Some p) ->
  contents h v = cells a -> contents h y = cells b -> tlen a < max_text -> tlen b < max_text ->
  exists v' h', str_append h v y = Ok (v', h') /\ wfv h' v' /\ frame h v h' v' /\
    contents h' v' = cells (a ++ b).
Proof.
  intros W Wy Fr D Ca Cb Ba Bb.
  destruct (pop_contents h v a W Ca Ba) as (Ep & Wp & Cp).
  pose proof (size_cells h y b Wy Cb) as Sy.
  unfold max_text in *. unfold str_append. cbv zeta. rewrite Ep.
  destruct (assign_loop_ok (Z.to_nat (size y)) h (Vec (elements v) (capacity v) (tlen a)) y 0)
    as (v' & h' & E & W' & F' & C'); auto; try lia.
  { cbn. unfold tlen in *. lia. }
  { destruct Wy as (?&_); unfold tlen in *; lia. }
  exists v', h'. split; [exact E|]. split; [exact W'|]. split; [exact F'|].
  rewrite C', Cp. cbn [skipn Z.to_nat]. fold (contents h y). rewrite Cb.
  unfold cells. rewrite !map_app, app_assoc. reflexivity.
Qed.

Lemma str_plus_ok (h : hpz) x y a b : wfv h x -> wfv h y -> freshok h ->
  contents h x = cells a -> contents h y = cells b -> tlen a < max_text -> tlen b < max_text ->
  exists v' h', str_plus h x y = Ok (v', h') /\ wfv h' v' /\ frame h vec_new h' v' /\
    contents h' v' = cells (a ++ b).
Proof.
  intros W Wy Fr Ca Cb Ba Bb. unfold str_plus, str_copy.
  destruct (assign_cells h vec_new x a (wfv_new h) W Fr) as (v1 & h1 & E1 & W1 & F1 & C1); auto.
  { discriminate. }
  rewrite E1. cbn [bind].
  destruct (frame_arr_same h vec_new h1 v1 y F1 Wy ltac:(discriminate)) as (A & Wy1 & D1).
  destruct (str_append_ok h1 v1 y a b) as (v2 & h2 & E2 & W2 & F2 & C2); auto.
  { apply F1; auto. }
  { unfold contents. rewrite A. exact Cb. }
  exists v2, h2. repeat split; auto; try apply W2; eapply frame_trans; eauto.
Qed.

Lemma nth_text (l : text) i : 0 <= i < tlen l -> Forall byte l -> nth (Z.to_nat i) (l ++ [0]) 0 <> 0.
Proof.
  intros Hi F. rewrite app_nth1 by (unfold tlen in Hi; lia).
  rewrite Forall_forall in F.
  specialize (F (nth (Z.to_nat i) l 0)). unfold byte in F.
  assert (In (nth (Z.to_nat i) l 0) l) by (apply nth_In; unfold tlen in Hi; lia).
  specialize (F H). lia.
Qed.
Lemma nth_term (l : text) : nth (Z.to_nat (tlen l)) (l ++ [0]) 0 = 0.
Proof.
  unfold tlen. rewrite app_nth2 by lia.
  replace (Z.to_nat (Z.of_nat (length l)) - length l)%nat with 0%nat by lia. reflexivity.
Qed.

Lemma skipn_nth_cons (l : list Z) i d : (i < length l)%nat -> skipn i l = nth i l d :: skipn (S i) l.
Proof.
  revert i; induction l as [|x t IH]; intros [|i] H; cbn in *; try lia; auto.
  rewrite (IH i) by lia. reflexivity.
Qed.

Lemma str_cstr_loop_ok n : forall fuel (h : hpz) v y l i k, wfv h v -> wfv h y -> freshok h ->
  (forall p, elements y = Some p -> elements v <> Some p) ->
  contents h y = cells l -> Forall byte l -> contents h v = map Some k ->
  0 <= i -> Z.of_nat n = tlen l - i -> (n < fuel)%nat -> size v + Z.of_nat n + 1 < 2 ^ 62 ->
  exists v' h', str_cstr_loop fuel h v (elements y) i = Ok (v', h') /\ wfv h' v' /\ frame h v h' v' /\
    contents h' v' = cells (k ++ skipn (Z.to_nat i) l).
Proof.
  induction n as [|n IH]; intros fuel h v y l i k W Wy Fr D C Fb Ck Hi Hn Hf B;
    (destruct fuel as [|fuel]; [lia|]); cbn [str_cstr_loop];
    rewrite (byte_at_ok h y (l ++ [0]) i Wy C) by (rewrite app_length; unfold tlen in Hn; cbn; lia);
    cbn [bind].
  - replace i with (tlen l) by lia. rewrite nth_term. cbn [Z.eqb].
    destruct (push_back_ok h v (Some 0) W Fr ltac:(lia)) as (v' & h' & Ep & W' & F' & C' & _).
    exists v', h'. split; [exact Ep|]. split; [exact W'|]. split; [exact F'|].
    rewrite C', Ck. rewrite skipn_all2 by (unfold tlen; lia). rewrite app_nil_r.
    unfold cells. rewrite map_app. reflexivity.
  - pose proof (nth_text l i ltac:(lia) Fb) as Nz.
    replace (nth (Z.to_nat i) (l ++ [0]) 0 =? 0) with false by lia.
    pose proof (size_cells h y l Wy C) as Sy.
    destruct (push_back_ref_ok h v y i W Wy Fr ltac:(lia) D) as (v1 & h1 & Ep & W1 & F1 & C1 & S1 & _).
    { destruct Wy as (?&_). lia. }
    rewrite Ep. cbn [bind].
    destruct (frame_arr_same h v h1 v1 y F1 Wy D) as (A & Wy1 & D1).
    destruct (IH fuel h1 v1 y l (i + 1) (k ++ [nth (Z.to_nat i) l 0])) as (v2 & h2 & E2 & W2 & F2 & C2); auto; try lia.
    { apply F1; auto. }
    { unfold contents. rewrite A. exact C. }
    { rewrite C1, Ck, map_app. f_equal. cbn [map]. f_equal.
      rewrite contents_nth by (auto; lia). rewrite C. unfold cells.
      rewrite (nth_indep _ None (Some 0)) by (rewrite map_length, app_length; unfold tlen in Hn; cbn; lia).
      rewrite (map_nth Some). rewrite app_nth1 by (unfold tlen in Hn; lia). reflexivity. }
    exists v2, h2. split; [exact E2|]. split; [exact W2|]. split; [eapply frame_trans; eauto|].
    rewrite C2, <- app_assoc. cbn [app].
    rewrite (skipn_nth_cons l (Z.to_nat i) 0) by (unfold tlen in Hn; lia).
    replace (Z.to_nat (i + 1)) with (S (Z.to_nat i)) by lia. reflexivity.
Qed.

Lemma str_from_cstr_ok (h : hpz) y l : wfv h y -> freshok h -> contents h y = cells l -> Forall byte l ->
  tlen l < max_text ->
  exists v' h', str_from_cstr h y = Ok (v', h') /\ wfv h' v' /\ frame h vec_new h' v' /\
    contents h' v' = cells l.
Proof.
  intros W Fr C Fb B. unfold max_text in B. unfold str_from_cstr.
  pose proof (size_cells h y l W C) as Sy.
  apply (str_cstr_loop_ok (length l) (S (Z.to_nat (capacity y))) h vec_new y l 0 [] (wfv_new h) W Fr); auto.
  - discriminate.
  - lia.
  - unfold tlen; lia.
  - destruct W as (?&_). unfold tlen in *. lia.
  - cbn. unfold tlen in *. lia.
Qed.

Lemma cstr_loop_ok n : forall fuel (h : hpz) v l i, wfv h v -> contents h v = cells l -> Forall byte l ->
  0 <= i -> Z.of_nat n = tlen l - i -> (n < fuel)%nat ->
  cstr_loop fuel h (elements v) i = Ok (skipn (Z.to_nat i) l).
Proof.
  induction n as [|n IH]; intros fuel h v l i W C Fb Hi Hn Hf;
    (destruct fuel as [|fuel]; [lia|]); cbn [cstr_loop];
    rewrite (byte_at_ok h v (l ++ [0]) i W C) by (rewrite app_length; unfold tlen in Hn; cbn; lia);
    cbn [bind].
  - replace i with (tlen l) by lia. rewrite nth_term. cbn [Z.eqb].
    rewrite skipn_all2 by (unfold tlen; lia). reflexivity.
  - pose proof (nth_text l i ltac:(lia) Fb) as Nz.
    replace (nth (Z.to_nat i) (l ++ [0]) 0 =? 0) with false by lia.
    rewrite (IH fuel h v l (i+1)) by (auto; lia). cbn [bind].
    rewrite (skipn_nth_cons l (Z.to_nat i) 0) by (unfold tlen in Hn; lia).
    rewrite app_nth1 by (unfold tlen in Hn; lia).
    replace (Z.to_nat (i + 1)) with (S (Z.to_nat i)) by lia. reflexivity.
Qed.

Lemma str_text_ok (h : hpz) v l : wfv h v -> contents h v = cells l -> Forall byte l ->
  str_text h v = Ok l.
Proof.
  intros W C Fb. unfold str_text. pose proof (size_cells h v l W C) as S. destruct W as (?&?&?) eqn:?.
  apply (cstr_loop_ok (length l) _ h v l 0); auto; unfold tlen in *; lia.
Qed.

Lemma compare_ok rp rq : forall a b i fuel, Forall byte a -> Forall byte b ->
  (forall k, 0 <= k <= tlen a -> rp (i + k) = Ok (nth (Z.to_nat k) (a ++ [0]) 0)) ->
  (forall k, 0 <= k <= tlen b -> rq (i + k) = Ok (nth (Z.to_nat k) (b ++ [0]) 0)) ->
  (length a < fuel)%nat ->
  exists z, compare_ fuel rp rq i = Ok z /\ (z ?= 0) = lex a b.
Proof.
  induction a as [|x a IH]; intros b i fuel Fa Fb Ha Hb Hf; (destruct fuel as [|fuel]; [cbn in *; lia|]);
    cbn [compare_].
  - pose proof (Ha 0 ltac:(cbn; lia)) as E. rewrite Z.add_0_r in E. rewrite E. cbn [bind nth Z.to_nat app Z.eqb].
    pose proof (Hb 0 ltac:(unfold tlen; lia)) as E'. rewrite Z.add_0_r in E'. rewrite E'. cbn [bind].
    eexists; split; [reflexivity|]. destruct b as [|y b]; cbn; [reflexivity|].
    inversion Fb; subst. unfold byte in *. apply Z.compare_lt_iff. lia.
  - pose proof (Ha 0 ltac:(unfold tlen; lia)) as E. rewrite Z.add_0_r in E. rewrite E. cbn [bind nth Z.to_nat app].
    inversion Fa as [|? ? Bx Fa']; subst. unfold byte in Bx. replace (x =? 0) with false by lia.
    pose proof (Hb 0 ltac:(unfold tlen; lia)) as E'. rewrite Z.add_0_r in E'. rewrite E'. cbn [bind].
    destruct b as [|y b]; cbn [app nth Z.to_nat].
    + replace (x =? 0) with false by lia. eexists; split; [reflexivity|]. cbn.
      apply Z.compare_gt_iff. lia.
    + cbn [lex]. inversion Fb as [|? ? By Fb']; subst. unfold byte in By. destruct (Z.eqb_spec x y) as [->|Hn].
      * rewrite Z.compare_refl. apply IH; auto.
        -- intros k Hk. replace (i + 1 + k) with (i + (k + 1)) by lia.
           rewrite Ha by (unfold tlen in *; cbn in *; lia).
           replace (Z.to_nat (k+1)) with (S (Z.to_nat k)) by lia. reflexivity.
        -- intros k Hk. replace (i + 1 + k) with (i + (k + 1)) by lia.
           rewrite Hb by (unfold tlen in *; cbn in *; lia).
           replace (Z.to_nat (k+1)) with (S (Z.to_nat k)) by lia. reflexivity.
        -- cbn in Hf; lia.
      * eexists; split; [reflexivity|].
        rewrite (Z.compare_sub x y). destruct (x - y) eqn:Exy; try reflexivity; lia.
Qed.

Lemma str_compare_ok (h : hpz) v u a b : wfv h v -> wfv h u -> contents h v = cells a ->
  contents h u = cells b -> Forall byte a -> Forall byte b ->
  exists z, str_compare h v u = Ok z /\ (z ?= 0) = lex a b.
Proof.
  intros W Wu Ca Cb Fa Fb. unfold str_compare. apply compare_ok; auto.
  - intros k Hk. cbn [Z.add]. apply byte_at_ok; auto. rewrite app_length; unfold tlen in *; cbn; lia.
  - intros k Hk. cbn [Z.add]. apply byte_at_ok; auto. rewrite app_length; unfold tlen in *; cbn; lia.
  - pose proof (size_cells h v a W Ca). destruct W as (?&_). unfold tlen in *; lia.
Qed.

Lemma cstring_nth m : forall b, cstring m = Some b ->
  (length b < length m)%nat /\ forall k, (k <= length b)%nat -> nth k m 0 = nth k (b ++ [0]) 0.
Proof.
  induction m as [|c t IH]; cbn [cstring]; intros b E; [discriminate|].
  destruct (Z.eqb_spec c 0).
  - inversion E; subst. cbn. split; [lia|]. intros [|k] Hk; [reflexivity|lia].
  - destruct (is_byte c); [|discriminate]. destruct (cstring t) as [b'|]; [|discriminate].
    inversion E; subst. destruct (IH b' eq_refl) as [L N]. cbn. split; [lia|].
    intros [|k] Hk; [reflexivity|]. apply N. lia.
Qed.

Lemma str_compare_lit_ok (h : hpz) v m a b : wfv h v -> contents h v = cells a ->
  cstring m = Some b -> Forall byte a ->
  exists z, str_compare_lit h v (Some m) = Ok z /\ (z ?= 0) = lex a b.
Proof.
  intros W Ca Cb Fa. unfold str_compare_lit. destruct (cstring_nth m b Cb) as [L N].
  apply compare_ok; auto.
  - eapply cstring_byte; eauto.
  - intros k Hk. cbn [Z.add]. apply byte_at_ok; auto. rewrite app_length; unfold tlen in *; cbn; lia.
  - intros k Hk. unfold tlen in Hk. cbn [Z.add]. unfold ext_at.
    replace ((0 <=? k) && (k <? Z.of_nat (length m))) with true by lia.
    rewrite N by lia. reflexivity.
  - pose proof (size_cells h v a W Ca). destruct W as (?&_). unfold tlen in *; lia.
Qed.

(** The refinement. *)
Definition SR (s : tstate) (w : sworld) : Prop := forall x,
  match s x, vecs w x with
  | Some l, Some v => contents (hp w) v = cells l /\ Forall byte l /\ tlen l < max_text
  | None, None => True
  | _, _ => False
  end.

Lemma sr0 : SR tspec0 world0.
Proof. intros x; cbn; exact I. Qed.

Lemma sput (s : tstate) (w : sworld) x v h' v' l : Inv w -> SR s w -> old_at w x v ->
  frame (hp w) v h' v' -> wfv h' v' -> contents h' v' = cells l -> Forall byte l -> tlen l < max_text ->
  Inv (put w x v' h') /\ SR (tset s x (Some l)) (put w x v' h').
Proof.
  intros I HR O F W C Fb B. pose proof (size_cells h' v' l W C) as S.
  destruct (put_inv w x v h' v' I O F W) as [I' K]; [unfold max_text, max_len in *; lia|].
  split; [exact I'|]. intros y. unfold tset, put; cbn [hp vecs].
  destruct (Nat.eqb_spec y x) as [->|Hy].
  - rewrite upd_same. auto.
  - rewrite upd_other by auto. specialize (HR y).
    destruct (s y) as [ly|], (vecs w y) as [u|] eqn:Eu; auto.
    rewrite (K y u); auto.
Qed.

Lemma sr_get (s : tstate) w x l : SR s w -> s x = Some l ->
  exists v, vecs w x = Some v /\ contents (hp w) v = cells l /\ Forall byte l /\ tlen l < max_text.
Proof.
  intros HR E. specialize (HR x). rewrite E in HR.
  destruct (vecs w x) as [v|]; [|contradiction]. exists v. auto.
Qed.
Lemma sr_none (s : tstate) w x : SR s w -> s x = None -> vecs w x = None.
Proof. intros HR E. specialize (HR x). rewrite E in HR. destruct (vecs w x); [contradiction|reflexivity]. Qed.

Lemma create_ok (s : tstate) (w : sworld) x m l r s' : Inv w -> SR s w ->
  tnew s x l = Some (r, s') -> Forall byte l ->
  (tlen l < max_text -> exists v' h', m = Ok (v', h') /\ wfv h' v' /\ frame (hp w) vec_new h' v' /\ contents h' v' = cells l) ->
  exists r' w', create w x m = Ok (r', w') /\ xout_ok r r' /\ Inv w' /\ SR s' w'.
Proof.
  intros I HR E Fb Hm. unfold tnew in E. destruct (s x) eqn:Ex; [discriminate|].
  destruct (Z.ltb_spec (tlen l) max_text) as [B|]; [|discriminate]. inversion E; subst; clear E.
  pose proof (sr_none s w x HR Ex) as Nx. unfold create. rewrite Nx.
  destruct (Hm B) as (v' & h' & -> & W & F & C). cbn [bind].
  eexists _, _. split; [reflexivity|]. split; [exact Logic.I|].
  eapply sput; eauto. right; auto.
Qed.

Ltac got HR H := let v := fresh "v" in let Hv := fresh "Hv" in let C := fresh "C" in
  let Fb := fresh "Fb" in let B := fresh "B" in
  destruct (sr_get _ _ _ _ HR H) as (v & Hv & C & Fb & B); rewrite ?Hv; cbn [bind].

Lemma Forall_erase (P : Z -> Prop) l i : Forall P l -> Forall P (firstn i l ++ skipn (S i) l).
Proof.
  intros F. revert i. induction F as [|c t Hc Ht IH]; intros i; [destruct i; constructor|].
  destruct i as [|i]; [exact Ht|]. cbn. constructor; auto. apply IH.
Qed.

Lemma set_ok (s : tstate) (w : sworld) x v l i c : Inv w -> SR s w -> vecs w x = Some v ->
  contents (hp w) v = cells l -> Forall byte l -> 0 <= i < tlen l -> byte c -> tlen l < max_text ->
  exists h, set (hp w) v i (Some c) = Ok h /\ Inv (World h (vecs w)) /\
    SR (tset s x (Some (firstn (Z.to_nat i) l ++ c :: skipn (S (Z.to_nat i)) l))) (World h (vecs w)).
Proof.
  intros I HR Hv C Fb Hi Hc B. pose proof (inv_wf w I x v Hv) as W.
  pose proof (size_cells _ _ _ W C) as Sv.
  destruct (vstore_ok (hp w) v i (Some c) W) as (h & E & W' & F & A & _).
  { destruct W as (?&_). lia. }
  exists h. split; [exact E|].
  set (l' := firstn (Z.to_nat i) l ++ c :: skipn (S (Z.to_nat i)) l).
  assert (Ll : length l' = length l).
  { unfold l'. rewrite app_length, firstn_length. cbn [length]. rewrite skipn_length. unfold tlen in Hi; lia. }
  assert (Hp : Inv (put w x v h) /\ SR (tset s x (Some l')) (put w x v h)).
  { eapply sput; eauto.
    - left; exact Hv.
    - apply W'; auto; apply W.
    - unfold contents. rewrite A.
      rewrite set_nth_split by (pose proof (wfv_len _ _ W); destruct W as (?&_); lia).
      assert (X : cells l' = set_nth (cells l) (Z.to_nat i) (Some c)).
      { unfold cells, l'. rewrite set_nth_split by (rewrite map_length, app_length; unfold tlen in Hi; lia).
        rewrite firstn_map, skipn_map, <- map_cons, <- map_app. f_equal.
        rewrite firstn_app, skipn_app.
        replace (Z.to_nat i - length l)%nat with 0%nat by (unfold tlen in Hi; lia).
        replace (S (Z.to_nat i) - length l)%nat with 0%nat by (unfold tlen in Hi; lia).
        cbn [firstn skipn]. rewrite app_nil_r. rewrite <- app_assoc. reflexivity. }
      rewrite X, <- C. unfold contents.
      rewrite <- set_nth_split by (pose proof (wfv_len _ _ W); destruct W as (?&_); lia).
      assert (G : forall (k : list (option Z)) n j, (j < n)%nat ->
        firstn n (set_nth k j (Some c)) = set_nth (firstn n k) j (Some c)).
      { induction k as [|e k IHk]; intros [|n] [|j] Hj; cbn; auto; try lia. rewrite IHk by lia. reflexivity. }
      apply G. lia.
    - unfold l'. apply Forall_app. rewrite <- (firstn_skipn (S (Z.to_nat i)) l) in Fb.
      apply Forall_app in Fb. destruct Fb as [F1 F2]. split.
      + rewrite Forall_forall in *. intros z Hz. apply F1.
        assert (In z (firstn (Z.to_nat i) (firstn (S (Z.to_nat i)) l))).
        { rewrite firstn_firstn. replace (Nat.min (Z.to_nat i) (S (Z.to_nat i))) with (Z.to_nat i) by lia. exact Hz. }
        rewrite <- (firstn_skipn (Z.to_nat i) (firstn (S (Z.to_nat i)) l)). apply in_or_app. auto.
      + constructor; auto.
    - unfold tlen in *. rewrite Ll. exact B. }
  destruct Hp as [I2 R2]. split.
  - destruct I2 as [a1 a2 a3 a4 a5]. cbn [put hp vecs] in *.
    assert (Q : forall y, upd (vecs w) x (Some v) y = vecs w y).
    { intros y. destruct (Nat.eq_dec y x) as [->|]; [rewrite upd_same; auto|rewrite upd_other; auto]. }
    split; cbn [hp vecs]; auto.
    + intros y u. rewrite <- Q. apply a2.
    + intros y z u t b. rewrite <- (Q y), <- (Q z). apply a3.
    + intros b Hb. destruct (a4 b Hb) as (y & u & H). rewrite Q in H. eauto.
    + intros y u. rewrite <- Q. apply a5.
  - intros y. specialize (R2 y). cbn [put hp vecs] in *.
    destruct (Nat.eq_dec y x) as [->|]; [rewrite upd_same in R2; rewrite Hv; exact R2|rewrite upd_other in R2; auto].
Qed.

Lemma cells_erase l i : 0 <= i < tlen l ->
  firstn (Z.to_nat i) (cells l) ++ skipn (S (Z.to_nat i)) (cells l) =
  cells (firstn (Z.to_nat i) l ++ skipn (S (Z.to_nat i)) l).
Proof.
  intros Hi. unfold cells. rewrite firstn_map, skipn_map, <- map_app. f_equal.
  rewrite firstn_app, skipn_app.
  replace (Z.to_nat i - length l)%nat with 0%nat by (unfold tlen in Hi; lia).
  replace (S (Z.to_nat i) - length l)%nat with 0%nat by (unfold tlen in Hi; lia).
  cbn [firstn skipn]. rewrite app_nil_r, app_assoc. reflexivity.
Qed.

Lemma delete_ok (s : tstate) (w : sworld) x v : Inv w -> SR s w -> vecs w x = Some v ->
  exists h, vec_delete (hp w) v = Ok h /\ Inv (World h (upd (vecs w) x None)) /\
    SR (tset s x None) (World h (upd (vecs w) x None)).
Proof.
  intros I HR Hv. pose proof (inv_wf w I x v Hv) as (Hs & Hc & He).
  unfold vec_delete, deallocate. destruct (elements v) as [b|] eqn:Ev.
  - destruct He as (_ & a & Ha & La). rewrite Ha. eexists. split; [reflexivity|].
    assert (K : forall y u, y <> x -> vecs w y = Some u ->
       forall b', elements u = Some b' -> b' <> b).
    { intros y u Hy Hu b' Hb' ->. apply (inv_disj w I y x u v b Hy Hu Hv Hb' Ev). }
    split; [split|]; cbn [hp vecs mem].
    + intros b' Hb'. cbn in *. unfold upd_mem. destruct (Nat.eqb b' b); [reflexivity|]. apply (inv_fresh w I). exact Hb'.
    + intros y u. destruct (Nat.eq_dec y x) as [->|Hy]; [rewrite upd_same; discriminate|].
      rewrite upd_other by auto. intros Hu. pose proof (inv_wf w I y u Hu) as (A1 & A2 & A3).
      unfold wfv. repeat split; auto; try lia. destruct (elements u) as [b'|] eqn:Eu; auto.
      cbn [mem]. rewrite upd_mem_other; auto. eapply K; eauto.
    + intros y z u t b'. destruct (Nat.eq_dec y x) as [->|Hy]; [rewrite upd_same; discriminate|].
      destruct (Nat.eq_dec z x) as [->|Hz]; [rewrite upd_same; discriminate|].
      rewrite !upd_other by auto. apply (inv_disj w I y z).
    + intros b' Hb'. destruct (Nat.eq_dec b' b) as [->|Hn]; [rewrite upd_mem_same in Hb'; congruence|].
      rewrite upd_mem_other in Hb' by auto. destruct (inv_noleak w I b' Hb') as (y & u & Hu & Hb).
      exists y, u. rewrite upd_other; auto. intros ->. congruence.
    + intros y u. destruct (Nat.eq_dec y x) as [->|Hy]; [rewrite upd_same; discriminate|].
      rewrite upd_other by auto. apply I.
    + intros y. unfold tset. cbn [hp vecs]. destruct (Nat.eqb_spec y x) as [->|Hy]; [rewrite upd_same; exact Logic.I|].
      rewrite upd_other by auto. specialize (HR y).
      destruct (s y) as [l|], (vecs w y) as [u|] eqn:Eu; auto.
      destruct HR as (C & Fb & B). split; auto.
      rewrite <- C. unfold contents, arr. destruct (elements u) as [b'|] eqn:Eu'; auto.
      cbn [mem]. rewrite upd_mem_other; auto. eapply K; eauto.
  - exists (hp w). split; [reflexivity|]. split; [split|]; cbn [hp vecs].
    + apply I.
    + intros y u. destruct (Nat.eq_dec y x) as [->|Hy]; [rewrite upd_same; discriminate|].
      rewrite upd_other by auto. apply I.
    + intros y z u t b'. destruct (Nat.eq_dec y x) as [->|Hy]; [rewrite upd_same; discriminate|].
      destruct (Nat.eq_dec z x) as [->|Hz]; [rewrite upd_same; discriminate|].
      rewrite !upd_other by auto. apply (inv_disj w I y z).
    + intros b' Hb'. destruct (inv_noleak w I b' Hb') as (y & u & Hu & Hb).
      exists y, u. rewrite upd_other; auto. intros ->. congruence.
    + intros y u. destruct (Nat.eq_dec y x) as [->|Hy]; [rewrite upd_same; discriminate|].
      rewrite upd_other by auto. apply I.
    + intros y. unfold tset. cbn [hp vecs]. destruct (Nat.eqb_spec y x) as [->|Hy]; [rewrite upd_same; exact Logic.I|].
      rewrite upd_other by auto. apply HR.
Qed.

Lemma cmp_bools z c : (z ?= 0) = c ->
  (z =? 0) = match c with Eq => true | _ => false end /\
  (z <? 0) = match c with Lt => true | _ => false end /\
  (z >? 0) = match c with Gt => true | _ => false end.
Proof. intros <-. destruct (Z.compare_spec z 0); repeat split; lia. Qed.

Lemma cells_inj a b : cells a = cells b -> a = b.
Proof.
  unfold cells. rewrite !map_app. intros E. apply app_inj_tail in E. destruct E as [E _].
  revert b E. induction a as [|x a IH]; intros [|y b] E; cbn in *; try discriminate; auto.
  inversion E; subst. f_equal. auto.
Qed.

Lemma sstep_refines (s : tstate) w o r s' : Inv w -> SR s w -> tspec_step s o = Some (r, s') ->
  exists r' w', sstep w o = Ok (r', w') /\ xout_ok r r' /\ Inv w' /\ SR s' w'.
Proof.
  intros I HR. pose proof (inv_fresh w I) as Fr.
  destruct o as [x|x m|x y|x y|x y z|x|x y|x|x y|x i|x i c|x|x|x i|x|x y|x m|x y|x y|x y|x y];
    cbn [tspec_step sstep]; unfold tget, find.
  - intros E. eapply create_ok; eauto. intros _. apply str_new_ok; auto.
  - destruct m as [m|]; intros E.
    + destruct (cstring m) as [l|] eqn:El; [|discriminate].
      eapply create_ok; eauto; [eapply cstring_byte; eauto|]. intros B.
      apply (str_lit_ok (Some m) l); auto.
    + eapply create_ok; eauto. intros B. apply (str_lit_ok None []); auto.
  - destruct (s y) as [l|] eqn:Ey; [|discriminate]. intros E. got HR Ey.
    eapply create_ok; eauto. intros _. eapply str_from_cstr_ok; eauto. eapply inv_wf; eauto.
  - destruct (s y) as [l|] eqn:Ey; [|discriminate]. intros E. got HR Ey.
    eapply create_ok; eauto. intros _. apply assign_cells; auto using wfv_new; try discriminate.
    eapply inv_wf; eauto.
  - destruct (s y) as [a|] eqn:Ey; [|discriminate].
    destruct (s z) as [b|] eqn:Ez; [|discriminate]. intros E. got HR Ey. got HR Ez.
    eapply create_ok; eauto; [apply Forall_app; auto|]. intros _.
    apply str_plus_ok; auto; eapply inv_wf; eauto.
  - destruct (s x) as [l|] eqn:Ex; [|discriminate]. intros E. inversion E; subst; clear E. got HR Ex.
    destruct (delete_ok s w x v I HR Hv) as (h & E & I' & R'). rewrite E. cbn [bind].
    eexists _, _. split; [reflexivity|]. split; [exact Logic.I|]. auto.
  - destruct (s x) as [lx|] eqn:Ex; [|discriminate].
    destruct (s y) as [l|] eqn:Ey; [|discriminate]. unfold tupd.
    destruct (Z.ltb_spec (tlen l) max_text) as [B0|]; [|discriminate].
    intros E. inversion E; subst; clear E. got HR Ex. got HR Ey.
    destruct (Nat.eqb_spec x y) as [->|Hn].
    + eexists _, _. split; [reflexivity|]. split; [exact Logic.I|]. split; [exact I|].
      intros z. unfold tset. destruct (Nat.eqb_spec z y) as [->|]; [|apply HR].
      specialize (HR y). rewrite Ey in HR. exact HR.
    + destruct (assign_cells (hp w) v v0 l) as (v' & h' & E & W' & F' & C'); auto.
      * eapply inv_wf; eauto.
      * eapply inv_wf; eauto.
      * intros b Hb Hb'. eapply (inv_disj w I y x); eauto.
      * unfold str_assign. rewrite E. cbn [bind]. eexists _, _. split; [reflexivity|].
        split; [exact Logic.I|]. eapply sput; eauto. left; exact Hv.
  - destruct (s x) as [lx|] eqn:Ex; [|discriminate]. unfold tupd. cbn [tlen length Z.of_nat].
    intros E. inversion E; subst; clear E. got HR Ex.
    destruct (str_clear_ok (hp w) v) as (v' & h' & E & W' & F' & C'); auto.
    { eapply inv_wf; eauto. }
    rewrite E. cbn [bind]. eexists _, _. split; [reflexivity|]. split; [exact Logic.I|].
    eapply sput; eauto; [left; exact Hv|reflexivity].
  - destruct (s x) as [a|] eqn:Ex; [|discriminate].
    destruct (s y) as [b|] eqn:Ey; [|discriminate].
    destruct (Nat.eqb_spec x y) as [|Hn]; [discriminate|]. unfold tupd.
    destruct (Z.ltb_spec (tlen (a ++ b)) max_text) as [B0|]; [|discriminate].
    intros E. inversion E; subst; clear E. got HR Ex. got HR Ey.
    destruct (str_append_ok (hp w) v v0 a b) as (v' & h' & E & W' & F' & C'); auto.
    + eapply inv_wf; eauto.
    + eapply inv_wf; eauto.
    + intros p Hb Hb'. eapply (inv_disj w I y x); eauto.
    + rewrite E. cbn [bind]. eexists _, _. split; [reflexivity|]. split; [exact Logic.I|].
      eapply sput; eauto; [left; exact Hv|apply Forall_app; auto].
  - destruct (s x) as [l|] eqn:Ex; [|discriminate].
    destruct ((0 <=? i) && (i <? tlen l)) eqn:Ei; [|discriminate]. unfold tupd.
    destruct (Z.ltb_spec (tlen (firstn (Z.to_nat i) l ++ skipn (S (Z.to_nat i)) l)) max_text) as [B0|]; [|discriminate].
    intros E. inversion E; subst; clear E. got HR Ex.
    pose proof (inv_wf w I x v Hv) as W. pose proof (size_cells _ _ _ W C) as Sv.
    destruct (erase_ok (hp w) v i W ltac:(lia)) as (v' & h' & E & W' & F' & S' & _ & _ & C').
    unfold str_erase. rewrite E. cbn [bind]. eexists _, _. split; [reflexivity|]. split; [exact Logic.I|].
    eapply sput; eauto; [left; exact Hv| |apply Forall_erase; auto].
    rewrite C', C. apply cells_erase. lia.
  - destruct (s x) as [l|] eqn:Ex; [|discriminate].
    destruct ((0 <=? i) && (i <? tlen l) && is_byte c) eqn:Ei; [|discriminate]. unfold tupd.
    destruct (Z.ltb_spec (tlen (firstn (Z.to_nat i) l ++ c :: skipn (S (Z.to_nat i)) l)) max_text) as [B0|]; [|discriminate].
    intros E. inversion E; subst; clear E. got HR Ex.
    destruct (set_ok s w x v l i c) as (h & E & I' & R'); auto; try lia.
    { unfold is_byte, byte in *. lia. }
    rewrite E. cbn [bind]. eexists _, _. split; [reflexivity|]. split; [exact Logic.I|]. auto.
  - destruct (s x) as [l|] eqn:Ex; [|discriminate]. intros E. inversion E; subst; clear E. got HR Ex.
    eexists _, _. split; [reflexivity|]. split; [|auto]. cbn.
    pose proof (size_cells _ _ _ (inv_wf w I x v Hv) C) as Sv. unfold str_size. rewrite Sv.
    unfold max_text, tlen in *. rewrite w64_small by lia. lia.
  - discriminate.
  - destruct (s x) as [l|] eqn:Ex; [|discriminate].
    destruct ((0 <=? i) && (i <=? tlen l)) eqn:Ei; [|discriminate].
    intros E. inversion E; subst; clear E. got HR Ex.
    unfold str_at. rewrite (byte_at_ok (hp w) v (l ++ [0]) i); auto.
    + cbn [bind]. eexists _, _. split; [reflexivity|]. split; [reflexivity|]. auto.
    + eapply inv_wf; eauto.
    + rewrite app_length. unfold tlen in Ei. cbn; lia.
  - destruct (s x) as [l|] eqn:Ex; [|discriminate]. intros E. inversion E; subst; clear E. got HR Ex.
    rewrite (str_text_ok (hp w) v l); auto; [|eapply inv_wf; eauto].
    cbn [bind]. eexists _, _. split; [reflexivity|]. split; [reflexivity|]. auto.
  - destruct (s x) as [a|] eqn:Ex; [|discriminate].
    destruct (s y) as [b|] eqn:Ey; [|discriminate]. intros E. inversion E; subst; clear E. got HR Ex. got HR Ey.
    destruct (str_compare_ok (hp w) v v0 a b) as (z & E & Hz); auto; try (eapply inv_wf; eauto).
    rewrite E. cbn [bind]. eexists _, _. split; [reflexivity|]. split; [exact Hz|]. auto.
  - destruct m as [m|]; [|discriminate].
    destruct (s x) as [a|] eqn:Ex; [|discriminate].
    destruct (cstring m) as [b|] eqn:Em; [|discriminate]. intros E. inversion E; subst; clear E. got HR Ex.
    destruct (str_compare_lit_ok (hp w) v m a b) as (z & E & Hz); auto; try (eapply inv_wf; eauto).
    rewrite E. cbn [bind]. eexists _, _. split; [reflexivity|]. split; [exact Hz|]. auto.
  - destruct (s x) as [a|] eqn:Ex; [|discriminate].
    destruct (s y) as [b|] eqn:Ey; [|discriminate]. intros E. inversion E; subst; clear E. got HR Ex. got HR Ey.
    destruct (str_compare_ok (hp w) v v0 a b) as (z & E & Hz); auto; try (eapply inv_wf; eauto).
    rewrite E. cbn [bind]. eexists _, _. split; [reflexivity|]. split; [|auto].
    cbn. destruct (cmp_bools _ _ Hz) as (-> & _ & _). reflexivity.
  - destruct (s x) as [a|] eqn:Ex; [|discriminate].
    destruct (s y) as [b|] eqn:Ey; [|discriminate]. intros E. inversion E; subst; clear E. got HR Ex. got HR Ey.
    destruct (str_compare_ok (hp w) v v0 a b) as (z & E & Hz); auto; try (eapply inv_wf; eauto).
    rewrite E. cbn [bind]. eexists _, _. split; [reflexivity|]. split; [|auto].
    cbn. destruct (cmp_bools _ _ Hz) as (-> & _ & _). destruct (lex a b); reflexivity.
  - destruct (s x) as [a|] eqn:Ex; [|discriminate].
    destruct (s y) as [b|] eqn:Ey; [|discriminate]. intros E. inversion E; subst; clear E. got HR Ex. got HR Ey.
    destruct (str_compare_ok (hp w) v v0 a b) as (z & E & Hz); auto; try (eapply inv_wf; eauto).
    rewrite E. cbn [bind]. eexists _, _. split; [reflexivity|]. split; [|auto].
    cbn. destruct (cmp_bools _ _ Hz) as (_ & -> & _). reflexivity.
  - destruct (s x) as [a|] eqn:Ex; [|discriminate].
    destruct (s y) as [b|] eqn:Ey; [|discriminate]. intros E. inversion E; subst; clear E. got HR Ex. got HR Ey.
    destruct (str_compare_ok (hp w) v v0 a b) as (z & E & Hz); auto; try (eapply inv_wf; eauto).
    rewrite E. cbn [bind]. eexists _, _. split; [reflexivity|]. split; [|auto].
    cbn. destruct (cmp_bools _ _ Hz) as (_ & _ & ->). reflexivity.
Qed.

Lemma srun_refines ops : forall s w outs s', Inv w -> SR s w -> tspec_run s ops = Some (outs, s') ->
  exists outs' w', srun w ops = Ok (outs', w') /\ Forall2 xout_ok outs outs' /\ Inv w' /\ SR s' w'.
Proof.
  induction ops as [|o t IH]; cbn [tspec_run srun]; intros s w outs s' I HR E.
  - inversion E; subst. exists [], w. auto.
  - destruct (tspec_step s o) as [[r s1]|] eqn:E1; [|discriminate].
    destruct (tspec_run s1 t) as [[rs s2]|] eqn:E2; [|discriminate]. inversion E; subst.
    destruct (sstep_refines s w o r s1 I HR E1) as (r' & w1 & Es & Or & I1 & R1).
    destruct (IH s1 w1 rs s' I1 R1 E2) as (rs' & w2 & Es2 & Ors & I2 & R2).
    rewrite Es. cbn [bind]. rewrite Es2. cbn [bind]. exists (r' :: rs'), w2. auto.
Qed.
