From Coq Require Import ZArith List Lia Bool ZifyBool ZifyNat.
From Verif Require Import Mem VecModel VecSpec.
Import ListNotations.
Open Scope Z_scope.

Lemma w64_small z : 0 <= z < 2 ^ 64 -> w64 z = z.
Proof. intros H. unfold w64. apply Z.mod_small. exact H. Qed.

Section ListAux.
  Context {A : Type}.
  Implicit Types (l : list A).
  Lemma set_nth_length l i x : length (set_nth l i x) = length l.
  Proof. revert i; induction l as [|y t IH]; intros [|i]; cbn; auto. Qed.
  Lemma nth_set_nth l i j x d : (i < length l)%nat ->
    nth j (set_nth l i x) d = if Nat.eqb j i then x else nth j l d.
  Proof.
    revert i j; induction l as [|y t IH]; intros i j H; cbn in H; [lia|].
    destruct i as [|i], j as [|j]; cbn; auto.
    rewrite IH by lia. reflexivity.
  Qed.
  Lemma set_nth_split l i x : (i < length l)%nat ->
    set_nth l i x = firstn i l ++ x :: skipn (S i) l.
  Proof.
    revert i; induction l as [|y t IH]; intros [|i] H; cbn in *; try lia; auto.
    rewrite IH by lia. reflexivity.
  Qed.
  Lemma firstn_set_nth_ge l i n x : (n <= i)%nat ->
    firstn n (set_nth l i x) = firstn n l.
  Proof.
    revert i n; induction l as [|y t IH]; intros [|i] [|n] H; cbn; auto; try lia.
    rewrite IH by lia. reflexivity.
  Qed.
  Lemma firstn_S_nth l n d : (n < length l)%nat ->
    firstn (S n) l = firstn n l ++ [nth n l d].
  Proof.
    revert n; induction l as [|y t IH]; intros [|n] H; cbn in *; try lia; auto.
    rewrite (IH n) by lia. reflexivity.
  Qed.
  Lemma nth_ext_firstn l l' n d : (n <= length l)%nat -> (n <= length l')%nat ->
    (forall i, (i < n)%nat -> nth i l d = nth i l' d) -> firstn n l = firstn n l'.
  Proof.
    revert l l'; induction n as [|n IH]; intros l l' H H' E; auto.
    rewrite (firstn_S_nth l n d), (firstn_S_nth l' n d) by lia.
    rewrite (IH l l') by (try lia; intros; apply E; lia).
    rewrite (E n) by lia. reflexivity.
  Qed.
End ListAux.

Section P.
  Context {V : Type}.
  Notation heap := (heap V).
  Notation cell := (option V).
  Notation world := (world V).
  Implicit Types (h : heap) (v : vec).

  Definition freshok h := forall b, (fresh h <= b)%nat -> mem h b = None.

  Definition arr h v : list cell :=
    match elements v with
    | None => []
    | Some b => match mem h b with Some a => a | None => [] end
    end.

  Definition contents h v : list cell := firstn (Z.to_nat (size v)) (arr h v).

  (** Representation invariant of one vector. *)
  Definition wfv h v : Prop :=
    0 <= size v <= capacity v /\ capacity v < 2 ^ 63 /\
    match elements v with
    | None => capacity v = 0
    | Some b => 1 <= capacity v /\ exists a, mem h b = Some a /\ Z.of_nat (length a) = capacity v
    end.

  Definition frame h v h' v' : Prop :=
    (forall b, elements v <> Some b -> elements v' <> Some b -> mem h' b = mem h b) /\
    (elements v' = elements v \/
      ((forall b, elements v' = Some b -> mem h b = None) /\
       (forall b, elements v = Some b -> mem h' b = None))) /\
    (freshok h -> freshok h').

  Lemma frame_refl h v : frame h v h v.
  Proof. unfold frame; auto. Qed.

  Lemma ptr_eq_dec (p q : ptr) : {p = q} + {p <> q}.
  Proof. repeat decide equality. Qed.

  Lemma frame_trans h v h' v' h'' v'' :
    frame h v h' v' -> frame h' v' h'' v'' -> frame h v h'' v''.
  Proof.
    intros (F1 & D1 & R1) (F2 & D2 & R2). split; [|split]; auto.
    - intros b Hb Hb''.
      destruct (ptr_eq_dec (elements v') (Some b)) as [E|E].
      + destruct D1 as [D1|[D1 D1']]; [congruence|].
        destruct D2 as [D2|[D2 D2']]; [congruence|].
        rewrite (D1 b E), (D2' b E). reflexivity.
      + rewrite F2, F1 by congruence. reflexivity.
    - destruct (ptr_eq_dec (elements v'') (elements v)) as [E|E]; [left; exact E|right].
      split; intros b Hb.
      + destruct (ptr_eq_dec (elements v') (Some b)) as [E'|E'].
        * destruct D1 as [D1|[D1 D1']]; [congruence|]. auto.
        * destruct D2 as [D2|[D2 D2']]; [congruence|].
          rewrite <- F1 by congruence. auto.
      + destruct (ptr_eq_dec (elements v') (Some b)) as [E'|E'].
        * destruct D2 as [D2|[D2 D2']]; [congruence|]. auto.
        * destruct D1 as [D1|[D1 D1']]; [congruence|].
          rewrite F2 by congruence. auto.
  Qed.

  Lemma load_ok h b a i : mem h b = Some a -> 0 <= i < Z.of_nat (length a) ->
    load h (Some b) i = Ok (nth (Z.to_nat i) a None).
  Proof.
    intros H Hi. unfold load. rewrite H.
    replace ((0 <=? i) && (i <? Z.of_nat (length a))) with true by lia. reflexivity.
  Qed.

  Lemma store_ok h b a i c : mem h b = Some a -> 0 <= i < Z.of_nat (length a) ->
    store h (Some b) i c =
      Ok (Heap (upd_mem (mem h) b (Some (set_nth a (Z.to_nat i) c))) (fresh h) (allocs h) (moves h)).
  Proof.
    intros H Hi. unfold store. rewrite H.
    replace ((0 <=? i) && (i <? Z.of_nat (length a))) with true by lia. reflexivity.
  Qed.

  Lemma upd_mem_same (m : nat -> option (list cell)) b x : upd_mem m b x b = x.
  Proof. unfold upd_mem. rewrite Nat.eqb_refl. reflexivity. Qed.
  Lemma upd_mem_other (m : nat -> option (list cell)) b x b' : b' <> b -> upd_mem m b x b' = m b'.
  Proof. unfold upd_mem. destruct (Nat.eqb_spec b' b); congruence. Qed.

  (** The relocation loop copies the first [k] cells from position [i]. *)
  Lemma copy_loop_ok k : forall i h d s ad asrc,
    d <> s -> mem h d = Some ad -> mem h s = Some asrc ->
    0 <= i -> i + Z.of_nat k <= Z.of_nat (length ad) -> i + Z.of_nat k <= Z.of_nat (length asrc) ->
    exists h' ad', copy_loop k i h (Some d) (Some s) = Ok h' /\
      mem h' d = Some ad' /\ length ad' = length ad /\
      (forall b, b <> d -> mem h' b = mem h b) /\
      (forall j, nth j ad' None =
         if (i <=? Z.of_nat j) && (Z.of_nat j <? i + Z.of_nat k) then nth j asrc None else nth j ad None) /\
      fresh h' = fresh h /\ allocs h' = allocs h /\ moves h' = moves h + Z.of_nat k.
  Proof.
    induction k as [|k IH]; intros i h d s ad asrc Hds Hd Hs Hi Hla Hls.
    - exists h, ad. cbn. repeat split; auto; try lia. intros j.
      destruct (_ && _) eqn:E; [lia|reflexivity].
    - cbn [copy_loop]. rewrite (load_ok h s asrc i) by (auto; lia). cbn [bind].
      rewrite (store_ok h d ad i) by (auto; lia). cbn [bind].
      set (h1 := tick _).
      destruct (IH (i+1) h1 d s (set_nth ad (Z.to_nat i) (nth (Z.to_nat i) asrc None)) asrc)
        as (h' & ad' & E & M & L & F & N & Fr & Al & Mo); auto; try lia.
      + subst h1; cbn. apply upd_mem_same.
      + subst h1; cbn. rewrite upd_mem_other by congruence. exact Hs.
      + rewrite set_nth_length. lia.
      + exists h', ad'. rewrite set_nth_length in L. repeat split; auto.
        * intros b Hb. rewrite F by auto. subst h1; cbn. apply upd_mem_other; auto.
        * intros j. rewrite N. rewrite nth_set_nth by lia.
          destruct ((i + 1 <=? Z.of_nat j) && (Z.of_nat j <? i + 1 + Z.of_nat k)) eqn:E1;
          destruct ((i <=? Z.of_nat j) && (Z.of_nat j <? i + Z.of_nat (S k))) eqn:E2; auto; try lia.
          -- destruct (Nat.eqb_spec j (Z.to_nat i)); [subst; reflexivity|lia].
          -- destruct (Nat.eqb_spec j (Z.to_nat i)); [lia|reflexivity].
        * subst h1; cbn in *; lia.
  Qed.

  Lemma wfv_len h v : wfv h v -> Z.of_nat (length (arr h v)) = capacity v.
  Proof.
    intros (Hs & Hc & He). unfold arr. destruct (elements v) as [b|]; cbn; [|lia].
    destruct He as (_ & a & -> & L). exact L.
  Qed.

  Lemma contents_length h v : wfv h v -> Z.of_nat (length (contents h v)) = size v.
  Proof.
    intros H. pose proof (wfv_len h v H) as L. destruct H as (Hs & _).
    unfold contents. rewrite firstn_length. lia.
  Qed.

  (** Full effect of resize on a well-formed vector. *)
  Lemma resize_ok h v n : wfv h v -> freshok h -> 1 <= n < 2 ^ 62 ->
    exists v' h', resize h v n = Ok (v', h') /\ wfv h' v' /\ size v' = n /\
      capacity v <= capacity v' /\ elements v' <> None /\
      frame h v h' v' /\
      (forall j, (j < Z.to_nat (size v))%nat -> nth j (arr h' v') None = nth j (arr h v) None) /\
      (n <= capacity v -> v' = Vec (elements v) (capacity v) n /\ h' = h) /\
      (capacity v < n -> capacity v' = Z.max n (2 * capacity v) /\
         allocs h' = allocs h + 1 /\ moves h' = moves h + size v /\ elements v' <> elements v).
  Proof.
    intros W Fr Hn. pose proof (wfv_len h v W) as L.
    destruct W as (Hs & Hc & He). unfold resize.
    replace (n <? 1) with false by lia.
    destruct (Z.ltb_spec (capacity v) n) as [Hlt|Hge].
    - assert (Hr : recommended_size v = 2 * capacity v).
      { unfold recommended_size. apply w64_small. lia. }
      rewrite Hr.
      set (m := if 2 * capacity v <? n then n else 2 * capacity v).
      assert (Hm : m = Z.max n (2 * capacity v)) by (subst m; destruct (Z.ltb_spec (2 * capacity v) n); lia).
      unfold allocate. replace (m <? 1) with false by lia.
      replace (2 ^ 63 <=? m) with false by lia. cbn [bind].
      set (b' := fresh h).
      set (h1 := Heap _ _ _ _).
      assert (Hb' : mem h1 b' = Some (repeat None (Z.to_nat m))) by (apply upd_mem_same).
      assert (Hlen : Z.of_nat (length (repeat (@None V) (Z.to_nat m))) = m)
        by (rewrite repeat_length; lia).
      destruct (elements v) as [b|] eqn:Ev.
      + destruct He as (Hc1 & a & Ha & La).
        assert (Hbb : b' <> b).
        { intros E. subst b. rewrite (Fr b') in Ha; [discriminate|lia]. }
        assert (Harr : arr h v = a) by (unfold arr; rewrite Ev, Ha; reflexivity).
        destruct (copy_loop_ok (Z.to_nat (size v)) 0 h1 b' b (repeat None (Z.to_nat m)) a)
          as (h2 & ad & E & M & Ld & F & N & Frr & Al & Mo); auto; try lia.
        { subst h1; cbn. rewrite upd_mem_other by congruence. exact Ha. }
        rewrite repeat_length in Ld.
        rewrite E. cbn [bind]. unfold deallocate. rewrite (F b) by congruence.
        subst h1; cbn [mem fresh allocs moves] in *.
        rewrite upd_mem_other by congruence. rewrite Ha. cbn [bind].
        eexists _, _. split; [reflexivity|].
        split; [|split; [|split; [|split; [|split; [|split; [|split]]]]]].
        * unfold wfv; cbn. repeat split; try lia. exists ad.
          rewrite upd_mem_other by congruence. split; [exact M|lia].
        * reflexivity.
        * cbn; lia.
        * cbn; discriminate.
        * unfold frame; cbn. rewrite Ev. split; [|split].
          -- intros b0 H0 H1. rewrite upd_mem_other by congruence. rewrite F by congruence.
             apply upd_mem_other; congruence.
          -- right. split; intros b0 H0; inversion H0; subst b0.
             ++ apply Fr; subst b'; lia.
             ++ apply upd_mem_same.
          -- intros _ b0 H0. cbn in *. rewrite Frr in H0.
             destruct (Nat.eq_dec b0 b) as [->|Hne]; [apply upd_mem_same|].
             rewrite upd_mem_other by auto. rewrite F by (subst b'; lia).
             rewrite upd_mem_other by (subst b'; lia). apply Fr; lia.
        * intros j Hj. unfold arr at 1; cbn. rewrite upd_mem_other by congruence.
          rewrite M, N, Harr.
          destruct (_ && _) eqn:Eb; [reflexivity|lia].
        * intros; lia.
        * intros _. cbn in *. rewrite ?Ev. split; [exact Hm|split; [lia|split; [lia|congruence]]].
      + assert (size v = 0) by lia. rewrite H. cbn [Z.to_nat copy_loop bind deallocate].
        eexists _, _. split; [reflexivity|].
        split; [|split; [|split; [|split; [|split; [|split; [|split]]]]]].
        * unfold wfv; cbn. repeat split; try lia. eexists. split; [exact Hb'|rewrite repeat_length; lia].
        * reflexivity.
        * cbn; lia.
        * cbn; discriminate.
        * unfold frame; cbn. rewrite Ev. split; [|split].
          -- intros b0 H0 H1. apply upd_mem_other; congruence.
          -- right. split; intros b0 H0; inversion H0; subst b0. apply Fr; subst b'; lia.
          -- intros _ b0 H0. cbn in *. rewrite upd_mem_other by (subst b'; lia). apply Fr; lia.
        * intros j Hj. lia.
        * intros; lia.
        * intros _. cbn in *. rewrite ?Ev. split; [exact Hm|split; [lia|split; [lia|congruence]]].
    - eexists _, _. split; [reflexivity|].
      assert (Hne : elements v <> None) by (intros E; rewrite E in He; lia).
      split; [|split; [|split; [|split; [|split; [|split; [|split]]]]]]; cbn; auto; try lia.
      + unfold wfv; cbn. repeat split; try lia. exact He.
      + unfold frame; cbn; auto.
  Qed.

  (** store through the vector's own array *)
  Lemma vstore_ok h v i c : wfv h v -> 0 <= i < capacity v ->
    exists h', store h (elements v) i c = Ok h' /\
      (forall v', elements v' = elements v -> capacity v' = capacity v ->
         0 <= size v' <= capacity v -> wfv h' v') /\
      frame h v h' v /\ arr h' v = set_nth (arr h v) (Z.to_nat i) c /\
      allocs h' = allocs h /\ moves h' = moves h.
  Proof.
    intros (Hs & Hc & He) Hi. destruct (elements v) as [b|] eqn:Ev; [|lia].
    destruct He as (Hc1 & a & Ha & La).
    rewrite (store_ok h b a) by (auto; lia).
    eexists. split; [reflexivity|]. split; [|split; [|split]].
    - intros v' E1 E2 E3. unfold wfv. rewrite E1, E2. repeat split; try lia.
      cbn. eexists. rewrite upd_mem_same, set_nth_length. split; [reflexivity|lia].
    - unfold frame; cbn. rewrite Ev. split; [|split].
      + intros b0 H0 _. apply upd_mem_other; congruence.
      + left; reflexivity.
      + intros Fr b0 H0. destruct (Nat.eq_dec b0 b) as [->|Hne].
        * cbn in H0. rewrite (Fr b) in Ha by lia. discriminate.
        * cbn. rewrite upd_mem_other by auto. apply Fr. exact H0.
    - unfold arr. rewrite Ev. cbn. rewrite upd_mem_same, Ha. reflexivity.
    - split; reflexivity.
  Qed.

  Lemma vload_ok h v i : wfv h v -> 0 <= i < capacity v ->
    load h (elements v) i = Ok (nth (Z.to_nat i) (arr h v) None).
  Proof.
    intros W Hi. pose proof (wfv_len h v W) as L. destruct W as (Hs & Hc & He).
    unfold arr in *. destruct (elements v) as [b|] eqn:Ev; [|lia].
    destruct He as (Hc1 & a & Ha & La). rewrite Ha in *. apply load_ok; auto. lia.
  Qed.

  Lemma frame_arr_same h v h' v' (w : vec) : frame h v h' v' ->
    wfv h w ->
    (forall b, elements w = Some b -> elements v <> Some b) ->
    arr h' w = arr h w /\ wfv h' w /\ (forall b, elements w = Some b -> elements v' <> Some b).
  Proof.
    intros (F & D & _) W Hd.
    assert (Hd' : forall b, elements w = Some b -> elements v' <> Some b).
    { intros b Hb E. destruct D as [D|[D _]].
      - apply (Hd b Hb). congruence.
      - destruct W as (_ & _ & He). rewrite Hb in He. destruct He as (_ & a & Ha & _).
        rewrite (D b E) in Ha. discriminate. }
    destruct W as (Hs & Hc & He). unfold arr, wfv.
    destruct (elements w) as [b|] eqn:Ew.
    - rewrite (F b) by auto. auto.
    - auto.
  Qed.

  Lemma push_back_gen h v (get : heap -> res cell) c : wfv h v -> freshok h ->
    size v + 1 < 2 ^ 62 ->
    (forall h' v', frame h v h' v' -> get h' = Ok c) ->
    exists v' h', ('(v', h') <- resize h v (w64 (size v + 1)) ;;
                   c' <- get h' ;;
                   h'' <- store h' (elements v') (w64 (size v' - 1)) c' ;;
                   Ok (v', h'')) = Ok (v', h') /\
      wfv h' v' /\ frame h v h' v' /\ contents h' v' = contents h v ++ [c] /\
      size v' = size v + 1 /\ capacity v <= capacity v' /\
      (size v + 1 <= capacity v ->
         elements v' = elements v /\ capacity v' = capacity v /\
         allocs h' = allocs h /\ moves h' = moves h) /\
      (capacity v < size v + 1 -> capacity v' = Z.max (size v + 1) (2 * capacity v) /\
         allocs h' = allocs h + 1 /\ moves h' = moves h + size v).
  Proof.
    intros W Fr Hb Hget.
    pose proof W as (Hs & Hc & He).
    rewrite w64_small by lia.
    destruct (resize_ok h v (size v + 1) W Fr ltac:(lia))
      as (v1 & h1 & E & W1 & S1 & C1 & Ne & Fm & N & Same & Grow).
    rewrite E. cbn [bind]. rewrite (Hget h1 v1 Fm). cbn [bind]. rewrite S1.
    replace (size v + 1 - 1) with (size v) by lia.
    rewrite w64_small by lia.
    assert (Hcap : size v < capacity v1) by (destruct W1 as (? & _); lia).
    destruct (vstore_ok h1 v1 (size v) c W1 ltac:(lia)) as (h2 & E2 & W2 & F2 & A2 & Al & Mo).
    rewrite E2. cbn [bind].
    eexists _, _. split; [reflexivity|].
    assert (W2' : wfv h2 v1) by (apply W2; auto; destruct W1; lia).
    split; [exact W2'|]. split; [eapply frame_trans; eauto|].
    split; [|split; [exact S1|split; [exact C1|split]]].
    - unfold contents. rewrite A2, S1.
      replace (Z.to_nat (size v + 1)) with (S (Z.to_nat (size v))) by lia.
      pose proof (wfv_len _ _ W1) as L1. pose proof (wfv_len _ _ W) as L.
      rewrite firstn_S_nth with (d := None) by (rewrite set_nth_length; lia).
      rewrite nth_set_nth by lia. rewrite Nat.eqb_refl.
      rewrite firstn_set_nth_ge by lia. f_equal.
      apply nth_ext_firstn with (d := None); try lia. exact N.
    - intros Hle. destruct (Same ltac:(lia)) as [-> ->]. cbn. auto.
    - intros Hgt. destruct (Grow ltac:(lia)) as (-> & ? & ? & _). rewrite Al, Mo. auto.
  Qed.

  Lemma push_back_ok h v c : wfv h v -> freshok h -> size v + 1 < 2 ^ 62 ->
    exists v' h', push_back h v c = Ok (v', h') /\
      wfv h' v' /\ frame h v h' v' /\ contents h' v' = contents h v ++ [c] /\
      size v' = size v + 1 /\ capacity v <= capacity v' /\
      (size v + 1 <= capacity v ->
         elements v' = elements v /\ capacity v' = capacity v /\
         allocs h' = allocs h /\ moves h' = moves h) /\
      (capacity v < size v + 1 -> capacity v' = Z.max (size v + 1) (2 * capacity v) /\
         allocs h' = allocs h + 1 /\ moves h' = moves h + size v).
  Proof.
    intros W Fr Hb.
    exact (push_back_gen h v (fun _ => Ok c) c W Fr Hb (fun _ _ _ => eq_refl)).
  Qed.

  Lemma push_back_ref_ok h v w j : wfv h v -> wfv h w -> freshok h -> size v + 1 < 2 ^ 62 ->
    (forall b, elements w = Some b -> elements v <> Some b) ->
    0 <= j < capacity w ->
    exists v' h', push_back_ref h v (elements w) j = Ok (v', h') /\
      wfv h' v' /\ frame h v h' v' /\
      contents h' v' = contents h v ++ [nth (Z.to_nat j) (arr h w) None] /\
      size v' = size v + 1 /\ capacity v <= capacity v'.
  Proof.
    intros W Ww Fr Hb Hd Hj.
    destruct (push_back_gen h v (fun h' => load h' (elements w) j)
                (nth (Z.to_nat j) (arr h w) None) W Fr Hb) as (v' & h' & E & P1 & P2 & P3 & P4 & P5 & _).
    - intros h' v' Fm. destruct (frame_arr_same _ _ _ _ w Fm Ww Hd) as (A & W' & _).
      rewrite <- A. apply vload_ok; auto.
    - exists v', h'. auto 10.
  Qed.

  Lemma assign_loop_ok k : forall h v w j,
    wfv h v -> wfv h w -> freshok h -> size v + Z.of_nat k < 2 ^ 62 ->
    (forall b, elements w = Some b -> elements v <> Some b) ->
    0 <= j -> j + Z.of_nat k <= capacity w ->
    exists v' h', assign_loop k h v (elements w) j = Ok (v', h') /\
      wfv h' v' /\ frame h v h' v' /\
      contents h' v' = contents h v ++ firstn k (skipn (Z.to_nat j) (arr h w)).
  Proof.
    induction k as [|k IH]; intros h v w j W Ww Fr Hb Hd Hj Hk.
    - exists v, h. cbn. rewrite app_nil_r. auto using frame_refl.
    - cbn [assign_loop].
      destruct (push_back_ref_ok h v w j) as (v1 & h1 & E & W1 & F1 & C1 & S1 & _); auto; try lia.
      rewrite E. cbn [bind].
      destruct (frame_arr_same _ _ _ _ w F1 Ww Hd) as (A & W' & D').
      destruct (IH h1 v1 w (j+1)) as (v2 & h2 & E2 & W2 & F2 & C2); auto; try lia.
      { apply F1; exact Fr. }
      exists v2, h2. split; [exact E2|]. split; [exact W2|].
      split; [eapply frame_trans; eauto|].
      rewrite C2, C1, A, <- app_assoc. f_equal.
      pose proof (wfv_len _ _ Ww) as L.
      replace (Z.to_nat (j + 1)) with (S (Z.to_nat j)) by lia.
      assert (Hlt : (Z.to_nat j < length (arr h w))%nat) by lia.
      clear -Hlt. revert Hlt. generalize (Z.to_nat j). intros n.
      generalize (arr h w). intros l. revert n.
      induction l as [|y t IHl]; intros [|n] H; cbn in *; try lia; auto.
      apply IHl. lia.
  Qed.

  Lemma assign_ok h v w i j :
    wfv h v -> wfv h w -> freshok h ->
    (forall b, elements w = Some b -> elements v <> Some b) ->
    0 <= i <= j -> j <= size w -> j - i < 2 ^ 62 ->
    exists v' h', assign h v (elements w) i j = Ok (v', h') /\
      wfv h' v' /\ frame h v h' v' /\
      contents h' v' = firstn (Z.to_nat (j - i)) (skipn (Z.to_nat i) (contents h w)).
  Proof.
    intros W Ww Fr Hd Hij Hjs Hb. unfold assign.
    assert (Wc : wfv h (clear v)) by (destruct W as (?&?&?); unfold wfv, clear; cbn; repeat split; auto; lia).
    destruct (assign_loop_ok (Z.to_nat (j - i)) h (clear v) w i) as (v' & h' & E & W' & F' & C');
      auto; try lia.
    { cbn. lia. }
    { destruct Ww as (?&_). lia. }
    exists v', h'. split; [exact E|]. split; [exact W'|].
    split; [exact F'|]. rewrite C'. unfold contents at 1. cbn [app firstn clear size].
    change (Z.to_nat 0) with 0%nat. cbn [firstn app].
    unfold contents. rewrite skipn_firstn_comm, firstn_firstn.
    f_equal. lia.
  Qed.

  (** erase shifts the tail left by one. *)
  Lemma erase_loop_ok k : forall fuel h v i sz a0,
    wfv h v -> arr h v = a0 -> 0 <= i -> Z.of_nat k = sz - 1 - i -> sz <= capacity v -> (k <= fuel)%nat ->
    exists h', erase_loop fuel h (elements v) i sz = Ok (sz - 1, h') /\
      wfv h' v /\ frame h v h' v /\
      length (arr h' v) = length a0 /\
      (forall j, nth j (arr h' v) None =
         if (i <=? Z.of_nat j) && (Z.of_nat j <? sz - 1) then nth (S j) a0 None else nth j a0 None) /\
      allocs h' = allocs h /\ moves h' = moves h.
  Proof.
    induction k as [|k IH]; intros fuel h v i sz a0 W Ha Hi Hk Hsz Hf.
    - assert (i + 1 = sz) by lia.
      assert (E : erase_loop fuel h (elements v) i sz = Ok (i, h)).
      { destruct fuel; cbn [erase_loop]; replace (i + 1 =? sz) with true by lia; reflexivity. }
      exists h. rewrite E. repeat split; auto using frame_refl; try (f_equal; f_equal; lia); try apply W.
      + congruence.
      + intros j. rewrite Ha. destruct (_ && _) eqn:Eb; [lia|reflexivity].
    - destruct fuel as [|fuel]; [lia|]. cbn [erase_loop].
      replace (i + 1 =? sz) with false by lia.
      rewrite (vload_ok h v (i+1)) by (auto; lia). cbn [bind].
      destruct (vstore_ok h v i (nth (Z.to_nat (i + 1)) (arr h v) None) W ltac:(lia))
        as (h1 & E1 & W1 & F1 & A1 & Al & Mo).
      rewrite E1. cbn [bind].
      assert (W1' : wfv h1 v) by (apply W1; auto; apply W).
      destruct (IH fuel h1 v (i+1) sz (arr h1 v) W1' eq_refl) as (h2 & E2 & W2 & F2 & L2 & N2 & Al2 & Mo2);
        try lia.
      exists h2. split; [exact E2|]. split; [exact W2|]. split; [eapply frame_trans; eauto|].
      pose proof (wfv_len _ _ W) as L. rewrite Ha in *.
      split; [|split; [|lia]].
      + rewrite L2, A1, set_nth_length. reflexivity.
      + intros j. rewrite N2, A1. rewrite !nth_set_nth by lia.
        destruct ((i + 1 <=? Z.of_nat j) && (Z.of_nat j <? sz - 1)) eqn:Ea;
        destruct ((i <=? Z.of_nat j) && (Z.of_nat j <? sz - 1)) eqn:Eb; try lia.
        * destruct (Nat.eqb_spec (S j) (Z.to_nat i)); [lia|reflexivity].
        * destruct (Nat.eqb_spec j (Z.to_nat i)); [|lia]. f_equal. lia.
        * destruct (Nat.eqb_spec j (Z.to_nat i)); [lia|reflexivity].
  Qed.

  Lemma erase_ok h v i : wfv h v -> 0 <= i < size v ->
    exists v' h', erase h v i = Ok (size v - 1, v', h') /\
      wfv h' v' /\ frame h v h' v' /\ size v' = size v - 1 /\
      capacity v' = capacity v /\ elements v' = elements v /\
      contents h' v' = firstn (Z.to_nat i) (contents h v) ++ skipn (S (Z.to_nat i)) (contents h v).
  Proof.
    intros W Hi. pose proof W as (Hs & Hc & He). unfold erase.
    destruct (erase_loop_ok (Z.to_nat (size v - 1 - i)) (S (Z.to_nat (capacity v))) h v i (size v) (arr h v) W eq_refl)
      as (h' & E & W' & F & L & N & Al & Mo); try lia.
    rewrite E. cbn [bind]. rewrite w64_small by lia.
    eexists _, _. split; [reflexivity|].
    split; [|split; [|split; [|split; [|split]]]]; auto.
    - destruct W' as (? & ? & He'). unfold wfv; cbn. repeat split; auto; lia.
    - pose proof (wfv_len _ _ W) as Lc.
      unfold contents; cbn [size].
      replace (arr h' (Vec (elements v) (capacity v) (size v - 1))) with (arr h' v) by reflexivity.
      apply nth_ext with (d := None) (d' := None).
      + rewrite app_length, skipn_length, !firstn_length. lia.
      + intros j Hj. rewrite firstn_length in Hj.
        assert (nth_fn : forall (l : list cell) n k, (k < n)%nat -> nth k (firstn n l) None = nth k l None).
        { intros l; induction l as [|y t IHl]; intros [|n] [|k] H; cbn; try lia; auto. apply IHl; lia. }
        assert (nth_sk : forall (l : list cell) n k, nth k (skipn n l) None = nth (n + k) l None).
        { intros l; induction l as [|y t IHl]; intros [|n] k; cbn; auto. destruct k; auto. }
        rewrite nth_fn by lia. rewrite N.
        destruct (Nat.lt_ge_cases j (Z.to_nat i)) as [Hlt|Hge].
        * rewrite app_nth1 by (rewrite !firstn_length; lia).
          rewrite !nth_fn by lia.
          destruct (_ && _) eqn:Eb; [lia|reflexivity].
        * rewrite app_nth2 by (rewrite !firstn_length; lia).
          rewrite nth_sk. rewrite !firstn_length.
          rewrite nth_fn by lia.
          destruct (_ && _) eqn:Eb; [|lia]. f_equal. lia.
  Qed.
End P.
