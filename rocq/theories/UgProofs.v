(** Proofs about [UgModel]: every live object has exactly one owner, and a deletion removes
    exactly the descendants of an object. *)
From Coq Require Import List Bool PeanoNat Lia Permutation.
From Verif Require Import Mem UgModel.
Import ListNotations.

(** * Finite maps *)
Section Maps.
  Context {A : Type}.
  Implicit Types (l : list (nat * A)).
  Lemma get_split k l a : get k l = Some a -> exists l1 l2, l = l1 ++ (k, a) :: l2 /\ get k l1 = None /\
    (forall b, put k b l = l1 ++ (k, b) :: l2) /\ drop k l = l1 ++ l2.
  Proof.
    induction l as [|[x y] l IH]; cbn; [discriminate|]. destruct (Nat.eqb_spec x k) as [->|N].
    - intros [= ->]. exists [], l. repeat split.
    - intros H. destruct (IH H) as (l1 & l2 & -> & G & P & D). exists ((x, y) :: l1), l2. cbn. destruct (Nat.eqb_spec x k); [contradiction|].
      repeat split; auto; [intros b; now rewrite P|now rewrite D].
  Qed.
  Lemma get_put k b l : get k l <> None -> get k (put k b l) = Some b.
  Proof. induction l as [|[x y] l IH]; cbn; [congruence|]. destruct (Nat.eqb x k) eqn:E; cbn; rewrite E; auto. Qed.
  Lemma get_put_ne k k' b l : k <> k' -> get k (put k' b l) = get k l.
  Proof.
    intros N. induction l as [|[x y] l IH]; cbn; [reflexivity|]. destruct (Nat.eqb_spec x k') as [->|N']; cbn; [|now rewrite IH].
    destruct (Nat.eqb_spec k' k); [congruence|reflexivity].
  Qed.
  Lemma keys_put k b l : map fst (put k b l) = map fst l.
  Proof. induction l as [|[x y] l IH]; cbn; [reflexivity|]. destruct (Nat.eqb x k); cbn; [reflexivity|now rewrite IH]. Qed.
  Lemma get_drop_ne k k' l : k <> k' -> get k (drop k' l) = get k l.
  Proof.
    intros N. induction l as [|[x y] l IH]; cbn; [reflexivity|]. destruct (Nat.eqb_spec x k') as [->|N']; cbn; [|now rewrite IH].
    destruct (Nat.eqb_spec k' k); [congruence|reflexivity].
  Qed.
  Lemma get_in k l : get k l <> None <-> In k (map fst l).
  Proof.
    induction l as [|[x y] l IH]; cbn; [split; [congruence|contradiction]|]. destruct (Nat.eqb_spec x k) as [->|N].
    - split; [auto|discriminate].
    - rewrite IH. split; [auto|intros [H|H]; [contradiction|exact H]].
  Qed.
  Lemma get_none k l : get k l = None <-> ~ In k (map fst l).
  Proof. rewrite <- get_in. destruct (get k l); split; try congruence. intros H. exfalso. apply H. discriminate. Qed.
  Lemma get_some_in k l a : get k l = Some a -> In (k, a) l.
  Proof. intros H. apply get_split in H as (l1 & l2 & -> & _). apply in_or_app. right. now left. Qed.
End Maps.

Lemma set_nth_split i c fs a : nth_error fs i = Some a -> exists l1 l2, fs = l1 ++ a :: l2 /\ set_nth i c fs = l1 ++ c :: l2.
Proof.
  revert i. induction fs as [|x fs IH]; intros [|i]; cbn; try discriminate.
  - intros [= ->]. now exists [], fs.
  - intros H. destruct (IH i H) as (l1 & l2 & -> & E). exists (x :: l1), l2. now rewrite E.
Qed.
Lemma set_nth_len i c fs : length (set_nth i c fs) = length fs.
Proof. revert i. induction fs as [|x fs IH]; intros [|i]; cbn; auto. Qed.
Lemma set_nth_same i c fs : i < length fs -> nth_error (set_nth i c fs) i = Some c.
Proof. revert i. induction fs as [|x fs IH]; intros [|i]; cbn; try lia; [reflexivity|]. intros H. apply IH. lia. Qed.
Lemma set_nth_ne i j c fs : i <> j -> nth_error (set_nth i c fs) j = nth_error fs j.
Proof. revert i j. induction fs as [|x fs IH]; intros [|i] [|j]; cbn; try congruence; auto. Qed.
Lemma take1_perm o l : In o l -> Permutation l (o :: take1 o l).
Proof.
  induction l as [|x l IH]; cbn; [contradiction|]. destruct (Nat.eqb_spec x o) as [->|N]; [reflexivity|]. intros [H|H]; [contradiction|].
  rewrite (IH H) at 1. constructor.
Qed.

Lemma nodup_left {A} (a b : list A) : NoDup (a ++ b) -> NoDup a.
Proof.
  induction a as [|x a IH]; intros N; [constructor|]. inversion N as [|? ? X Y]; subst. constructor; [|auto]. intros Z. apply X, in_or_app. now left.
Qed.
Lemma nodup_right {A} (a b : list A) : NoDup (a ++ b) -> NoDup b.
Proof. induction a as [|x a IH]; intros N; [exact N|]. inversion N; subst. auto. Qed.

(** * Owners *)
Definition o2l (o : option nat) : list nat := match o with Some o => [o] | None => [] end.
Definition ptrs (cs : list cell) : list nat := flat_map (fun c => o2l (cptr c)) cs.
Definition cells (w : world) : list cell := map snd (vars w) ++ concat (map snd (heap w)).
Definition live (w : world) : list nat := map fst (heap w).
(** Every live object is owned by one unique_ptr, or the client, or is in [D]: being deleted;
    every object made is live or was deleted once. *)
Definition inv (w : world) (D : list nat) : Prop :=
  Permutation (ptrs (cells w) ++ raws w ++ D) (live w) /\ Permutation (live w ++ map fst (log w)) (seq 0 (nobj w)).

Lemma ptrs_perm a b : Permutation a b -> Permutation (ptrs a) (ptrs b).
Proof. intros P. unfold ptrs. now apply Permutation_flat_map. Qed.
Lemma ptrs_app a b : ptrs (a ++ b) = ptrs a ++ ptrs b.
Proof. apply flat_map_app. Qed.
Lemma nodup_live w D : inv w D -> NoDup (live w).
Proof.
  intros [_ P]. assert (N : NoDup (live w ++ map fst (log w))) by (eapply Permutation_NoDup; [symmetry; exact P|apply seq_NoDup]).
  apply nodup_left in N. exact N.
Qed.
Lemma nodup_owned w D : inv w D -> NoDup (ptrs (cells w) ++ raws w ++ D).
Proof. intros I. eapply Permutation_NoDup; [symmetry; apply I|eapply nodup_live; eauto]. Qed.
Lemma in_live w o : In o (live w) <-> get o (heap w) <> None.
Proof. unfold live. symmetry. apply get_in. Qed.

Definition home (p : place) : list nat := match p with V _ => [] | F o _ => [o] end.
(** The unique_ptr at a place. *)
Lemma write_ok w p c c' : read w p = Ok c -> exists w', write w p c' = Ok w' /\
  nobj w' = nobj w /\ raws w' = raws w /\ log w' = log w /\ live w' = live w /\ map fst (vars w') = map fst (vars w) /\
  (exists R, Permutation (cells w) (c :: R) /\ Permutation (cells w') (c' :: R)) /\
  read w' p = Ok c' /\ (forall q, q <> p -> read w' q = read w q) /\
  (forall k, ~ In k (home p) -> get k (heap w') = get k (heap w)).
Proof.
  intros R. destruct p as [x|o i]; cbn [read write] in *.
  - destruct (get x (vars w)) as [c0|] eqn:G; [|discriminate]. injection R as ->. eexists. split; [reflexivity|]. cbn [nobj raws log vars heap live].
    destruct (get_split x (vars w) c G) as (l1 & l2 & E & _ & P & _).
    repeat split; try (unfold live; cbn; auto); try apply keys_put.
    + exists (map snd l1 ++ map snd l2 ++ concat (map snd (heap w))). unfold cells. cbn [vars heap]. rewrite (P c'), E, !map_app. cbn [map snd]. rewrite <- !app_assoc. cbn [app].
      split; symmetry; apply Permutation_middle.
    + rewrite get_put by congruence. reflexivity.
    + intros [y|o i] N; cbn [read vars heap]; [|reflexivity]. rewrite get_put_ne by congruence. reflexivity.
  - destruct (get o (heap w)) as [fs|] eqn:G; [|discriminate]. destruct (nth_error fs i) as [c0|] eqn:Ni; [|discriminate]. injection R as ->. eexists. split; [reflexivity|].
    destruct (get_split o (heap w) fs G) as (l1 & l2 & E & _ & P & _). destruct (set_nth_split i c' fs c Ni) as (f1 & f2 & E1 & E2).
    assert (L : i < length fs) by (apply nth_error_Some; congruence).
    repeat split; try (unfold live; cbn; auto); try apply keys_put.
    + exists (map snd (vars w) ++ concat (map snd l1) ++ f1 ++ f2 ++ concat (map snd l2)). unfold cells. cbn [vars heap].
      rewrite P, E, !map_app, !concat_app. cbn [map snd concat]. rewrite E2, E1, <- !app_assoc. cbn [app].
      split; (etransitivity; [apply Permutation_app_head, Permutation_app_head; symmetry; apply Permutation_middle|]);
        (etransitivity; [apply Permutation_app_head; symmetry; apply Permutation_middle|symmetry; apply Permutation_middle]).
    + rewrite get_put by congruence. rewrite set_nth_same by exact L. reflexivity.
    + intros [y|k j] N; cbn [read vars heap]; [reflexivity|]. destruct (Nat.eq_dec k o) as [->|K].
      * rewrite get_put by congruence. rewrite G. rewrite set_nth_ne by congruence. reflexivity.
      * now rewrite get_put_ne by exact K.
    + intros k K. apply get_put_ne. cbn in K. intros ->. tauto.
Qed.

(** * Descendants *)
Inductive reach (w : world) : nat -> nat -> Prop :=
| reach_refl o : reach w o o
| reach_step a b k fs : get a (heap w) = Some fs -> In b (ptrs fs) -> reach w b k -> reach w a k.

Lemma reach_mono w w' a k : (forall o fs, get o (heap w) = Some fs -> exists fs', get o (heap w') = Some fs' /\ incl (ptrs fs) (ptrs fs')) ->
  reach w a k -> reach w' a k.
Proof. intros H R. induction R as [|a b k fs G I R IH]; [constructor|]. destruct (H a fs G) as (fs' & G' & J). econstructor; eauto. Qed.
Lemma reach_trans w a b k : reach w a b -> reach w b k -> reach w a k.
Proof. intros R S. induction R; [exact S|econstructor; eauto]. Qed.
(** Of a path to a set of objects, the part up to the first of them needs no other's members. *)
Lemma reach_first w w' (S : list nat) a k : (forall o, ~ In o S -> get o (heap w') = get o (heap w)) ->
  reach w a k -> In k S -> exists k', In k' S /\ reach w' a k'.
Proof.
  intros H R. induction R as [o|a b k fs G I R IH]; intros K.
  - exists o. split; [exact K|constructor].
  - destruct (in_dec Nat.eq_dec a S) as [Sa|Sa]; [exists a; split; [exact Sa|constructor]|].
    destruct (IH K) as (k' & K' & R'). exists k'. split; [exact K'|]. econstructor; [rewrite H by exact Sa; exact G|exact I|exact R'].
Qed.

(** * Deletion *)
(** What a deletion leaves: variables and the client's pointers as they were, the objects in [l]
    gone, and the members of the others unchanged. *)
Definition gone (w w' : world) (l : list (nat * option nat)) : Prop :=
  vars w' = vars w /\ raws w' = raws w /\ nobj w' = nobj w /\ log w' = log w ++ l /\
  forall k, get k (heap w') = if in_dec Nat.eq_dec k (map fst l) then None else get k (heap w).

Definition members (n : nat) (o : nat) := fix members (i : nat) (w : world) : res world :=
  match i with
  | O => Ok w
  | S i => c <- read w (F o i) ;; w1 <- write w (F o i) (Cell None (cdel c)) ;;
           w2 <- match cptr c with Some q => delete n w1 (Some (cdel c)) q | None => Ok w1 end ;; members i w2
  end.
Lemma delete_eq n w d o : delete (S n) w d o = match get o (heap w) with None => UB BadFree | Some fs => w' <- members n o (length fs) w ;; Ok (free w' o d) end.
Proof. reflexivity. Qed.

Lemma inv_write w w' c c' D D' R : inv w D -> Permutation (cells w) (c :: R) -> Permutation (cells w') (c' :: R) ->
  live w' = live w -> nobj w' = nobj w -> log w' = log w -> Permutation (o2l (cptr c') ++ raws w' ++ D') (o2l (cptr c) ++ raws w ++ D) -> inv w' D'.
Proof.
  intros [I1 I2] P P' L N G Q. split; [|now rewrite L, N, G]. rewrite L, <- I1, (ptrs_perm _ _ P), (ptrs_perm _ _ P'). cbn [ptrs flat_map].
  fold (ptrs R). rewrite <- !app_assoc. rewrite (Permutation_app_swap_app _ (ptrs R)), Q. apply Permutation_app_swap_app.
Qed.

Lemma in_ptrs_null fs : (forall c, In c fs -> cptr c = None) -> ptrs fs = [].
Proof. induction fs as [|c fs IH]; cbn; [reflexivity|]. intros H. rewrite (H c) by now left. cbn. apply IH. intros c' I. apply H. now right. Qed.
Lemma ptrs_in fs b : In b (ptrs fs) <-> exists c, In c fs /\ cptr c = Some b.
Proof.
  unfold ptrs. rewrite in_flat_map. split; intros (c & I & H); exists c; (split; [exact I|]).
  - destruct (cptr c); cbn in H; [destruct H as [->|[]]; reflexivity|contradiction].
  - rewrite H. now left.
Qed.

(** The deleter that an object is deleted with: that of its owner. *)
Definition owner (w : world) (o k : nat) (e : option nat) : Prop :=
  exists a fs c, reach w o a /\ get a (heap w) = Some fs /\ In c fs /\ cptr c = Some k /\ e = Some (cdel c).

Lemma delete_ok : forall n w d o D, inv w (o :: D) -> length (ptrs (cells w)) < n ->
  exists w' l, delete n w d o = Ok w' /\ inv w' D /\ gone w w' l /\ In (o, d) l /\ (forall k e, In (k, e) l -> reach w o k /\ (k = o /\ e = d \/ owner w o k e)) /\ NoDup (map fst l) /\
    length (ptrs (cells w')) <= length (ptrs (cells w)).
Proof.
  induction n as [|n IH]; intros w d o D I N; [lia|]. rewrite delete_eq.
  assert (Lo : In o (live w)). { eapply Permutation_in; [apply I|]. rewrite !in_app_iff. right. right. now left. }
  destruct (get o (heap w)) as [fs|] eqn:G; [|apply in_live in Lo; congruence].
  assert (K : forall i wi li fi, inv wi (o :: D) -> gone w wi li \/ True -> length (ptrs (cells wi)) <= length (ptrs (cells w)) ->
     vars wi = vars w -> raws wi = raws w -> nobj wi = nobj w -> log wi = log w ++ li -> get o (heap wi) = Some fi -> length fi = length fs -> ~ In o (map fst li) ->
     (forall k, k <> o -> get k (heap wi) = if in_dec Nat.eq_dec k (map fst li) then None else get k (heap w)) ->
     (forall j, j < i -> nth_error fi j = nth_error fs j) -> (forall j c, i <= j -> nth_error fi j = Some c -> cptr c = None) -> i <= length fs ->
     (forall k e, In (k, e) li -> reach w o k /\ owner w o k e) -> NoDup (map fst li) ->
     exists w' l fo, members n o i wi = Ok w' /\ inv w' (o :: D) /\ length (ptrs (cells w')) <= length (ptrs (cells w)) /\
       vars w' = vars w /\ raws w' = raws w /\ nobj w' = nobj w /\ log w' = log w ++ l /\ get o (heap w') = Some fo /\ ptrs fo = [] /\ ~ In o (map fst l) /\
       (forall k, k <> o -> get k (heap w') = if in_dec Nat.eq_dec k (map fst l) then None else get k (heap w)) /\
       (forall k e, In (k, e) l -> reach w o k /\ owner w o k e) /\ NoDup (map fst l)).
  { induction i as [|i IHi]; intros wi li fi Ii _ Ni Vi Ri Oi Gi Hi Li No Hk Fs Fn Le Re Nd.
    - assert (Pf : ptrs fi = []). { apply in_ptrs_null. intros c C. apply In_nth_error in C as [j J]. apply (Fn j c); [lia|exact J]. }
      exists wi, li, fi. split; [reflexivity|]. repeat (split; [assumption|]). assumption.
    - cbn [members]. destruct (nth_error fi i) as [c|] eqn:C; [|apply nth_error_None in C; lia].
      assert (Rc : read wi (F o i) = Ok c) by (cbn [read]; now rewrite Hi, C). rewrite Rc. cbn [bind].
      destruct (write_ok wi (F o i) c (Cell None (cdel c)) Rc) as (w1 & W1 & N1 & R1 & G1 & L1 & V1 & (R & P & P') & Rs & Ro & Hm). rewrite W1. cbn [bind].
      assert (H1 : get o (heap w1) = Some (set_nth i (Cell None (cdel c)) fi)).
      { cbn [write] in W1. rewrite Hi, C in W1. injection W1 as <-. cbn [heap]. apply get_put. congruence. }
      assert (Vw : vars w1 = vars wi) by (cbn [write] in W1; rewrite Hi, C in W1; injection W1 as <-; reflexivity).
      destruct (cptr c) as [q|] eqn:Q.
      + assert (I1 : inv w1 (q :: o :: D)).
        { eapply inv_write; [exact Ii|exact P|exact P'|auto|auto|auto|]. cbn [cptr o2l]. rewrite Q, R1. cbn [o2l app]. symmetry. apply Permutation_middle. }
        assert (Lq : length (ptrs (cells wi)) = S (length (ptrs (cells w1)))).
        { rewrite (Permutation_length (ptrs_perm _ _ P)), (Permutation_length (ptrs_perm _ _ P')). cbn [ptrs flat_map cptr]. rewrite Q. reflexivity. }
        destruct (IH w1 (Some (cdel c)) q (o :: D) I1 ltac:(lia)) as (w2 & l2 & -> & I2 & (A1 & A2 & A3 & A4 & A5) & B1 & B2 & B3 & B4). cbn [bind].
        assert (No2 : ~ In o (map fst l2)).
        { intros X. assert (Z : In o (live w2)) by (eapply Permutation_in; [apply I2|]; rewrite !in_app_iff; right; right; now left).
          apply in_live in Z. rewrite A5 in Z. destruct (in_dec Nat.eq_dec o (map fst l2)); congruence. }
        assert (Dj : forall k, In k (map fst li) -> In k (map fst l2) -> False).
        { intros k X Y. assert (Nk : NoDup (live w2 ++ map fst (log w2))) by (eapply Permutation_NoDup; [symmetry; apply I2|apply seq_NoDup]).
          rewrite A4, G1, Gi in Nk. rewrite !map_app in Nk. apply nodup_right in Nk. rewrite <- app_assoc in Nk. apply nodup_right in Nk.
          clear -Nk X Y. induction (map fst li) as [|x m IHm]; [contradiction|]. inversion Nk as [|? ? Nx Nm]; subst. destruct X as [->|X]; [apply Nx, in_or_app; now right|auto]. }
        destruct (IHi w2 (li ++ l2) (set_nth i (Cell None (cdel c)) fi)) as (w' & l & fo & M); auto.
        * lia.
        * congruence.
        * congruence.
        * congruence.
        * rewrite A4, G1, Gi. now rewrite app_assoc.
        * rewrite A5. destruct (in_dec Nat.eq_dec o (map fst l2)); [contradiction|exact H1].
        * now rewrite set_nth_len.
        * rewrite map_app, in_app_iff. tauto.
        * intros k Nk. rewrite A5, Hm by (cbn; intros [X|[]]; congruence). rewrite Hk by exact Nk.
          destruct (in_dec Nat.eq_dec k (map fst l2)) as [X|X], (in_dec Nat.eq_dec k (map fst li)) as [Y|Y], (in_dec Nat.eq_dec k (map fst (li ++ l2))) as [Z|Z]; auto;
            rewrite map_app, in_app_iff in Z; tauto.
        * intros j J. rewrite set_nth_ne by lia. apply Fs. lia.
        * intros j c' J E. destruct (Nat.eq_dec i j) as [<-|X]; [rewrite set_nth_same in E by lia; now injection E as <-|rewrite set_nth_ne in E by exact X; apply (Fn j c'); [lia|exact E]].
        * lia.
        * intros k e. rewrite in_app_iff. intros [X|X]; [auto|].
          assert (Sub : forall a f, get a (heap w1) = Some f -> exists f', get a (heap w) = Some f' /\ forall c', In c' f -> cptr c' <> None -> In c' f').
          { intros a f Ga. destruct (Nat.eq_dec a o) as [->|Na].
            - exists fs. split; [exact G|]. rewrite H1 in Ga. injection Ga as <-. intros c' C' E'. apply In_nth_error in C' as [j J].
              destruct (Nat.eq_dec i j) as [<-|Xj]; [rewrite set_nth_same in J by lia; injection J as <-; now destruct E'|].
              rewrite set_nth_ne in J by exact Xj. destruct (Nat.lt_ge_cases j i) as [J'|J'].
              + rewrite Fs in J by lia. eapply nth_error_In; exact J.
              + exfalso. apply E'. apply (Fn j c'); [lia|exact J].
            - exists f. split; [|auto]. rewrite Hm in Ga by (cbn; intros [X'|[]]; congruence). rewrite Hk in Ga by exact Na. destruct (in_dec Nat.eq_dec a (map fst li)); [discriminate|exact Ga]. }
          assert (Cf : In c fs) by (eapply nth_error_In; rewrite <- (Fs i) by lia; exact C).
          assert (Up : forall b, reach w1 q b -> reach w o b).
          { intros y Rk. apply reach_step with q fs; [exact G|apply ptrs_in; now exists c|].
            revert Rk. apply reach_mono. intros a f Ga. destruct (Sub a f Ga) as (f' & Gf & J). exists f'. split; [exact Gf|]. intros b Bb. apply ptrs_in in Bb as (c' & C' & E').
            apply ptrs_in. exists c'. split; [apply J; [exact C'|congruence]|exact E']. }
          destruct (B2 k e X) as [Rk Ok]. split.
          -- apply Up, Rk.
          -- destruct Ok as [[-> ->]|(a & f & c' & Ra & Ga & C' & E' & Ee)]; [exists o, fs, c; split; [constructor|auto]|].
             destruct (Sub a f Ga) as (f' & Gf & J). exists a, f', c'. split; [|split; [exact Gf|split; [apply J; [exact C'|congruence]|auto]]]. apply Up, Ra.
        * rewrite map_app. clear -Nd B3 Dj. induction (map fst li) as [|x m IHm]; [exact B3|]. inversion Nd as [|? ? Nx Nm]; subst. cbn. constructor.
          -- rewrite in_app_iff. intros [X|X]; [contradiction|]. apply (Dj x); [now left|exact X].
          -- apply IHm; [exact Nm|]. intros k X Y. apply (Dj k); [now right|exact Y].
        * exists w', l, fo. exact M.
      + cbn [bind]. destruct (IHi w1 li (set_nth i (Cell None (cdel c)) fi)) as (w' & l & fo & M); auto.
        * eapply inv_write; [exact Ii|exact P|exact P'|auto|auto|auto|]. cbn [cptr o2l]. rewrite Q, R1. reflexivity.
        * rewrite (Permutation_length (ptrs_perm _ _ P')). rewrite (Permutation_length (ptrs_perm _ _ P)) in Ni. cbn [ptrs flat_map cptr] in *. rewrite Q in Ni. exact Ni.
        * congruence.
        * congruence.
        * congruence.
        * congruence.
        * now rewrite set_nth_len.
        * intros k Nk. rewrite Hm by (cbn; intros [X|[]]; congruence). now apply Hk.
        * intros j J. rewrite set_nth_ne by lia. apply Fs. lia.
        * intros j c' J E. destruct (Nat.eq_dec i j) as [<-|X]; [rewrite set_nth_same in E by lia; now injection E as <-|rewrite set_nth_ne in E by exact X; apply (Fn j c'); [lia|exact E]].
        * lia.
        * exists w', l, fo. exact M. }
  destruct (K (length fs) w [] fs) as (w' & l & fo & -> & I' & Le & V' & R' & O' & G' & Ho & Po & No & Hk & Re & Nd); auto.
  - now rewrite app_nil_r.
  - intros j c J E. assert (j < length fs) by (apply nth_error_Some; congruence). lia.
  - intros k e [].
  - constructor.
  - cbn [bind]. destruct (get_split o (heap w') fo Ho) as (l1 & l2 & E & Gn & _ & Dr).
    exists (free w' o d), (l ++ [(o, d)]). split; [reflexivity|].
    assert (Pc : Permutation (ptrs (cells (free w' o d))) (ptrs (cells w'))).
    { unfold free, cells. cbn [vars heap]. rewrite Dr, E, !map_app, !concat_app. cbn [map snd concat]. rewrite !ptrs_app, Po. cbn [app]. reflexivity. }
    assert (Ll : Permutation (o :: live (free w' o d)) (live w')).
    { unfold live, free. cbn [heap]. rewrite Dr, E, !map_app. cbn [map fst]. apply Permutation_middle. }
    assert (Nn : ~ In o (live (free w' o d))).
    { assert (Z := nodup_live _ _ I'). eapply Permutation_NoDup in Z; [|symmetry; exact Ll]. now inversion Z. }
    split; [|split; [|split; [|split; [|split]]]].
    + split.
      * apply Permutation_cons_inv with o. rewrite Ll, Pc. cbn [free raws]. destruct I' as [I1 _]. rewrite <- I1, !app_assoc. apply Permutation_middle.
      * destruct I' as [_ I2]. cbn [free nobj log]. rewrite <- I2, map_app. cbn [map fst]. rewrite app_assoc, Permutation_app_comm. cbn [app]. rewrite <- Ll. reflexivity.
    + unfold gone. cbn [free vars raws nobj log heap]. repeat split; auto; [now rewrite G', app_assoc|]. intros k. destruct (in_dec Nat.eq_dec k (map fst (l ++ [(o, d)]))) as [X|X].
      * rewrite map_app, in_app_iff in X. cbn in X. destruct (Nat.eq_dec k o) as [->|Nk]; [apply get_none; exact Nn|]. rewrite get_drop_ne by exact Nk. rewrite Hk by exact Nk.
        destruct (in_dec Nat.eq_dec k (map fst l)); [reflexivity|]. exfalso. destruct X as [X|[X|[]]]; congruence.
      * rewrite map_app, in_app_iff in X. cbn in X. assert (Nk : k <> o) by (intros ->; tauto). rewrite get_drop_ne by exact Nk. rewrite Hk by exact Nk.
        destruct (in_dec Nat.eq_dec k (map fst l)); [tauto|reflexivity].
    + apply in_or_app. right. now left.
    + intros k e. rewrite in_app_iff. cbn. intros [X|[[= <- <-]|[]]]; [destruct (Re k e X); auto|]. split; [constructor|now left].
    + rewrite map_app. cbn. clear -Nd No. induction (map fst l) as [|x m IHm]; cbn; [constructor; [tauto|constructor]|]. inversion Nd as [|? ? Nx Nm]; subst. cbn in No. constructor.
      * rewrite in_app_iff. cbn. intros [X|[X|[]]]; [contradiction|]. subst. tauto.
      * apply IHm; tauto.
    + rewrite (Permutation_length Pc). exact Le.
Qed.

(** An object has one owner. *)
Lemma owner_unique w D a fs b : inv w D -> get a (heap w) = Some fs -> In b (ptrs fs) ->
  ~ In b (ptrs (map snd (vars w))) /\ ~ In b (raws w) /\ ~ In b D /\ forall k fk, k <> a -> get k (heap w) = Some fk -> ~ In b (ptrs fk).
Proof.
  intros I G B. destruct (get_split a (heap w) fs G) as (l1 & l2 & E & _ & _ & Dr).
  set (rest := ptrs (map snd (vars w)) ++ ptrs (concat (map snd (drop a (heap w)))) ++ raws w ++ D).
  assert (P : Permutation (ptrs (cells w) ++ raws w ++ D) (ptrs fs ++ rest)).
  { unfold cells, rest. rewrite Dr, E, !map_app, !concat_app. cbn [map snd concat]. rewrite !ptrs_app, <- !app_assoc.
    etransitivity; [apply Permutation_app_head, Permutation_app_swap_app|]. apply Permutation_app_swap_app. }
  assert (N := nodup_owned _ _ I). eapply Permutation_NoDup in N; [|exact P].
  assert (X : ~ In b rest). { clear -N B. induction (ptrs fs) as [|x m IH]; [contradiction|]. inversion N as [|? ? Nx Nm]; subst. destruct B as [->|B]; [|auto]. intros X. apply Nx, in_or_app. now right. }
  unfold rest in X. rewrite !in_app_iff in X. repeat split; try tauto. intros k fk K Gk Bk. apply X. right. left.
  apply ptrs_in in Bk as (c & C & Ec). apply ptrs_in. exists c. split; [|exact Ec]. apply in_concat. exists fk. split; [|exact C].
  apply in_map_iff. exists (k, fk). split; [reflexivity|]. apply get_some_in. now rewrite get_drop_ne.
Qed.
Lemma in_get w D k fk : inv w D -> In (k, fk) (heap w) -> get k (heap w) = Some fk.
Proof.
  intros I H. assert (N := nodup_live _ _ I). unfold live in N. induction (heap w) as [|[x f] h IH]; [contradiction|]. cbn in *. inversion N as [|? ? Nx Nm]; subst.
  destruct H as [[= -> ->]|H]; [now rewrite Nat.eqb_refl|]. destruct (Nat.eqb_spec x k) as [->|K]; [|auto]. exfalso. apply Nx. change k with (fst (k, fk)). now apply in_map.
Qed.
(** Every live object has an owner. *)
Lemma has_owner w D b : inv w D -> In b (live w) ->
  In b (ptrs (map snd (vars w))) \/ In b (raws w) \/ In b D \/ exists a fs, get a (heap w) = Some fs /\ In b (ptrs fs).
Proof.
  intros I L. apply (Permutation_in b (Permutation_sym (proj1 I))) in L. unfold cells in L. rewrite ptrs_app, !in_app_iff in L.
  destruct L as [[L|L]|L]; [now left| |tauto]. do 3 right. apply ptrs_in in L as (c & C & Ec). apply in_concat in C as (fs & Fs & C). apply in_map_iff in Fs as ([a f] & <- & H).
  exists a, f. split; [eapply in_get; eauto|]. apply ptrs_in. now exists c.
Qed.
Lemma delete_all w w' l o D : inv w (o :: D) -> inv w' D -> gone w w' l -> In o (map fst l) -> forall k, reach w o k -> In k (map fst l).
Proof.
  intros I I' (Ev & Er & _ & _ & Eg) Ho k R.
  assert (St : forall a b fs, In a (map fst l) -> get a (heap w) = Some fs -> In b (ptrs fs) -> In b (map fst l)).
  { intros a b fs A G B. destruct (in_dec Nat.eq_dec b (map fst l)) as [X|X]; [exact X|exfalso].
    destruct (owner_unique _ _ _ _ _ I G B) as (U1 & U2 & U3 & U4). cbn [In] in U3.
    assert (Lb : In b (live w')).
    { apply in_live. rewrite Eg. destruct (in_dec Nat.eq_dec b (map fst l)); [contradiction|]. apply in_live. eapply Permutation_in; [apply I|]. rewrite in_app_iff. left.
      unfold cells. rewrite ptrs_app, in_app_iff. right. apply ptrs_in in B as (c & C & Ec). apply ptrs_in. exists c. split; [|exact Ec]. apply in_concat. exists fs. split; [|exact C].
      apply in_map_iff. exists (a, fs). split; [reflexivity|now apply get_some_in]. }
    destruct (has_owner _ _ _ I' Lb) as [H|[H|[H|(a' & f' & G' & H)]]].
    - rewrite Ev in H. tauto.
    - rewrite Er in H. tauto.
    - tauto.
    - rewrite Eg in G'. destruct (in_dec Nat.eq_dec a' (map fst l)) as [Y|Y]; [discriminate|]. apply (U4 a' f'); auto. intros ->. contradiction. }
  induction R as [|a b k fs G B R IH]; [exact Ho|]. assert (Hb := St a b fs Ho G B). clear Ho. revert Hb. clear -St R. intros Hb.
  induction R as [|a b k fs G B R IH]; [exact Hb|]. apply IH. eapply St; eauto.
Qed.
