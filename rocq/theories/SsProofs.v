(** Proofs about SsModel. *)
From Coq Require Import ZArith List Bool Lia.
From Verif Require Import Mem VecModel VecProofs VecRefine StrModel StrSpec StrProofs IntStrModel IntStrSpec IntStrProofs SsModel SsSpec.
Import ListNotations.
Open Scope Z_scope.

Lemma tset_eq s x l : tset s x l x = l.
Proof. unfold tset. now rewrite Nat.eqb_refl. Qed.
Lemma tset_neq s x l y : y <> x -> tset s x l y = s y.
Proof. unfold tset. intro H. destruct (Nat.eqb_spec y x); [contradiction|reflexivity]. Qed.
Lemma set_eq {A} (f : nat -> option A) x v : set_ f x v x = v.
Proof. unfold set_. now rewrite Nat.eqb_refl. Qed.
Lemma set_neq {A} (f : nat -> option A) x v y : y <> x -> set_ f x v y = f y.
Proof. unfold set_. intro H. destruct (Nat.eqb_spec y x); [contradiction|reflexivity]. Qed.

Record Rel (sp : sspec) (s : tstate) : Prop := {
  r_tmp : s 0%nat = None;
  r_st : forall x, s (st x) = option_map (@concat Z) (written sp x);
  r_us : forall v, s (us v) = texts sp v;
  r_fit : forall x l, written sp x = Some l -> fits l }.

Ltac ne := unfold st, us; lia.
Ltac tt_ := repeat (rewrite tset_eq || (rewrite tset_neq by ne)).

Lemma fits_b l : fits l -> (tlen (concat l) <? max_text) = true.
Proof. unfold fits. intro. apply Z.ltb_lt. assumption. Qed.
Lemma fits_nil : fits []. Proof. reflexivity. Qed.

Lemma concat_snoc (l : list text) t : concat (l ++ [t]) = concat l ++ t.
Proof. rewrite concat_app. cbn. now rewrite app_nil_r. Qed.

Lemma tnew_ok s x l : s x = None -> tlen l < max_text -> tnew s x l = Some (XNone, tset s x (Some l)).
Proof. intros E H. unfold tnew. rewrite E. apply Z.ltb_lt in H. now rewrite H. Qed.
Lemma tupd_ok s x l : tlen l < max_text -> tupd s x l = Some (XNone, tset s x (Some l)).
Proof. intros H. unfold tupd. apply Z.ltb_lt in H. now rewrite H. Qed.

Lemma fits_tail (l : list text) t : fits (l ++ [t]) -> tlen t < max_text.
Proof. unfold fits. rewrite concat_snoc. unfold tlen. rewrite app_length. lia. Qed.

Lemma rel_tset_st sp s s' x l : Rel sp s -> fits l ->
  s' 0%nat = None -> (forall y, y <> 0%nat -> s' y = tset s (st x) (Some (concat l)) y) ->
  Rel (SSpec (set_ (written sp) x (Some l)) (texts sp) (printed sp)) s'.
Proof.
  intros [A1 A2 A3 A4] F E0 E. constructor; cbn [written texts].
  - exact E0.
  - intro y. rewrite E by ne. destruct (Nat.eq_dec y x) as [->|N].
    + rewrite tset_eq, set_eq. reflexivity.
    + rewrite tset_neq by ne. rewrite set_neq by exact N. apply A2.
  - intro v. rewrite E by ne. rewrite tset_neq by ne. apply A3.
  - intros y k. destruct (Nat.eq_dec y x) as [->|N].
    + rewrite set_eq. intro H. injection H as <-. exact F.
    + rewrite set_neq by exact N. apply A4.
Qed.

Lemma rel_out sp s p : Rel sp s -> Rel (SSpec (written sp) (texts sp) p) s.
Proof. intros [A1 A2 A3 A4]. constructor; auto. Qed.

(** clear *)
Lemma clear_spec sp s x l : Rel sp s -> written sp x = Some l ->
  exists os s', tspec_run s (clear_code x) = Some (os, s') /\
    Rel (SSpec (set_ (written sp) x (Some [])) (texts sp) (printed sp)) s'.
Proof.
  intros R W. pose proof R as [A1 A2 A3 A4]. unfold clear_code. cbn [tspec_run tspec_step].
  rewrite tnew_ok by (assumption || reflexivity). unfold tget.
  rewrite (tset_neq _ _ _ (st x)) by ne. rewrite A2, W. cbn [option_map].
  rewrite !tset_eq. rewrite tupd_ok by reflexivity. rewrite tset_neq by ne. rewrite tset_eq.
  eexists _, _. split; [reflexivity|].
  apply (rel_tset_st sp s); [exact R|exact fits_nil|tt_; reflexivity|].
  - intros y Hy. rewrite tset_neq by exact Hy. cbn [concat].
    destruct (Nat.eq_dec y (st x)) as [->|N]; [now rewrite !tset_eq|]. rewrite !tset_neq by assumption. reflexivity.
Qed.

Lemma shl_lit_spec sp s x l m t : Rel sp s -> written sp x = Some l -> fits (l ++ [t]) ->
  match m with Some b => cstring b = Some t | None => t = [] end ->
  exists os s', tspec_run s (shl_lit_code x m) = Some (os, s') /\
    Rel (SSpec (set_ (written sp) x (Some (l ++ [t]))) (texts sp) (printed sp)) s'.
Proof.
  intros R W F M. pose proof R as [A1 A2 A3 A4]. unfold shl_lit_code, shl_code. cbn [app tspec_run].
  assert (E : tspec_step s (SLit 0 m) = Some (XNone, tset s 0 (Some t))).
  { cbn [tspec_step]. destruct m; [rewrite M|subst t]; apply tnew_ok; auto; try reflexivity. eapply fits_tail; eauto. }
  rewrite E. cbn [tspec_step]. unfold tget.
  rewrite (tset_neq _ _ _ (st x)) by ne. rewrite A2, W. cbn [option_map]. rewrite tset_eq.
  destruct (Nat.eqb_spec (st x) 0); [exfalso; revert e; ne|].
  rewrite <- concat_snoc. rewrite tupd_ok by exact F. rewrite tset_neq by ne. rewrite tset_eq.
  eexists _, _. split; [reflexivity|].
  apply (rel_tset_st sp s); [exact R|exact F|tt_; reflexivity|].
  - intros y Hy. rewrite tset_neq by exact Hy.
    destruct (Nat.eq_dec y (st x)) as [->|N]; [now rewrite !tset_eq|]. rewrite !tset_neq by assumption. reflexivity.
Qed.

Lemma decimal_cstring z t : decimal z t -> cstring (t ++ [0]) = Some t.
Proof.
  intros (ds & -> & _ & F & _).
  assert (H : forall l, Forall (fun c => 0 < c < 256) l -> cstring (l ++ [0]) = Some l).
  { clear. induction 1 as [|c l Hc _ IH]; [reflexivity|]. cbn [app cstring].
    destruct (Z.eqb_spec c 0); [lia|]. unfold is_byte. destruct (Z.ltb_spec 0 c); [|lia]. destruct (Z.ltb_spec c 256); [|lia].
    cbn [andb]. rewrite IH. reflexivity. }
  apply H. apply Forall_app. split.
  - destruct (z <? 0); repeat constructor; lia.
  - eapply Forall_impl; [|exact F]. cbn. lia.
Qed.

Definition WRel (sp : sspec) (w : ssworld) : Prop :=
  exists s, Inv (strs w) /\ SR s (strs w) /\ Rel sp s /\ stdout w = printed sp.

Lemma exec_ok (sp sp' : sspec) w s c os s' : Inv (strs w) -> SR s (strs w) -> tspec_run s c = Some (os, s') ->
  Rel sp' s' -> stdout w = printed sp' -> sp = sp -> exists w', exec_code w c = Ok (None, w') /\ WRel sp' w'.
Proof.
  intros I R E R' P _. unfold exec_code. destruct (srun_refines _ _ _ _ _ I R E) as (outs & w' & Es & _ & I' & R'').
  rewrite Es. cbn [bind]. eexists. split; [reflexivity|]. exists s'. auto.
Qed.

Lemma read_ok sp w x l : WRel sp w -> written sp x = Some l -> read_text w x = Ok (concat l).
Proof.
  intros (s & I & R & [A1 A2 A3 A4] & P) W. unfold read_text.
  assert (E : tspec_step s (SText (st x)) = Some (XText (concat l), s)).
  { cbn [tspec_step]. unfold tget. now rewrite A2, W. }
  destruct (sstep_refines _ _ _ _ _ I R E) as (r & w' & Es & O & _). rewrite Es. cbn [bind].
  destruct r; cbn in O; try contradiction. now subst.
Qed.

Lemma ssstep_refines sp w o r sp' : WRel sp w -> ss_step sp o r sp' ->
  exists w', ssstep w o = Ok (r, w') /\ WRel sp' w'.
Proof.
  intros WR S. pose proof WR as (s & I & R & RL & P). pose proof RL as [A1 A2 A3 A4].
  destruct S as [x W|x l W|v m t T C F|v t T|x v l t W T F|x m l t W C F|x l W|x y l k N W Wy F|x n l t W B D F|x n l t W B D F|x l W|x y l k W Wy|x l W|x l W];
    cbn [ssstep].
  - eapply exec_ok with (sp := sp); eauto.
    + cbn [tspec_run tspec_step]. rewrite tnew_ok; [reflexivity|rewrite A2, W; reflexivity|reflexivity].
    + apply (rel_tset_st sp s); auto using fits_nil. rewrite tset_neq by ne. exact A1.
  - eapply exec_ok with (sp := sp); eauto.
    + cbn [tspec_run tspec_step]. unfold tget. rewrite A2, W. reflexivity.
    + constructor; cbn [written texts].
      * rewrite tset_neq by ne. exact A1.
      * intro y. destruct (Nat.eq_dec y x) as [->|N]; [now rewrite tset_eq, set_eq|].
        rewrite tset_neq by ne. rewrite set_neq by exact N. apply A2.
      * intro v. rewrite tset_neq by ne. apply A3.
      * intros y k. destruct (Nat.eq_dec y x) as [->|N]; [rewrite set_eq; discriminate|rewrite set_neq by exact N; apply A4].
  - eapply exec_ok with (sp := sp); eauto.
    + cbn [tspec_run tspec_step]. rewrite C. rewrite tnew_ok; [reflexivity|now rewrite A3|].
      unfold fits in F. cbn in F. rewrite app_nil_r in F. exact F.
    + constructor; cbn [written texts]; auto.
      * rewrite tset_neq by ne. exact A1.
      * intro y. rewrite tset_neq by ne. apply A2.
      * intro u. destruct (Nat.eq_dec u v) as [->|N]; [now rewrite tset_eq, set_eq|].
        rewrite tset_neq by ne. rewrite set_neq by exact N. apply A3.
  - eapply exec_ok with (sp := sp); eauto.
    + cbn [tspec_run tspec_step]. unfold tget. rewrite A3, T. reflexivity.
    + constructor; cbn [written texts]; auto.
      * rewrite tset_neq by ne. exact A1.
      * intro y. rewrite tset_neq by ne. apply A2.
      * intro u. destruct (Nat.eq_dec u v) as [->|N]; [now rewrite tset_eq, set_eq|].
        rewrite tset_neq by ne. rewrite set_neq by exact N. apply A3.
  - eapply exec_ok with (sp := sp); eauto.
    + unfold shl_code. cbn [tspec_run tspec_step]. unfold tget. rewrite A2, W, A3, T. cbn [option_map].
      destruct (Nat.eqb_spec (st x) (us v)) as [e|_]; [exfalso; revert e; ne|].
      rewrite <- concat_snoc, tupd_ok by exact F. reflexivity.
    + apply (rel_tset_st sp s); auto. rewrite tset_neq by ne. exact A1.
  - destruct (shl_lit_spec sp s x l (Some m) t RL W F C) as (os & s' & E & RL'). eapply exec_ok with (sp := sp); eauto.
  - destruct (shl_lit_spec sp s x l None [] RL W) as (os & s' & E & RL'); auto.
    { unfold fits. rewrite concat_snoc, app_nil_r. apply (A4 x l W). }
    eapply exec_ok with (sp := sp); eauto.
  - eapply exec_ok with (sp := sp); eauto.
    + unfold shl_code. cbn [tspec_run tspec_step]. unfold tget. rewrite !A2, W, Wy. cbn [option_map].
      destruct (Nat.eqb_spec (st x) (st y)) as [e|_]; [exfalso; revert e; ne|].
      rewrite <- concat_snoc, tupd_ok by exact F. reflexivity.
    + apply (rel_tset_st sp s); auto. rewrite tset_neq by ne. exact A1.
  - destruct (to_string_int_ok n B) as (t' & E & D'). rewrite E. cbn [bind].
    rewrite (decimal_unique _ _ _ D' D). pose proof (decimal_cstring _ _ D) as C.
    destruct (shl_lit_spec sp s x l (Some (t ++ [0])) t RL W F C) as (os & s' & Es & RL'). eapply exec_ok with (sp := sp); eauto.
  - destruct (to_string_int64_ok n B) as (t' & E & D'). rewrite E. cbn [bind].
    rewrite (decimal_unique _ _ _ D' D). pose proof (decimal_cstring _ _ D) as C.
    destruct (shl_lit_spec sp s x l (Some (t ++ [0])) t RL W F C) as (os & s' & Es & RL'). eapply exec_ok with (sp := sp); eauto.
  - destruct (clear_spec sp s x l RL W) as (os & s' & E & RL'). eapply exec_ok with (sp := sp); eauto.
  - assert (E1 : tspec_step s (SAssign (st x) (st y)) = Some (XNone, tset s (st x) (Some (concat k)))).
    { cbn [tspec_step]. unfold tget. rewrite !A2, W, Wy. cbn [option_map]. apply tupd_ok. apply (A4 y k Wy). }
    assert (RL1 : Rel (SSpec (set_ (written sp) x (Some k)) (texts sp) (printed sp)) (tset s (st x) (Some (concat k)))).
    { apply (rel_tset_st sp s); auto; [apply (A4 y k Wy)|]. rewrite tset_neq by ne. exact A1. }
    assert (Wy' : exists k', set_ (written sp) x (Some k) y = Some k').
    { destruct (Nat.eq_dec y x) as [->|N]; [rewrite set_eq; eauto|rewrite set_neq by exact N; eauto]. }
    destruct Wy' as [k' Wy'].
    destruct (clear_spec _ _ y k' RL1 Wy') as (os & s' & E & RL').
    eapply exec_ok with (sp := sp) (s' := s'); eauto.
    change (move_code x y) with (SAssign (st x) (st y) :: clear_code y). cbn [tspec_run]. rewrite E1, E. reflexivity.
  - rewrite (read_ok sp w x l WR W). cbn [bind]. exists w. split; [reflexivity|]. exact WR.
  - rewrite (read_ok sp w x l WR W). cbn [bind]. destruct (clear_spec sp s x l RL W) as (os & s' & E & RL').
    eapply exec_ok with (sp := sp) (s := s); eauto.
    + apply (rel_out _ _ (printed sp ++ concat l)) in RL'. exact RL'.
    + cbn. now rewrite P.
Qed.

Lemma ssrun_refines ops : forall sp w outs sp', WRel sp w -> ss_run sp ops outs sp' ->
  exists w', ssrun w ops = Ok (outs, w') /\ WRel sp' w'.
Proof.
  induction ops as [|o t IH]; intros sp w outs sp' WR H; inversion H; subst.
  - exists w. split; [reflexivity|exact WR].
  - match goal with A : ss_step _ _ _ _ |- _ => destruct (ssstep_refines _ _ _ _ _ WR A) as (w1 & E1 & WR1) end.
    match goal with A : ss_run _ t _ _ |- _ => destruct (IH _ _ _ _ WR1 A) as (w2 & E2 & WR2) end.
    exists w2. cbn [ssrun]. rewrite E1. cbn [bind]. rewrite E2. split; [reflexivity|exact WR2].
Qed.

Lemma wrel0 : WRel sspec0 ssworld0.
Proof.
  exists tspec0. split; [apply inv0|]. split; [apply sr0|]. split; [|reflexivity].
  constructor; try reflexivity; try discriminate.
Qed.

Lemma shl_string_never n : forall os s, ostream_shl_string n os s = UB NoReturn.
Proof. induction n; intros; cbn; auto. Qed.
