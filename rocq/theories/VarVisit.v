(** visit: the values that reach the visitor, and the copies made on the way. *)
From Coq Require Import List Bool PeanoNat Lia.
From Verif Require Import LifeModel VarModel VarSpec VarProofs.
Import ListNotations.

Section P.
  Context {V : Type}.
  Context (promise : nat -> okind -> bool) (moved torn : V -> V) (thr : nat -> bool) (noexc : bool) (n : nat) (n16 : n <= 16).
  Notation W := (world V (option nat)).

  Definition winv (w : W) : Prop :=
    forall l, match disc w l with
              | Some (Some t) => t < n /\ exists v, objs w l = Some (t, v)
              | _ => objs w l = None
              end.
  Definition cont (w : W) (l : loc) : cell V :=
    match disc w l with None => None | Some None => Some None | Some (Some t) => Some (option_map (fun o => (t, snd o)) (objs w l)) end.
  Definition alive (w : W) (l : loc) : nat := match objs w l with Some _ => 1 | None => 0 end.
  Definition balanced (w w' : W) : Prop := forall l, made w' l + gone w l + alive w l = made w l + gone w' l + alive w' l.
  Definition same_at (w w' : W) (l : loc) : Prop := disc w' l = disc w l /\ objs w' l = objs w l.
  Definition equiv (w w' : W) : Prop := (forall l, same_at w w' l) /\ balanced w w'.

  Lemma loc_eqb_spec a b : reflect (a = b) (loc_eqb a b).
  Proof. destruct a as [a|a], b as [b|b]; cbn; try (constructor; congruence); destruct (Nat.eqb_spec a b); constructor; congruence. Qed.

  Lemma winv_same w w' : winv w -> (forall l, same_at w w' l) -> winv w'.
  Proof. intros H E l. destruct (E l) as [-> ->]. apply H. Qed.

  (** What a piece of code run in [w] does that gives everything back: its result is in
      [A], it may throw, it may terminate only if [T]. *)
  Definition tidy {R} (w : W) (T : Prop) (A : R -> Prop) (o : out W R) : Prop :=
    match o with
    | Ret r w' => equiv w w' /\ A r
    | Exn User w' => equiv w w' /\ threw promise thr n
    | Exn BadAccess _ => False
    | Term => T
    | Bad _ => False
    end.

  Ltac unf := cbv [switch h_destroy h_copy_construct index valueless same ctor_copy dtor
    ret seq on_exn get_disc put_disc enter step read make copy_make destroy set_obj tick count_made count_gone upd].
  Ltac eqs := repeat match goal with |- context [loc_eqb ?a ?b] => destruct (loc_eqb_spec a b) end; subst; try congruence.

  Ltac go := cbv beta iota; cbn [objs disc clk made gone negb].

  Lemma ctor_copy_ok w l s : winv w -> disc w l = None -> disc w s <> None ->
    match ctor_copy promise thr l s w with
    | Ret _ w1 => winv w1 /\ (forall k, k <> l -> same_at w w1 k) /\ cont w1 l = cont w s /\ balanced w w1
    | Exn User w1 => equiv w w1 /\ threw promise thr n
    | _ => False
    end.
  Proof using n16.
    intros I D S. pose proof (I l) as Il. rewrite D in Il. pose proof (I s) as Is. unfold cont. unf.
    destruct (disc w s) as [[t|]|] eqn:E; [| |congruence]; cbn [objs disc clk made gone]; rewrite D, Il; cbn [objs disc clk made gone].
    - destruct Is as (L & v & O). rewrite (proj2 (Nat.ltb_lt t 16)) by lia. go. rewrite O. go. rewrite Nat.eqb_refl. go. rewrite ?Il. go.
      destruct (thr (clk w) && negb (promise t KCopy)) eqn:Th; cbn [objs disc clk made gone].
      + split; [split|]; [| |apply andb_true_iff in Th; destruct Th as [Th Pr]; apply negb_true_iff in Pr; split; eauto].
        * intros k. split; cbn [objs disc]; [|reflexivity]. destruct (loc_eqb_spec k l); [now subst|reflexivity].
        * intros k. unfold alive. cbn. lia.
      + split; [|split; [|split]].
        * intros k. specialize (I k). cbn [objs disc]. destruct (loc_eqb_spec k l); [eauto|exact I].
        * intros k N. split; cbn [objs disc]; eqs; reflexivity.
        * destruct (loc_eqb_spec l l); [|congruence]. reflexivity.
        * intros k. unfold alive. cbn [objs made gone]. destruct (loc_eqb_spec k l); [subst; rewrite Il; lia|lia].
    - split; [|split; [|split]].
      * intros k. specialize (I k). cbn [objs disc]. destruct (loc_eqb_spec k l); [now subst|exact I].
      * intros k N. split; cbn [objs disc]; eqs; reflexivity.
      * destruct (loc_eqb_spec l l); [|congruence]. reflexivity.
      * intros k. unfold alive. cbn [objs made gone]. lia.
  Qed.

  Lemma dtor_ok w l : winv w -> disc w l <> None ->
    match dtor l w with
    | Ret _ w1 => disc w1 l = None /\ objs w1 l = None /\ (forall k, k <> l -> same_at w w1 k) /\ balanced w w1
    | _ => False
    end.
  Proof using n16.
    intros I D. pose proof (I l) as Il. unf.
    destruct (disc w l) as [[t|]|] eqn:E; [| |congruence]; cbn [objs disc clk made gone negb].
    - destruct Il as (L & v & O). rewrite E. cbn [negb]. rewrite (proj2 (Nat.ltb_lt t 16)) by lia. go. rewrite O. go. rewrite Nat.eqb_refl. go.
      split; [|split; [|split]].
      + destruct (loc_eqb_spec l l); congruence.
      + destruct (loc_eqb_spec l l); congruence.
      + intros k N. split; cbn [objs disc]; eqs; reflexivity.
      + intros k. unfold alive. cbn [objs made gone]. destruct (loc_eqb_spec k l); [subst; rewrite O; lia|lia].
    - rewrite E. cbn [negb objs disc made gone]. split; [|split; [|split]].
      + destruct (loc_eqb_spec l l); congruence.
      + exact Il.
      + intros k N. split; cbn [objs disc]; eqs; reflexivity.
      + intros k. unfold alive. cbn. lia.
  Qed.

  Definition low (c : nat) (l : loc) : Prop := match l with Tmp j => j < c | Var _ => True end.
  Definition agree (c : nat) (w w' : W) : Prop := forall l, low c l -> same_at w w' l.
  Definition free (c : nat) (w : W) : Prop := forall j, c <= j -> disc w (Tmp j) = None.

  Lemma low_S c l : low c l -> low (S c) l.
  Proof. destruct l; cbn; auto. Qed.
  Lemma low_le c d l : c <= d -> low c l -> low d l.
  Proof. destruct l; cbn; auto. lia. Qed.
  Lemma cont_same w w' l : same_at w w' l -> cont w' l = cont w l.
  Proof. intros [A B]. unfold cont. now rewrite A, B. Qed.
  Lemma agree_trans c d w w' w'' : c <= d -> agree c w w' -> agree d w' w'' -> agree c w w''.
  Proof. intros L A B l H. destruct (A l H), (B l (low_le c d l L H)). split; congruence. Qed.

  Lemma equiv_bracket w w1 w2 l w3 : disc w l = None -> objs w l = None -> (forall k, k <> l -> same_at w w1 k) -> balanced w w1 -> equiv w1 w2 ->
    disc w3 l = None -> objs w3 l = None -> (forall k, k <> l -> same_at w2 w3 k) -> balanced w2 w3 -> equiv w w3.
  Proof.
    intros D O A B (E & B') D3 O3 A' B''. split.
    - intros k. destruct (loc_eqb_spec k l); [subst; split; congruence|]. destruct (A k n0), (E k), (A' k n0). split; congruence.
    - intros k. specialize (B k). specialize (B' k). specialize (B'' k). lia.
  Qed.

  Lemma copies_ok {R} (T : Prop) (A : R -> Prop) srcs : forall c (k : list loc -> M R) w,
    winv w -> free c w -> (forall s, In s srcs -> low c s /\ disc w s <> None) ->
    (forall ls w', agree c w w' -> winv w' -> free (c + length srcs) w' -> length ls = length srcs ->
       (forall l, In l ls -> low (c + length srcs) l) -> map (cont w') ls = map (cont w) srcs -> tidy w' T A (k ls w')) ->
    tidy w T A (copies promise thr c srcs k w).
  Proof using n16.
    induction srcs as [|s ss IH]; intros c k w I F Src K; cbn [copies].
    - apply K; try easy. cbn. now rewrite Nat.add_0_r.
    - assert (Dc : disc w (Tmp c) = None) by (apply F; lia).
      destruct (Src s (or_introl eq_refl)) as [Ls Ds].
      pose proof (ctor_copy_ok w (Tmp c) s I Dc Ds) as C. unfold seq at 1. destruct (ctor_copy promise thr (Tmp c) s w) as [u w1|[|] w1| |]; try contradiction; [|exact C].
      destruct C as (I1 & S1 & C1 & B1).
      assert (A1 : agree c w w1). { intros l L. apply S1. intros ->. cbn in L. lia. }
      assert (Oc : objs w (Tmp c) = None). { pose proof (I (Tmp c)) as H. now rewrite Dc in H. }
      assert (G : tidy w1 T A (copies promise thr (S c) ss (fun ls => k (Tmp c :: ls)) w1)).
      { apply IH; [exact I1| | |].
        - intros j L. rewrite (proj1 (S1 (Tmp j) ltac:(intros [= ->]; lia))). apply F. lia.
        - intros s' H. destruct (Src s' (or_intror H)) as [L D]. split; [now apply low_S|]. rewrite (proj1 (A1 s' L)). exact D.
        - intros ls w' A' I' F' Len Low Cont. apply K.
          + apply (agree_trans c (S c) w w1 w'); auto.
          + exact I'.
          + intros j L. apply F'. cbn in L. lia.
          + cbn. now rewrite Len.
          + intros l [<-|H]; [cbn; lia|]. apply Low in H. eapply low_le; [|exact H]. cbn. lia.
          + cbn [map]. f_equal.
            * rewrite (cont_same w1 w' (Tmp c)); [exact C1|]. apply A'. cbn. lia.
            * rewrite Cont. apply map_ext_in. intros s' H. apply cont_same. apply A1. now apply Src; right. }
      assert (Dw1 : disc w1 (Tmp c) <> None). { intros E. unfold cont at 1 in C1. rewrite E in C1. unfold cont in C1. destruct (disc w s) as [[?|]|]; congruence. }
      unfold finally, tidy in *. destruct (copies promise thr (S c) ss _ w1) as [r w2|[|] w2| |]; try contradiction; [| |exact G].
      + destruct G as (E2 & G). assert (I2 : winv w2) by (eapply winv_same; [exact I1|apply E2]).
        pose proof (dtor_ok w2 (Tmp c) I2 ltac:(rewrite (proj1 (proj1 E2 (Tmp c))); exact Dw1)) as D. destruct (dtor (Tmp c) w2); try contradiction.
        destruct D as (D3 & O3 & S3 & B3). split; [|exact G]. eapply equiv_bracket; eauto.
      + destruct G as (E2 & G). assert (I2 : winv w2) by (eapply winv_same; [exact I1|apply E2]).
        pose proof (dtor_ok w2 (Tmp c) I2 ltac:(rewrite (proj1 (proj1 E2 (Tmp c))); exact Dw1)) as D. destruct (dtor (Tmp c) w2); try contradiction.
        destruct D as (D3 & O3 & S3 & B3). split; [|exact G]. eapply equiv_bracket; eauto.
  Qed.

  Lemma apply1_ok {R} (T : Prop) (A : R -> Prop) (v : list (nat * V) -> M R) a w :
    winv w -> disc w a <> None -> (cont w a = Some None -> T) -> (forall x, cont w a = Some (Some x) -> tidy w T A (v [x] w)) -> tidy w T A (apply1 noexc v a w).
  Proof using n16.
    intros I D HT HV. pose proof (I a) as Ia. unfold cont in *. cbv [apply1 seq index get_disc get same ret read]. destruct (disc w a) as [[t|]|] eqn:E; [| |congruence].
    - destruct Ia as (L & x & O). rewrite (proj2 (Nat.ltb_lt t 16)) by lia. go. rewrite E. go. rewrite Nat.eqb_refl. go. rewrite O. go. rewrite Nat.eqb_refl. go. apply HV. rewrite O. reflexivity.
    - cbn. auto.
  Qed.

  (* the values of the arguments, in order, when all of them hold one *)
  Definition fulls (cs : list (cell V)) (vals : list (nat * V)) : Prop := cs = map (fun x => Some (Some x)) vals.

  Lemma apply_ok {R} (T : Prop) (A : R -> Prop) m : forall c (v : list (nat * V) -> M R) args w,
    length args = m -> 0 < m -> winv w -> free c w -> (forall a, In a args -> low c a /\ disc w a <> None) ->
    ((exists a, In a args /\ cont w a = Some None) -> T) ->
    (forall w' vals, agree c w w' -> winv w' -> fulls (map (cont w) args) vals -> tidy w' T A (v vals w')) ->
    tidy w T A (apply promise thr noexc m c v args w).
  Proof using n16.
    induction m as [|m IH]; intros c v args w Len Pos I F L HT HV; [lia|]. destruct args as [|a1 [|a2 rest]]; cbn [length] in Len; [discriminate| |].
    - cbn [apply]. destruct m; [|discriminate]. cbn [map] in HV.
      apply apply1_ok; [exact I|apply L; now left| |].
      + intros E. apply HT. exists a1. split; [now left|exact E].
      + intros x E. apply HV; [intros l _; now split|exact I|]. unfold fulls. cbn. now rewrite E.
    - cbn [apply]. apply copies_ok; [exact I|exact F| |].
      + intros s H. apply L. right. now right.
      + intros ls w' Ag I' F' Lls Low Cont.
        assert (S1 : same_at w w' a1) by (apply Ag, L; now left). assert (S2 : same_at w w' a2) by (apply Ag, L; right; now left).
        apply IH; [cbn; rewrite Lls; injection Len as ->; reflexivity|injection Len as <-; lia|exact I'|exact F'| | |].
        * intros a [<-|H].
          -- split; [|rewrite (proj1 S2); apply L; right; now left]. eapply low_le; [|apply L; right; now left]. lia.
          -- split; [now apply Low|]. apply (in_map (cont w')) in H. rewrite Cont in H. apply in_map_iff in H. destruct H as (s & H & Hs).
             destruct (L s (or_intror (or_intror Hs))) as [_ Ds]. unfold cont in H. intros E. rewrite E in H. destruct (disc w s) as [[?|]|]; congruence.
        * intros (a & [<-|H] & E).
          -- apply HT. exists a2. split; [right; now left|]. rewrite <- (cont_same w w'); [exact E|exact S2].
          -- apply (in_map (cont w')) in H. rewrite Cont in H. apply in_map_iff in H. destruct H as (s & H & Hs). apply HT. exists s. split; [right; now right|congruence].
        * intros w'' vals Ag' I'' Full. unfold unwrap.
          assert (Ag'' : agree c w w'') by (eapply agree_trans; [|exact Ag|exact Ag']; lia).
          assert (S1' : same_at w w'' a1) by (apply Ag'', L; now left).
          apply apply1_ok; [exact I''|rewrite (proj1 S1'); apply L; now left| |].
          -- intros E. apply HT. exists a1. split; [now left|]. now rewrite <- (cont_same w w'').
          -- intros x E. apply HV; [exact Ag''|exact I''|]. unfold fulls in *. cbn [map app]. rewrite <- (cont_same w w'' a1) by exact S1'. rewrite E. f_equal.
             rewrite <- Full. cbn [map]. rewrite (cont_same w w' a2) by exact S2. now rewrite Cont.
  Qed.

  Lemma visit_ok xs w : inv n w -> forallb (declared (abs w)) xs = true -> 0 < length xs ->
    tidy w (forallb (full (abs w)) xs = false) (fun r => answer (OVisit xs) (abs w) = Some r) (exec promise moved torn thr noexc n (OVisit xs) w).
  Proof using n16.
    intros I D Pos. cbn [exec]. unfold visit. rewrite forallb_forall in D.
    assert (Wi : winv w). { intros [x|k]; [apply I|]. destruct (proj1 (proj2 I) k) as [-> ->]. reflexivity. }
    apply apply_ok; try (rewrite map_length); auto.
    - intros j _. apply I.
    - intros a H. apply in_map_iff in H. destruct H as (x & <- & H). split; [exact Coq.Init.Logic.I|]. specialize (D x H). unfold declared, abs in D. intros E. now rewrite E in D.
    - intros (a & H & E). apply in_map_iff in H. destruct H as (x & <- & H).
      destruct (forallb (full (abs w)) xs) eqn:F; [|reflexivity]. rewrite forallb_forall in F. specialize (F x H). unfold full, abs in F. unfold cont in E.
      destruct (disc w (Var x)) as [[t|]|]; [|discriminate|discriminate]. destruct (objs w (Var x)); discriminate.
    - intros w' vals _ _ Full. unfold tidy, ret. split.
      + split; [intros l; now split|]. intros l. lia.
      + cbn [answer]. f_equal. f_equal. unfold fulls in Full. rewrite map_map in Full. change (fun x => cont w (Var x)) with (abs w) in Full.
        clear -Full. revert vals Full. induction xs as [|x xs IH]; intros [|v vals] Full; cbn in *; try discriminate; [reflexivity|].
        injection Full as E Full. rewrite E. cbn. f_equal. now apply IH.
  Qed.
End P.
