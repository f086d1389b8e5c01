(** C40: valarray. *)
From Coq Require Import ZArith List Bool Lia.
From Verif Require Import Mem VecModel VecSpec VecProofs VecRefine ValModel.
Import ListNotations.
Open Scope Z_scope.

Section Spec.
  Context {V : Type} (f : V -> V).

  (** Lists again: the shared operations as in VecSpec, valarray(n) has n unspecified elements,
      sin(y) is defined when every element of y has a value. *)
  Definition vspec_step (s : sstate V) (o : vop V) : option (out V * sstate V) :=
    match o with
    | Base (PushBack _ _) | Base (PopBack _) | Base (PushBackOf _ _ _) => None
    | Base o => spec_step s o
    | NewN x n =>
      match s x with
      | Some _ => None
      | None => if (0 <=? n) && (n <? max_len) then Some (ONone, sset s x (Some (repeat None (Z.to_nat n)))) else None
      end
    | Sin x y =>
      match s x, s y with
      | None, Some l =>
        if forallb (fun c => match c with Some _ => true | None => false end) l
        then Some (ONone, sset s x (Some (map (option_map f) l))) else None
      | _, _ => None
      end
    end.
  Fixpoint vspec_run (s : sstate V) (ops : list (vop V)) : option (list (out V) * sstate V) :=
    match ops with
    | [] => Some ([], s)
    | o :: t =>
      match vspec_step s o with
      | None => None
      | Some (r, s') => match vspec_run s' t with None => None | Some (rs, s'') => Some (r :: rs, s'') end
      end
    end.

  Lemma sset_same (s : sstate V) x l : sset s x l x = l.
  Proof. unfold sset. now rewrite Nat.eqb_refl. Qed.
  Lemma sset_other (s : sstate V) x l y : y <> x -> sset s x l y = s y.
  Proof. unfold sset. intro. destruct (Nat.eqb_spec y x); congruence. Qed.

  Lemma R_ext (s s' : sstate V) w : (forall x, s x = s' x) -> R s w -> R s' w.
  Proof. intros E H x. specialize (H x). rewrite <- E. exact H. Qed.

  (** a fresh vector resized to n *)
  Lemma fresh_ok (s : sstate V) w x n : Inv w -> R s w -> s x = None -> 0 <= n < max_len ->
    exists v h, resize (hp w) vec_new n = Ok (v, h) /\ size v = n /\ Inv (put w x v h) /\
      R (sset s x (Some (repeat None (Z.to_nat n)))) (put w x v h).
  Proof.
    intros I HR Ex Hn.
    assert (E1 : spec_step s (New x) = Some (ONone, sset s x (Some []))) by (cbn; now rewrite Ex).
    destruct (step_refines s w (New x) _ _ I HR E1) as (r1 & w1 & S1 & _ & I1 & R1).
    cbn [step] in S1. destruct (vecs w x) eqn:Ev; [discriminate|]. injection S1 as <- <-.
    destruct (Z.eq_dec n 0) as [->|N].
    - exists vec_new, (hp w). split; [reflexivity|]. split; [reflexivity|]. split; [exact I1|exact R1].
    - assert (E2 : spec_step (sset s x (Some [])) (Resize x n) = Some (ONone, sset (sset s x (Some [])) x (Some (repeat None (Z.to_nat n))))).
      { cbn [spec_step]. unfold sget, guard. rewrite sset_same.
        destruct (Z.leb_spec 1 n); [|lia]. destruct (Z.ltb_spec n max_len); [|lia]. cbn [andb].
        rewrite firstn_nil. cbn [length app]. rewrite Nat.sub_0_r. reflexivity. }
      destruct (step_refines _ _ (Resize x n) _ _ I1 R1 E2) as (r2 & w2 & S2 & _ & I2 & R2).
      cbn [step] in S2. unfold find, put in S2. cbn [vecs hp] in S2. rewrite upd_same in S2. cbn [bind] in S2.
      unfold w64 in S2. rewrite Z.mod_small in S2 by (unfold max_len in Hn; lia).
      destruct (resize (hp w) vec_new n) as [[v h]| |] eqn:Er; cbn [bind] in S2; try discriminate. injection S2 as <- <-.
      exists v, h. split; [reflexivity|].
      assert (EW : forall y, upd (upd (vecs w) x (Some vec_new)) x (Some v) y = upd (vecs w) x (Some v) y).
      { intro y. unfold upd. destruct (Nat.eqb y x); reflexivity. }
      split; [|split].
      + unfold resize in Er. destruct (Z.ltb_spec n 1); [lia|]. destruct (capacity vec_new <? n); [|injection Er as <- <-; reflexivity].
        cbn [size vec_new Z.to_nat copy_loop elements] in Er. destruct (allocate (hp w) _) as [[p h1]| |]; try discriminate. cbn [bind] in Er.
        destruct (deallocate h1 None); try discriminate. cbn [bind] in Er. injection Er as <- <-. reflexivity.
      + destruct I2 as [A1 A2 A3 A4 A5]. cbn [hp vecs] in *. constructor; cbn [put hp vecs].
        * exact A1.
        * intros y u. rewrite <- EW. apply A2.
        * intros y z v0 u b. rewrite <- !EW. apply A3.
        * intros b Hb. destruct (A4 b Hb) as (y & u & H1 & H2). exists y, u. rewrite <- EW. auto.
        * intros y u. rewrite <- EW. apply A5.
      + intro y. specialize (R2 y). cbn [put hp vecs] in R2 |- *. rewrite EW in R2. unfold sset in *. destruct (Nat.eqb y x); exact R2.
  Qed.

  Lemma nth_map_firstn (l : list (option V)) i : (i < length l)%nat -> forallb (fun c => match c with Some _ => true | None => false end) l = true ->
    exists a, nth i l None = Some a.
  Proof.
    intros Hi H. rewrite forallb_forall in H. specialize (H (nth i l None) (nth_In _ _ Hi)).
    destruct (nth i l None); [eauto|discriminate].
  Qed.

  Lemma loop_ok (l : list (option V)) x y v u k : forall i w s,
    x <> y -> Inv w -> R s w -> vecs w x = Some v -> vecs w y = Some u -> s y = Some l ->
    forallb (fun c => match c with Some _ => true | None => false end) l = true ->
    (i + k)%nat = length l -> s x = Some (map (option_map f) (firstn i l) ++ repeat None k) ->
    exists h', sin_loop f k (Z.of_nat i) (hp w) v u = Ok h' /\ Inv (World h' (vecs w)) /\
      R (sset s x (Some (map (option_map f) l))) (World h' (vecs w)).
  Proof.
    induction k as [|k IH]; intros i w s N I HR Ex Ey Sy F L Sx; cbn [sin_loop].
    - exists (hp w). split; [reflexivity|].
      assert (E : (World (hp w) (vecs w)) = w) by now destruct w. rewrite E. split; [exact I|].
      apply (R_ext s); [|exact HR]. intro z. destruct (Nat.eq_dec z x) as [->|D]; [|now rewrite sset_other].
      rewrite sset_same, Sx. cbn [repeat]. rewrite app_nil_r. rewrite firstn_all2 by lia. reflexivity.
    - destruct (nth_map_firstn l i ltac:(lia) F) as [a Ea].
      assert (E1 : spec_step s (Get y (Z.of_nat i)) = Some (OCell (Some a), s)).
      { cbn [spec_step]. unfold sget, guard. rewrite Sy. destruct (Z.leb_spec 0 (Z.of_nat i)); [|lia].
        destruct (Z.ltb_spec (Z.of_nat i) (len l)); [|unfold len in *; lia]. cbn [andb]. rewrite Nat2Z.id, Ea. reflexivity. }
      destruct (step_refines s w _ _ _ I HR E1) as (r1 & w1 & S1 & O1 & _ & _).
      cbn [step] in S1. unfold find in S1. rewrite Ey in S1. cbn [bind] in S1.
      destruct (get (hp w) u (Z.of_nat i)) as [c| |]; try discriminate. cbn [bind] in S1. injection S1 as <- <-. cbn in O1. subst c.
      cbn [bind].
      set (m := map (option_map f) (firstn i l)) in *.
      assert (Lm : length m = i) by (unfold m; rewrite map_length, firstn_length; lia).
      assert (E2 : spec_step s (Set_ x (Z.of_nat i) (f a)) =
        Some (ONone, sset s x (Some (map (option_map f) (firstn (S i) l) ++ repeat None k)))).
      { cbn [spec_step]. unfold sget, guard. rewrite Sx. destruct (Z.leb_spec 0 (Z.of_nat i)); [|lia].
        destruct (Z.ltb_spec (Z.of_nat i) (len (m ++ repeat None (S k)))) as [_|K];
          [|unfold len in K; rewrite app_length, repeat_length in K; lia].
        assert (FS : firstn (S i) l = firstn i l ++ [Some a]).
        { rewrite <- Ea. clear - L. assert (H : (i < length l)%nat) by lia. revert i L H. induction l as [|b l IH]; intros i L H; [cbn in H; lia|].
          destruct i; [reflexivity|]. cbn [firstn nth app]. f_equal. apply IH; cbn in *; lia. }
        rewrite FS. cbn [andb]. rewrite Nat2Z.id. do 3 f_equal.
        rewrite firstn_app, Lm, Nat.sub_diag. cbn [firstn]. rewrite app_nil_r, firstn_all2 by lia.
        rewrite skipn_app, (skipn_all2 m) by lia. rewrite Lm. replace (S i - i)%nat with 1%nat by lia. cbn [skipn repeat app].
        rewrite map_app. cbn [map option_map]. rewrite <- app_assoc. reflexivity. }
      destruct (step_refines s w _ _ _ I HR E2) as (r2 & w2 & S2 & _ & I2 & R2).
      cbn [step] in S2. unfold find in S2. rewrite Ex in S2. cbn [bind] in S2.
      destruct (set (hp w) v (Z.of_nat i) (Some (f a))) as [h2| |]; try discriminate. cbn [bind] in S2. injection S2 as <- <-.
      replace (Z.of_nat i + 1) with (Z.of_nat (S i)) by lia. cbn [bind].
      destruct (IH (S i) (World h2 (vecs w)) _ N I2 R2 Ex Ey) as (h' & E & I' & R'); auto.
      + rewrite sset_other by congruence. exact Sy.
      + lia.
      + now rewrite sset_same.
      + cbn [hp vecs] in *. exists h'. split; [exact E|]. split; [exact I'|]. eapply R_ext; [|exact R'].
        intro z. unfold sset. destruct (Nat.eqb z x); reflexivity.
  Qed.

  Lemma vstep_refines (s : sstate V) w o r s' : Inv w -> R s w -> vspec_step s o = Some (r, s') ->
    exists r' w', vstep f w o = Ok (r', w') /\ out_ok r r' /\ Inv w' /\ R s' w'.
  Proof.
    intros I HR. destruct o as [o|x n|x y]; cbn [vspec_step vstep].
    - intro E. assert (spec_step s o = Some (r, s') /\ vstep f w (Base o) = step w o) as [E' V'].
      { destruct o; try discriminate; (split; [exact E|reflexivity]). }
      destruct (step_refines s w o r s' I HR E') as (r' & w' & S' & H). exists r', w'. split; [|exact H].
      cbn [vstep] in V'. rewrite V'. exact S'.
    - destruct (s x) eqn:Ex; [discriminate|]. destruct (Z.leb_spec 0 n); [|discriminate]. destruct (Z.ltb_spec n max_len); [|discriminate].
      cbn [andb]. intro E. injection E as <- <-.
      destruct (fresh_ok s w x n I HR Ex ltac:(lia)) as (v & h & Er & _ & I' & R').
      pose proof (HR x) as Hx. rewrite Ex in Hx. destruct (vecs w x); [contradiction|].
      unfold val_new. unfold w64. rewrite Z.mod_small by (unfold max_len in *; lia). rewrite Er. cbn [bind].
      eexists _, _. split; [reflexivity|]. split; [exact Logic.I|]. split; assumption.
    - destruct (s x) eqn:Ex; [discriminate|]. destruct (s y) as [l|] eqn:Ey; [|discriminate].
      destruct (forallb _ l) eqn:F; [|discriminate]. intro E. injection E as <- <-.
      assert (N : x <> y) by congruence.
      destruct (R_get s w y l HR Ey) as (u & Eu & Fu).
      pose proof (R_len w l u I (ex_intro _ y Eu) Fu) as Len.
      pose proof (inv_len w I y u Eu) as Lu.
      pose proof (HR x) as Hx. rewrite Ex in Hx. destruct (vecs w x) eqn:Ev; [contradiction|].
      destruct (fresh_ok s w x (size u) I HR Ex ltac:(unfold len in Len; lia)) as (v & h & Er & Sz & I' & R').
      unfold find. rewrite Eu. cbn [bind]. unfold val_sin. rewrite Er. cbn [bind].
      assert (TL : Z.to_nat (size u) = length l) by (unfold len in Len; lia).
      destruct (loop_ok l x y v u (Z.to_nat (size u)) 0 (put w x v h) _ N I' R') as (h' & El & I2 & R2); auto.
      + cbn [put vecs]. apply upd_same.
      + cbn [put vecs]. rewrite upd_other by congruence. exact Eu.
      + rewrite sset_other by congruence. exact Ey.
      + rewrite sset_same. reflexivity.
      + cbn [put hp] in El. change (Z.of_nat 0) with 0 in El. rewrite El. cbn [bind]. eexists _, _. split; [reflexivity|].
        split; [exact Logic.I|]. split; [exact I2|]. eapply R_ext; [|exact R2].
        intro z. unfold sset. destruct (Nat.eqb z x); reflexivity.
  Qed.

  Lemma vrun_refines ops : forall (s : sstate V) w outs s', Inv w -> R s w -> vspec_run s ops = Some (outs, s') ->
    exists outs' w', vrun f w ops = Ok (outs', w') /\ Forall2 out_ok outs outs' /\ Inv w' /\ R s' w'.
  Proof.
    induction ops as [|o t IH]; cbn [vspec_run vrun]; intros s w outs s' I HR E.
    - injection E as <- <-. exists [], w. auto.
    - destruct (vspec_step s o) as [[r s1]|] eqn:E1; [|discriminate].
      destruct (vspec_run s1 t) as [[rs s2]|] eqn:E2; [|discriminate]. injection E as <- <-.
      destruct (vstep_refines s w o r s1 I HR E1) as (r' & w1 & S1 & O1 & I1 & R1).
      destruct (IH _ _ _ _ I1 R1 E2) as (rs' & w2 & S2 & O2 & I2 & R2).
      rewrite S1. cbn [bind]. rewrite S2. cbn [bind]. exists (r' :: rs'), w2. auto.
  Qed.
End Spec.

(** Every history the list specification admits runs without fault and every observation agrees,
    for any function on the elements; when all arrays are destroyed nothing is left allocated. *)
Theorem C40_valarray_refines_list : forall (V : Type) (f : V -> V) (ops : list (vop V)) outs s,
  vspec_run f spec0 ops = Some (outs, s) ->
  exists outs' w, vrun f world0 ops = Ok (outs', w) /\ Forall2 out_ok outs outs' /\
    ((forall x, s x = None) -> forall b, mem (hp w) b = None).
Proof.
  intros V f ops outs s E. destruct (vrun_refines f ops _ _ _ _ inv0 r0 E) as (outs' & w & S & O & I & HR).
  exists outs', w. split; [exact S|]. split; [exact O|]. intros N b.
  destruct (mem (hp w) b) eqn:Em; [|reflexivity]. exfalso.
  destruct (inv_noleak w I b ltac:(congruence)) as (x & v & Hv & _). specialize (HR x). rewrite N, Hv in HR. exact HR.
Qed.
Print Assumptions C40_valarray_refines_list.

(** x(3) filled, y = sin(x), erase, copy, z(0) *)
Definition demo : list (vop Z) :=
  [NewN 0 3; Base (Set_ 0 0 5); Base (Set_ 0 1 6); Base (Set_ 0 2 7); Base (Size 0); Sin 1 0; Base (Size 1);
   Base (Get 1 0); Base (Get 1 2); Base (Get 0 2); Base (Erase 0 0); Base (NewCopy 2 0); Base (Get 2 0); NewN 3 0;
   Base (Empty 3); Sin 4 3; Base (Size 4)].
Example C40_case :
  match vspec_run (fun z => z * z) spec0 demo, vrun (fun z => z * z) world0 demo with
  | Some (outs, _), Ok (outs', _) => outs = outs' /\
      outs = [ONone; ONone; ONone; ONone; OZ 3; ONone; OZ 3; OCell (Some 25); OCell (Some 49); OCell (Some 7); ONone; ONone;
              OCell (Some 6); ONone; OBool true; ONone; OZ 0]
  | _, _ => False
  end.
Proof. vm_compute. repeat split. Qed.
