(** What each operation on a graph of unique_ptrs has to do ([legal], [doomed], [after], [answer],
    [client]), said without running destructors, and the proof that the model does it. *)
From Coq Require Import List Bool PeanoNat Lia Permutation.
From Verif Require Import Mem UgModel UgProofs.
Import ListNotations.

(** * What is expected *)
(** There is a unique_ptr at the place: a variable in scope, or a member of a live object. *)
Definition there (w : world) (p : place) : Prop :=
  match p with V x => In x (map fst (vars w)) | F o i => exists fs, get o (heap w) = Some fs /\ i < length fs end.
(** The pointer at a place. *)
Definition points (w : world) (p : place) (o : nat) : Prop := exists d, read w p = Ok (Cell (Some o) d).
Definition has (w : world) (o : option nat) : Prop := match o with Some o => In o (raws w) | None => True end.
(** What the client may do: use places that are there and raw pointers that are theirs.  A move
    assignment may not destroy the object that holds its source or its target. *)
Definition legal (w : world) (a : op) : Prop :=
  match a with
  | New _ => True
  | Delete o => In o (raws w)
  | Make x _ o => ~ In x (map fst (vars w)) /\ has w o
  | MoveNew x p => ~ In x (map fst (vars w)) /\ there w p
  | MoveAssign p q => there w p /\ there w q /\ (p = q \/ forall o h, points w p o -> In h (home p ++ home q) -> ~ reach w o h)
  | Reset p o => has w o /\ there w p
  | Release p | Get p => there w p
  | Swap p q => there w p /\ there w q
  | Destroy x => In x (map fst (vars w))
  end.
(** The objects that are deleted: the descendants of the object that lost its owner; when these
    include the object with the member that is reset, also those of the new pointee. *)
Definition doomed (w : world) (a : op) (k : nat) : Prop :=
  match a with
  | Delete o => reach w o k
  | MoveAssign p q => p <> q /\ exists o, points w p o /\ reach w o k
  | Reset p r => exists o, points w p o /\ (reach w o k \/ exists h q, In h (home p) /\ reach w o h /\ r = Some q /\ reach w q k)
  | Destroy x => exists o, points w (V x) o /\ reach w o k
  | _ => False
  end.
(* decidable equality of places *)
Definition place_dec (p q : place) : {p = q} + {p <> q}.
Proof. decide equality; apply Nat.eq_dec. Defined.
Definition null (c : res cell) : res cell := c <- c ;; Ok (Cell None (cdel c)).
(** The unique_ptr at a place afterwards, unless it is a member of a deleted object. *)
Definition after (w : world) (a : op) (r : place) : res cell :=
  match a with
  | New ds => match r with
              | F o i => if Nat.eqb o (nobj w) then match nth_error ds i with Some d => Ok (Cell None d) | None => UB NoObject end else read w r
              | V _ => read w r
              end
  | Delete _ | Get _ => read w r
  | Make x d o => if place_dec r (V x) then Ok (Cell o d) else read w r
  | MoveNew x p => if place_dec r (V x) then read w p else if place_dec r p then null (read w p) else read w r
  | MoveAssign p q => if place_dec r p then read w q else if place_dec r q then null (read w q) else read w r
  | Reset p o => if place_dec r p then c <- read w p ;; Ok (Cell o (cdel c)) else read w r
  | Release p => if place_dec r p then null (read w p) else read w r
  | Swap p q => if place_dec r p then read w q else if place_dec r q then read w p else read w r
  | Destroy x => if place_dec r (V x) then UB NoObject else read w r
  end.
(** The result. *)
Definition answer (w : world) (a : op) (r : option nat) : Prop :=
  match a with
  | New _ => r = Some (nobj w)
  | Release p | Get p => match r with Some o => points w p o | None => forall o, ~ points w p o end
  | _ => r = None
  end.
(** The client's raw pointers afterwards. *)
Definition client (w : world) (a : op) (r : option nat) (w' : world) : Prop :=
  match a with
  | Delete o => Permutation (raws w) (o :: raws w')
  | Make _ _ (Some o) | Reset _ (Some o) => Permutation (raws w) (o :: raws w')
  | New _ | Release _ => raws w' = match r with Some o => o :: raws w | None => raws w end
  | _ => raws w' = raws w
  end.
(** The deleter that deletes an object: that of the unique_ptr that owned it; the client's delete
    has none.  In a reset of a member the new pointer is owned by that member. *)
Definition deleter (w : world) (a : op) (k : nat) (e : option nat) : Prop :=
  match a with Delete o => k = o /\ e = None | Reset p (Some o) => k = o /\ exists c, read w p = Ok c /\ e = Some (cdel c) | _ => False end \/
  exists p d, read w p = Ok (Cell (Some k) d) /\ e = Some d.
Definition outcome (w : world) (a : op) (r : option nat) (w' : world) : Prop :=
  answer w a r /\ client w a r w' /\ nobj w' = match a with New _ => S (nobj w) | _ => nobj w end /\
  (exists l, log w' = log w ++ l /\ NoDup (map fst l) /\ (forall k, In k (map fst l) <-> doomed w a k) /\ forall k e, In (k, e) l -> deleter w a k e) /\
  forall p, (forall h, In h (home p) -> ~ doomed w a h) -> read w' p = after w a p.

(** * The proof *)
Definition good (w : world) : Prop := inv w [] /\ NoDup (map fst (vars w)).

Lemma there_read w p : there w p <-> exists c, read w p = Ok c.
Proof.
  destruct p as [x|o i]; cbn [there read].
  - rewrite <- get_in. destruct (get x (vars w)) as [c|]; split; try congruence; [now exists c|intros (c & H); discriminate].
  - split.
    + intros (fs & -> & L). destruct (nth_error fs i) as [c|] eqn:E; [now exists c|]. apply nth_error_None in E. lia.
    + intros (c & H). destruct (get o (heap w)) as [fs|]; [|discriminate]. exists fs. split; [reflexivity|]. apply nth_error_Some. destruct (nth_error fs i); congruence.
Qed.
Lemma there_ub w p : ~ there w p -> exists e, read w p = UB e.
Proof.
  intros N. destruct p as [x|o i]; cbn [read].
  - destruct (get x (vars w)) eqn:E; eauto. destruct N. cbn. apply get_in. congruence.
  - destruct (get o (heap w)) as [fs|] eqn:E; eauto. destruct (nth_error fs i) eqn:E'; eauto. destruct N. exists fs. split; [exact E|]. apply nth_error_Some. congruence.
Qed.
Lemma there_dec w p : {there w p} + {~ there w p}.
Proof.
  destruct (read w p) as [c| |u] eqn:E; [left; apply there_read; eauto| |]; right; rewrite there_read; intros (c & H); congruence.
Qed.
Lemma has_mine w o : mine w o = true <-> has w o.
Proof.
  destruct o as [o|]; cbn; [|tauto]. rewrite existsb_exists. split; [intros (x & I & E); apply Nat.eqb_eq in E; now subst|intros I; exists o; split; [exact I|apply Nat.eqb_refl]].
Qed.
Lemma fresh_in w x : fresh w x = true <-> ~ In x (map fst (vars w)).
Proof. unfold fresh. rewrite <- get_none. destruct (get x (vars w)); split; congruence. Qed.

(** The owner of a place's pointer, after something was deleted. *)
Lemma gone_read w w' l p : gone w w' l -> (forall h, In h (home p) -> ~ In h (map fst l)) -> read w' p = read w p.
Proof.
  intros (Ev & _ & _ & _ & Eg) H. destruct p as [x|o i]; cbn [read]; [now rewrite Ev|]. rewrite Eg. destruct (in_dec Nat.eq_dec o (map fst l)) as [X|X]; [|reflexivity].
  exfalso. apply (H o); [now left|exact X].
Qed.
Lemma gone_dead w w' l o i : gone w w' l -> In o (map fst l) -> read w' (F o i) = UB UseAfterFree.
Proof. intros (_ & _ & _ & _ & Eg) H. cbn [read]. rewrite Eg. destruct (in_dec Nat.eq_dec o (map fst l)); [reflexivity|contradiction]. Qed.
Lemma owner_read w o k e : owner w o k e -> exists p d, read w p = Ok (Cell (Some k) d) /\ e = Some d.
Proof.
  intros (a & fs & c & _ & G & I & P & ->). apply In_nth_error in I as [i N]. exists (F a i), (cdel c). cbn [read]. rewrite G, N. split; [|reflexivity]. destruct c. cbn in *. now subst.
Qed.

Lemma len_ptrs w D : inv w D -> length (ptrs (cells w)) <= length (heap w).
Proof. intros [P _]. apply Permutation_length in P. rewrite !app_length in P. unfold live in P. rewrite map_length in P. lia. Qed.

(** delete in full *)
Lemma delete_full w d o D : inv w (o :: D) -> exists w' l, delete (depth w) w d o = Ok w' /\ inv w' D /\ gone w w' l /\
  (forall k, In k (map fst l) <-> reach w o k) /\ NoDup (map fst l) /\ forall k e, In (k, e) l -> k = o /\ e = d \/ owner w o k e.
Proof.
  intros I. destruct (delete_ok (depth w) w d o D I) as (w' & l & E & I' & G & B1 & B2 & B3 & _).
  { unfold depth. assert (Z := len_ptrs _ _ I). lia. }
  exists w', l. split; [exact E|]. split; [exact I'|]. split; [exact G|]. split; [|split; [exact B3|intros k e X; apply B2, X]].
  intros k. split.
  - intros X. apply in_map_iff in X as ([k' e] & <- & X). apply (B2 k' e X).
  - apply (delete_all w w' l o D); auto. change o with (fst (o, d)). now apply in_map.
Qed.

Lemma heap_write w p c c' w' : read w p = Ok c -> write w p c' = Ok w' -> forall a f', get a (heap w') = Some f' ->
  exists f, get a (heap w) = Some f /\ forall b, In b f' -> In b f \/ In a (home p) /\ b = c'.
Proof.
  intros R W a f' G. destruct p as [x|o i]; cbn [read write home] in *.
  - destruct (get x (vars w)); [|discriminate]. injection W as <-. cbn in G. exists f'. auto.
  - destruct (get o (heap w)) as [fs|] eqn:Go; [|discriminate]. destruct (nth_error fs i) as [c0|] eqn:N; [|discriminate]. injection W as <-. cbn in G.
    destruct (Nat.eq_dec a o) as [->|X]; [|rewrite get_put_ne in G by exact X; exists f'; auto].
    rewrite get_put in G by congruence. injection G as <-. exists fs. split; [exact Go|]. intros b B.
    destruct (set_nth_split i c' fs c0 N) as (l1 & l2 & -> & E). rewrite E in B. rewrite in_app_iff in *. cbn in *. destruct B as [B|[B|B]]; auto.
Qed.
Lemma heap_write' w p c c' w' : read w p = Ok c -> write w p c' = Ok w' -> forall a f, get a (heap w) = Some f ->
  exists f', get a (heap w') = Some f' /\ (forall b, In b f -> In b f' \/ In a (home p) /\ b = c) /\ (In a (home p) -> In c' f').
Proof.
  intros R W a f G. destruct p as [x|o i]; cbn [read write home] in *.
  - destruct (get x (vars w)); [|discriminate]. injection W as <-. exists f. cbn. split; [exact G|]. split; [auto|tauto].
  - destruct (get o (heap w)) as [fs|] eqn:Go; [|discriminate]. destruct (nth_error fs i) as [c0|] eqn:N; [|discriminate]. injection R as ->. injection W as <-. cbn [heap].
    destruct (Nat.eq_dec a o) as [->|X].
    + rewrite get_put by congruence. eexists. split; [reflexivity|]. assert (f = fs) as -> by congruence.
      destruct (set_nth_split i c' fs c N) as (l1 & l2 & E0 & E). rewrite E. split; [|intros _; apply in_or_app; right; now left].
      intros b B. rewrite E0 in B. rewrite in_app_iff in *. cbn in *. destruct B as [B|[B|B]]; auto.
    + rewrite get_put_ne by exact X. exists f. split; [exact G|]. split; [auto|]. cbn. intros [Y|[]]. congruence.
Qed.
Lemma in_ptrs_cell b f : In b (ptrs f) <-> exists c, In c f /\ cptr c = Some b.
Proof. apply ptrs_in. Qed.

(** The descendants of the old pointee, once the pointer is replaced. *)
Lemma reach_write w p c r d w1 o : read w p = Ok c -> cptr c = Some o -> write w p (Cell r d) = Ok w1 ->
  forall k, reach w1 o k <-> reach w o k \/ exists h q, In h (home p) /\ reach w o h /\ r = Some q /\ reach w q k.
Proof.
  intros R C W.
  assert (A : forall a k, reach w1 a k -> reach w a k \/ exists h q, In h (home p) /\ reach w a h /\ r = Some q /\ reach w q k).
  { intros a k H. induction H as [a|a b k f G B H IH]; [left; constructor|]. destruct (heap_write _ _ _ _ _ R W a f G) as (f0 & G0 & S). apply in_ptrs_cell in B as (cb & Ib & Pb).
    destruct (S cb Ib) as [S1|[S1 ->]].
    - assert (E : In b (ptrs f0)) by (apply in_ptrs_cell; now exists cb). destruct IH as [IH|(h & q & X1 & X2 & X3 & X4)]; [left|right; exists h, q]; [econstructor; eauto|].
      repeat split; auto. econstructor; eauto.
    - cbn in Pb. subst r. right. exists a, b. split; [exact S1|]. split; [constructor|]. split; [reflexivity|]. destruct IH as [IH|(h & q & _ & _ & [= <-] & X4)]; auto. }
  assert (Bk : forall a k, reach w a k -> reach w1 a k \/ reach w1 o k).
  { intros a k H. induction H as [a|a b k f G B H IH]; [left; constructor|]. destruct IH as [IH|IH]; [|now right]. destruct (heap_write' _ _ _ _ _ R W a f G) as (f1 & G1 & S & _).
    apply in_ptrs_cell in B as (cb & Ib & Pb). destruct (S cb Ib) as [S1|[S1 ->]].
    - left. econstructor; [exact G1| |exact IH]. apply in_ptrs_cell. now exists cb.
    - assert (b = o) as -> by congruence. now right. }
  intros k. split; [apply A|]. intros [H|(h & q & H1 & H2 & -> & H4)].
  - destruct (Bk _ _ H); auto.
  - assert (H5 : reach w1 o h) by (destruct (Bk _ _ H2); auto). destruct (Bk _ _ H4) as [H6|H6]; [|exact H6].
    apply reach_trans with h; [exact H5|]. destruct p as [x|o' i]; [contradiction|]. cbn in H1. destruct H1 as [<-|[]].
    assert (exists f, get o' (heap w) = Some f) as (f & G) by (cbn in R; destruct (get o' (heap w)); [eauto|discriminate]).
    destruct (heap_write' _ _ _ _ _ R W o' f G) as (f1 & G1 & _ & S). econstructor; [exact G1| |exact H6].
    apply in_ptrs_cell. exists (Cell (Some q) d). split; [|reflexivity]. apply S. now left.
Qed.
Lemma reach_avoid w w' (S : list nat) a k : (forall o, ~ In o S -> get o (heap w') = get o (heap w)) ->
  (forall s, In s S -> ~ reach w a s) -> reach w a k -> reach w' a k.
Proof.
  intros H N R. induction R as [|a b k fs G I R IH]; [constructor|]. econstructor; [rewrite H; [exact G|]|exact I|apply IH].
  - intros X. apply (N a X). constructor.
  - intros s X Y. apply (N s X). econstructor; eauto.
Qed.

(** reset in full: [w1] has the new pointer stored *)
Lemma reset_full w p c r D : inv w (o2l r ++ D) -> read w p = Ok c -> exists w1 w' l, write w p (Cell r (cdel c)) = Ok w1 /\ reset w p r = Ok w' /\ inv w' D /\ gone w1 w' l /\
  (forall k, In k (map fst l) <-> exists o, cptr c = Some o /\ reach w1 o k) /\ NoDup (map fst l) /\
  (forall k e, In (k, e) l -> exists o, cptr c = Some o /\ (k = o /\ e = Some (cdel c) \/ owner w1 o k e)).
Proof.
  intros I R. destruct (write_ok w p c (Cell r (cdel c)) R) as (w1 & W & N1 & R1 & G1 & L1 & V1 & (Q & P & P') & _). unfold reset. rewrite R. cbn [bind]. rewrite W. cbn [bind].
  assert (I1 : inv w1 (o2l (cptr c) ++ D)).
  { eapply inv_write; [exact I|exact P|exact P'|auto|auto|auto|]. cbn [cptr]. rewrite R1.
    rewrite (Permutation_app_swap_app (raws w) (o2l r) D), (Permutation_app_swap_app (raws w) (o2l (cptr c)) D). apply Permutation_app_swap_app. }
  destruct (cptr c) as [o|] eqn:C.
  - destruct (delete_full w1 (Some (cdel c)) o D I1) as (w' & l & -> & I' & G & X & N & Y). exists w1, w', l. split; [reflexivity|]. split; [reflexivity|]. split; [exact I'|]. split; [exact G|].
    split; [|split; [exact N|]].
    + intros k. rewrite X. split; [intros Z; exists o; auto|intros (o' & [= <-] & Z); exact Z].
    + intros k e Z. exists o. auto.
  - exists w1, w1, []. split; [reflexivity|]. split; [reflexivity|]. split; [exact I1|]. split; [repeat split; now rewrite app_nil_r|]. split; [|split; [constructor|intros k e []]].
    intros k. split; [intros []|intros (o & [=] & _)].
Qed.

Lemma owner_write w p c c' w' o k e : read w p = Ok c -> write w p c' = Ok w' -> owner w' o k e ->
  (exists p d, read w p = Ok (Cell (Some k) d) /\ e = Some d) \/ cptr c' = Some k /\ e = Some (cdel c').
Proof.
  intros R W (a & f & b & _ & G & I & P & ->). destruct (heap_write _ _ _ _ _ R W a f G) as (f0 & G0 & S). destruct (S b I) as [S1|[_ ->]]; [left|right; auto].
  apply (owner_read w a). exists a, f0, b. split; [constructor|auto].
Qed.
Lemma inv_perm w D D' : Permutation D D' -> inv w D -> inv w D'.
Proof. intros P [I1 I2]. split; [|exact I2]. now rewrite <- P. Qed.
Lemma give_inv w o D : has w o -> inv w D -> inv (give w o) (o2l o ++ D).
Proof.
  destruct o as [o|]; cbn [give has o2l app]; [|auto]. intros H [I1 I2]. split; [|exact I2]. unfold cells, live in *. cbn [vars heap raws]. rewrite <- I1.
  rewrite (take1_perm o (raws w) H) at 2. apply Permutation_app_head. symmetry. cbn [app]. apply Permutation_middle.
Qed.
Lemma give_raws w o : has w o -> Permutation (raws w) (o2l o ++ raws (give w o)).
Proof. destruct o as [o|]; cbn; [|reflexivity]. apply take1_perm. Qed.
Lemma give_same w o : vars (give w o) = vars w /\ heap (give w o) = heap w /\ nobj (give w o) = nobj w /\ log (give w o) = log w.
Proof. destruct o; cbn; auto. Qed.
Lemma reach_heap w w' a k : heap w' = heap w -> reach w a k -> reach w' a k.
Proof. intros H R. induction R; [constructor|]. econstructor; [rewrite H|..]; eauto. Qed.
Lemma read_same w w' p : heap w' = heap w -> vars w' = vars w -> read w' p = read w p.
Proof. intros H V. destruct p; cbn; now rewrite ?H, ?V. Qed.

Definition verdict (w : world) (a : op) : Prop :=
  legal w a /\ (exists r w', step w a = Ok (r, w') /\ good w' /\ outcome w a r w') \/ ~ legal w a /\ exists e, step w a = UB e.

Lemma no_deletion (w w' : world) a : log w' = log w -> (forall k, ~ doomed w a k) ->
  exists l, log w' = log w ++ l /\ NoDup (map fst l) /\ (forall k, In k (map fst l) <-> doomed w a k) /\ forall k e, In (k, e) l -> deleter w a k e.
Proof.
  intros E N. exists []. rewrite app_nil_r. split; [exact E|]. split; [constructor|]. split; [|intros k e []]. intros k. split; [intros []|intros X; destruct (N k X)].
Qed.

Lemma step_new w ds : good w -> verdict w (New ds).
Proof.
  intros [[I1 I2] Nv]. left. split; [exact I|]. eexists _, _. split; [reflexivity|]. split; [split; [split|]|].
  - unfold cells, live in *. cbn [vars heap raws map snd fst concat]. rewrite ptrs_app in *. rewrite ptrs_app.
    replace (ptrs (map (Cell None) ds)) with (@nil nat) by (symmetry; apply in_ptrs_null; intros c C; apply in_map_iff in C as (d & <- & _); reflexivity).
    cbn [app]. rewrite <- I1. symmetry. apply Permutation_middle.
  - unfold live in *. cbn [heap log nobj map fst app]. rewrite I2. rewrite (seq_S (nobj w) 0). cbn. apply Permutation_cons_append.
  - exact Nv.
  - split; [reflexivity|]. split; [reflexivity|]. split; [reflexivity|]. split; [apply no_deletion; [reflexivity|intros k []]|].
    intros [x|o i] _; [reflexivity|]. cbn [read after heap get]. rewrite (Nat.eqb_sym (nobj w)). destruct (Nat.eqb o (nobj w)); [|reflexivity].
    rewrite nth_error_map. destruct (nth_error ds i); reflexivity.
Qed.

Lemma step_delete w o : good w -> verdict w (Delete o).
Proof.
  intros [I Nv]. cbn [verdict legal step]. destruct (mine w (Some o)) eqn:M.
  - apply has_mine in M. left. split; [exact M|]. assert (I1 := give_inv w (Some o) [] M I). cbn [o2l app] in I1.
    destruct (delete_full _ None o [] I1) as (w' & l & E & I' & G & X & N & Y). exists None, w'. unfold step. rewrite (proj2 (has_mine w (Some o)) M). cbn zeta. rewrite E. split; [reflexivity|].
    assert (G' := G). destruct G' as (Ev & Er & En & El & _). destruct (give_same w (Some o)) as (Gv & Gh & Gn & Gl).
    assert (Xd : forall k, In k (map fst l) <-> doomed w (Delete o) k) by (intros k; rewrite X; cbn; split; apply reach_heap; auto).
    split; [split; [exact I'|now rewrite Ev, Gv]|]. split; [reflexivity|]. split; [cbn [client]; rewrite Er; apply (give_raws w (Some o) M)|]. split; [now rewrite En, Gn|]. split.
    + exists l. split; [now rewrite El, Gl|]. split; [exact N|]. split; [exact Xd|]. intros k e Z. destruct (Y k e Z) as [[-> ->]|Z']; [left; auto|right]. apply owner_read in Z'.
      destruct Z' as (p & d & Z1 & Z2). exists p, d. split; [|exact Z2]. rewrite <- Z1. symmetry. apply read_same; auto.
    + intros p Hp. cbn [after]. rewrite (gone_read _ _ _ p G); [apply read_same; auto|]. intros h Hh. rewrite Xd. auto.
  - right. split; [|unfold step; rewrite M; eauto]. intros L. apply (has_mine w (Some o)) in L. congruence.
Qed.

Lemma points_read w p c : read w p = Ok c -> forall o, points w p o <-> cptr c = Some o.
Proof. intros R o. unfold points. rewrite R. split; [intros (d & [= ->]); reflexivity|]. intros E. exists (cdel c). destruct c. cbn in *. now subst. Qed.

Lemma inv_var w x c D : inv w (o2l (cptr c) ++ D) -> inv (new_var w x c) D.
Proof.
  intros [I1 I2]. split; [|exact I2]. unfold cells, live in *. cbn [new_var vars heap raws map snd app ptrs flat_map]. fold (ptrs (map snd (vars w) ++ concat (map snd (heap w)))).
  rewrite <- I1, <- app_assoc. rewrite (Permutation_app_swap_app (o2l (cptr c))). apply Permutation_app_head. apply Permutation_app_swap_app.
Qed.
Lemma read_new_var w x c r : read (new_var w x c) r = if place_dec r (V x) then Ok c else read w r.
Proof.
  destruct r as [y|o i]; cbn [read new_var vars heap get]; [|destruct (place_dec (F o i) (V x)); [discriminate|reflexivity]].
  destruct (place_dec (V y) (V x)) as [[= ->]|N]; [now rewrite Nat.eqb_refl|]. destruct (Nat.eqb_spec x y); [congruence|reflexivity].
Qed.

Lemma step_make w x d o : good w -> verdict w (Make x d o).
Proof.
  intros [I Nv]. unfold verdict. cbn [legal step]. destruct (fresh w x) eqn:Fr; cbn [andb].
  - apply fresh_in in Fr. destruct (mine w o) eqn:M.
    + apply has_mine in M. left. split; [auto|]. eexists _, _. split; [reflexivity|]. destruct (give_same w o) as (Gv & Gh & Gn & Gl). split; [split|].
      * apply inv_var. cbn [cptr]. now apply give_inv.
      * cbn [new_var vars map fst]. rewrite Gv. now constructor.
      * split; [reflexivity|]. split; [cbn [client]; destruct o as [o|]; [apply (give_raws w (Some o) M)|reflexivity]|]. split; [exact Gn|]. split; [apply no_deletion; [exact Gl|intros k []]|].
        intros r _. cbn [after]. rewrite read_new_var. destruct (place_dec r (V x)); [reflexivity|now apply read_same].
    + right. split; [|eauto]. intros [_ L]. apply has_mine in L. congruence.
  - right. split; [|eauto]. intros [L _]. apply fresh_in in L. congruence.
Qed.

Lemma step_get w p : good w -> verdict w (Get p).
Proof.
  intros [I Nv]. unfold verdict. cbn [legal step]. destruct (there_dec w p) as [T|T].
  - left. split; [exact T|]. apply there_read in T as (c & R). rewrite R. cbn [bind]. eexists _, _. split; [reflexivity|]. split; [split; auto|]. split; [|split; [reflexivity|split; [reflexivity|split]]].
    + cbn [answer]. assert (Pc := points_read _ _ _ R). destruct (cptr c) as [o|]; [now apply Pc|]. intros o X. apply Pc in X. discriminate.
    + apply no_deletion; [reflexivity|intros k []].
    + reflexivity.
  - right. split; [exact T|]. destruct (there_ub _ _ T) as [e ->]. cbn [bind]. eauto.
Qed.

(** release in full *)
Lemma release_full w p c D : inv w D -> read w p = Ok c -> exists w', release w p = Ok (cptr c, w') /\ write w p (Cell None (cdel c)) = Ok w' /\ inv w' (o2l (cptr c) ++ D) /\
  raws w' = raws w /\ nobj w' = nobj w /\ log w' = log w /\ map fst (vars w') = map fst (vars w) /\ (forall r, read w' r = if place_dec r p then Ok (Cell None (cdel c)) else read w r) /\
  (forall k, ~ In k (home p) -> get k (heap w') = get k (heap w)).
Proof.
  intros I R. destruct (write_ok w p c (Cell None (cdel c)) R) as (w' & W & N1 & R1 & G1 & L1 & V1 & (Q & P & P') & Rs & Ro & Hm). exists w'. unfold release. rewrite R. cbn [bind]. rewrite W. cbn [bind].
  split; [reflexivity|]. split; [reflexivity|]. split.
  - eapply inv_write; [exact I|exact P|exact P'|auto|auto|auto|]. cbn [cptr o2l app]. rewrite R1. apply Permutation_app_swap_app.
  - repeat (split; [assumption|]). split; [|exact Hm]. intros r. destruct (place_dec r p) as [->|N]; auto.
Qed.

Lemma keep_same w o : vars (keep w o) = vars w /\ heap (keep w o) = heap w /\ nobj (keep w o) = nobj w /\ log (keep w o) = log w /\ raws (keep w o) = o2l o ++ raws w.
Proof. destruct o; cbn; auto. Qed.

Lemma step_release w p : good w -> verdict w (Release p).
Proof.
  intros [I Nv]. unfold verdict. cbn [legal step]. destruct (there_dec w p) as [T|T].
  - left. split; [exact T|]. apply there_read in T as (c & R). destruct (release_full w p c [] I R) as (w' & -> & _ & I' & Er & En & El & Ev & Rd & _). cbn [bind].
    eexists _, _. split; [reflexivity|]. destruct (keep_same w' (cptr c)) as (Kv & Kh & Kn & Kl & Kr). split; [split|split; [|split; [|split; [|split]]]].
    + destruct I' as [I1 I2]. unfold inv, cells, live in *. rewrite Kv, Kh, Kn, Kl, Kr. split; [|exact I2]. rewrite <- I1, !app_nil_r. apply Permutation_app_head, Permutation_app_comm.
    + rewrite Kv, Ev. exact Nv.
    + cbn [answer]. assert (Pc := points_read _ _ _ R). destruct (cptr c) as [o|]; [now apply Pc|]. intros o X. apply Pc in X. discriminate.
    + cbn [client]. rewrite Kr, Er. destruct (cptr c); reflexivity.
    + rewrite Kn. exact En.
    + apply no_deletion; [now rewrite Kl|intros k []].
    + intros r _. cbn [after]. rewrite (read_same w' _ r Kh Kv), Rd. unfold null. rewrite R. reflexivity.
  - right. split; [exact T|]. destruct (there_ub _ _ T) as [e E]. unfold release. rewrite E. cbn [bind]. eauto.
Qed.

Lemma step_move_new w x p : good w -> verdict w (MoveNew x p).
Proof.
  intros [I Nv]. unfold verdict. cbn [legal step]. destruct (fresh w x) eqn:Fr.
  - apply fresh_in in Fr. destruct (there_dec w p) as [T|T].
    + left. split; [auto|]. assert (Np : p <> V x) by (intros ->; contradiction).
      apply there_read in T as (c & R). destruct (release_full w p c [] I R) as (w' & -> & _ & I' & Er & En & El & Ev & Rd & _). cbn [bind]. rewrite (Rd p).
      destruct (place_dec p p) as [_|]; [|contradiction]. cbn [bind cdel]. eexists _, _. split; [reflexivity|]. split; [split|split; [|split; [|split; [|split]]]].
      * apply inv_var. exact I'.
      * cbn [new_var vars map fst]. rewrite Ev. now constructor.
      * reflexivity.
      * exact Er.
      * exact En.
      * apply no_deletion; [exact El|intros k []].
      * intros r _. cbn [after]. rewrite read_new_var. destruct (place_dec r (V x)); [rewrite R; now destruct c|]. rewrite Rd. unfold null. rewrite R. reflexivity.
    + right. split; [tauto|]. destruct (there_ub _ _ T) as [e E]. unfold release. rewrite E. cbn [bind]. eauto.
  - right. split; [|eauto]. intros [L _]. apply fresh_in in L. congruence.
Qed.

Lemma step_swap w p q : good w -> verdict w (Swap p q).
Proof.
  intros [I Nv]. unfold verdict. cbn [legal step]. destruct (there_dec w p) as [T|T]; [destruct (there_dec w q) as [T'|T']|].
  - left. split; [auto|]. apply there_read in T as (a & Ra). apply there_read in T' as (b & Rb). unfold swap. rewrite Ra, Rb. cbn [bind].
    destruct (write_ok w p a b Ra) as (w1 & -> & N1 & R1 & G1 & L1 & V1 & (Q & P & P') & Rs & Ro & Hm). cbn [bind].
    assert (Rq : read w1 q = Ok b) by (destruct (place_dec q p) as [->|N]; [exact Rs|rewrite Ro; auto]).
    destruct (write_ok w1 q b a Rq) as (w2 & -> & N2 & R2 & G2 & L2 & V2 & (Q2 & P2 & P2') & Rs2 & Ro2 & Hm2). cbn [bind]. eexists _, _. split; [reflexivity|].
    split; [split|split; [|split; [|split; [|split]]]].
    + assert (E : Permutation (cells w2) (cells w)).
      { rewrite P, P2'. constructor. apply Permutation_cons_inv with b. rewrite <- P2, P'. reflexivity. }
      destruct I as [I1 I2]. split; [rewrite (ptrs_perm _ _ E), R2, R1, L2, L1; exact I1|rewrite L2, L1, G2, G1, N2, N1; exact I2].
    + now rewrite V2, V1.
    + reflexivity.
    + cbn [client]. congruence.
    + congruence.
    + apply no_deletion; [congruence|intros k []].
    + intros r _. cbn [after]. destruct (place_dec q p) as [->|N].
      * destruct (place_dec r p) as [->|Nr]; [rewrite Rs2; congruence|now rewrite Ro2, Ro].
      * destruct (place_dec r q) as [->|Nr].
        -- rewrite Rs2, Ra. now destruct (place_dec q p).
        -- rewrite Ro2 by exact Nr. destruct (place_dec r p) as [->|Nr']; [congruence|now apply Ro].
  - right. split; [tauto|]. destruct (there_ub _ _ T') as [e E]. apply there_read in T as (a & Ra). unfold swap. rewrite Ra, E. cbn [bind]. eauto.
  - right. split; [tauto|]. destruct (there_ub _ _ T) as [e E]. unfold swap. rewrite E. cbn [bind]. eauto.
Qed.

(** The result of a reset, in terms of the state before it. *)
Lemma step_reset_core w p r : good w -> has w r -> forall c, read w p = Ok c -> exists w' l, reset (give w r) p r = Ok w' /\ good w' /\
  map fst (vars w') = map fst (vars w) /\ raws w' = raws (give w r) /\ nobj w' = nobj w /\ log w' = log w ++ l /\ NoDup (map fst l) /\
  (forall k, In k (map fst l) <-> doomed w (Reset p r) k) /\ (forall k e, In (k, e) l -> deleter w (Reset p r) k e) /\
  forall s, (forall h, In h (home s) -> ~ doomed w (Reset p r) h) -> read w' s = after w (Reset p r) s.
Proof.
  intros [I Nv] M c R. destruct (give_same w r) as (Gv & Gh & Gn & Gl). set (w0 := give w r) in *.
  assert (R0 : read w0 p = Ok c) by (rewrite <- R; apply read_same; auto).
  destruct (reset_full w0 p c r [] (give_inv w r [] M I) R0) as (w1 & w' & l & W & E & I' & G & X & N & Y).
  destruct (write_ok w0 p c (Cell r (cdel c)) R0) as (w1' & W' & N1 & R1 & G1 & L1 & V1 & _ & Rs & Ro & _). assert (w1' = w1) as -> by congruence.
  assert (G' := G). destruct G' as (Ev & Er & En & El & _).
  assert (Pc := points_read _ _ _ R).
  assert (Xd : forall k, In k (map fst l) <-> doomed w (Reset p r) k).
  { intros k. rewrite X. cbn [doomed]. split; intros (o & C & H); exists o.
    - split; [now apply Pc|]. apply (reach_write w0 p c r (cdel c) w1 o R0 C W) in H. destruct H as [H|(h & q & H1 & H2 & H3 & H4)]; [left|right; exists h, q].
      + apply (reach_heap w0); auto.
      + split; [exact H1|]. split; [apply (reach_heap w0); auto|]. split; [exact H3|apply (reach_heap w0); auto].
    - apply Pc in C. split; [exact C|]. apply (reach_write w0 p c r (cdel c) w1 o R0 C W). destruct H as [H|(h & q & H1 & H2 & H3 & H4)]; [left|right; exists h, q].
      + apply (reach_heap w); auto.
      + split; [exact H1|]. split; [apply (reach_heap w); auto|]. split; [exact H3|apply (reach_heap w); auto]. }
  exists w', l. split; [exact E|]. assert (V' : map fst (vars w') = map fst (vars w)) by (rewrite Ev, V1, Gv; reflexivity). split; [split; [exact I'|now rewrite V']|].
  split; [exact V'|]. split; [congruence|]. split; [congruence|]. split; [congruence|]. split; [exact N|]. split; [exact Xd|]. split.
  - intros k e Z. destruct (Y k e Z) as (o & C & [[-> ->]|Z']).
    + right. exists p, (cdel c). split; [|reflexivity]. rewrite R. destruct c. cbn in *. now subst.
    + destruct (owner_write _ _ _ _ _ _ _ _ R0 W Z') as [(s & d & Z1 & Z2)|[Z1 Z2]].
      * right. exists s, d. split; [|exact Z2]. rewrite <- Z1. symmetry. apply read_same; auto.
      * left. cbn [cptr] in Z1. subst r. split; [reflexivity|]. exists c. auto.
  - intros s Hs. rewrite (gone_read _ _ _ s G); [|intros h Hh; rewrite Xd; auto]. cbn [after]. destruct (place_dec s p) as [->|Ns]; [rewrite Rs, R; reflexivity|]. rewrite Ro by exact Ns. apply read_same; auto.
Qed.

Lemma step_reset w p r : good w -> verdict w (Reset p r).
Proof.
  intros G. unfold verdict. cbn [legal step]. destruct (mine w r) eqn:M.
  - apply has_mine in M. destruct (there_dec w p) as [T|T].
    + left. split; [auto|]. apply there_read in T as (c & R). destruct (step_reset_core w p r G M c R) as (w' & l & -> & G' & _ & Er & En & El & N & X & Y & Z). cbn [bind].
      eexists _, _. split; [reflexivity|]. split; [exact G'|]. split; [reflexivity|]. split; [cbn [client]; destruct r as [r|]; rewrite Er; [apply (give_raws w (Some r) M)|reflexivity]|].
      split; [exact En|]. split; [exists l; auto|exact Z].
    + right. split; [tauto|]. destruct (there_ub _ _ T) as [e E]. destruct (give_same w r) as (Gv & Gh & _). unfold reset. rewrite (read_same w (give w r) p Gh Gv), E. cbn [bind]. eauto.
  - right. split; [|eauto]. intros [L _]. apply has_mine in L. congruence.
Qed.

Lemma get_drop_same {A} x (l : list (nat * A)) : NoDup (map fst l) -> get x (drop x l) = None.
Proof.
  induction l as [|[y a] l IH]; cbn; [reflexivity|]. intros N. inversion N as [|? ? Ny Nl]; subst. destruct (Nat.eqb_spec y x) as [->|E]; [now apply get_none|]. cbn. destruct (Nat.eqb_spec y x); [contradiction|auto].
Qed.
Lemma keys_drop {A} x (l : list (nat * A)) : NoDup (map fst l) -> NoDup (map fst (drop x l)).
Proof.
  induction l as [|[y a] l IH]; cbn; [auto|]. intros N. inversion N as [|? ? Ny Nl]; subst. destruct (Nat.eqb y x); [exact Nl|]. cbn. constructor; [|auto].
  rewrite <- get_in in *. intros H. apply Ny. destruct (Nat.eq_dec y x) as [->|E]; [now rewrite get_drop_same in H|now rewrite get_drop_ne in H].
Qed.
Lemma step_destroy w x : good w -> verdict w (Destroy x).
Proof.
  intros G. unfold verdict. cbn [legal step]. destruct (there_dec w (V x)) as [T|T].
  - left. split; [exact T|]. apply there_read in T as (c & R). destruct (step_reset_core w (V x) None G I c R) as (w' & l & E & G' & Ev & Er & En & El & N & X & Y & Z). cbn [give] in *. rewrite E. cbn [bind].
    eexists _, _. split; [reflexivity|]. destruct G' as [I' Nv'].
    assert (Xd : forall k, doomed w (Reset (V x) None) k <-> doomed w (Destroy x) k).
    { intros k. cbn. split; intros (o & P & H); exists o; (split; [exact P|]); [destruct H as [H|(h & q & [] & _)]; exact H|now left]. }
    assert (Rx : read w' (V x) = Ok (Cell None (cdel c))).
    { rewrite Z; [cbn [after]; destruct (place_dec (V x) (V x)); [rewrite R; reflexivity|contradiction]|intros h []]. }
    cbn [read] in Rx. destruct (get x (vars w')) as [c'|] eqn:Gx; [|discriminate]. injection Rx as ->.
    destruct (get_split _ _ _ Gx) as (l1 & l2 & E1 & _ & _ & Dr). split; [split|split; [|split; [|split; [|split]]]].
    + destruct I' as [I1 I2]. split; [|exact I2]. unfold cells, live in *. cbn [vars heap raws]. rewrite Dr. rewrite E1 in I1. rewrite !map_app in *. rewrite !ptrs_app in *. exact I1.
    + cbn [vars]. now apply keys_drop.
    + reflexivity.
    + exact Er.
    + exact En.
    + exists l. split; [exact El|]. split; [exact N|]. split; [intros k; now rewrite X|]. intros k e K. destruct (Y k e K) as [[]|K']. right. exact K'.
    + intros r Hr. cbn [after]. destruct (place_dec r (V x)) as [->|Nr].
      * cbn [read vars]. now rewrite get_drop_same.
      * assert (Zr := Z r). cbn [after] in Zr. destruct (place_dec r (V x)); [contradiction|]. rewrite <- Zr by (intros h Hh; rewrite Xd; auto).
        destruct r as [y|o i]; [|reflexivity]. cbn [read vars]. rewrite get_drop_ne by congruence. reflexivity.
  - right. split; [exact T|]. destruct (there_ub _ _ T) as [e E]. unfold reset. rewrite E. cbn [bind]. eauto.
Qed.

Lemma step_move_assign w p q : good w -> verdict w (MoveAssign p q).
Proof.
  intros [I Nv]. unfold verdict. cbn [legal step]. destruct (there_dec w q) as [Tq|Tq]; [destruct (there_dec w p) as [Tp|Tp]|].
  - destruct (proj1 (there_read w q) Tq) as (cq & Rq). destruct (proj1 (there_read w p) Tp) as (cp & Rp).
    destruct (release_full w q cq [] I Rq) as (w1 & E1 & W1 & I1 & Er1 & En1 & El1 & Ev1 & Rd1 & Hm1). unfold move_assign. rewrite E1. cbn [bind].
    set (c1 := if place_dec p q then Cell None (cdel cq) else cp).
    assert (Rp1 : read w1 p = Ok c1) by (unfold c1; rewrite Rd1; destruct (place_dec p q); auto).
    destruct (reset_full w1 p c1 (cptr cq) [] I1 Rp1) as (w2 & w' & l & W2 & -> & I' & G & X & N & Y). cbn [bind].
    destruct (write_ok w1 p c1 (Cell (cptr cq) (cdel c1)) Rp1) as (w2' & W2' & N2 & R2 & G2 & L2 & V2 & _ & Rs2 & Ro2 & Hm2). assert (w2' = w2) as -> by congruence. clear W2'.
    assert (Same : forall o, ~ In o (home p ++ home q) -> get o (heap w2) = get o (heap w)).
    { intros o Ho. rewrite in_app_iff in Ho. rewrite Hm2, Hm1; tauto. }
    assert (G' := G). destruct G' as (Ev & Er & En & El & _).
    assert (Pc := points_read _ _ _ Rp).
    destruct (Exists_dec (fun h => In h (map fst l)) (home p ++ home q) (fun h => in_dec Nat.eq_dec h (map fst l))) as [Ex|Ex].
    + (* the target's or the source's object was deleted *)
      apply Exists_exists in Ex as (h & Hh & Dh). right. apply X in Dh as Dh'. destruct Dh' as (o & Co & Ro). unfold c1 in Co. destruct (place_dec p q) as [|Npq]; [discriminate|]. split.
      * intros (_ & _ & [->|L]); [contradiction|]. destruct (reach_first w2 w (home p ++ home q) o h) as (h' & Hh' & Rh'); auto; [intros a Ha; symmetry; auto|].
        apply (L o h'); [now apply Pc|exact Hh'|exact Rh'].
      * destruct (there_dec w' q) as [T|T]; [|destruct (there_ub _ _ T) as [e ->]; cbn [bind]; eauto]. apply there_read in T as (d & Rd). rewrite Rd. cbn [bind].
        rewrite in_app_iff in Hh. destruct Hh as [Hh|Hh].
        -- destruct p as [|o' i]; [contradiction|]. destruct Hh as [<-|[]]. rewrite (gone_dead _ _ _ _ _ G Dh). cbn [bind]. eauto.
        -- destruct q as [|o' i]; [contradiction|]. destruct Hh as [<-|[]]. rewrite (gone_dead _ _ _ _ _ G Dh) in Rd. discriminate.
    + assert (Ok' : forall h, In h (home p ++ home q) -> ~ In h (map fst l)) by (intros h Hh Dh; apply Ex, Exists_exists; eauto). left.
      assert (L : p = q \/ forall o h, points w p o -> In h (home p ++ home q) -> ~ reach w o h).
      { destruct (place_dec p q) as [|Npq]; [now left|right]. intros o h Po Hh Rh. apply Pc in Po.
        destruct (reach_first w w2 (home p ++ home q) o h) as (h' & Hh' & Rh'); auto. apply (Ok' h' Hh'). apply X. exists o. auto. }
      split; [auto|].
      assert (Rp' : read w' p = Ok (Cell (cptr cq) (cdel c1))) by (rewrite (gone_read _ _ _ p G); [exact Rs2|intros h Hh; apply Ok', in_or_app; now left]).
      assert (Rq' : exists d, read w' q = Ok d /\ cdel d = cdel cq).
      { rewrite (gone_read _ _ _ q G); [|intros h Hh; apply Ok', in_or_app; now right]. destruct (place_dec q p) as [->|Nq].
        - rewrite Rs2. eexists. split; [reflexivity|]. unfold c1. cbn. now destruct (place_dec p p).
        - rewrite Ro2 by exact Nq. rewrite Rd1. destruct (place_dec q q); [|contradiction]. eexists. split; reflexivity. }
      destruct Rq' as (d & Rq' & Ed). rewrite Rq'. cbn [bind]. rewrite Rp'. cbn [bind cptr]. rewrite Ed.
      destruct (write_ok w' p _ (Cell (cptr cq) (cdel cq)) Rp') as (w3 & -> & N3 & R3 & G3 & L3 & V3 & (Q & P & P') & Rs3 & Ro3 & Hm3). cbn [bind]. eexists _, _. split; [reflexivity|].
      assert (Xd : forall k, In k (map fst l) <-> doomed w (MoveAssign p q) k).
      { intros k. rewrite X. cbn [doomed]. unfold c1. destruct (place_dec p q) as [->|Npq]; [split; [intros (o & [=] & _)|intros (Z & _); contradiction]|].
        destruct L as [L|L]; [contradiction|]. split.
        - intros (o & Co & Ro). split; [exact Npq|]. exists o. split; [now apply Pc|]. apply (reach_avoid w2 w (home p ++ home q)); [intros a Ha; symmetry; auto| |exact Ro].
          intros s Hs Rs. apply (Ok' s Hs). apply X. exists o. unfold c1. destruct (place_dec p q); [contradiction|auto].
        - intros (_ & o & Po & Ro). exists o. split; [now apply Pc|]. apply (reach_avoid w w2 (home p ++ home q)); auto. }
      split; [split|split; [|split; [|split; [|split]]]].
      * eapply inv_write; [exact I'|exact P|exact P'|auto|auto|auto|]. cbn [cptr]. now rewrite R3.
      * rewrite V3, Ev, V2, Ev1. exact Nv.
      * reflexivity.
      * cbn [client]. congruence.
      * congruence.
      * exists l. split; [congruence|]. split; [exact N|]. split; [exact Xd|]. intros k e Z. right. destruct (Y k e Z) as (o & Co & K). unfold c1 in Co, K. destruct (place_dec p q) as [|Npq]; [discriminate|].
        destruct K as [[-> ->]|K].
        -- exists p, (cdel cp). split; [|reflexivity]. rewrite Rp. destruct cp. cbn in *. now subst.
        -- destruct K as (a & f & c & Ra & Ga & Ic & Pk & ->). apply (owner_read w o). exists a, f, c.
           assert (Na : ~ In a (home p ++ home q)) by (intros Ha; apply (Ok' a Ha), X; exists o; unfold c1; destruct (place_dec p q); [contradiction|auto]).
           split; [|split; [rewrite <- (Same a Na); exact Ga|auto]]. apply (reach_avoid w2 w (home p ++ home q)); [intros b Hb; symmetry; auto| |exact Ra].
           intros s Hs Rs. apply (Ok' s Hs). apply X. exists o. unfold c1. destruct (place_dec p q); [contradiction|auto].
      * intros r Hr. cbn [after]. destruct (place_dec r p) as [->|Nr]; [rewrite Rs3, Rq; now destruct cq|]. rewrite Ro3 by exact Nr.
        rewrite (gone_read _ _ _ r G); [|intros h Hh; rewrite Xd; auto]. rewrite Ro2 by exact Nr. rewrite Rd1. destruct (place_dec r q); [unfold null; rewrite Rq; reflexivity|reflexivity].
  - right. split; [tauto|]. apply there_read in Tq as (cq & Rq). destruct (release_full w q cq [] I Rq) as (w1 & E1 & W1 & I1 & Er1 & En1 & El1 & Ev1 & Rd1 & Hm1). unfold move_assign. rewrite E1. cbn [bind].
    destruct (there_ub _ _ Tp) as [e E]. unfold reset. rewrite Rd1. destruct (place_dec p q) as [->|]; [congruence|]. rewrite E. cbn [bind]. eauto.
  - right. split; [tauto|]. destruct (there_ub _ _ Tq) as [e E]. unfold move_assign, release. rewrite E. cbn [bind]. eauto.
Qed.

Theorem step_ok w a : good w -> verdict w a.
Proof.
  destruct a; [apply step_new|apply step_delete|apply step_make|apply step_move_new|apply step_move_assign|apply step_reset|apply step_release|apply step_swap|apply step_destroy|apply step_get].
Qed.
Lemma init_good : good init.
Proof. split; [split; reflexivity|constructor]. Qed.
Lemma run_good ops : forall w w', good w -> run w ops = Ok w' -> good w'.
Proof.
  induction ops as [|a ops IH]; cbn [run]; intros w w' G E; [congruence|]. destruct (step_ok w a G) as [(_ & r & w1 & E1 & G1 & _)|(_ & e & E1)]; rewrite E1 in E; [|discriminate].
  cbn [bind] in E. eauto.
Qed.
