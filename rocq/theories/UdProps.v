(** C94: which unique_ptr converts to which, and whether its destructor then destroys what it owns. *)
From Coq Require Import List Bool.
From Verif Require Import TyModel TraitModel TraitSpec TraitProofs TraitCommon TraitMore TraitProps FwdModel FwdProps UcModel UcProps UdModel.
Import ListNotations.

(** No qualifier of [p] is missing in [q]. *)
Definition cv_sub (p q : cv) : Prop := (qc p = true -> qc q = true) /\ (qv p = true -> qv q = true).
(** The implicit conversions of pointers to objects ([conv.ptr], [conv.qual]). *)
Definition implicit_pointer (acc : nat -> nat -> bool) (u t : ty) : Prop :=
  qualification u t \/ (exists q, t = TVoid q /\ cv_sub (top u) q) \/
  exists p q a b, u = TClass p a /\ t = TClass q b /\ acc a b = true /\ cv_sub p q.
(** What unique_ptr<T> is used with here: an object type that is not an array, or void. *)
Definition element (t : ty) : Prop := wf (TPtr nocv t) /\ match t with TArr _ _ | TArrU _ | TFun _ _ _ _ _ => False | _ => True end.
Definition is_void_type (t : ty) : Prop := exists q, t = TVoid q.
(** A type that unique_ptr can be used with. *)
Definition owner (t : ty) : Prop := match t with TArrU e => element e /\ ~ is_void_type e | _ => element t end.
(** [l]: the types that the owning unique_ptr is moved to one after the other; the last is [T']. *)
Fixpoint path acc (T : ty) (l : list ty) (T' : ty) : Prop :=
  match l with [] => T = T' | x :: l => owner x /\ converts acc x T = true /\ path acc x l T' end.

Lemma conv_ptr acc u t : wf (TPtr nocv u) -> wf (TPtr nocv t) -> is_convertible (copy_init acc) (TPtr nocv u) (TPtr nocv t) = ptr_conv acc u t.
Proof. intros U T. unfold is_convertible. rewrite !kind_code by assumption. reflexivity. Qed.
Lemma wf_arr e : element e -> ~ is_void_type e -> wf (TPtr nocv (TArrU e)).
Proof. intros (W & S) V. destruct e; try contradiction; cbn in W |- *; try tauto. destruct V. eexists. reflexivity. Qed.

Lemma conv_spec acc u t : element u -> element t -> (ptr_conv acc u t = true <-> implicit_pointer acc u t).
Proof.
  intros (Wu & Su) (Wt & St). unfold implicit_pointer.
  assert (V : forall q, t = TVoid q -> (cv_le (top u) q = true <-> qualification u t \/ (exists q0, t = TVoid q0 /\ cv_sub (top u) q0) \/ exists p q0 a b, u = TClass p a /\ t = TClass q0 b /\ acc a b = true /\ cv_sub p q0)).
  { intros q ->. rewrite cv_le_sub. split; [intro H; right; left; exists q; split; [reflexivity|exact H]|]. intros [(_ & _ & H)|[(q0 & E & H)|(p & q0 & a & b & _ & E & _)]].
    - destruct (level_top u) as [l El]. destruct (H 0 (top u) q) as (A & B & _); [rewrite El; reflexivity|reflexivity|]. split; assumption.
    - injection E as <-. exact H.
    - discriminate E. }
  assert (C : forall p q a b, u = TClass p a -> t = TClass q b ->
    ((Nat.eqb a b || acc a b) && cv_le p q = true <-> qualification u t \/ (exists q0, t = TVoid q0 /\ cv_sub (top u) q0) \/ exists p q0 a b, u = TClass p a /\ t = TClass q0 b /\ acc a b = true /\ cv_sub p q0)).
  { intros p q a b -> ->. rewrite andb_true_iff, orb_true_iff, PeanoNat.Nat.eqb_eq, cv_le_sub. split.
    - intros ([<-|A] & H).
      + left. apply qualifies_spec. cbn [qualifies orb top]. rewrite andb_true_r, andb_true_iff, cv_le_sub, ty_eqb_eq, !remove_cv_requal. split; [exact H|reflexivity].
      + right. right. exists p, q, a, b. repeat split; try assumption; apply H.
    - intros [Q|[(q0 & E & _)|(p0 & q0 & a0 & b0 & E1 & E2 & A & H)]]; [|discriminate E|].
      + apply qualifies_spec in Q. cbn [qualifies orb top] in Q. rewrite andb_true_r, andb_true_iff, cv_le_sub, ty_eqb_eq, !remove_cv_requal in Q. destruct Q as (Q & E). cbn in E. injection E as ->. split; [now left|exact Q].
      + injection E1 as <- <-. injection E2 as <- <-. split; [now right|exact H]. }
  assert (O : (forall q, t <> TVoid q) -> (forall p q a b, u = TClass p a -> t = TClass q b -> False) ->
    (qualifies true u t = true <-> qualification u t \/ (exists q0, t = TVoid q0 /\ cv_sub (top u) q0) \/ exists p q0 a b, u = TClass p a /\ t = TClass q0 b /\ acc a b = true /\ cv_sub p q0)).
  { intros N1 N2. rewrite qualifies_spec. split; [now left|]. intros [Q|[(q0 & E & _)|(p0 & q0 & a0 & b0 & E1 & E2 & _)]]; [exact Q|now apply N1 in E|exfalso; eapply N2; eassumption]. }
  destruct t; try contradiction; destruct u; try contradiction; cbn [ptr_conv]; try (apply V; reflexivity); try (apply C; reflexivity); apply O; intros; discriminate.
Qed.

(** unique_ptr<U> converts to unique_ptr<T>, by construction or assignment, exactly when U* converts implicitly to T*. *)
Theorem C94_object : forall acc T U, element T -> element U -> (converts acc T U = true <-> implicit_pointer acc U T).
Proof.
  intros acc T U ET EU. unfold converts.
  assert (M : move_convertible acc T U = ptr_conv acc U T).
  { unfold move_convertible, pointer. destruct ET as [WT ST], EU as [WU SU]. destruct T; try contradiction; destruct U; try contradiction; rewrite conv_ptr by assumption; apply andb_true_r. }
  assert (D : delete_converts acc T U = ty_eqb T U || ptr_conv acc U T).
  { unfold delete_converts. destruct ET as [WT ST], EU as [WU SU]. destruct T; try contradiction; rewrite conv_ptr by assumption; reflexivity. }
  rewrite M, D, orb_true_iff, andb_true_iff, orb_true_iff, ty_eqb_eq, conv_spec by assumption. split; [|tauto]. intros [->|(H & _)]; [|exact H]. left. apply qualification_refl.
Qed.
Print Assumptions C94_object.
(** unique_ptr<U[]> converts to unique_ptr<T[]> exactly when qualifiers are added to the elements: not from derived to base, and not to or from unique_ptr<T>, not even for void. *)
Theorem C94_array : forall acc T U, element T -> element U -> ~ is_void_type T -> ~ is_void_type U ->
  (converts acc (TArrU T) (TArrU U) = true <-> qualification U T).
Proof.
  intros acc T U ET EU VT VU. unfold converts, delete_converts. cbn [move_convertible is_array pointer element_type andb]. rewrite !same_refl. cbn [andb].
  rewrite conv_ptr by now apply wf_arr. cbn [ptr_conv].
  rewrite orb_true_iff, andb_true_iff, orb_true_iff, ty_eqb_eq, qualifies_spec. split; [|tauto].
  intros [H|(H & _)]; [|exact H]. injection H as ->. apply qualification_refl.
Qed.
Print Assumptions C94_array.
Theorem C94_apart : forall acc T U, (forall e, T <> TArrU e) -> converts acc T (TArrU U) = false /\ converts acc (TArrU U) T = false.
Proof.
  intros acc T U N. assert (E : ty_eqb T (TArrU U) = false /\ ty_eqb (TArrU U) T = false) by (split; apply not_true_iff_false; intro K; apply ty_eqb_eq in K; eapply N; [|symmetry]; eassumption).
  destruct E as [E1 E2]. unfold converts. rewrite E1, E2. cbn [orb]. split.
  - unfold move_convertible. destruct T; try (cbn [is_array negb]; rewrite andb_false_r; reflexivity). exfalso. eapply N. reflexivity.
  - unfold delete_converts. rewrite E2. destruct T; try (rewrite andb_false_r; reflexivity). exfalso. eapply N. reflexivity.
Qed.
Print Assumptions C94_apart.

Lemma similar_iff : forall u t, similar u t = true <-> length (levels u) = length (levels t) /\ target u = target t.
Proof.
  assert (One : forall t, (forall q w, t <> TPtr q w) -> levels t = [top t] /\ target t = remove_cv t) by (intros t N; destruct t; try (split; reflexivity); exfalso; eapply N; reflexivity).
  induction u; intro t;
    try (destruct (match t with TPtr _ _ => true | _ => false end) eqn:Z;
      [ destruct t as [| | | | | |q0 t0| | | | | |]; try discriminate Z; cbn [similar]; rewrite ty_eqb_eq; split;
        [ intro H; rewrite !remove_cv_requal in H; cbn in H; discriminate H
        | intros (L & _); exfalso; cbn in L; destruct (level_top t0) as [l E]; rewrite E in L; discriminate L ]
      | assert (N : forall q w, t <> TPtr q w) by (intros q0 w ->; discriminate Z); destruct (One t N) as [Lt Tt]; cbn [similar]; rewrite ty_eqb_eq, Lt, Tt; cbn [levels target length]; tauto ]).
  destruct (match t with TPtr _ _ => true | _ => false end) eqn:Z.
  - destruct t as [| | | | | |q' t| | | | | |]; try discriminate Z. cbn [similar levels target length]. rewrite IHu. split; intros [A B]; (split; [|exact B]); [now f_equal|now injection A].
  - assert (N : forall q w, t <> TPtr q w) by (intros q0 w ->; discriminate Z). destruct (One t N) as [Lt _]. split.
    + intro H. exfalso. destruct t; try discriminate Z; cbn [similar] in H; apply ty_eqb_eq in H; rewrite !remove_cv_requal in H; discriminate H.
    + intros (L & _). exfalso. rewrite Lt in L. cbn in L. destruct (level_top u) as [l E]. rewrite E in L. discriminate L.
Qed.
Lemma qualification_similar u t : qualification u t -> similar u t = true.
Proof. intros (A & B & _). now apply similar_iff. Qed.
Lemma similar_trans u v t : similar u v = true -> similar v t = true -> similar u t = true.
Proof. rewrite !similar_iff. intros [A B] [C D]. split; congruence. Qed.
Lemma similar_sym u v : similar u v = true -> similar v u = true.
Proof. rewrite !similar_iff. intros [A B]. split; congruence. Qed.
Lemma similar_class p a t : similar (TClass p a) t = true -> exists q, t = TClass q a.
Proof. intro H. destruct t; cbn [similar] in H; apply ty_eqb_eq in H; rewrite !remove_cv_requal in H; cbn in H; try discriminate H. injection H as ->. eexists. reflexivity. Qed.
Lemma class_similar p q a b : similar (TClass p a) (TClass q b) = true <-> a = b.
Proof. cbn [similar]. rewrite ty_eqb_eq, !remove_cv_requal. cbn. split; [intro H; now injection H|now intros ->]. Qed.
Lemma similar_void p t : similar (TVoid p) t = true -> is_void_type t.
Proof. intro H. destruct t; cbn [similar] in H; apply ty_eqb_eq in H; rewrite !remove_cv_requal in H; cbn in H; try discriminate H. eexists. reflexivity. Qed.
Lemma void_iff t : is_void t = true <-> is_void_type t.
Proof. unfold is_void. rewrite remove_cv_requal. destruct t; cbn; split; try discriminate; try (intros (q0 & E); discriminate E); [intros _; eexists; reflexivity|reflexivity]. Qed.

(** What a unique_ptr that was given [new a] can have become. *)
Definition reach (base : nat -> nat -> bool) (a T : ty) : Prop :=
  similar a T = true \/ is_void_type T \/ exists p q c b, a = TClass p c /\ T = TClass q b /\ base c b = true.
Lemma reach_step (acc base : nat -> nat -> bool) a u t : (forall x y, acc x y = true -> base x y = true) -> (forall x y z, base x y = true -> base y z = true -> base x z = true) ->
  reach base a u -> implicit_pointer acc u t -> reach base a t.
Proof.
  intros Sub Tr R [Q|[(q & -> & _)|(p & q & x & y & -> & -> & A & _)]].
  - apply qualification_similar in Q. destruct R as [S|[(q & ->)|(p & q & c & b & -> & -> & B)]].
    + left. eapply similar_trans; eassumption.
    + right. left. now apply similar_void in Q.
    + right. right. apply similar_class in Q. destruct Q as [r ->]. exists p, r, c, b. auto.
  - right. left. now exists q.
  - right. right. destruct R as [S|[(q0 & E)|(p0 & q0 & c & b & -> & E & B)]]; [|discriminate E|].
    + apply similar_sym, similar_class in S. destruct S as [r ->]. exists r, q, x, y. auto.
    + injection E as <- <-. exists p0, q, c, y. split; [reflexivity|]. split; [reflexivity|]. eapply Tr; [exact B|]. now apply Sub.
Qed.
Lemma path_reach (acc base : nat -> nat -> bool) a : (forall x y, acc x y = true -> base x y = true) -> (forall x y z, base x y = true -> base y z = true -> base x z = true) ->
  forall l T T', element T -> reach base a T -> path acc T l T' -> element T' /\ reach base a T'.
Proof.
  intros Sub Tr. induction l as [|x l IH]; intros T T' ET R P; cbn [path] in P; [subst; auto|]. destruct P as (O & C & P).
  assert (Ex : element x).
  { destruct x; try exact O. exfalso. destruct (C94_apart acc T x) as [_ K]; [|congruence]. intros e ->. destruct ET as [_ []]. }
  apply (IH x T'); [exact Ex| |exact P]. apply (reach_step acc base a T x Sub Tr R). now apply C94_object.
Qed.
(** A unique_ptr that was given [new a] and moved along any conversions that compile never becomes a unique_ptr to an array; its destructor does not compile exactly when it
    ends as unique_ptr<void>, and is undefined exactly when it ends as a unique_ptr to another class (a base) whose destructor is not virtual. *)
Theorem C94_single : forall (acc base : nat -> nat -> bool) vdtor a T l T',
  (forall x y, acc x y = true -> base x y = true) -> (forall x y z, base x y = true -> base y z = true -> base x z = true) ->
  element a -> ~ is_void_type a -> element T -> takes acc T (Single a) = true -> path acc T l T' ->
  (forall e, T' <> TArrU e) /\
  (default_delete base vdtor T' (Single a) = NotCompiled <-> is_void_type T') /\
  (default_delete base vdtor T' (Single a) = Undefined <-> exists p q c b, a = TClass p c /\ T' = TClass q b /\ c <> b /\ vdtor b = false).
Proof.
  intros acc base vdtor a T l T' Sub Tr Ea Va ET K P.
  assert (R0 : reach base a T).
  { apply (reach_step acc base a a T Sub Tr); [left; apply qualification_similar, qualification_refl|]. apply conv_spec; [assumption..|]. destruct ET as [_ ST]. destruct T; try contradiction; exact K. }
  destruct (path_reach acc base a Sub Tr l T T' ET R0 P) as [E R]. clear K P R0 ET T l.
  assert (D : default_delete base vdtor T' (Single a) = if is_void T' then NotCompiled else
     if similar T' a then Destroyed else match T', a with TClass _ b, TClass _ c => if base c b && vdtor b then Destroyed else Undefined | _, _ => Undefined end).
  { destruct E as [W S]. unfold default_delete. assert (F : is_function T' = false) by (apply not_true_iff_false; intro F; apply is_function_iff in F; [|destruct W as (_ & _ & W); exact W]; destruct F as (?&?&?&?&?&->); contradiction).
    destruct T'; try contradiction; rewrite F, orb_false_r; reflexivity. }
  rewrite D. clear D. split; [intros e ->; destruct E as [_ []]|].
  destruct (is_void T') eqn:V.
  - apply void_iff in V. split; [tauto|]. split; [discriminate|]. destruct V as [q ->]. intros (p0 & q0 & c & b & _ & H & _). discriminate H.
  - assert (NV : ~ is_void_type T') by (intro H; apply void_iff in H; congruence). destruct (similar T' a) eqn:S.
    + split; [split; [discriminate|contradiction]|]. split; [discriminate|]. intros (p & q & c & b & -> & -> & N & _). apply class_similar in S. congruence.
    + destruct R as [R|[R|(p & q & c & b & -> & -> & B)]]; [apply similar_sym in R; congruence|contradiction|]. rewrite B. cbn [andb]. destruct (vdtor b) eqn:Vb.
      * split; [split; [discriminate|contradiction]|]. split; [discriminate|]. intros (p0 & q0 & c0 & b0 & _ & H & _ & H'). injection H as <- <-. congruence.
      * split; [split; [discriminate|contradiction]|]. split; [|reflexivity]. intros _. exists p, q, c, b. repeat split; [|exact Vb]. intros ->. rewrite (proj2 (class_similar q p b b) eq_refl) in S. discriminate S.
Qed.
Print Assumptions C94_single.
(** A unique_ptr that was given [new a[n]] and moved along any conversions that compile still is a unique_ptr to an array, and its destructor destroys it. *)
Theorem C94_array_single : forall acc base vdtor a T l T', element a -> ~ is_void_type a -> owner (TArrU T) -> takes acc (TArrU T) (Array a) = true -> path acc (TArrU T) l T' ->
  (exists e, T' = TArrU e) /\ default_delete base vdtor T' (Array a) = Destroyed.
Proof.
  intros acc base vdtor a T l T' Ea Va OT K P.
  assert (S : similar a T = true) by (apply qualification_similar, C90_array_pointer; exact K). clear K. revert T OT S P.
  induction l as [|x l IH]; intros T [ET VT] S P; cbn [path] in P.
  - subst T'. split; [eexists; reflexivity|]. cbn [default_delete]. destruct (is_void T) eqn:V; [apply void_iff in V; contradiction|]. rewrite (similar_sym _ _ S). reflexivity.
  - destruct P as (O & C & P). destruct (match x with TArrU _ => true | _ => false end) eqn:Z.
    + destruct x; try discriminate Z. apply (IH x); [exact O| |exact P]. destruct O as [Ex Vx]. eapply similar_trans; [exact S|]. apply qualification_similar. now apply (C94_array acc x T Ex ET Vx VT).
    + exfalso. destruct (C94_apart acc x T) as [K _]; [intros e ->; discriminate Z|congruence].
Qed.
Print Assumptions C94_array_single.
(** Nothing keeps a unique_ptr to a derived class from becoming one to a base without a virtual destructor, or any unique_ptr from becoming a unique_ptr<void>; and nothing
    keeps the result of [new a[n]] from unique_ptr<a>, or of [new a] from unique_ptr<a[]>. *)
Theorem C94_refuted : exists (acc base : nat -> nat -> bool) vdtor, (forall x y, acc x y = true -> base x y = true) /\ (forall x y z, base x y = true -> base y z = true -> base x z = true) /\
  let c n := TClass nocv n in
  (takes acc (c 2) (Single (c 2)) = true /\ converts acc (c 3) (c 2) = true /\ default_delete base vdtor (c 3) (Single (c 2)) = Undefined) /\
  (converts acc (TVoid nocv) (c 2) = true /\ default_delete base vdtor (TVoid nocv) (Single (c 2)) = NotCompiled) /\
  (takes acc (c 2) (Array (c 2)) = true /\ default_delete base vdtor (c 2) (Array (c 2)) = Undefined) /\
  (takes acc (TArrU (c 2)) (Single (c 2)) = true /\ default_delete base vdtor (TArrU (c 2)) (Single (c 2)) = Undefined).
Proof.
  exists (fun x y => Nat.eqb x 2 && Nat.eqb y 3), (fun x y => Nat.eqb x 2 && Nat.eqb y 3), (fun _ => false). split; [auto|]. split; [|repeat split].
  intros x y z A B. apply andb_prop in A, B. destruct A as [_ A], B as [B _]. apply PeanoNat.Nat.eqb_eq in A, B. congruence.
Qed.
Print Assumptions C94_refuted.

(** Three classes 4 : 3 : 2 with a virtual destructor in 2 only: a pointer to 4 becomes one to const 3, then one to const volatile 2. *)
Example C94_case : let acc x y := (Nat.eqb x 4 && (Nat.eqb y 3 || Nat.eqb y 2)) || (Nat.eqb x 3 && Nat.eqb y 2) in let v b := Nat.eqb b 2 in
  let k := TClass nocv 4 in let b := TClass (Cv true false) 3 in let a := TClass (Cv true true) 2 in
  element k /\ takes acc k (Single k) = true /\ path acc k [b; a] a /\ default_delete acc v a (Single k) = Destroyed /\ default_delete acc v b (Single k) = Undefined /\
  converts acc b a = false /\ converts acc (TArrU b) (TArrU k) = false /\ takes acc (TArrU b) (Array k) = false /\
  path acc (TArrU k) [TArrU (TClass (Cv true false) 4)] (TArrU (TClass (Cv true false) 4)) /\ owner (TArrU k).
Proof. cbn [path owner]. unfold element. repeat split; try (intros (q & H); discriminate H). Qed.
