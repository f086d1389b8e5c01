(** Property theorems for nanostl::string (C08-C11).  Model: StrModel.v (on the
    vector model), specification: StrSpec.v (byte lists). *)
From Coq Require Import ZArith List Lia Bool.
From Verif Require Import Mem VecModel VecSpec VecProofs VecRefine VecMore StrModel StrSpec StrProofs StrMore.
Import ListNotations.
Open Scope Z_scope.

(** C08.  Every history admitted by the byte-list specification runs without
    fault; all observations (size, characters, c_str text, comparisons) are those
    of the byte lists; at the end every live string's array is its content
    followed by exactly one NUL as its last element; and nothing is leaked. *)
Theorem C08_string_refines_text : forall ops outs s,
  tspec_run tspec0 ops = Some (outs, s) ->
  exists outs' w, srun world0 ops = Ok (outs', w) /\ Forall2 xout_ok outs outs' /\
    (forall x l, s x = Some l -> exists v, vecs w x = Some v /\ size v = tlen l + 1 /\
       forall i, 0 <= i <= tlen l -> str_at (hp w) v i = Ok (nth (Z.to_nat i) (l ++ [0]) 0)) /\
    ((forall x, s x = None) -> forall b, mem (hp w) b = None).
Proof. exact srefines. Qed.
Print Assumptions C08_string_refines_text.

Definition sdemo : list sop :=
  [SLit 0 (Some [104; 105; 0; 77]); SNew 1; SCopy 2 0; SAppend 2 0; SPlus 3 2 1; SText 3; SSize 3;
   SLit 4 None; SText 4; SCmp 0 2; SLt 0 2; SGt 0 2; SEq 3 2; SNe 3 2; SClear 0; SText 0; SSize 0; SAt 0 0;
   SAssign 0 3; SErase 0 1; SSet 0 0 72; SText 0; SFromCstr 5 0; SCmpLit 5 (Some [72; 104; 200; 0]);
   SAssign 0 0; SAt 0 2; SText 2].

Example C08_case : exists s, tspec_run tspec0 sdemo = Some
  ([XNone; XNone; XNone; XNone; XNone; XText [104;105;104;105]; XZ 4;
    XNone; XText []; XCmp Lt; XBool true; XBool false; XBool true; XBool false; XNone; XText []; XZ 0; XZ 0;
    XNone; XNone; XNone; XText [72;104;105]; XNone; XCmp Lt; XNone; XZ 105; XText [104;105;104;105]], s).
Proof. eexists. vm_compute. reflexivity. Qed.

(** The two constructors that take a length do not terminate the string: size()
    is off by one (2^64-1 for count = 0) for every input. *)
Theorem C08_count_constructor_unterminated : forall (h : heap Z) l n,
  freshok h -> 0 <= n <= tlen l -> n < max_text ->
  exists v h', str_count h (Some l) n = Ok (v, h') /\ str_size v = (n - 1) mod 2 ^ 64 /\
    size v = n /\ (forall i, 0 <= i < n -> str_at h' v i = Ok (nth (Z.to_nat i) l 0)).
Proof. exact str_count_size. Qed.
Print Assumptions C08_count_constructor_unterminated.

(** So "c_str() is NUL-terminated" is false for them: reading c_str() of
    string("ab", 2) leaves the array. *)
Theorem C08_count_constructor_refuted :
  exists v h, str_count empty_heap (Some [97; 98]) 2 = Ok (v, h) /\
    str_text h v = UB OutOfBounds /\ str_size v = 1.
Proof. eexists _, _. split; [vm_compute; reflexivity|]. split; vm_compute; reflexivity. Qed.
Print Assumptions C08_count_constructor_refuted.

(** The constructor from a range copies one character too many, the one at last: size() is the length of the range and
    what should be the terminator is that character.  If the range ends where its array ends, it reads outside. *)
Theorem C08_range_constructor : forall (h : heap Z) l n,
  freshok h -> 0 <= n -> n + 1 < max_text ->
  (n < tlen l -> exists v h', str_range h (Some l) n = Ok (v, h') /\ str_size v = n /\
     forall i, 0 <= i <= n -> str_at h' v i = Ok (nth (Z.to_nat i) l 0)) /\
  (tlen l <= n -> str_range h (Some l) n = UB OutOfBounds).
Proof. exact str_range_size. Qed.
Print Assumptions C08_range_constructor.
Example C08_range_case : exists v h, str_range empty_heap (Some [97; 98; 0]) 2 = Ok (v, h) /\ str_text h v = Ok [97; 98] /\
  exists v' h', str_range empty_heap (Some [97; 98; 99]) 2 = Ok (v', h') /\ str_size v' = 2 /\ str_text h' v' = UB Indet.
Proof. eexists _, _. split; [vm_compute; reflexivity|]. split; [vm_compute; reflexivity|].
  eexists _, _. split; [vm_compute; reflexivity|]. split; vm_compute; reflexivity. Qed.

(** C09.  Associativity, unit, length additivity, operands unchanged, and
    agreement of += with +, in any reachable state with live strings a, b, c. *)
Theorem C09_concatenation_laws : forall ops outs s a b c la lb lc n,
  tspec_run tspec0 ops = Some (outs, s) -> s a = Some la -> s b = Some lb -> s c = Some lc ->
  (a < n)%nat -> (b < n)%nat -> (c < n)%nat -> (forall k, (n <= k)%nat -> s k = None) ->
  tlen (la ++ lb ++ lc) < max_text ->
  let t1 := n in let t2 := S n in let u1 := S (S n) in let u2 := S (S (S n)) in
  let e := S (S (S (S n))) in let p := S (S (S (S (S n)))) in
  let q := S (S (S (S (S (S n))))) in
  exists o w, srun world0 (ops ++
      [SPlus t1 a b; SPlus t2 t1 c;       (* t2 = (a+b)+c *)
       SPlus u1 b c; SPlus u2 a u1;       (* u2 = a+(b+c) *)
       SNew e; SPlus p e a; SPlus q a e;  (* p = ""+a, q = a+"" *)
       SText t2; SText u2; SEq t2 u2; SEq p a; SEq q a; SSize t1; SText a; SText b;
       SAppend e a; SAppend e b; SEq e t1]) =   (* e = ""; e += a; e += b; e == a+b *)
    Ok (o ++ [TText (la ++ lb ++ lc); TText (la ++ lb ++ lc); TBool true; TBool true; TBool true;
              TZ (tlen la + tlen lb); TText la; TText lb; TNone; TNone; TBool true], w).
Proof. exact concat_laws. Qed.
Print Assumptions C09_concatenation_laws.

Example C09_case : exists o s, tspec_run tspec0
   [SLit 0 (Some [97; 0]); SLit 1 (Some [98; 99; 0]); SNew 2] = Some (o, s) /\
   s 0%nat = Some [97] /\ s 1%nat = Some [98; 99] /\ s 2%nat = Some [] /\
   forall k, (3 <= k)%nat -> s k = None.
Proof.
  eexists _, _. split; [vm_compute; reflexivity|]. repeat split.
  intros [|[|[|k]]] H; try lia. reflexivity.
Qed.

(** C10.  compare() has the sign of the lexicographic comparison of the
    contents as unsigned bytes, and ==, !=, <, > follow. *)
Theorem C10_compare_is_lexicographic : forall ops outs s x y a b,
  tspec_run tspec0 ops = Some (outs, s) -> s x = Some a -> s y = Some b ->
  exists o z w, srun world0 (ops ++ [SCmp x y; SEq x y; SNe x y; SLt x y; SGt x y]) =
      Ok (o ++ [TCmp z; TBool (match lex a b with Eq => true | _ => false end);
                TBool (match lex a b with Eq => false | _ => true end);
                TBool (match lex a b with Lt => true | _ => false end);
                TBool (match lex a b with Gt => true | _ => false end)], w) /\
    (z ?= 0) = lex a b.
Proof.
  intros ops outs s x y a b E Ex Ey.
  assert (E2 : tspec_run s [SCmp x y; SEq x y; SNe x y; SLt x y; SGt x y] =
    Some ([XCmp (lex a b); XBool (match lex a b with Eq => true | _ => false end);
                XBool (match lex a b with Eq => false | _ => true end);
                XBool (match lex a b with Lt => true | _ => false end);
                XBool (match lex a b with Gt => true | _ => false end)], s)).
  { cbn [tspec_run tspec_step]. unfold tget. repeat (rewrite ?Ex, ?Ey; cbn [tspec_run]). reflexivity. }
  destruct (srefines _ _ _ (tspec_run_app ops _ _ _ _ _ _ E E2)) as (o & w & Er & Fo & _).
  apply Forall2_app_inv_l in Fo. destruct Fo as (o1 & o2 & _ & F2 & ->).
  repeat match goal with
    | H : Forall2 xout_ok (_ :: _) _ |- _ => inversion H; clear H; subst
    | H : Forall2 xout_ok [] _ |- _ => inversion H; clear H; subst
    end.
  repeat match goal with
    | H : xout_ok _ ?y |- _ => destruct y; cbn in H; try contradiction; subst
    end.
  eexists _, _, _. split; [exact Er|assumption].
Qed.
Print Assumptions C10_compare_is_lexicographic.

(** The relation is a strict total order whose equality is text equality. *)
Theorem C10_strict_total_order :
  (forall a b, lex a b = Eq <-> a = b) /\
  (forall a b, lex b a = CompOpp (lex a b)) /\
  (forall a b c, lex a b = Lt -> lex b c = Lt -> lex a c = Lt).
Proof. exact (conj lex_eq (conj lex_antisym lex_trans)). Qed.
Print Assumptions C10_strict_total_order.

(** A byte above 127 sorts after every ASCII byte (unsigned, not signed char). *)
Example C10_case : exists o w, srun world0
   [SLit 0 (Some [97; 200; 0]); SLit 1 (Some [97; 98; 0]); SCmp 0 1; SLt 1 0] =
   Ok (o ++ [TCmp 102; TBool true], w).
Proof. eexists [_; _], _. vm_compute. reflexivity. Qed.

(** C11.  s += s never gives the doubled text, for any string: either the loop
    reads the released array, or the result has lost its terminator and size()
    is one too small (2^64-1 for the empty string). *)
Theorem C11_self_append_always_wrong : forall (w : world Z) x v l, sreach w x v l ->
  if 2 * tlen l <=? capacity v
  then exists w' v', sstep w (SAppend x x) = Ok (TNone, w') /\ vecs w' x = Some v' /\
         size v' = 2 * tlen l /\ str_size v' = (2 * tlen l - 1) mod 2 ^ 64 /\
         (forall i, 0 <= i < 2 * tlen l -> str_at (hp w') v' i = Ok (nth (Z.to_nat i) (l ++ l) 0))
  else sstep w (SAppend x x) = UB UseAfterFree.
Proof. exact self_append. Qed.
Print Assumptions C11_self_append_always_wrong.

Theorem C11_self_append_refuted : exists (w : world Z) v, sreach w 0 v [97; 98; 99] /\
  sstep w (SAppend 0 0) = UB UseAfterFree.
Proof.
  assert (R : exists w v outs, srun world0 [SLit 0 (Some [97; 98; 99; 0])] = Ok (outs, w) /\ vecs w 0%nat = Some v /\ capacity v = 4).
  { eexists _, _, _. split; [vm_compute; reflexivity|]. split; vm_compute; reflexivity. }
  destruct R as (w & v & outs & E & Hv & Hc).
  assert (R : sreach w 0 v [97; 98; 99]).
  { exists [SLit 0 (Some [97; 98; 99; 0])]. eexists _, _, _. split; [vm_compute; reflexivity|].
    split; [exact E|]. split; [exact Hv|reflexivity]. }
  exists w, v. split; [exact R|].
  pose proof (self_append w _ v _ R) as H. rewrite Hc in H. exact H.
Qed.
Print Assumptions C11_self_append_refuted.

(** empty() answers false for every string, in particular for "". *)
Theorem C11_empty_is_always_false : forall (w : world Z) x v l,
  sreach w x v l -> sstep w (SEmpty x) = Ok (TBool false, w).
Proof. exact empty_never. Qed.
Print Assumptions C11_empty_is_always_false.

Theorem C11_empty_refuted : exists w v, sreach w 0 v [] /\ sstep w (SEmpty 0) = Ok (TBool false, w).
Proof.
  assert (R : exists w v outs, srun world0 [SNew 0] = Ok (outs, w) /\ vecs w 0%nat = Some v).
  { eexists _, _, _. split; vm_compute; reflexivity. }
  destruct R as (w & v & outs & E & Hv).
  assert (R : sreach w 0 v []).
  { exists [SNew 0]. eexists _, _, _. split; [vm_compute; reflexivity|]. split; [exact E|]. split; [exact Hv|reflexivity]. }
  exists w, v. split; [exact R|]. eapply empty_never; eauto.
Qed.
Print Assumptions C11_empty_refuted.
