(** Theorems about __weak_result_type. *)
From Coq Require Import List Bool Arith Lia.
From Verif Require Import TyModel WrtModel.
Import ListNotations.

(** What the standard calls the call signature of a type (func.require, refwrap): the result and the arguments, for a member function with the object first. *)
Inductive called : ty -> ty -> list ty -> Prop :=
| called_fun r ps : called (TFun r ps false nocv NoRef) r ps
| called_ref r ps : called (TLref (TFun r ps false nocv NoRef)) r ps
| called_ptr r ps : called (TPtr nocv (TFun r ps false nocv NoRef)) r ps
| called_mem c r ps q : called (TMem nocv c (TFun r ps false q NoRef)) r (TPtr nocv (TClass q c) :: ps).

Theorem C92_called : forall classes unions t r args, called t r args -> exists d, weak_result_type classes unions t = Has d /\
  result d = Some r /\ (forall a, arg d = Some a <-> args = [a]) /\ (forall a, arg1 d = Some a <-> exists b, args = [a; b]) /\ (forall b, arg2 d = Some b <-> exists a, args = [a; b]).
Proof.
  intros classes unions t r args H.
  destruct H as [r ps|r ps|r ps|c r ps [[] []]]; destruct ps as [|x [|y [|z ps]]]; eexists; (split; [reflexivity|]); cbn; (split; [reflexivity|]);
    repeat split; intros H; repeat match goal with H : exists _, _ |- _ => destruct H | H : Some _ = Some _ |- _ => injection H; clear H; intros; subst | H : _ :: _ = _ :: _ |- _ => injection H; clear H; intros; subst end; try discriminate; eauto.
Qed.
Print Assumptions C92_called.

(** Which other types compile; the choice is never ambiguous. *)
Theorem C92_other : forall classes unions t,
  weak_result_type classes unions t <> Ambiguous /\
  (weak_result_type classes unions t = HardError <-> (forall r args, ~ called t r args) /\ ptr t = None) /\
  ((forall r args, ~ called t r args) -> (forall q n, t <> TClass q n /\ t <> TUnion q n) -> weak_result_type classes unions t = HardError \/ weak_result_type classes unions t = Has (Typedefs None None None None)).
Proof.
  intros classes unions t.
  assert (D : (exists r args, called t r args) \/ (weak_result_type classes unions t = primary classes unions t /\ forall r args, ~ called t r args)).
  { unfold weak_result_type. assert (N : (forall s, In s specs -> matches t s = false) -> filter (matches t) specs = []) by (generalize specs; induction l as [|s l IH]; intros F; [reflexivity|cbn; rewrite (F s (or_introl eq_refl)); apply IH; intros; apply F; now right]).
    assert (Q : (exists h, deduce h t <> None) -> exists r args, called t r args).
    { intros (h & E). destruct h as [| | |q]; cbn in E.
      - destruct t as [| | | | | | | | | | | |r ps [] [[] []] []]; try contradiction; do 2 eexists; constructor.
      - destruct t as [| | | | | | | |[| | | | | | | | | | | |r ps [] [[] []] []]| | | |]; try contradiction; do 2 eexists; constructor.
      - destruct t as [| | | | | |[[] []] [| | | | | | | | | | | |r ps [] [[] []] []]| | | | | |]; try contradiction; do 2 eexists; constructor.
      - destruct t as [| | | | | | |[[] []] c [| | | | | | | | | | | |r ps [] p []]| | | | |]; try contradiction; do 2 eexists; constructor. }
    destruct (deduce Fun t) eqn:E1; [left; apply Q; exists Fun; congruence|]. destruct (deduce Ref t) eqn:E2; [left; apply Q; exists Ref; congruence|]. destruct (deduce Ptr t) eqn:E3; [left; apply Q; exists Ptr; congruence|].
    destruct (deduce (Mem nocv) t) eqn:E4; [left; apply Q; eexists; rewrite E4; discriminate|]. destruct (deduce (Mem c_) t) eqn:E5; [left; apply Q; eexists; rewrite E5; discriminate|].
    destruct (deduce (Mem v_) t) eqn:E6; [left; apply Q; eexists; rewrite E6; discriminate|]. destruct (deduce (Mem cv_) t) eqn:E7; [left; apply Q; eexists; rewrite E7; discriminate|].
    right. split.
    - rewrite N; [reflexivity|]. intros s I. unfold matches. assert (deduce (how s) t = None) as ->; [|reflexivity]. cbn in I. repeat (destruct I as [<-|I]; [assumption|]). destruct I.
    - intros r args C. destruct C as [| | |c r ps [[] []]]; cbn in *; discriminate. }
  destruct D as [(r & args & C)|(E & N)].
  - destruct (C92_called classes unions _ _ _ C) as (d & E & _). rewrite E. split; [discriminate|]. split; [split; [discriminate|intros (N & _); destruct (N _ _ C)]|intros N; destruct (N _ _ C)].
  - rewrite E. unfold primary. split; [destruct (ptr t); discriminate|]. split; [destruct (ptr t); split; intros H; try discriminate H; [destruct H; discriminate|split; [exact N|reflexivity]|reflexivity]|].
    intros _ M. destruct (ptr t); [right|now left]. destruct t; try reflexivity; [destruct (M q name) as (K & _)|destruct (M q name) as (_ & K)]; destruct K; reflexivity.
Qed.
Print Assumptions C92_other.

(** Function objects: a class with at most one base of each kind, whose own result_type (if it has one) can be pointed to. *)
Theorem C92_class_partial : forall classes unions q n,
  (forall r, own (classes n) = Some r -> match r with TLref _ | TRref _ => False | _ => qualified_fun r = false end) -> length (unary_bases (classes n)) <= 1 -> length (binary_bases (classes n)) <= 1 ->
  exists d, weak_result_type classes unions (TClass q n) = Has d /\
  (forall r, result d = Some r <-> own (classes n) = Some r \/ own (classes n) = None /\
     (binary_bases (classes n) = [] /\ (exists a, In (a, r) (unary_bases (classes n))) \/ unary_bases (classes n) = [] /\ (exists a b, In (a, b, r) (binary_bases (classes n))))) /\
  (forall a, arg d = Some a <-> exists r, In (a, r) (unary_bases (classes n))) /\
  (forall a, arg1 d = Some a <-> exists b r, In (a, b, r) (binary_bases (classes n))) /\ (forall b, arg2 d = Some b <-> exists a r, In (a, b, r) (binary_bases (classes n))).
Proof.
  intros classes unions q n P U B. eexists. split; [reflexivity|]. unfold primary, has_result_type, unary_base, binary_base. cbn [class_of ptr result arg arg1 arg2 option_map].
  destruct (classes n) as [o us bs]. cbn [own unary_bases binary_bases lookup_result] in *. unfold lookup_result; cbn [own unary_bases binary_bases].
  assert (Pr : forall r, o = Some r -> exists p, ptr r = Some p). { intros r ->. specialize (P r eq_refl). unfold ptr. destruct r; try contradiction; try rewrite P; eauto. }
  destruct us as [|[a u] [|? ?]]; [| |cbn in U; lia]; (destruct bs as [|[[x y] z] [|? ?]]; [| |cbn in B; lia]); cbn [option_map fst snd In];
  (split; [|repeat match goal with |- _ /\ _ => split end; intros ?; split; intros H; repeat match goal with H : exists _, _ |- _ => destruct H | H : Some _ = Some _ |- _ => injection H as <- | H : _ \/ _ |- _ => destruct H | H : (_, _) = (_, _) |- _ => injection H; clear H; intros; subst end; try discriminate; try contradiction; eauto]);
  intros r; destruct o as [v|]; cbn [own];
  try (destruct (Pr v eq_refl) as (pv & Ev); rewrite Ev; split; [intros H; now left|intros [H|(H & _)]; [exact H|discriminate H]]).
  all: try (destruct (ptr u)); try (destruct (ptr z)); split; intros H;
    repeat match goal with H : exists _, _ |- _ => destruct H | H : Some _ = Some _ |- _ => injection H as <- | H : _ \/ _ |- _ => destruct H | H : _ /\ _ |- _ => destruct H | H : (_, _) = (_, _) |- _ => injection H; clear H; intros; subst end; try discriminate; try contradiction; try reflexivity;
    try (right; split; [reflexivity|]; first [left; split; [reflexivity|]; eexists; now left | right; split; [reflexivity|]; do 2 eexists; now left]).
Qed.
Print Assumptions C92_class_partial.

(** A function object whose result_type is a reference: the member is not found; if it also derives from unary_function, that one's result_type is taken instead. *)
Theorem C92_reference_refuted : exists classes r n m a u, r = TLref u /\ own (classes n) = Some r /\ own (classes m) = Some r /\
  forall unions, weak_result_type classes unions (TClass nocv n) = Has (Typedefs None None None None) /\ weak_result_type classes unions (TClass nocv m) = Has (Typedefs (Some u) (Some a) None None).
Proof.
  exists (fun n => Class (Some (TLref (TArith nocv Int))) (match n with 0 => [] | _ => [(TArith nocv Char, TArith nocv Int)] end) []), (TLref (TArith nocv Int)), 0, 1, (TArith nocv Char), (TArith nocv Int).
  repeat split.
Qed.
Print Assumptions C92_reference_refuted.
(** Functions with an ellipsis, const pointers to functions and ref-qualified member functions have no result_type; a reference to a function with an ellipsis does not compile. *)
Theorem C92_unmatched : forall classes unions r ps c q k,
  weak_result_type classes unions (TFun r ps true nocv NoRef) = Has (Typedefs None None None None) /\ weak_result_type classes unions (TPtr nocv (TFun r ps true nocv NoRef)) = Has (Typedefs None None None None) /\
  weak_result_type classes unions (TLref (TFun r ps true nocv NoRef)) = HardError /\ weak_result_type classes unions (TPtr (Cv true k) (TFun r ps false nocv NoRef)) = Has (Typedefs None None None None) /\
  weak_result_type classes unions (TMem nocv c (TFun r ps false q LvalRef)) = Has (Typedefs None None None None).
Proof. intros. repeat split. Qed.
Print Assumptions C92_unmatched.
(** The type of printf has no result_type. *)
Theorem C92_ellipsis_refuted : exists r ps, forall classes unions d, weak_result_type classes unions (TFun r ps true nocv NoRef) = Has d -> result d <> Some r.
Proof. exists (TArith nocv Int), [TPtr nocv (TArith (Cv true false) Char)]. intros classes unions d H. injection H as <-. discriminate. Qed.
Print Assumptions C92_ellipsis_refuted.

Example C92_case : let i := TArith nocv Int in let classes n := Class None (match n with 0 => [(i, TVoid nocv)] | _ => [] end) (match n with 1 => [(i, i, i)] | _ => [] end) in
  called (TMem nocv 5 (TFun i [TLref i] false (Cv true false) NoRef)) i [TPtr nocv (TClass (Cv true false) 5); TLref i] /\
  weak_result_type classes (fun _ => None) (TClass nocv 0) = Has (Typedefs (Some (TVoid nocv)) (Some i) None None) /\ weak_result_type classes (fun _ => None) (TClass (Cv true true) 1) = Has (Typedefs (Some i) None (Some i) (Some i)) /\
  weak_result_type classes (fun _ => None) (TPtr nocv (TFun i [i; i; i; i] false nocv NoRef)) = Has (Typedefs (Some i) None None None).
Proof. split; [constructor|]. repeat split. Qed.
