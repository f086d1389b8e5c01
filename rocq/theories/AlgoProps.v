(** min/max/max_element/fill (C17), memcpy (C18), ratio (C19), pair order (C39). *)
From Coq Require Import ZArith List Bool Lia.
From Verif Require Import Mem AlgoModel AlgoProofs.
Import ListNotations.
Open Scope Z_scope.

Theorem C17_min_max : forall (V : Type) (ltb gtb : V -> V -> bool),
  strict_weak ltb -> (forall a b, gtb a b = ltb b a) -> forall a b,
  ((min_ ltb a b = a \/ min_ ltb a b = b) /\ ltb a (min_ ltb a b) = false /\
   ltb b (min_ ltb a b) = false /\ (ltb b a = false -> min_ ltb a b = a)) /\
  ((max_ gtb a b = a \/ max_ gtb a b = b) /\ ltb (max_ gtb a b) a = false /\
   ltb (max_ gtb a b) b = false /\ (ltb a b = false -> max_ gtb a b = a)).
Proof.
  intros V ltb gtb SW GT a b. split; [exact (min_ok ltb SW a b)|exact (max_ok ltb gtb SW GT a b)].
Qed.
Print Assumptions C17_min_max.

(** Objects (identity, value) compared by value: ties keep the first object. *)
Definition vlt (a b : Z * Z) : bool := snd a <? snd b.
Lemma vlt_sw : strict_weak vlt.
Proof.
  constructor; unfold vlt; intros.
  - apply Z.ltb_irrefl.
  - rewrite Z.ltb_lt in *. lia.
  - rewrite !Z.ltb_lt in *. lia.
Qed.
Example C17_min_max_case :
  min_ vlt (1, 7) (2, 7) = (1, 7) /\ max_ (fun a b => vlt b a) (1, 7) (2, 7) = (1, 7) /\
  min_ vlt (1, 7) (2, 3) = (2, 3) /\ max_ (fun a b => vlt b a) (1, 7) (2, 9) = (2, 9).
Proof. repeat split. Qed.

(** [rd h p i = Ok (f i)]: element i is initialised with value f i. *)
Theorem C17_max_element : forall (V : Type) (ltb : V -> V -> bool), strict_weak ltb ->
  forall (h : heap V) p (f : Z -> V) first last, first <= last ->
  (forall i, first <= i < last -> rd h p i = Ok (f i)) ->
  if first =? last then max_element ltb h p first last = Ok last
  else exists r, max_element ltb h p first last = Ok r /\ first <= r < last /\
    (forall i, first <= i < last -> ltb (f r) (f i) = false) /\
    (forall i, first <= i < r -> ltb (f i) (f r) = true).
Proof. intros V ltb SW h p f first last. exact (max_element_ok ltb SW h p f first last). Qed.
Print Assumptions C17_max_element.

Definition arr (l : list Z) : heap Z := Heap (fun b => if Nat.eqb b 0 then Some (map Some l) else None) 1 0 0.
Example C17_max_element_case : max_element Z.ltb (arr [4; 9; 2; 9; 1]) (Some 0%nat) 0 5 = Ok 1 /\
  max_element Z.ltb (arr [4; 9; 2; 9; 1]) (Some 0%nat) 2 5 = Ok 3 /\
  max_element Z.ltb (arr [4; 9]) (Some 0%nat) 2 2 = Ok 2 /\
  max_element Z.ltb (arr [4; 9]) (Some 0%nat) 0 3 = UB OutOfBounds.
Proof. vm_compute. auto. Qed.

(** fill: exactly the cells first..last-1 of the array change, to the value. *)
Theorem C17_fill : forall (V : Type) (h : heap V) b a first last v,
  mem h b = Some a -> 0 <= first <= last -> last <= Z.of_nat (length a) ->
  exists h' a', fill h (Some b) first last v = Ok h' /\ mem h' b = Some a' /\
    length a' = length a /\ (forall b', b' <> b -> mem h' b' = mem h b') /\
    (forall i, nth i a' None =
       if (first <=? Z.of_nat i) && (Z.of_nat i <? last) then Some v else nth i a None).
Proof.
  intros V h b a first last v Hm Hr Hl. unfold fill. apply fill_loop_ok; auto.
  unfold extent. rewrite Hm. lia.
Qed.
Print Assumptions C17_fill.

Example C17_fill_case : match fill (arr [4; 9; 2; 9; 1]) (Some 0%nat) 1 4 7 with
  | Ok h => mem h 0%nat = Some [Some 4; Some 7; Some 7; Some 7; Some 1] | _ => False end.
Proof. vm_compute. reflexivity. Qed.

(** C18 *)
Theorem C18_memcpy : forall m dest src num, 0 <= num ->
  (forall i, 0 <= i < num -> m (dest + i) <> None) ->
  (forall i, 0 <= i < num -> m (src + i) <> None) ->
  (dest <= src \/ src + num <= dest) ->
  exists m', memcpy m dest src num = Ok (m', dest) /\
    (forall i, 0 <= i < num -> m' (dest + i) = m (src + i)) /\
    (forall x, ~ (dest <= x < dest + num) -> m' x = m x).
Proof. exact memcpy_ok. Qed.
Print Assumptions C18_memcpy.

(** The remaining case, destination inside the source: the first dest - src
    bytes are replicated, so the copy is not that of the original bytes. *)
Theorem C18_memcpy_forward_overlap : forall m dest src num, 0 <= num ->
  (forall i, 0 <= i < num -> m (dest + i) <> None) ->
  (forall i, 0 <= i < num -> m (src + i) <> None) -> src < dest ->
  exists m', memcpy m dest src num = Ok (m', dest) /\
    (forall i, 0 <= i < num -> m' (dest + i) = m (src + i mod (dest - src))) /\
    (forall x, ~ (dest <= x < dest + num) -> m' x = m x).
Proof. exact memcpy_overlap. Qed.
Print Assumptions C18_memcpy_forward_overlap.

Example C18_case :
  let m := fun x => if (0 <=? x) && (x <? 10) then Some (100 + x) else None in
  match memcpy m 0 3 4, memcpy m 2 0 5, memcpy m 7 0 4 with
  | Ok (m1, d1), Ok (m2, _), r3 =>
      d1 = 0 /\ map m1 [0; 1; 2; 3; 4] = [Some 103; Some 104; Some 105; Some 106; Some 104] /\
      map m2 [1; 2; 3; 4; 5; 6; 7] =
        [Some 101; Some 100; Some 101; Some 100; Some 101; Some 100; Some 107] /\
      r3 = UB OutOfBounds
  | _, _, _ => False end.
Proof. vm_compute. repeat split. Qed.

(** C19 *)
Theorem C19_ratio_lowest_terms : forall n d,
  - 2 ^ 63 < n < 2 ^ 63 -> - 2 ^ 63 < d < 2 ^ 63 -> d <> 0 ->
  exists num den, ratio n d = Some (num, den) /\ 0 < den /\ Z.gcd num den = 1 /\ num * d = n * den /\
    den <= Z.abs d /\ Z.abs num <= Z.abs n.
Proof. exact ratio_ok. Qed.
Print Assumptions C19_ratio_lowest_terms.

(** ratio<num, den>::type is itself (nanoratio.h:92). *)
Theorem C19_ratio_idempotent : forall n d num den,
  - 2 ^ 63 < n < 2 ^ 63 -> - 2 ^ 63 < d < 2 ^ 63 ->
  ratio n d = Some (num, den) -> ratio num den = Some (num, den).
Proof.
  intros n d num den Hn Hd E.
  assert (Hd0 : d <> 0) by (intros ->; discriminate).
  destruct (ratio_ok n d Hn Hd Hd0) as (a & b & E1 & B & G & _ & L1 & L2).
  rewrite E in E1. inversion E1; subst a b.
  destruct (ratio_ok num den ltac:(lia) ltac:(lia) ltac:(lia)) as (a' & b' & E2 & B' & G' & X & _ & _).
  rewrite E2. f_equal.
  assert (D1 : (den | b')).
  { apply Z.gauss with num; [exists a'; lia|rewrite Z.gcd_comm; exact G]. }
  assert (D2 : (b' | den)).
  { apply Z.gauss with a'; [exists num; lia|rewrite Z.gcd_comm; exact G']. }
  assert (b' = den) by (apply Z.divide_antisym_nonneg; auto; lia). subst b'.
  f_equal. nia.
Qed.
Print Assumptions C19_ratio_idempotent.

Theorem C19_lcm : forall a b, 0 < a < 2 ^ 63 -> 0 < b < 2 ^ 63 -> Z.lcm a b < 2 ^ 63 ->
  nanolcm a b = Some (Z.lcm a b).
Proof. exact nanolcm_ok. Qed.
Print Assumptions C19_lcm.

Example C19_case : ratio 6 (-4) = Some (-3, 2) /\ ratio 0 (-7) = Some (0, 1) /\
  ratio 3000 1000000000 = Some (3, 1000000) /\ ratio 5 0 = None /\ nanolcm 12 18 = Some 36 /\
  ratio 12200160415121876738 1 <> ratio 1 1 /\
  ratio 7540113804746346429 4660046610375530309 = Some (7540113804746346429, 4660046610375530309).
Proof. vm_compute. repeat split; discriminate. Qed.

(** C39 *)
Theorem C39_pair_order : forall (A B : Type) aeq alt beq blt,
  @strict_total A aeq alt -> @strict_total B beq blt ->
  strict_total (pair_eq aeq beq) (pair_lt alt blt) /\
  (forall x y, pair_lt alt blt x y = true <->
     alt (fst x) (fst y) = true \/ (fst x = fst y /\ blt (snd x) (snd y) = true)).
Proof.
  intros A B aeq alt beq blt TA TB. split; [exact (pair_total aeq alt beq blt TA TB)|].
  exact (pair_lt_lex aeq alt blt TA).
Qed.
Print Assumptions C39_pair_order.

Example C39_case : strict_total Z.eqb Z.ltb /\
  pair_lt Z.ltb Z.ltb (1, 5) (1, 6) = true /\ pair_lt Z.ltb Z.ltb (2, 0) (1, 6) = false.
Proof.
  split; [|repeat split]. constructor; intros.
  - apply Z.eqb_eq.
  - apply Z.ltb_irrefl.
  - rewrite Z.ltb_lt in *. lia.
  - rewrite !Z.ltb_lt. lia.
Qed.
