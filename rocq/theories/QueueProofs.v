From Coq Require Import ZArith List Bool Lia.
From Verif Require Import QueueModel QueueSpec.
Import ListNotations.
Local Open Scope Z_scope.

Definition fits (x : Z) : Prop := - 2 ^ 31 <= x < 2 ^ 31.

Lemma signed_id w x : 32 <= w -> fits x -> signed w x = x.
Proof.
  intros W F. unfold fits in F. unfold signed.
  assert (B : 2 ^ 31 <= 2 ^ (w - 1)) by (apply Z.pow_le_mono_r; lia).
  assert (D : 2 ^ w = 2 * 2 ^ (w - 1)) by (rewrite <- Z.pow_succ_r by lia; f_equal; lia).
  destruct (Z_le_gt_dec 0 x).
  - rewrite Z.mod_small by lia. destruct (Z.ltb_spec x (2 ^ (w - 1))); lia.
  - rewrite <- (Z.mod_unique_pos x (2 ^ w) (-1) (x + 2 ^ w)) by lia. destruct (Z.ltb_spec (x + 2 ^ w) (2 ^ (w - 1))); lia.
Qed.
Lemma long_id p x : fits x -> long p x = x.
Proof. intros F. destruct p; apply signed_id; auto; lia. Qed.
Lemma to_int_id x : fits x -> to_int x = x.
Proof. apply signed_id. lia. Qed.

Section P.
  Context {V : Type} (p : platform).
  Notation state := (state V).

  Definition slot (s : state) (n : Z) : V := values s (n mod size s).

  (** [q]: the values in the queue; [h]: how many have been taken out. *)
  Definition inv (s : state) (q : list V) (h : Z) : Prop :=
    let n := Z.of_nat (length q) in
    0 < size s < 2 ^ 31 /\ 0 <= h /\ count s = n /\ n <= size s /\
    tail s = h + n + (match pp s with PWrite _ _ | PCount _ => 1 | _ => 0 end) /\
    head s = h + (match cp s with CRead _ | CCount _ => 1 | _ => 0 end) /\
    h + n + Z.of_nat (length (busy s)) + Z.of_nat (length (todo s)) < 2 ^ 31 /\
    (forall i v, nth_error q i = Some v -> slot s (h + Z.of_nat i) = v) /\
    match pp s with
    | PIdle | PRaise => True
    | PWait _ _ => False
    | PInc _ => n < size s
    | PWrite _ t => n < size s /\ t = h + n
    | PCount v => n < size s /\ slot s (h + n) = v
    end /\
    match cp s with
    | CIdle | CRaise _ => True
    | CWait => False
    | CInc => q <> []
    | CRead t => q <> [] /\ t = h
    | CCount v => exists q', q = v :: q'
    end.

  Lemma slot_in h sz : 0 <= h -> 0 < sz -> let i := Z.rem h sz in (0 <=? i) && (i <? sz) = true /\ i = h mod sz.
  Proof.
    intros A B i. subst i. rewrite Z.rem_mod_nonneg by lia. split; [|reflexivity]. pose proof (Z.mod_pos_bound h sz B).
    apply andb_true_iff. split; [apply Z.leb_le|apply Z.ltb_lt]; lia.
  Qed.

  Lemma mod_neq a b m : 0 < m -> a < b < a + m -> a mod m <> b mod m.
  Proof.
    intros M L E. pose proof (Z.div_mod a m ltac:(lia)). pose proof (Z.div_mod b m ltac:(lia)).
    assert (b - a = m * (b / m - a / m)) by lia. assert (b / m - a / m <= 0 \/ 1 <= b / m - a / m) by lia. nia.
  Qed.

  (* the call made at an event, and the next abstract state *)
  Definition next_q (es : list (ev V)) (q : list V) : list V :=
    match es with [EPut v true] => q ++ [v] | [EGet (Some _)] => tl q | _ => q end.
  Definition next_h (es : list (ev V)) (h : Z) : Z := match es with [EGet (Some _)] => h + 1 | _ => h end.

  Ltac ints := repeat match goal with
    | |- context [to_int ?x] => rewrite (to_int_id x) by (unfold fits; lia)
    | |- context [long p ?x] => rewrite (long_id p x) by (unfold fits; lia)
    end.

  Ltac sel := cbn [count head tail values size data_ready space_open pp cp todo want got set_p set_c set_count set_ready set_space set_head set_tail set_value give
    next_q next_h map call_of serve fst snd puts gets flat_map app rev length List.tl] in *.
  Ltac at_ := unfold atomic; cbn [steps fst snd fold_left].
  Ltac fin := rewrite ?app_nil_r; repeat match goal with |- _ /\ _ => split end; try reflexivity; try lia; auto.

  Lemma step_ok w s q h : inv s q h ->
    match step p w s with
    | Next s' => waiting s' = true \/ (inv s' (next_q (event w s) q) (next_h (event w s) h) /\
        fst (serve (Z.to_nat (size s)) q (map call_of (event w s))) = event w s /\ snd (serve (Z.to_nat (size s)) q (map call_of (event w s))) = next_q (event w s) q /\
        puts (event w s) ++ busy s' ++ map fst (todo s') = busy s ++ map fst (todo s) /\
        rev (got s') ++ due s' = rev (got s) ++ due s ++ gets (event w s) /\ size s' = size s)
    | Stuck => event w s = []
    | OutOfBounds => False
    end.
  Proof.
    destruct s as [cnt hd tl vals sz rdy spc P C td wt gt]. unfold inv, slot, waiting, busy, due. sel. intros (Sz & Hh & Cn & Len & Tl & Hd & Bd & Vals & Pp & Cp).
    assert (F1 : (length q < Z.to_nat sz)%nat <-> Z.of_nat (length q) < sz) by lia.
    destruct w as [timed|]; cbn [step].
    - unfold produce_step, event. destruct P as [|v t|v|v t|v|]; sel.
      + destruct td as [|[v t] rest]; [reflexivity|]. sel. at_. ints. destruct (Z.eqb_spec cnt sz) as [E|E].
        * destruct t; sel; [right|left; reflexivity|left; reflexivity].
          destruct (Nat.ltb_spec (length q) (Z.to_nat sz)); [lia|]. fin.
        * assert (EE : match t with TZero => [] | _ => @nil (ev V) end = []) by (destruct t; reflexivity). rewrite EE. sel. right. fin.
      + contradiction.
      + at_. rewrite Tl. ints. sel. right. fin.
      + destruct Pp as [L ->]. destruct (slot_in (h + Z.of_nat (length q)) sz ltac:(lia) ltac:(lia)) as [B B']. rewrite B, B'. sel. right. fin.
        * intros i x H. assert (i < length q)%nat by (apply nth_error_Some; congruence).
          destruct (Z.eqb_spec ((h + Z.of_nat i) mod sz) ((h + Z.of_nat (length q)) mod sz)) as [E|E]; [|now apply Vals]. exfalso. revert E. apply mod_neq; lia.
        * now rewrite Z.eqb_refl.
      + destruct Pp as [L Sl]. at_. ints.
        assert (Cp' : match C with CInc => q ++ [v] <> [] | CRead t => q ++ [v] <> [] /\ t = h | CCount v0 => exists q', q ++ [v] = v0 :: q' | CWait => False | _ => True end).
        { destruct C; auto; [now destruct q|destruct Cp; split; [now destruct q|assumption]|destruct Cp as (q' & ->); now exists (q' ++ [v])]. }
        assert (Vals' : forall i x, nth_error (q ++ [v]) i = Some x -> vals ((h + Z.of_nat i) mod sz) = x).
        { intros i x Hx. destruct (Nat.lt_ge_cases i (length q)) as [Li|Li].
          - rewrite nth_error_app1 in Hx by lia. now apply Vals.
          - rewrite nth_error_app2 in Hx by lia. destruct (i - length q)%nat as [|m] eqn:Ei; [|destruct m; discriminate Hx]. cbn in Hx. injection Hx as <-. replace i with (length q) by lia. exact Sl. }
        right. sel. destruct (Nat.ltb_spec (length q) (Z.to_nat sz)); [|lia]. sel. destruct (Z.eqb_spec cnt 0); sel; fin; rewrite app_length; sel; lia.
      + right. sel. fin.
    - unfold consume_step, event. destruct C as [| | |t|v|v]; sel.
      + destruct wt as [|t rest]; [reflexivity|]. sel. at_. ints. destruct (Z.eqb_spec cnt 0) as [E|E].
        * assert (q = []) as -> by (destruct q; [reflexivity|cbn [length] in Cn; lia]).
          destruct t; sel; [right|left; destruct P; reflexivity|left; destruct P; reflexivity]. fin.
        * assert (EE : match t with TZero => [] | _ => @nil (ev V) end = []) by (destruct t; reflexivity). rewrite EE. sel. right. fin. intros ->. cbn [length] in Cn. lia.
      + contradiction.
      + assert (0 < length q)%nat by (destruct q; [congruence|cbn [length]; lia]). at_. rewrite Hd. ints. sel. right. fin.
      + destruct Cp as [NE ->]. destruct (slot_in h sz ltac:(lia) ltac:(lia)) as [B B']. rewrite B, B'. sel. right. fin.
        destruct q as [|x q']; [congruence|]. exists q'. f_equal. symmetry. replace h with (h + Z.of_nat 0) by lia. now apply Vals.
      + destruct Cp as (q' & ->). at_. ints. cbn [length] in *. rewrite Nat2Z.inj_succ in *.
        assert (Vals' : forall i x, nth_error q' i = Some x -> vals ((h + 1 + Z.of_nat i) mod sz) = x).
        { intros i x H. replace (h + 1 + Z.of_nat i) with (h + Z.of_nat (S i)) by lia. now apply Vals. }
        assert (Pp' : match P with PIdle | PRaise => True | PWait _ _ => False | PInc _ => Z.of_nat (length q') < sz | PWrite _ t => Z.of_nat (length q') < sz /\ t = h + 1 + Z.of_nat (length q')
                      | PCount v => Z.of_nat (length q') < sz /\ vals ((h + 1 + Z.of_nat (length q')) mod sz) = v end).
        { destruct P; auto; try lia. replace (h + 1 + Z.of_nat (length q')) with (h + Z.succ (Z.of_nat (length q'))) by lia. split; [lia|apply Pp]. }
        destruct (cnt =? sz); sel; right; fin.
      + right. sel. fin.
  Qed.
End P.
