(** C58, continued: executions in which calls wait, provided that no signal is stale. *)
From Coq Require Import ZArith List Bool Lia.
From Verif Require Import QueueModel QueueSpec QueueProofs QueueProps.
Import ListNotations.
Local Open Scope Z_scope.

Section Wait.
  Context {V : Type} (p : platform).
  Notation state := (state V).

  (** A call that has to wait finds its signal down and not about to be raised by a call of the
      other thread that is already past its effect; no wait times out. *)
  Definition prompt (w : who) (s : state) : Prop :=
    match w with
    | Producer timed => match pp s with
        | PIdle => match todo s with (_, t) :: _ => count s = size s -> t <> TZero -> space_open s = false /\ forall v, cp s <> CRaise v | [] => True end
        | PWait _ TFinite => timed = true -> space_open s = true
        | _ => True
        end
    | Consumer => match cp s with
        | CIdle => match want s with t :: _ => count s = 0 -> t <> TZero -> data_ready s = false /\ pp s <> PRaise | [] => True end
        | _ => True
        end
    end.
  Fixpoint polite (ws : list who) (s : state) : Prop :=
    match ws with
    | [] => True
    | w :: ws' => prompt w s /\ match step p w s with Next s' => polite ws' s' | Stuck => polite ws' s | OutOfBounds => True end
    end.

  (** [inv] with waiting threads. *)
  Definition winv (s : state) (q : list V) (h : Z) : Prop :=
    let n := Z.of_nat (length q) in
    0 < size s < 2 ^ 31 /\ 0 <= h /\ count s = n /\ n <= size s /\
    tail s = h + n + (match pp s with PWrite _ _ | PCount _ => 1 | _ => 0 end) /\
    head s = h + (match cp s with CRead _ | CCount _ => 1 | _ => 0 end) /\
    h + n + Z.of_nat (length (busy s)) + Z.of_nat (length (todo s)) < 2 ^ 31 /\
    (forall i v, nth_error q i = Some v -> slot s (h + Z.of_nat i) = v) /\
    match pp s with
    | PIdle | PRaise => True
    | PWait _ t => t <> TZero /\ ((n < size s /\ (space_open s = true \/ exists v, cp s = CRaise v)) \/ (n = size s /\ space_open s = false /\ forall v, cp s <> CRaise v))
    | PInc _ => n < size s
    | PWrite _ t => n < size s /\ t = h + n
    | PCount v => n < size s /\ slot s (h + n) = v
    end /\
    match cp s with
    | CIdle | CRaise _ => True
    | CWait => (q <> [] /\ (data_ready s = true \/ pp s = PRaise)) \/ (q = [] /\ data_ready s = false /\ pp s <> PRaise)
    | CInc => q <> []
    | CRead t => q <> [] /\ t = h
    | CCount v => exists q', q = v :: q'
    end.

  Ltac ints := repeat match goal with
    | |- context [to_int ?x] => rewrite (to_int_id x) by (unfold fits; lia)
    | |- context [long p ?x] => rewrite (long_id p x) by (unfold fits; lia)
    end.
  Ltac sel := cbn [count head tail values size data_ready space_open pp cp todo want got set_p set_c set_count set_ready set_space set_head set_tail set_value give
    next_q next_h map call_of serve fst snd puts gets flat_map app rev length List.tl] in *.
  Ltac at_ := unfold atomic; cbn [steps fst snd fold_left].
  Ltac fin := rewrite ?app_nil_r; repeat match goal with |- _ /\ _ => split end; try reflexivity; try lia; auto.

  Lemma wstep_ok w s q h : winv s q h -> prompt w s ->
    match step p w s with
    | Next s' => winv s' (next_q (event w s) q) (next_h (event w s) h) /\
        fst (serve (Z.to_nat (size s)) q (map call_of (event w s))) = event w s /\ snd (serve (Z.to_nat (size s)) q (map call_of (event w s))) = next_q (event w s) q /\
        puts (event w s) ++ busy s' ++ map fst (todo s') = busy s ++ map fst (todo s) /\
        rev (got s') ++ due s' = rev (got s) ++ due s ++ gets (event w s) /\ size s' = size s
    | Stuck => event w s = []
    | OutOfBounds => False
    end.
  Proof.
    destruct s as [cnt hd tl vals sz rdy spc P C td wt gt]. unfold winv, slot, prompt, busy, due. sel. intros (Sz & Hh & Cn & Len & Tl & Hd & Bd & Vals & Pp & Cp) Pr.
    assert (F1 : (length q < Z.to_nat sz)%nat <-> Z.of_nat (length q) < sz) by lia.
    destruct w as [timed|]; cbn [step].
    - unfold produce_step, event. destruct P as [|v t|v|v t|v|]; sel.
      + destruct td as [|[v t] rest]; [reflexivity|]. sel. at_. ints.
        assert (Cp' : match C with CIdle | CRaise _ => True | CWait => forall P', P' <> PRaise -> (q <> [] /\ (rdy = true \/ P' = PRaise)) \/ (q = [] /\ rdy = false /\ P' <> @PRaise V)
                      | CInc => q <> [] | CRead t => q <> [] /\ t = h | CCount v => exists q', q = v :: q' end).
        { destruct C; auto. intros P' N. destruct Cp as [[A [B|B]]|(A & B & _)]; [auto|discriminate|auto]. }
        destruct (Z.eqb_spec cnt sz) as [E|E].
        * destruct t; sel.
          -- destruct (Nat.ltb_spec (length q) (Z.to_nat sz)); [lia|]. fin. 
          -- destruct (Pr E ltac:(discriminate)) as [S1 S2]. fin; [discriminate|right; auto with zarith|destruct C; auto; apply Cp'; discriminate].
          -- destruct (Pr E ltac:(discriminate)) as [S1 S2]. fin; [discriminate|right; auto with zarith|destruct C; auto; apply Cp'; discriminate].
        * assert (EE : match t with TZero => [] | _ => @nil (ev V) end = []) by (destruct t; reflexivity). rewrite EE. sel. fin. destruct C; auto; apply Cp'; discriminate.
      + assert (Cp' : match C with CWait => forall P', P' <> PRaise -> (q <> [] /\ (rdy = true \/ P' = PRaise)) \/ (q = [] /\ rdy = false /\ P' <> @PRaise V) | _ => True end).
        { destruct C; auto. intros P' N. destruct Cp as [[A [B|B]]|(A & B & _)]; [auto|discriminate|auto]. }
        destruct Pp as [Nt Pp]. destruct spc eqn:Es.
        * destruct Pp as [[L _]|(_ & [=] & _)]. sel. fin. destruct C; auto; apply Cp'; discriminate.
        * destruct timed; [|reflexivity]. destruct t; first [contradiction|reflexivity|discriminate (Pr eq_refl)].
      + at_. rewrite Tl. ints. sel. fin. destruct C; auto. destruct Cp as [[A [B|B]]|(A & B & _)]; [auto|discriminate|right; repeat split; auto; discriminate].
      + destruct Pp as [L ->]. destruct (slot_in (h + Z.of_nat (length q)) sz ltac:(lia) ltac:(lia)) as [B B']. rewrite B, B'. sel. fin.
        * intros i x H. assert (i < length q)%nat by (apply nth_error_Some; congruence).
          destruct (Z.eqb_spec ((h + Z.of_nat i) mod sz) ((h + Z.of_nat (length q)) mod sz)) as [E|E]; [|now apply Vals]. exfalso. revert E. apply mod_neq; lia.
        * now rewrite Z.eqb_refl.
        * destruct C; auto. destruct Cp as [[A [D|D]]|(A & D & _)]; [auto|discriminate|right; repeat split; auto; discriminate].
      + destruct Pp as [L Sl]. at_. ints.
        assert (Cp' : match C with CInc => q ++ [v] <> [] | CRead t => q ++ [v] <> [] /\ t = h | CCount v0 => exists q', q ++ [v] = v0 :: q'
                      | CWait => forall P', (cnt = 0 -> P' = @PRaise V) -> (q ++ [v] <> [] /\ (rdy = true \/ P' = PRaise)) \/ (q ++ [v] = [] /\ rdy = false /\ P' <> PRaise) | _ => True end).
        { destruct C; auto; [|now destruct q|destruct Cp; split; [now destruct q|assumption]|destruct Cp as (q' & ->); now exists (q' ++ [v])].
          intros P' HP. left. split; [now destruct q|]. destruct Cp as [[A [B|B]]|(A & B & _)]; [auto|discriminate|]. right. apply HP. rewrite A in Cn. exact Cn. }
        assert (Vals' : forall i x, nth_error (q ++ [v]) i = Some x -> vals ((h + Z.of_nat i) mod sz) = x).
        { intros i x Hx. destruct (Nat.lt_ge_cases i (length q)) as [Li|Li].
          - rewrite nth_error_app1 in Hx by lia. now apply Vals.
          - rewrite nth_error_app2 in Hx by lia. destruct (i - length q)%nat as [|m] eqn:Ei; [|destruct m; discriminate Hx]. cbn in Hx. injection Hx as <-. replace i with (length q) by lia. exact Sl. }
        sel. destruct (Nat.ltb_spec (length q) (Z.to_nat sz)); [|lia]. sel. destruct (Z.eqb_spec cnt 0); sel; fin; rewrite ?app_length; sel; try lia;
          (destruct C; auto; apply Cp'; intros; first [reflexivity|contradiction]).
      + sel. fin. destruct C; auto. destruct Cp as [[A B]|(A & B & D)]; [auto|contradiction].
    - unfold consume_step, event. destruct C as [| | |t|v|v]; sel.
      + destruct wt as [|t rest]; [reflexivity|]. sel. at_. ints.
        assert (Pp' : match P with PWait _ t => forall C', (forall v, C' <> @CRaise V v) -> t <> TZero /\ ((Z.of_nat (length q) < sz /\ (spc = true \/ exists v, C' = CRaise v)) \/ (Z.of_nat (length q) = sz /\ spc = false /\ forall v, C' <> CRaise v)) | _ => True end).
        { destruct P; auto. intros C' N. destruct Pp as [Nt [[A [B|(x & B)]]|(A & B & _)]]; [auto|discriminate|auto]. }
        destruct (Z.eqb_spec cnt 0) as [E|E].
        * assert (q = []) as -> by (destruct q; [reflexivity|cbn [length] in Cn; lia]).
          destruct t; sel.
          -- fin.
          -- destruct (Pr E ltac:(discriminate)) as [S1 S2]. fin; first [right; now auto|destruct P; auto; apply Pp'; discriminate].
          -- destruct (Pr E ltac:(discriminate)) as [S1 S2]. fin; first [right; now auto|destruct P; auto; apply Pp'; discriminate].
        * assert (EE : match t with TZero => [] | _ => @nil (ev V) end = []) by (destruct t; reflexivity). rewrite EE. sel. fin; [destruct P; auto; apply Pp'; discriminate|]. intros ->. cbn [length] in Cn. lia.
      + destruct rdy; [|reflexivity]. destruct Cp as [[A _]|(_ & [=] & _)]. sel. fin. destruct P; auto. destruct Pp as [Nt [[B [D|(x & D)]]|(B & D & _)]]; [auto|discriminate|split; [exact Nt|right; repeat split; auto; discriminate]].
      + assert (0 < length q)%nat by (destruct q; [congruence|cbn [length]; lia]). at_. rewrite Hd. ints. sel. fin.
        destruct P; auto. destruct Pp as [Nt [[B [D|(x & D)]]|(B & D & _)]]; [auto|discriminate|split; [exact Nt|right; repeat split; auto; discriminate]].
      + destruct Cp as [NE ->]. destruct (slot_in h sz ltac:(lia) ltac:(lia)) as [B B']. rewrite B, B'. sel. fin.
        * destruct P; auto. destruct Pp as [Nt [[A [D|(x & D)]]|(A & D & _)]]; [auto|discriminate|split; [exact Nt|right; repeat split; auto; discriminate]].
        * destruct q as [|x q']; [congruence|]. exists q'. f_equal. symmetry. replace h with (h + Z.of_nat 0) by lia. now apply Vals.
      + destruct Cp as (q' & ->). at_. ints. cbn [length] in *. rewrite Nat2Z.inj_succ in *.
        assert (Vals' : forall i x, nth_error q' i = Some x -> vals ((h + 1 + Z.of_nat i) mod sz) = x).
        { intros i x H. replace (h + 1 + Z.of_nat i) with (h + Z.of_nat (S i)) by lia. now apply Vals. }
        assert (Pp' : match P with PIdle | PRaise => True
                      | PWait _ t => forall C', (cnt = sz -> exists v, C' = @CRaise V v) -> t <> TZero /\ ((Z.of_nat (length q') < sz /\ (spc = true \/ exists v, C' = CRaise v)) \/ (Z.of_nat (length q') = sz /\ spc = false /\ forall v, C' <> CRaise v))
                      | PInc _ => Z.of_nat (length q') < sz | PWrite _ t => Z.of_nat (length q') < sz /\ t = h + 1 + Z.of_nat (length q')
                      | PCount v => Z.of_nat (length q') < sz /\ vals ((h + 1 + Z.of_nat (length q')) mod sz) = v end).
        { destruct P; auto; try lia.
          - intros C' HC. destruct Pp as [Nt [[A [D|(x & D)]]|(A & D & _)]]; [split; [exact Nt|left; split; [lia|auto]]|discriminate|split; [exact Nt|left; split; [lia|right; apply HC; lia]]].
          - replace (h + 1 + Z.of_nat (length q')) with (h + Z.succ (Z.of_nat (length q'))) by lia. split; [lia|apply Pp]. }
        destruct (Z.eqb_spec cnt sz); sel; fin; (destruct P; auto; apply Pp'; intros; first [eexists; reflexivity|contradiction]).
      + sel. fin. destruct P; auto. destruct Pp as [Nt [[A D]|(A & D & N)]]; [auto|destruct (N v eq_refl)].
  Qed.

  Lemma wrun_ok ws : forall (s : state) q h, winv s q h -> polite ws s ->
    match run p ws s with
    | Next s' => exists q' h', winv s' q' h' /\ size s' = size s /\ serve (Z.to_nat (size s)) q (map call_of (events p ws s)) = (events p ws s, q') /\
        puts (events p ws s) ++ busy s' ++ map fst (todo s') = busy s ++ map fst (todo s) /\
        rev (got s') ++ due s' = rev (got s) ++ due s ++ gets (events p ws s)
    | _ => False
    end.
  Proof.
    induction ws as [|w ws IH]; intros s q h I C; cbn [run events].
    - exists q, h. cbn. rewrite ?app_nil_r. auto 6.
    - destruct C as [Wt C]. pose proof (wstep_ok w s q h I Wt) as G. destruct (step p w s) as [s1| |] eqn:E; [| |contradiction].
      + destruct G as (I1 & S1 & S2 & P1 & G1 & Z1).
        specialize (IH s1 _ _ I1 C). destruct (run p ws s1) as [s'| |]; try contradiction.
        destruct IH as (q' & h' & I' & Z' & S' & P' & G'). exists q', h'. split; [exact I'|]. split; [congruence|]. rewrite Z1 in S'. split; [|split].
        * rewrite map_app, serve_app, S1, S2, S'. reflexivity.
        * unfold puts in *. rewrite flat_map_app, <- app_assoc, P'. exact P1.
        * unfold gets in *. rewrite flat_map_app, G', app_assoc, G1, <- !app_assoc. reflexivity.
      + specialize (IH s q h I C). destruct (run p ws s) as [s'| |]; try contradiction. rewrite G. exact IH.
  Qed.

  Lemma inv_winv s q h : inv s q h -> winv s q h.
  Proof.
    unfold inv, winv. intros (A1 & A2 & A3 & A4 & A5 & A6 & A7 & A8 & A9 & A10). repeat (split; [assumption|]). split; [destruct (pp s); auto; contradiction|destruct (cp s); auto; contradiction].
  Qed.
End Wait.

(** As C58_fifo_partial, for executions in which calls wait, as long as each wait finds its signal
    down and none times out.  (Missing: waits with a stale signal and waits that time out, for
    which this is false, see C58_consume_empty_refuted and the following.) *)
Theorem C58_waiting_partial : forall (V : Type) p size (values : Z -> V) count todo want ws,
  0 < size < 2 ^ 31 -> starts p size count -> size + Z.of_nat (length todo) < 2 ^ 31 ->
  let s0 := start p size values count todo want in
  polite p ws s0 ->
  match run p ws s0 with
  | Next s =>
      let es := events p ws s0 in
      exists q, serve (Z.to_nat size) (front values (Z.to_nat (Z.min count size))) (map call_of es) = (es, q) /\
        queue_count p s = Z.of_nat (length q) /\
        puts es ++ busy s ++ map fst (QueueModel.todo s) = map fst todo /\
        rev (got s) ++ due s = gets es /\
        (* a waiting thread for which there is work has been woken up or is about to be *)
        (cp s = CWait -> q <> [] -> data_ready s = true \/ pp s = PRaise) /\
        (forall v t, pp s = PWait v t -> Z.of_nat (length q) < size -> space_open s = true \/ exists x, cp s = CRaise x) /\
        (* the threads never use one slot at once *)
        (forall v t h, pp s = PWrite v t -> cp s = CRead h -> Z.rem t size <> Z.rem h size)
  | _ => False
  end.
Proof.
  intros V p size values count todo want ws S C B s0 A. pose proof (wrun_ok p ws s0 _ 0 (inv_winv _ _ _ (inv_start p size values count todo want S C B)) A) as R.
  destruct (run p ws s0) as [s| |]; try contradiction. destruct R as (q & h & I & Z & Sv & P & G). exists q. split; [exact Sv|].
  destruct I as (I1 & I2 & I3 & I4 & I5 & I6 & I7 & I8 & I9 & I10). cbn [QueueModel.size start s0] in Z. split; [|split; [exact P|split; [exact G|split; [|split]]]].
  - unfold queue_count, atomic. cbn [steps fold_left snd]. rewrite I3. apply to_int_id. unfold fits. lia.
  - intros W N. rewrite W in I10. destruct I10 as [[_ H]|[H _]]; [exact H|contradiction].
  - intros v t W L. rewrite W in I9. destruct I9 as [_ [[_ H]|[H _]]]; [exact H|lia].
  - intros v t h' W W'. rewrite W in I9. rewrite W' in I10. destruct I9 as [L ->], I10 as [N ->]. rewrite Z in *. assert (0 < length q)%nat by (destruct q; [congruence|cbn; lia]).
    rewrite !Z.rem_mod_nonneg by lia. apply not_eq_sym. apply mod_neq; lia.
Qed.
Print Assumptions C58_waiting_partial.

(** Hand-over: the consumer waits on the empty queue, however long ([k] looks at the signal), the
    producer produces one value, the consumer gets it; any number of times.  Both calls block. *)
Section Rendezvous.
  Context {V : Type} (p : platform).
  Definition handover (k : nat) : list who := Consumer :: repeat Consumer k ++ repeat (Producer false) 5 ++ repeat Consumer 4.
  Definition resting (n k : Z) (td : list (V * timeout)) (wt : list timeout) (g : list (option V)) (s : state V) : Prop :=
    count s = 0 /\ head s = k /\ tail s = k /\ size s = n /\ pp s = PIdle /\ cp s = CIdle /\ data_ready s = false /\ todo s = td /\ want s = wt /\ got s = g.

  Lemma vnext w ws (s s1 : state V) : step p w s = Next s1 -> run p (w :: ws) s = run p ws s1.
  Proof. intros E. cbn [run]. now rewrite E. Qed.
  Lemma vrun_app a : forall b (s s' : state V), run p a s = Next s' -> run p (a ++ b) s = run p b s'.
  Proof. induction a as [|w a IH]; intros b s s' H; cbn [app run] in *; [congruence|]. destruct (step p w s); [now apply IH|now apply IH|discriminate]. Qed.
  Ltac flds := cbn [give set_p set_c set_tail set_head set_value set_count set_ready set_space count head tail values size data_ready space_open pp cp todo want got].
  Ltac go := cbn [step]; unfold produce_step, consume_step; flds; unfold atomic; cbn [steps snd fst fold_left];
    repeat match goal with
    | |- context [to_int ?x] => rewrite (to_int_id x) by (unfold fits; lia)
    | |- context [long p ?x] => rewrite (long_id p x) by (unfold fits; lia)
    | R : ?b = true |- context [?b] => rewrite R
    | R : ?b = false |- context [?b] => rewrite R
    | |- context [0 =? 0] => change (0 =? 0) with true; cbv iota
    end; flds; reflexivity.

  Lemma handover_ok n k j v td wt g s : 1 < n < 2 ^ 31 -> 0 <= k < 2 ^ 31 - 1 -> resting n k ((v, TInfinite) :: td) (TInfinite :: wt) g s ->
    exists s', run p (handover j) s = Next s' /\ resting n (k + 1) td wt (Some v :: g) s'.
  Proof.
    intros N K. destruct s as [cnt hd tl vals sz rdy spc P C td' wt' gt]. unfold resting. cbn [count head tail size pp cp todo want got data_ready]. intros (-> & -> & -> & -> & -> & -> & -> & -> & -> & ->).
    assert (R : (0 <=? Z.rem k n) && (Z.rem k n <? n) = true). { rewrite Z.rem_mod_nonneg by lia. pose proof (Z.mod_pos_bound k n ltac:(lia)). apply andb_true_iff. split; [apply Z.leb_le|apply Z.ltb_lt]; lia. }
    assert (R1 : (0 =? n) = false) by (apply Z.eqb_neq; lia). assert (R2 : (0 + 1 =? n) = false) by (apply Z.eqb_neq; lia). assert (R3 : (Z.rem k n =? Z.rem k n) = true) by apply Z.eqb_refl.
    unfold handover. erewrite vnext by go.
    match goal with |- exists s', run p (repeat Consumer j ++ _) ?s1 = _ /\ _ => assert (W : run p (repeat Consumer j) s1 = Next s1) by (clear; induction j as [|j IH]; [reflexivity|exact IH]) end.
    rewrite (vrun_app _ _ _ _ W). cbn [repeat app]. do 9 (erewrite vnext by go). cbn [run].
    eexists. split; [reflexivity|]. flds. rewrite ?R3. repeat split.
  Qed.
  Lemma handovers n js : forall k vs g s, 1 < n < 2 ^ 31 -> 0 <= k -> k + Z.of_nat (length vs) < 2 ^ 31 -> length js = length vs ->
    resting n k (map (fun v => (v, TInfinite)) vs) (map (fun _ => TInfinite) vs) g s ->
    exists s', run p (concat (map handover js)) s = Next s' /\ resting n (k + Z.of_nat (length vs)) [] [] (rev (map Some vs) ++ g) s'.
  Proof.
    induction js as [|j js IH]; intros k [|v vs] g s N K L E R; try discriminate E.
    - exists s. split; [reflexivity|]. cbn in *. now rewrite Z.add_0_r.
    - cbn [map length] in *. destruct (handover_ok n k j v _ _ g s N ltac:(lia) R) as (s1 & R1 & A1). destruct (IH (k + 1) vs (Some v :: g) s1 N ltac:(lia) ltac:(lia) ltac:(lia) A1) as (s' & R' & A').
      exists s'. cbn [concat]. rewrite (vrun_app _ _ _ _ R1). split; [exact R'|]. replace (k + Z.of_nat (S (length vs))) with (k + 1 + Z.of_nat (length vs)) by lia.
      cbn [rev]. rewrite <- app_assoc. exact A'.
  Qed.
End Rendezvous.
(** (Missing: other schedules, see C58_waiting_partial and the refutations.) *)
Theorem C58_handover_partial : forall (V : Type) p size (values : Z -> V) (vs : list V) (js : list nat),
  1 < size < 2 ^ 31 -> Z.of_nat (length vs) < 2 ^ 31 -> length js = length vs ->
  match run p (concat (map handover js)) (start p size values 0 (map (fun v => (v, TInfinite)) vs) (map (fun _ => TInfinite) vs)) with
  | Next s => rev (got s) = map Some vs /\ queue_count p s = 0 /\ cp s = CIdle /\ pp s = PIdle
  | _ => False
  end.
Proof.
  intros V p size values vs js N L E. set (s0 := start p size values 0 _ _).
  destruct (handovers p size js 0 vs [] s0 N ltac:(lia) ltac:(lia) E) as (s & -> & R).
  { unfold s0, resting, start. cbn [count head tail QueueModel.size pp cp data_ready todo want got].
    assert (Z : (0 >? size) = false) by (rewrite Z.gtb_ltb; apply Z.ltb_ge; lia). rewrite Z. repeat split; unfold atomic; destruct p; reflexivity. }
  destruct R as (R1 & R2 & R3 & R4 & R5 & R6 & R7 & R8 & R9 & R10). rewrite R10, app_nil_r, rev_involutive. split; [reflexivity|]. split; [|auto].
  unfold queue_count, atomic. cbn [steps fold_left snd]. now rewrite R1.
Qed.
Print Assumptions C58_handover_partial.

(** A concrete execution in which both sides wait: the queue of size 1 is empty, then full. *)
Definition promptb (w : who) (s : state Z) : bool :=
  match w with
  | Producer timed => match pp s with
      | PIdle => match todo s with (_, t) :: _ => negb (count s =? size s) || match t with TZero => true | _ => negb (space_open s) && match cp s with CRaise _ => false | _ => true end end | [] => true end
      | PWait _ TFinite => negb timed || space_open s
      | _ => true
      end
  | Consumer => match cp s with
      | CIdle => match want s with t :: _ => negb (count s =? 0) || match t with TZero => true | _ => negb (data_ready s) && match pp s with PRaise => false | _ => true end end | [] => true end
      | _ => true
      end
  end.
Fixpoint politeb (ws : list who) (s : state Z) : bool :=
  match ws with
  | [] => true
  | w :: ws' => promptb w s && match step Gcc w s with Next s' => politeb ws' s' | Stuck => politeb ws' s | OutOfBounds => true end
  end.
Lemma politeb_ok ws : forall s, politeb ws s = true -> polite Gcc ws s.
Proof.
  induction ws as [|w ws IH]; intros s H; cbn [polite politeb] in *; [exact I|]. apply andb_true_iff in H as [A B]. split; [|destruct (step Gcc w s); auto].
  destruct w as [timed|]; unfold promptb, prompt in *.
  - destruct (pp s) as [|v t| | | |]; auto.
    + destruct (todo s) as [|[v t] td]; auto. intros E N. rewrite E, Z.eqb_refl in A. cbn in A. destruct t; [contradiction| |];
        apply andb_true_iff in A as [A1 A2]; (split; [now destruct (space_open s)|]); intros x X; rewrite X in A2; discriminate.
    + destruct t; auto. intros ->. exact A.
  - destruct (cp s); auto. destruct (want s) as [|t wt]; auto. intros E N. rewrite E in A. cbn in A. destruct t; [contradiction| |];
      apply andb_true_iff in A as [A1 A2]; (split; [now destruct (data_ready s)|]); intros X; rewrite X in A2; discriminate.
Qed.
Example C58_waiting_case :
  let s0 := start Gcc 1 (fun i => 0) 0 [(1, TInfinite); (2, TInfinite); (3, TInfinite)] [TInfinite; TInfinite] in
  let ws := repeat Consumer 2 ++ repeat (Producer false) 5 ++ [Consumer] ++ repeat (Producer false) 2 ++ repeat Consumer 4 ++ repeat (Producer false) 3 in
  polite Gcc ws s0 /\ match run Gcc ws s0 with Next s => got s = [Some 1] /\ events Gcc ws s0 = [EPut 1 true; EGet (Some 1)] /\ pp s = PCount 2 | _ => False end.
Proof. cbn zeta. split; [apply politeb_ok; vm_compute; reflexivity|vm_compute; auto]. Qed.
