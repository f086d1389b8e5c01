(** The digit-removal loops of f2d / d2d (step 4), independently of how step 3 computed its numbers:
    they stop at the largest power of ten having a multiple among the candidates and pick the
    multiple closest to the exact value. *)
From Coq Require Import ZArith List Bool Lia.
From Verif Require Import Mem RyuModel RyuArith.
Import ListNotations.
Open Scope Z_scope.

Lemma pow10_pos r : 0 <= r -> 0 < 10 ^ r.
Proof. intro H. apply Z.pow_pos_nonneg; lia. Qed.
Lemma pow10_S r : 0 <= r -> 10 ^ (r + 1) = 10 * 10 ^ r.
Proof. intro H. rewrite Z.pow_add_r by lia. change (10 ^ 1) with 10. ring. Qed.
Lemma div10_S x r : 0 <= r -> x / 10 ^ r / 10 = x / 10 ^ (r + 1).
Proof. intro H. rewrite Z.div_div by (try apply pow10_pos; lia). rewrite pow10_S by exact H. f_equal. ring. Qed.
Lemma mod10_S x r : 0 <= r -> (x mod 10 ^ (r + 1) =? 0) = (x mod 10 ^ r =? 0) && ((x / 10 ^ r) mod 10 =? 0).
Proof.
  intro H. pose proof (pow10_pos r H) as P. rewrite pow10_S by exact H.
  rewrite (Z.mul_comm 10 (10 ^ r)), Z.rem_mul_r by lia.
  pose proof (Z.mod_pos_bound x (10 ^ r) P). pose proof (Z.mod_pos_bound (x / 10 ^ r) 10 ltac:(lia)).
  destruct (Z.eqb_spec (x mod 10 ^ r) 0) as [E1|E1], (Z.eqb_spec ((x / 10 ^ r) mod 10) 0) as [E2|E2]; cbn;
    apply Z.eqb_eq || apply Z.eqb_neq; nia.
Qed.

(** ** States reached by removing r digits *)
Definition at_level (s0 : loopst) (r : Z) (s : loopst) : Prop :=
  lr s = lr s0 / 10 ^ r /\ lp s = lp s0 / 10 ^ r /\ lm s = lm s0 / 10 ^ r /\ lremoved s = lremoved s0 + r /\
  lmZ s = lmZ s0 && (lm s0 mod 10 ^ r =? 0) /\
  (r = 0 -> llast s = llast s0 /\ lrZ s = lrZ s0) /\
  (1 <= r -> llast s = (lr s0 / 10 ^ (r - 1)) mod 10 /\
             lrZ s = lrZ s0 && ((llast s0 =? 0) && (lr s0 mod 10 ^ (r - 1) =? 0))).

Definition lstep (s : loopst) : loopst :=
  Loop (lr s / 10) (lp s / 10) (lm s / 10) (lmZ s && (lm s mod 10 =? 0)) (lrZ s && (llast s =? 0))
       (lr s mod 10) (lremoved s + 1).

Lemma at_zero s : at_level s 0 s.
Proof.
  unfold at_level. change (10 ^ 0) with 1. rewrite !Z.div_1_r, Z.mod_1_r, andb_true_r. repeat split; lia.
Qed.
Lemma at_lstep s0 r s : 0 <= r -> at_level s0 r s -> at_level s0 (r + 1) (lstep s).
Proof.
  intros Hr (A & B & C & D & E & F & G). unfold at_level, lstep. cbn [lr lp lm lmZ lrZ llast lremoved].
  rewrite A, B, C, D, E, !div10_S by exact Hr. split; [reflexivity|]. split; [reflexivity|]. split; [reflexivity|].
  split; [lia|]. split; [rewrite mod10_S by exact Hr; now rewrite andb_assoc|]. split; [lia|]. intros _.
  replace (r + 1 - 1) with r by lia. split; [reflexivity|].
  destruct (Z.eq_dec r 0) as [->|N].
  - destruct (F eq_refl) as [-> ->]. change (10 ^ 0) with 1. rewrite Z.mod_1_r. cbn. now rewrite andb_true_r.
  - destruct (G ltac:(lia)) as [-> ->]. replace r with (r - 1 + 1) at 3 by lia. rewrite mod10_S by lia. now rewrite !andb_assoc.
Qed.

(** ** The float loops *)
Lemma loop1_ok fuel s0 r s : 0 <= r -> at_level s0 r s -> 0 <= lm s -> lp s < 10 ^ Z.of_nat fuel -> (fuel <> O) ->
  exists r' s', r <= r' /\ f2d_loop1 fuel s = Ok s' /\ at_level s0 r' s' /\
    (r < r' -> lm s0 / 10 ^ r' < lp s0 / 10 ^ r') /\ lp s0 / 10 ^ (r' + 1) <= lm s0 / 10 ^ (r' + 1).
Proof.
  revert r s. induction fuel as [|fuel IH]; intros r s Hr A Hm Hp Hf; [congruence|]. cbn [f2d_loop1].
  pose proof A as (_ & Ap & Am & _).
  destruct (Z.ltb_spec (lm s / 10) (lp s / 10)) as [L|L].
  - fold (lstep s). destruct (Nat.eq_dec fuel 0) as [->|Nf].
    { exfalso. change (10 ^ Z.of_nat 1) with 10 in Hp. assert (lp s / 10 < 1) by (apply Z.div_lt_upper_bound; lia).
      assert (0 <= lm s / 10) by (apply Z.div_pos; lia). lia. }
    destruct (IH (r + 1) (lstep s)) as (r' & s' & Hr' & E & A' & M1 & M2).
    + lia. + now apply at_lstep. + cbn. apply Z.div_pos; lia.
    + cbn. rewrite Nat2Z.inj_succ, Z.pow_succ_r in Hp by lia. apply Z.div_lt_upper_bound; lia.
    + exact Nf.
    + exists r', s'. split; [lia|]. split; [exact E|]. split; [exact A'|]. split; [|exact M2]. intros _.
      destruct (Z.eq_dec r' (r + 1)) as [->|N]; [|apply M1; lia].
      rewrite Ap, Am, !div10_S in L by exact Hr. exact L.
  - exists r, s. split; [lia|]. split; [reflexivity|]. split; [exact A|]. split; [lia|].
    rewrite Ap, Am, !div10_S in L by exact Hr. exact L.
Qed.

Lemma loop3_loop1 fuel s : lmZ s = false -> lrZ s = false -> f2d_loop3 fuel s = f2d_loop1 fuel s.
Proof.
  revert s. induction fuel as [|fuel IH]; intros s H1 H2; [reflexivity|]. cbn [f2d_loop3 f2d_loop1].
  destruct (lm s / 10 <? lp s / 10); [|reflexivity]. rewrite H1, H2. cbn [andb]. apply IH; reflexivity.
Qed.

Lemma loop2_ok fuel s0 r s : 0 <= r -> at_level s0 r s -> lmZ s = true -> 0 < lm s < 10 ^ Z.of_nat fuel ->
  exists r' s', r <= r' /\ f2d_loop2 fuel s = Ok s' /\ at_level s0 r' s' /\ lmZ s' = true /\
    (lm s0 / 10 ^ r') mod 10 <> 0.
Proof.
  revert r s. induction fuel as [|fuel IH]; intros r s Hr A Hz Hm; [change (10 ^ Z.of_nat 0) with 1 in Hm; lia|]. cbn [f2d_loop2].
  pose proof A as (_ & _ & Am & _).
  destruct (Z.eqb_spec (lm s mod 10) 0) as [E0|E0].
  - replace (Loop _ _ _ _ _ _ _) with (lstep s) by (unfold lstep; rewrite (proj2 (Z.eqb_eq _ _) E0), andb_true_r; reflexivity).
    destruct (IH (r + 1) (lstep s)) as (r' & s' & Hr' & E & A' & M1 & M2).
    + lia. + now apply at_lstep. + cbn. rewrite Hz, (proj2 (Z.eqb_eq _ _) E0). reflexivity.
    + cbn. rewrite Nat2Z.inj_succ, Z.pow_succ_r in Hm by lia. pose proof (Z.div_mod (lm s) 10 ltac:(lia)). lia.
    + exists r', s'. split; [lia|]. split; [exact E|]. split; [exact A'|]. split; [exact M1|exact M2].
  - exists r, s. split; [lia|]. split; [reflexivity|]. split; [exact A|]. split; [exact Hz|]. now rewrite <- Am.
Qed.

(** ** What step 4 computes *)
Definition round_up (acc : bool) (st : loopst) : bool :=
  let last := if lrZ st && (llast st =? 5) && (lr st mod 2 =? 0) then 4 else llast st in
  (lr st =? lm st) && (negb acc || negb (lmZ st)) || (5 <=? last).

(** r digits removed, at the last level that still has a candidate *)
Definition stops_at (s0 : loopst) (r : Z) : Prop :=
  0 <= r /\
  (lm s0 / 10 ^ r < lp s0 / 10 ^ r \/ (lmZ s0 = true /\ lm s0 mod 10 ^ r = 0) \/ r = 0) /\
  lp s0 / 10 ^ (r + 1) <= lm s0 / 10 ^ (r + 1) /\
  (lmZ s0 = true -> lm s0 mod 10 ^ (r + 1) <> 0).

Lemma div_mono x y r t : 0 <= r -> r <= t -> x / 10 ^ r <= y / 10 ^ r -> x / 10 ^ t <= y / 10 ^ t.
Proof.
  intros Hr Ht H. replace t with (r + (t - r)) by lia. rewrite Z.pow_add_r by lia.
  rewrite <- !Z.div_div by (try (apply pow10_pos; lia); pose proof (pow10_pos r Hr); lia).
  apply Z.div_le_mono; [apply pow10_pos; lia|exact H].
Qed.
Lemma mod0_down x r t : 0 <= r -> r <= t -> x mod 10 ^ t = 0 -> x mod 10 ^ r = 0.
Proof.
  intros Hr Ht H. pose proof (pow10_pos r Hr). pose proof (pow10_pos t ltac:(lia)).
  apply Z.mod_divide in H; [|lia]. apply Z.mod_divide; [lia|]. apply Z.divide_trans with (10 ^ t); [|exact H].
  exists (10 ^ (t - r)). rewrite <- Z.pow_add_r by lia. f_equal. lia.
Qed.

Lemma loops12_ok s0 : 0 <= lm s0 -> lp s0 < 10 ^ 64 -> lm s0 <= lp s0 -> (lmZ s0 = true -> 0 < lm s0) -> lremoved s0 = 0 ->
  exists r st, (s1 <- f2d_loop1 64 s0 ;; (if lmZ s1 then f2d_loop2 64 s1 else Ok s1)) = Ok st /\
    at_level s0 r st /\ stops_at s0 r.
Proof.
  intros Hm Hp Hmp Hz H0.
  destruct (loop1_ok 64 s0 0 s0 ltac:(lia) (at_zero s0) Hm Hp ltac:(discriminate)) as (r & s & Hr & E & A & M1 & M2).
  rewrite E. cbn [bind]. pose proof A as (_ & _ & Am & _ & Az & _).
  destruct (lmZ s) eqn:Ez.
  - symmetry in Az. apply andb_prop in Az. destruct Az as [Z1 Z2]. apply Z.eqb_eq in Z2. specialize (Hz Z1).
    assert (P : 0 < lm s). { rewrite Am. pose proof (pow10_pos r Hr). pose proof (Z.div_mod (lm s0) (10 ^ r) ltac:(lia)). nia. }
    assert (P2 : lm s < 10 ^ 64). { rewrite Am. pose proof (pow10_pos r Hr). apply Z.le_lt_trans with (lm s0); [apply Z.div_le_upper_bound; nia|lia]. }
    destruct (loop2_ok 64 s0 r s Hr A Ez) as (r' & s' & Hr' & E' & A' & Z' & M'); [split; [exact P|exact P2]|].
    exists r', s'. split; [exact E'|]. split; [exact A'|]. split; [lia|].
    pose proof A' as (_ & _ & Am' & _ & Az' & _). rewrite Z' in Az'. symmetry in Az'. apply andb_prop in Az'. destruct Az' as [_ Z3]. apply Z.eqb_eq in Z3.
    split; [right; left; now split|]. split; [apply (div_mono _ _ (r + 1)); lia || assumption|].
    intros _ X. apply Z.eqb_eq in X. rewrite mod10_S in X by lia. apply andb_prop in X. destruct X as [_ X]. apply Z.eqb_eq in X. contradiction.
  - exists r, s. split; [reflexivity|]. split; [exact A|]. split; [exact Hr|].
    split; [|split; [exact M2|]].
    + destruct (Z.eq_dec r 0); [now right; right|left; apply M1; lia].
    + intros Z1 X. rewrite Z1 in Az. cbn in Az. symmetry in Az. apply Z.eqb_neq in Az. apply Az.
      apply (mod0_down _ r (r + 1)); lia || assumption.
Qed.

Lemma f2d_step4_ok s acc : 0 <= vm s -> vm s <= vp s -> vp s < 2 ^ 64 -> (vmZ s = true -> 0 < vm s) ->
  exists r st, at_level (Loop (vr s) (vp s) (vm s) (vmZ s) (vrZ s) (last0 s) 0) r st /\
    stops_at (Loop (vr s) (vp s) (vm s) (vmZ s) (vrZ s) (last0 s) 0) r /\
    f2d_step4 s acc = Ok (u32 (lr st + b2z (round_up acc st)), r).
Proof.
  intros Hm Hmp Hp Hz. unfold f2d_step4. set (s0 := Loop _ _ _ _ _ _ _).
  assert (Hp64 : lp s0 < 10 ^ 64) by (cbn [lp s0]; lia).
  destruct (loops12_ok s0 Hm Hp64 Hmp Hz eq_refl) as (r & st & E & A & S).
  exists r, st. split; [exact A|]. split; [exact S|]. pose proof A as (_ & _ & _ & Ar & Az & A0 & A1). cbn in Ar.
  destruct (vmZ s || vrZ s) eqn:G.
  - destruct (f2d_loop1 64 s0) as [s1| |u]; [|discriminate E|discriminate E]. cbn [bind] in *. rewrite E. cbn [bind].
    unfold round_up. now rewrite Ar.
  - apply orb_false_elim in G. destruct G as [G1 G2].
    rewrite loop3_loop1 by assumption. destruct (f2d_loop1 64 s0) as [s1| |u] eqn:E1; [|discriminate E|discriminate E]. cbn [bind] in *.
    assert (Ez : lmZ s1 = false).
    { destruct (loop1_ok 64 s0 0 s0 ltac:(lia) (at_zero s0) Hm Hp64 ltac:(discriminate)) as (r2 & s2 & _ & E2 & (_ & _ & _ & _ & Z2 & _) & _).
      rewrite E1 in E2. injection E2 as ->. rewrite Z2. cbn [lmZ s0]. now rewrite G1. }
    rewrite Ez in E. injection E as ->. unfold round_up. rewrite Ar. 
    assert (Er : lrZ st = false).
    { destruct (Z.eq_dec r 0) as [->|N]; [rewrite (proj2 (A0 eq_refl)); exact G2|].
      destruct S as [Hr _]. rewrite (proj2 (A1 ltac:(lia))). cbn [lrZ s0]. now rewrite G2. }
    rewrite Ez, Er. cbn [andb negb]. rewrite orb_true_r, andb_true_r. reflexivity.
Qed.

(** ** The double loops do the same *)
Lemma d2d_loop1_eq fuel s : d2d_loop1 fuel s = f2d_loop1 fuel s.
Proof.
  revert s. induction fuel as [|fuel IH]; intro s; [reflexivity|]. cbn [d2d_loop1 f2d_loop1].
  unfold div10. rewrite !rem32_eq by lia. rewrite (Z.mod_small (lr s mod 10) 256) by (pose proof (Z.mod_pos_bound (lr s) 10); lia).
  rewrite Z.ltb_antisym. destruct (lp s / 10 <=? lm s / 10); [reflexivity|apply IH].
Qed.
Lemma d2d_loop2_eq fuel s : d2d_loop2 fuel s = f2d_loop2 fuel s.
Proof.
  revert s. induction fuel as [|fuel IH]; intro s; [reflexivity|]. cbn [d2d_loop2 f2d_loop2].
  unfold div10. rewrite !rem32_eq by lia. rewrite (Z.mod_small (lr s mod 10) 256) by (pose proof (Z.mod_pos_bound (lr s) 10); lia).
  destruct (lm s mod 10 =? 0); [apply IH|reflexivity].
Qed.
(** [roundUp] is "last removed digit at least 5" *)
Definition same_up (a b : loopst) : Prop :=
  lr a = lr b /\ lp a = lp b /\ lm a = lm b /\ lremoved a = lremoved b /\ lrZ a = (5 <=? llast b).
Lemma d2d_loop3_eq fuel a b : same_up a b ->
  match d2d_loop3 fuel a, f2d_loop3 fuel b with
  | Ok a', Ok b' => same_up a' b'
  | UB u, UB v => u = v
  | _, _ => False
  end.
Proof.
  revert a b. induction fuel as [|fuel IH]; intros a b (E1 & E2 & E3 & E4 & E5); [reflexivity|]. cbn [d2d_loop3 f2d_loop3].
  unfold div10. rewrite !rem32_eq by lia. rewrite E1, E2, E3, E4. rewrite Z.ltb_antisym.
  destruct (lp b / 10 <=? lm b / 10); cbn [negb].
  - unfold same_up. now repeat split.
  - apply IH. unfold same_up. now repeat split.
Qed.

Lemma loop1_unfold n s : lm s / 10 < lp s / 10 -> f2d_loop1 (S n) s = f2d_loop1 n (lstep s).
Proof. intro H. cbn [f2d_loop1]. rewrite (proj2 (Z.ltb_lt _ _) H). reflexivity. Qed.

Lemma div100_two x : x / 100 = x / 10 / 10.
Proof. rewrite Z.div_div by lia. reflexivity. Qed.

Lemma d2d_step4_ok s acc : 0 <= vm s -> vm s <= vp s -> vp s < 2 ^ 64 -> (vmZ s = true -> 0 < vm s) -> last0 s = 0 ->
  exists r st, at_level (Loop (vr s) (vp s) (vm s) (vmZ s) (vrZ s) 0 0) r st /\
    stops_at (Loop (vr s) (vp s) (vm s) (vmZ s) (vrZ s) 0 0) r /\
    d2d_step4 s acc = Ok (u64 (lr st + b2z (round_up acc st)), r).
Proof.
  intros Hm Hmp Hp Hz Hl. set (s0 := Loop _ _ _ _ _ _ _).
  assert (Hp64 : lp s0 < 10 ^ 64) by (cbn [lp s0]; lia).
  destruct (loops12_ok s0 Hm Hp64 Hmp Hz eq_refl) as (r & st & E & A & S).
  exists r, st. split; [exact A|]. split; [exact S|]. pose proof A as (_ & _ & _ & Ar & Az & A0 & A1). cbn in Ar.
  unfold d2d_step4. destruct (vmZ s || vrZ s) eqn:G.
  - fold s0. rewrite d2d_loop1_eq. destruct (f2d_loop1 64 s0) as [s1| |u]; [|discriminate E|discriminate E]. cbn [bind] in *.
    rewrite d2d_loop2_eq. rewrite E. cbn [bind]. unfold round_up. now rewrite Ar.
  - apply orb_false_elim in G. destruct G as [G1 G2]. unfold div100. rewrite !rem32_eq by lia. rewrite !div100_two.
    destruct (f2d_loop1 64 s0) as [s1| |u] eqn:E1; [|discriminate E|discriminate E]. cbn [bind] in *.
    assert (Ez : lmZ s1 = false).
    { destruct (loop1_ok 64 s0 0 s0 ltac:(lia) (at_zero s0) Hm Hp64 ltac:(discriminate)) as (r2 & s2 & _ & E2 & (_ & _ & _ & _ & Z2 & _) & _).
      rewrite E1 in E2. injection E2 as ->. rewrite Z2. cbn [lmZ s0]. now rewrite G1. }
    rewrite Ez in E. injection E as ->.
    assert (Er : lrZ st = false).
    { destruct (Z.eq_dec r 0) as [->|N]; [rewrite (proj2 (A0 eq_refl)); exact G2|].
      destruct S as [Hr _]. rewrite (proj2 (A1 ltac:(lia))). cbn [lrZ s0]. now rewrite G2. }
    unfold round_up. rewrite Ez, Er. cbn [andb negb]. rewrite orb_true_r, andb_true_r.
    (* run the float loop alongside, from the level where this one starts *)
    set (a := if _ <? _ then Loop _ _ _ _ _ _ _ else _).
    assert (X : exists b, same_up a b /\ f2d_loop3 64 b = Ok st).
    { destruct (Z.ltb_spec (vm s / 10 / 10) (vp s / 10 / 10)) as [L|L].
      - set (b := lstep (lstep s0)). exists b. split.
        + unfold a, b, same_up, lstep, s0. cbn. repeat split.
          pose proof (Z.div_mod (vr s) 10 ltac:(lia)). pose proof (Z.mod_pos_bound (vr s) 10 ltac:(lia)).
          pose proof (Z.rem_mul_r (vr s) 10 10 ltac:(lia) ltac:(lia)) as M. change (10 * 10) with 100 in M. rewrite M.
          set (y := (vr s / 10) mod 10). destruct (Z.leb_spec 50 (vr s mod 10 + 10 * y)), (Z.leb_spec 5 y); lia || reflexivity.
        + assert (L1 : vm s / 10 < vp s / 10).
          { destruct (Z.lt_ge_cases (vm s / 10) (vp s / 10)) as [|K]; [assumption|]. pose proof (Z.div_le_mono _ _ 10 ltac:(lia) K). lia. }
          rewrite loop3_loop1 by (unfold b, lstep, s0; cbn; rewrite ?G1, ?G2; reflexivity).
          (* two unfoldings of the 64-step loop, then fuel 62 -> 64 *)
          rewrite (loop1_unfold 63 s0 L1), (loop1_unfold 62 (lstep s0) L) in E1. fold b in E1.
          assert (Mono : forall n x y, f2d_loop1 n x = Ok y -> forall k, f2d_loop1 (n + k) x = Ok y).
          { clear. induction n as [|n IH]; intros x y E k; [discriminate E|]. cbn [Nat.add f2d_loop1] in *.
            destruct (lm x / 10 <? lp x / 10); [now apply IH|exact E]. }
          exact (Mono 62%nat _ _ E1 2%nat).
      - exists s0. split.
        + unfold a, same_up, s0. cbn. now repeat split.
        + rewrite loop3_loop1 by (unfold s0; cbn; assumption). exact E1. }
    destruct X as (b & SU & Eb). pose proof (d2d_loop3_eq 64 a b SU) as Q. rewrite Eb in Q.
    destruct (d2d_loop3 64 a) as [a'| |u]; [|destruct Q|destruct Q]. cbn [bind].
    destruct Q as (-> & _ & -> & -> & ->). now rewrite Ar.
Qed.
