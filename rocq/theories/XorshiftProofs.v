(** The generator is linear over GF(2); its period is computed from matrix powers. *)
From Coq Require Import NArith ZArith List Bool Lia Znumtheory.
From Verif Require Import XorshiftModel.
Import ListNotations.
Open Scope N_scope.

Lemma shl32_spec y s i : N.testbit (shl32 y s) i = ((s <=? i) && (i <? 32) && N.testbit y (i - s)).
Proof.
  unfold shl32. destruct (N.ltb_spec i 32).
  - rewrite N.mod_pow2_bits_low by assumption. destruct (N.leb_spec s i).
    + rewrite N.shiftl_spec_high'; [reflexivity|assumption].
    + rewrite N.shiftl_spec_low by assumption. reflexivity.
  - rewrite N.mod_pow2_bits_high by assumption. rewrite andb_false_r. reflexivity.
Qed.
Lemma shl32_xor a b s : shl32 (N.lxor a b) s = N.lxor (shl32 a s) (shl32 b s).
Proof.
  apply N.bits_inj. intros i. rewrite N.lxor_spec, !shl32_spec, N.lxor_spec.
  destruct (s <=? i), (i <? 32); cbn; auto.
Qed.
Lemma xor_swap4 a b c d : N.lxor (N.lxor a b) (N.lxor c d) = N.lxor (N.lxor a c) (N.lxor b d).
Proof.
  rewrite !N.lxor_assoc. f_equal. rewrite <- !N.lxor_assoc. f_equal. apply N.lxor_comm.
Qed.
Lemma xs_step_xor a b : xs_step (N.lxor a b) = N.lxor (xs_step a) (xs_step b).
Proof.
  unfold xs_step. cbv zeta. rewrite shl32_xor.
  rewrite (xor_swap4 a b). rewrite N.shiftr_lxor.
  rewrite (xor_swap4 (N.lxor a _)). rewrite shl32_xor. apply xor_swap4.
Qed.
Lemma xs_step_0 : xs_step 0 = 0. Proof. reflexivity. Qed.

Lemma lt_pow2_bits y n : (forall i, n <= i -> N.testbit y i = false) -> y < 2 ^ n.
Proof.
  intros H. destruct (N.eq_dec y 0) as [->|Hy].
  - assert (2 ^ n <> 0) by (apply N.pow_nonzero; discriminate). lia.
  - apply N.log2_lt_pow2; [lia|]. destruct (N.lt_ge_cases (N.log2 y) n) as [|G]; [assumption|].
    specialize (H _ G). rewrite N.bit_log2 in H by assumption. discriminate.
Qed.
Lemma bits_above y n i : y < 2 ^ n -> n <= i -> N.testbit y i = false.
Proof.
  intros H Hi. destruct (N.eq_dec y 0) as [->|Hy]; [apply N.bits_0|].
  apply N.bits_above_log2. apply N.lt_le_trans with n; [|assumption].
  apply N.log2_lt_pow2; [lia|assumption].
Qed.
Lemma xs_step_lt y : y < 2 ^ 32 -> xs_step y < 2 ^ 32.
Proof.
  intros H. apply lt_pow2_bits. intros i Hi. unfold xs_step. cbv zeta.
  assert (L : (i <? 32) = false) by (apply N.ltb_ge; exact Hi).
  assert (forall j, 32 <= j -> N.testbit y j = false) as B by (intros; eapply bits_above; eauto).
  repeat rewrite ?N.lxor_spec, ?shl32_spec, ?N.shiftr_spec'.
  rewrite L, !andb_false_r, !xorb_false_r.
  assert (L2 : (i + 17 <? 32) = false) by (apply N.ltb_ge; lia). rewrite L2, andb_false_r.
  rewrite !B by lia. reflexivity.
Qed.

(** ** Matrices as lists of columns *)
Fixpoint app (m : list N) (y : N) : N :=
  match m with
  | [] => 0
  | c :: t => N.lxor (if N.odd y then c else 0) (app t (N.div2 y))
  end.
Lemma app_0 m : app m 0 = 0.
Proof. induction m as [|c m IH]; cbn; [reflexivity|]. exact IH. Qed.
Lemma odd_lxor a b : N.odd (N.lxor a b) = xorb (N.odd a) (N.odd b).
Proof. rewrite <- !N.bit0_odd. apply N.lxor_spec. Qed.
Lemma div2_lxor a b : N.div2 (N.lxor a b) = N.lxor (N.div2 a) (N.div2 b).
Proof. rewrite !N.div2_spec. apply N.shiftr_lxor. Qed.
Lemma app_xor m : forall a b, app m (N.lxor a b) = N.lxor (app m a) (app m b).
Proof.
  induction m as [|c m IH]; intros a b; cbn [app]; [reflexivity|].
  rewrite odd_lxor, div2_lxor, IH, xor_swap4. f_equal.
  destruct (N.odd a), (N.odd b); cbn [xorb]; rewrite ?N.lxor_nilpotent, ?N.lxor_0_r, ?N.lxor_0_l; reflexivity.
Qed.
Definition comp (m m' : list N) : list N := map (app m) m'.
Lemma app_comp m m' : forall y, app (comp m m') y = app m (app m' y).
Proof.
  induction m' as [|c m' IH]; intros y; cbn [comp map app].
  - symmetry. apply app_0.
  - fold (comp m m'). rewrite IH, app_xor. f_equal. destruct (N.odd y); [reflexivity|symmetry; apply app_0].
Qed.

Definition basis (s n : nat) : list N := map (fun i => N.shiftl 1 (N.of_nat i)) (seq s n).
Lemma app_linear (f : N -> N) : f 0 = 0 -> (forall a b, f (N.lxor a b) = N.lxor (f a) (f b)) ->
  forall n s y, y < 2 ^ N.of_nat n -> app (map f (basis s n)) y = f (N.shiftl y (N.of_nat s)).
Proof.
  intros F0 FX. induction n as [|n IH]; intros s y Hy.
  - cbn in Hy. assert (y = 0) by lia. subst. rewrite N.shiftl_0_l. cbn. auto.
  - cbn [basis seq map app]. fold (basis (S s) n). rewrite IH.
    + rewrite (N.div2_odd y) at 3. rewrite N.div2_spec.
      assert (E : N.shiftl (2 * N.shiftr y 1 + N.b2n (N.odd y)) (N.of_nat s) =
        N.lxor (if N.odd y then N.shiftl 1 (N.of_nat s) else 0) (N.shiftl (N.shiftr y 1) (N.of_nat (S s)))).
      { assert (H2 : 2 * N.shiftr y 1 + N.b2n (N.odd y) = N.lxor (N.b2n (N.odd y)) (N.shiftl (N.shiftr y 1) 1)).
        { apply N.bits_inj. intros i. rewrite N.lxor_spec.
          destruct (N.eq_dec i 0) as [->|Hi].
          - rewrite N.testbit_0_r. rewrite N.shiftl_spec_low by lia. rewrite xorb_false_r.
            rewrite N.bit0_odd. destruct (N.odd y); reflexivity.
          - rewrite N.shiftl_spec_high' by lia.
            replace i with (N.succ (N.pred i)) at 1 by lia. rewrite N.testbit_succ_r.
            replace (N.testbit (N.b2n (N.odd y)) i) with false.
            + rewrite xorb_false_l. replace (N.pred i) with (i - 1) by lia. reflexivity.
            + destruct (N.odd y); cbn [N.b2n]; [|symmetry; apply N.bits_0].
              destruct i; [congruence|reflexivity]. }
        rewrite H2, N.shiftl_lxor, N.shiftl_shiftl. f_equal.
        - destruct (N.odd y); cbn [N.b2n]; [reflexivity|]. apply N.shiftl_0_l.
        - f_equal. lia. }
      rewrite E, FX. f_equal. destruct (N.odd y); [reflexivity|auto].
    + rewrite N.div2_spec, N.shiftr_div_pow2. change (2 ^ 1) with 2.
      apply N.div_lt_upper_bound; [discriminate|].
      rewrite Nat2N.inj_succ, N.pow_succ_r' in Hy. exact Hy.
Qed.

Definition ident : list N := map (fun x => x) (basis 0 32).
Lemma app_ident y : y < 2 ^ 32 -> app ident y = y.
Proof.
  intros H. unfold ident. rewrite (app_linear (fun x => x)); auto. apply N.shiftl_0_r.
Qed.
Definition A : list N := map xs_step (basis 0 32).
Lemma app_A y : y < 2 ^ 32 -> app A y = xs_step y.
Proof.
  intros H. unfold A. rewrite (app_linear xs_step); auto.
  - rewrite N.shiftl_0_r. reflexivity.
  - apply xs_step_xor.
Qed.

Fixpoint mpow (m : list N) (p : positive) : list N :=
  match p with
  | xH => m
  | xO q => let r := mpow m q in comp r r
  | xI q => let r := mpow m q in comp m (comp r r)
  end.
Lemma app_mpow m p : forall y, app (mpow m p) y = Pos.iter (app m) y p.
Proof.
  induction p as [p IH|p IH|]; intros y; cbn [mpow Pos.iter]; cbv zeta; rewrite ?app_comp, ?IH; reflexivity.
Qed.

Definition steps (n : N) (y : N) : N := N.iter n xs_step y.
Lemma steps_lt n y : y < 2 ^ 32 -> steps n y < 2 ^ 32.
Proof.
  intros H. unfold steps. apply N.iter_invariant; [|exact H]. intros x. apply xs_step_lt.
Qed.
Lemma steps_app n y : y < 2 ^ 32 -> N.iter n (app A) y = steps n y.
Proof.
  intros H. unfold steps. revert n. apply N.peano_ind; [reflexivity|].
  intros n IH. rewrite !N.iter_succ, IH. apply app_A. apply (steps_lt n y H).
Qed.
Lemma steps_mpow p y : y < 2 ^ 32 -> steps (N.pos p) y = app (mpow A p) y.
Proof. intros H. rewrite <- steps_app by exact H. rewrite app_mpow. reflexivity. Qed.
Lemma steps_add m n y : steps (m + n) y = steps m (steps n y).
Proof. apply N.iter_add. Qed.
Lemma steps_fix_mul n y k : steps n y = y -> steps (k * n) y = y.
Proof.
  intros H. revert k. apply N.peano_ind; [reflexivity|]. intros k IH.
  rewrite N.mul_succ_l, steps_add, H. exact IH.
Qed.

Definition period : N := 2 ^ 32 - 1.

Lemma steps_period y : y < 2 ^ 32 -> steps period y = y.
Proof.
  intros H. change period with (N.pos 4294967295). rewrite steps_mpow by exact H.
  replace (mpow A 4294967295) with ident by (vm_compute; reflexivity). apply app_ident, H.
Qed.

Fixpoint xorl (a b : list N) : list N :=
  match a, b with x :: a', y :: b' => N.lxor x y :: xorl a' b' | _, _ => [] end.
Lemma app_xorl a : forall b y, length a = length b -> app (xorl a b) y = N.lxor (app a y) (app b y).
Proof.
  induction a as [|x a IH]; intros [|z b] y HL; cbn in HL; try discriminate; [reflexivity|].
  cbn [xorl app]. rewrite IH by lia. rewrite (xor_swap4 _ (app a _)). f_equal.
  destruct (N.odd y); [reflexivity|]. reflexivity.
Qed.

Definition inv3 : list N := [3335786257; 3906425407; 341432259; 3494094572; 1287699228; 2747661528; 2150333198; 1082698387; 2611265886; 3557500517; 3637289613; 2868896625; 410369362; 1269330915; 4088754115; 154103209; 1548993245; 1491119919; 2404261344; 3419380581; 2808848906; 551830956; 2331709170; 188466835; 3017353089; 1526152647; 441219537; 2121271239; 792014187; 2569338613; 2655281178; 105270877]%N.
Definition inv5 : list N := [3037765269; 3182012677; 1669387622; 2344659563; 370929321; 3901211764; 1380852402; 4210098316; 2969553326; 2348631362; 1854761326; 1663573681; 1840518332; 1230994099; 4206056119; 2280264177; 2761711817; 2141840559; 1783100198; 2364816481; 1110627307; 3500024705; 2915665707; 311039995; 1912523766; 1756755554; 3294084956; 326808620; 2100464665; 1580234416; 2287416289; 4045495915]%N.
Definition inv17 : list N := [2080738118; 4098161938; 4167003272; 262081113; 4280086534; 4185094329; 2355677745; 3596925114; 3587069701; 2535039379; 1691659854; 3661366594; 3081963516; 2254921635; 205510780; 2576529806; 3889960224; 3965609850; 1675181996; 1663335326; 464242227; 164803375; 1135727768; 3702832275; 733074617; 3475373130; 3364815054; 2204756806; 2769922784; 2141131413; 4189123440; 1776631044]%N.
Definition inv257 : list N := [1940479401; 668616311; 607776604; 3685168204; 1129029766; 648810898; 3303171155; 235886680; 3828553010; 2674952864; 3259775758; 1952802776; 3122666590; 807405955; 2074935119; 10541013; 2953885123; 3744595128; 1051926783; 353530678; 151549380; 394224902; 2319156462; 238374970; 180587326; 3341967654; 1264618217; 3233456239; 2630374898; 2982569044; 4209708186; 2989590033]%N.
Definition inv65537 : list N := [331728430; 2488218541; 1209385696; 682878283; 839817293; 1408035726; 4013029473; 4095696576; 1033618122; 2301755989; 769798078; 4185028050; 2663489015; 2683529367; 4136185144; 2950586883; 1578865829; 2816851372; 349201241; 3096975940; 3937016935; 2625434786; 2636012314; 211073125; 3311055944; 1920044434; 2025742764; 2060168078; 4064662879; 1177042686; 3953608156; 586778632]%N.

Lemma no_fix p inv y : y < 2 ^ 32 -> y <> 0 ->
  length (mpow A p) = 32%nat -> comp inv (xorl (mpow A p) ident) = ident -> steps (N.pos p) y <> y.
Proof.
  intros Hy Hn HL HC HF. rewrite steps_mpow in HF by exact Hy. apply Hn.
  rewrite <- (app_ident y Hy), <- HC, app_comp, app_xorl by (rewrite HL; reflexivity).
  rewrite HF, app_ident by exact Hy. rewrite N.lxor_nilpotent. apply app_0.
Qed.
Lemma nofix3 y : y < 2 ^ 32 -> y <> 0 -> steps (period / 3) y <> y.
Proof. intros H1 H2. apply (no_fix 1431655765 inv3); [exact H1|exact H2|vm_compute; reflexivity|vm_compute; reflexivity]. Qed.
Lemma nofix5 y : y < 2 ^ 32 -> y <> 0 -> steps (period / 5) y <> y.
Proof. intros H1 H2. apply (no_fix 858993459 inv5); [exact H1|exact H2|vm_compute; reflexivity|vm_compute; reflexivity]. Qed.
Lemma nofix17 y : y < 2 ^ 32 -> y <> 0 -> steps (period / 17) y <> y.
Proof. intros H1 H2. apply (no_fix 252645135 inv17); [exact H1|exact H2|vm_compute; reflexivity|vm_compute; reflexivity]. Qed.
Lemma nofix257 y : y < 2 ^ 32 -> y <> 0 -> steps (period / 257) y <> y.
Proof. intros H1 H2. apply (no_fix 16711935 inv257); [exact H1|exact H2|vm_compute; reflexivity|vm_compute; reflexivity]. Qed.
Lemma nofix65537 y : y < 2 ^ 32 -> y <> 0 -> steps (period / 65537) y <> y.
Proof. intros H1 H2. apply (no_fix 65535 inv65537); [exact H1|exact H2|vm_compute; reflexivity|vm_compute; reflexivity]. Qed.

(** ** Divisor argument *)
Lemma trial_prime p r : 1 < p -> p < (N.of_nat r + 2) * (N.of_nat r + 2) ->
  forallb (fun a => negb (p mod (N.of_nat a) =? 0)) (seq 2 r) = true ->
  forall d, (d | p) -> d = 1 \/ d = p.
Proof.
  intros H1 H2 HB d [e He].
  assert (Hd : d <> 0) by (intros ->; lia). assert (He0 : e <> 0) by (intros ->; lia).
  rewrite forallb_forall in HB.
  assert (T : forall a b, p = a * b -> a < N.of_nat r + 2 -> a <= 1).
  { intros a b E Ha. destruct (N.le_gt_cases a 1) as [|G]; [assumption|exfalso].
    specialize (HB (N.to_nat a)). rewrite in_seq in HB. rewrite N2Nat.id in HB.
    assert (p mod a = 0) by (apply N.mod_divide; [lia|exists b; lia]).
    rewrite H in HB. cbn in HB. discriminate HB. lia. }
  destruct (N.lt_ge_cases d (N.of_nat r + 2)) as [L|L].
  - left. pose proof (T d e ltac:(lia) L). lia.
  - destruct (N.lt_ge_cases e (N.of_nat r + 2)) as [L'|L'].
    + right. pose proof (T e d ltac:(lia) L'). assert (e = 1) by lia. subst. lia.
    + exfalso. assert ((N.of_nat r + 2) * (N.of_nat r + 2) <= e * d) by (apply N.mul_le_mono; assumption). lia.
Qed.
Lemma dvd_or p r k d : 1 < p -> p < (N.of_nat r + 2) * (N.of_nat r + 2) ->
  forallb (fun a => negb (p mod (N.of_nat a) =? 0)) (seq 2 r) = true ->
  (d | p * k) -> (d | k) \/ (p | d).
Proof.
  intros H1 H2 HB HD. pose proof (N.gcd_divide_l d p) as G1. pose proof (N.gcd_divide_r d p) as G2.
  destruct (trial_prime p r H1 H2 HB _ G2) as [E|E].
  - left. apply N.gauss with p; assumption.
  - right. rewrite E in G1. exact G1.
Qed.

Lemma coprime_mul a b d : N.gcd a b = 1 -> (a | d) -> (b | d) -> (a * b | d).
Proof.
  intros G [x ->] Hb. rewrite N.mul_comm in Hb. apply N.gauss in Hb; [|rewrite N.gcd_comm; exact G].
  destruct Hb as [z ->]. exists z. lia.
Qed.

Lemma steps_gcd m n y : y < 2 ^ 32 -> 0 < m -> 0 < n -> steps m y = y -> steps n y = y ->
  steps (N.gcd m n) y = y.
Proof.
  intros Hy Hm Hn Em En. destruct (N.gcd_bezout_pos m n Hm) as (a & b & E).
  pose proof (steps_fix_mul _ _ a Em) as F1. rewrite E in F1. rewrite steps_add in F1.
  rewrite (steps_fix_mul n y b En) in F1. exact F1.
Qed.

Lemma steps_exact y n : 0 < y < 2 ^ 32 -> steps n y = y -> (period | n).
Proof.
  intros [Hy0 Hy] E. destruct (N.eq_dec n 0) as [->|Hn]; [exists 0; reflexivity|].
  pose proof (steps_gcd n period y Hy ltac:(lia) ltac:(reflexivity) E (steps_period y Hy)) as G.
  set (d := N.gcd n period) in *.
  assert (Dn : (d | n)) by apply N.gcd_divide_l. assert (Dp : (d | period)) by apply N.gcd_divide_r.
  assert (HF : forall k, (d | k) -> steps k y = y) by (intros k [e ->]; apply steps_fix_mul, G).
  assert (P3 : (3 | d)).
  { destruct (dvd_or 3 0 (period / 3) d) as [D|D]; try reflexivity; [exact Dp| |exact D].
    exfalso. apply (nofix3 y Hy ltac:(lia)), HF, D. }
  assert (P5 : (5 | d)).
  { destruct (dvd_or 5 1 (period / 5) d) as [D|D]; try reflexivity; [exact Dp| |exact D].
    exfalso. apply (nofix5 y Hy ltac:(lia)), HF, D. }
  assert (P17 : (17 | d)).
  { destruct (dvd_or 17 3 (period / 17) d) as [D|D]; try reflexivity; [exact Dp| |exact D].
    exfalso. apply (nofix17 y Hy ltac:(lia)), HF, D. }
  assert (P257 : (257 | d)).
  { destruct (dvd_or 257 15 (period / 257) d) as [D|D]; try reflexivity; [exact Dp| |exact D].
    exfalso. apply (nofix257 y Hy ltac:(lia)), HF, D. }
  assert (P65537 : (65537 | d)).
  { destruct (dvd_or 65537 255 (period / 65537) d) as [D|D]; try reflexivity; [exact Dp| |exact D].
    exfalso. apply (nofix65537 y Hy ltac:(lia)), HF, D. }
  apply N.divide_trans with d; [|exact Dn].
  change period with (3 * 5 * 17 * 257 * 65537).
  repeat (apply coprime_mul; [reflexivity| |assumption]). assumption.
Qed.

Lemma steps_1 y : steps 1 y = xs_step y. Proof. reflexivity. Qed.
Lemma period_pred : period = (period - 1) + 1. Proof. reflexivity. Qed.
Lemma period_pred' : 1 + (period - 1) = period. Proof. reflexivity. Qed.
#[local] Opaque steps.
Lemma steps_inj_state y y' : y < 2 ^ 32 -> y' < 2 ^ 32 -> xs_step y = xs_step y' -> y = y'.
Proof.
  intros H H' E. rewrite <- (steps_period y H), <- (steps_period y' H').
  rewrite period_pred, !steps_add, !steps_1, E. reflexivity.
Qed.
Lemma steps_surj y : y < 2 ^ 32 -> exists x, x < 2 ^ 32 /\ xs_step x = y.
Proof.
  intros H. exists (steps (period - 1) y). split; [apply steps_lt, H|].
  rewrite <- steps_1, <- steps_add, period_pred'. apply (steps_period y H).
Qed.
#[local] Transparent steps.
Lemma steps_nonzero n y : 0 < y < 2 ^ 32 -> 0 < steps n y.
Proof.
  intros [H0 H]. destruct (N.eq_dec (steps n y) 0) as [E|]; [exfalso|lia].
  assert (Z : forall k, steps k 0 = 0).
  { apply N.peano_ind; [reflexivity|]. intros k IH. unfold steps in *. rewrite N.iter_succ, IH. reflexivity. }
  assert (steps (n * period) y = 0).
  { assert (exists k, n * period = k + n) as [k Hk].
    { exists (n * period - n). change period with 4294967295. lia. }
    rewrite Hk, steps_add, E. apply Z. }
  rewrite (steps_fix_mul _ _ n (steps_period y H)) in H1. lia.
Qed.

Lemma iter_N {X} (f : X -> X) x n : Nat.iter n f x = N.iter (N.of_nat n) f x.
Proof.
  induction n as [|n IH]; [reflexivity|]. rewrite Nat2N.inj_succ, N.iter_succ. rewrite <- IH. reflexivity.
Qed.

Lemma steps_cancel a b y : y < 2 ^ 32 -> steps (a + b) y = steps a y -> steps b y = y.
Proof.
  intros H. rewrite steps_add. revert a. 
  assert (HI : forall u v, u < 2 ^ 32 -> v < 2 ^ 32 -> forall a, steps a u = steps a v -> u = v).
  { intros u v Hu Hv. apply (N.peano_ind (fun a => steps a u = steps a v -> u = v)); [auto|].
    intros a IH E. apply IH. unfold steps in E. rewrite !N.iter_succ in E.
    apply steps_inj_state in E; [exact E|apply (steps_lt a), Hu|apply (steps_lt a), Hv]. }
  intros a E. apply (HI _ _ (steps_lt b y H) H a E).
Qed.

Lemma priority_rand_distinct i j : (i < j)%nat -> (N.of_nat j < period) ->
  priority_rand i <> priority_rand j.
Proof.
  intros Hij Hj E. unfold priority_rand in E. apply N2Z.inj in E. rewrite !iter_N in E.
  fold (steps (N.of_nat (S i)) xs_seed) in E. fold (steps (N.of_nat (S j)) xs_seed) in E.
  replace (N.of_nat (S j)) with (N.of_nat (S i) + (N.of_nat j - N.of_nat i)) in E by lia.
  symmetry in E. apply steps_cancel in E; [|reflexivity].
  apply steps_exact in E; [|split; reflexivity].
  apply N.divide_pos_le in E; lia.
Qed.
Lemma priority_rand_range i : (0 < priority_rand i < 2 ^ 32)%Z.
Proof.
  unfold priority_rand. rewrite iter_N. fold (steps (N.of_nat (S i)) xs_seed).
  pose proof (steps_nonzero (N.of_nat (S i)) xs_seed ltac:(split; reflexivity)).
  pose proof (steps_lt (N.of_nat (S i)) xs_seed ltac:(reflexivity)).
  change (2 ^ 32)%Z with (Z.of_N (2 ^ 32)). lia.
Qed.
