(** Exactness certificates for "multiply by a truncated power of five and shift".

    [floor (m * a / b)] is computed by the code as [floor (m * T / J)] with T an approximation of
    a * J / b.  Two adjacent fractions n1/m1 <= a/b <= n2/m2 (determinant one, m1 + m2 > M) bound how
    close m * a can come to a multiple of b for every 0 < m <= M, which makes the two floors equal.
    Whoever supplies the fractions is not trusted: they are checked here. *)
From Coq Require Import ZArith List Bool Lia.
From Verif Require Import Mem RyuTables RyuModel RyuArith RyuTab.
Import ListNotations.
Open Scope Z_scope.

Section Cone.
  Variables a b m1 n1 m2 n2 M m n : Z.
  Hypothesis D : m1 * n2 - m2 * n1 = 1.
  Hypothesis P1 : 0 < m1.
  Hypothesis P2 : 0 < m2.
  Hypothesis HM : M < m1 + m2.
  Hypothesis Hm : 0 < m <= M.
  Let s1 := a * m1 - b * n1.
  Let s2 := a * m2 - b * n2.
  Hypothesis S1 : 0 <= s1.
  Hypothesis S2 : s2 <= 0.
  Let x := m * n2 - n * m2.
  Let y := n * m1 - m * n1.

  Lemma cone_m : m = x * m1 + y * m2.
  Proof using D. unfold x, y. replace m with (m * (m1 * n2 - m2 * n1)) at 1 by (rewrite D; ring). ring. Qed.
  Lemma cone_v : a * m - b * n = x * s1 + y * s2.
  Proof using D.
    unfold x, y, s1, s2. replace (a * m - b * n) with ((a * m - b * n) * (m1 * n2 - m2 * n1)) by (rewrite D; ring). ring.
  Qed.

  Lemma cone_pos : 0 < a * m - b * n -> 1 <= x /\ x * s1 <= a * m - b * n /\ m <= x * m1.
  Proof using D HM Hm P1 P2 S1 S2.
    rewrite cone_v. pose proof cone_m as E. clearbody x y s1 s2. intro V.
    assert (X : 1 <= x). { destruct (Z.le_gt_cases 1 x); [assumption|]. exfalso. assert (y < 0) by nia. nia. }
    assert (Y : y <= 0) by (destruct (Z.le_gt_cases y 0); [assumption|]; nia).
    split; [exact X|]. split; nia.
  Qed.
  Lemma cone_neg : a * m - b * n < 0 ->
    x <= 0 /\ 1 <= y /\ y * - s2 <= - (a * m - b * n) /\ m <= y * m2 /\ (x <> 0 -> s1 <= - (a * m - b * n)).
  Proof using D HM Hm P1 P2 S1 S2.
    rewrite cone_v. pose proof cone_m as E. clearbody x y s1 s2. intro V.
    assert (Y : 1 <= y). { destruct (Z.le_gt_cases 1 y); [assumption|]. exfalso. assert (x < 0) by nia. nia. }
    assert (X : x <= 0) by (destruct (Z.le_gt_cases x 0); [assumption|]; nia).
    split; [exact X|]. split; [exact Y|]. split; [nia|]. split; [nia|]. intro N. nia.
  Qed.
  Lemma cone_zero : 0 < s1 -> s2 < 0 -> a * m - b * n <> 0.
  Proof using D HM Hm P1 P2 S1 S2.
    rewrite cone_v. pose proof cone_m as E. clearbody x y s1 s2. intros A B V.
    destruct (Z.lt_trichotomy x 0) as [X|[X|X]].
    - assert (y < 0) by nia. nia.
    - subst x. assert (y = 0) by nia. nia.
    - assert (0 < y) by nia. nia.
  Qed.
End Cone.

Lemma chain_le x s v m k dd J : 0 <= x -> x * s <= v -> m <= x * k -> k * dd <= s * J -> 0 <= dd -> 0 < J -> m * dd <= v * J.
Proof.
  intros Hx Hv Hm C Hd HJ. apply Z.le_trans with (x * (k * dd)).
  - replace (x * (k * dd)) with (x * k * dd) by ring. now apply Z.mul_le_mono_nonneg_r.
  - apply Z.le_trans with (x * (s * J)); [now apply Z.mul_le_mono_nonneg_l|].
    replace (x * (s * J)) with (x * s * J) by ring. apply Z.mul_le_mono_nonneg_r; lia.
Qed.
Lemma chain_lt x s v m k dd J : 0 < x -> x * s <= v -> m <= x * k -> k * dd < s * J -> 0 <= dd -> 0 < J -> m * dd < v * J.
Proof.
  intros Hx Hv Hm C Hd HJ. apply Z.le_lt_trans with (x * (k * dd)).
  - replace (x * (k * dd)) with (x * k * dd) by ring. now apply Z.mul_le_mono_nonneg_r.
  - apply Z.lt_le_trans with (x * (s * J)); [now apply Z.mul_lt_mono_pos_l|].
    replace (x * (s * J)) with (x * s * J) by ring. apply Z.mul_le_mono_nonneg_r; lia.
Qed.

(** floors agree when both products sit in the same interval *)
Lemma same_floor b J T m n : 0 < b -> 0 < J -> J * n * b <= m * T * b < J * (n + 1) * b -> m * T / J = n.
Proof.
  intros Hb HJ [L1 L2]. apply Z.mul_le_mono_pos_r in L1; [|exact Hb]. apply Z.mul_lt_mono_pos_r in L2; [|exact Hb].
  symmetry. apply Z.div_unique with (m * T - J * n); [left; lia|ring].
Qed.

(** T below a * J / b *)
Lemma below_core a b J T dd m n :
  0 < b -> 0 < J -> 0 < m -> n = m * a / b -> T * b <= a * J < T * b + dd ->
  m * dd <= (a * m - b * n) * J -> m * T / J = n.
Proof.
  intros Hb HJ Hm En [T1 T2] K. pose proof (Z.div_mod (m * a) b ltac:(lia)) as E. rewrite <- En in E.
  pose proof (Z.mod_pos_bound (m * a) b Hb) as R.
  apply (same_floor b); [exact Hb|exact HJ|].
  assert (A1 : m * (a * J) < m * (T * b + dd)) by (apply Z.mul_lt_mono_pos_l; lia).
  assert (A2 : m * (T * b) <= m * (a * J)) by (apply Z.mul_le_mono_nonneg_l; lia).
  assert (A3 : m * a * J < (n + 1) * b * J) by (apply Z.mul_lt_mono_pos_r; lia).
  split; lia.
Qed.

Lemma floor_below a b m1 n1 m2 n2 M J T dd m :
  0 < b -> 0 < J ->
  m1 * n2 - m2 * n1 = 1 -> 0 < m1 -> 0 < m2 -> M < m1 + m2 -> 0 < m <= M ->
  0 < a * m1 - b * n1 -> a * m2 - b * n2 < 0 ->
  T * b <= a * J < T * b + dd -> m1 * dd <= (a * m1 - b * n1) * J ->
  m * T / J = m * a / b.
Proof.
  intros Hb HJ D P1 P2 HM Hm S1 S2 HT C.
  set (n := m * a / b). pose proof (Z.div_mod (m * a) b ltac:(lia)) as E. fold n in E.
  pose proof (Z.mod_pos_bound (m * a) b Hb) as R.
  assert (Z0 : a * m - b * n <> 0) by (apply (cone_zero a b m1 n1 m2 n2 M m n); lia || assumption).
  destruct (cone_pos a b m1 n1 m2 n2 M m n) as (X & V & MX); [lia || assumption ..|].
  apply (below_core a b J T dd m n); [lia || assumption || reflexivity ..|].
  apply (chain_le (m * n2 - n * m2) (a * m1 - b * n1) _ m m1); lia || assumption.
Qed.

(** T above a * J / b *)
Lemma above_core a b J T dd m n :
  0 < b -> 0 < J -> 0 < m -> n = m * a / b -> a * J <= T * b <= a * J + dd ->
  m * dd < (b * (n + 1) - a * m) * J -> m * T / J = n.
Proof.
  intros Hb HJ Hm En [T1 T2] K. pose proof (Z.div_mod (m * a) b ltac:(lia)) as E. rewrite <- En in E.
  pose proof (Z.mod_pos_bound (m * a) b Hb) as R.
  apply (same_floor b); [exact Hb|exact HJ|].
  assert (A1 : m * (a * J) <= m * (T * b)) by (apply Z.mul_le_mono_nonneg_l; lia).
  assert (A2 : m * (T * b) <= m * (a * J + dd)) by (apply Z.mul_le_mono_nonneg_l; lia).
  assert (A3 : n * b * J <= m * a * J) by (apply Z.mul_le_mono_nonneg_r; lia).
  split; lia.
Qed.

Lemma floor_above a b m1 n1 m2 n2 M J T dd m :
  0 < b -> 0 < J -> 0 <= dd ->
  m1 * n2 - m2 * n1 = 1 -> 0 < m1 -> 0 < m2 -> M < m1 + m2 -> 0 < m <= M ->
  0 <= a * m1 - b * n1 -> a * m2 - b * n2 < 0 ->
  a * J <= T * b <= a * J + dd -> m2 * dd < (b * n2 - a * m2) * J ->
  m * T / J = m * a / b.
Proof.
  intros Hb HJ Hdd D P1 P2 HM Hm S1 S2 HT C.
  set (n := m * a / b). pose proof (Z.div_mod (m * a) b ltac:(lia)) as E. fold n in E.
  pose proof (Z.mod_pos_bound (m * a) b Hb) as R.
  destruct (cone_neg a b m1 n1 m2 n2 M m (n + 1)) as (X & Y & V & MY & _); [lia || assumption ..|].
  apply (above_core a b J T dd m n); [lia || assumption || reflexivity ..|].
  apply (chain_lt ((n + 1) * m1 - m * n1) (b * n2 - a * m2) _ m m2); lia || assumption.
Qed.

(** The same when the certificate fails exactly at m = m2. *)
Lemma floor_above_except a b m1 n1 m2 n2 M J T dd m :
  0 < b -> 0 < J -> 0 <= dd ->
  m1 * n2 - m2 * n1 = 1 -> 0 < m1 -> 0 < m2 -> M < m1 + m2 -> 0 < m <= M ->
  0 <= a * m1 - b * n1 -> a * m2 - b * n2 < 0 ->
  a * J <= T * b <= a * J + dd -> M < 2 * m2 -> M * dd < (a * m1 - b * n1) * J -> m <> m2 ->
  m * T / J = m * a / b.
Proof.
  intros Hb HJ Hdd D P1 P2 HM Hm S1 S2 HT HM2 C Ne.
  set (n := m * a / b). pose proof (Z.div_mod (m * a) b ltac:(lia)) as E. fold n in E.
  pose proof (Z.mod_pos_bound (m * a) b Hb) as R.
  destruct (cone_neg a b m1 n1 m2 n2 M m (n + 1)) as (X & Y & _ & _ & V); [lia || assumption ..|].
  apply (above_core a b J T dd m n); [lia || assumption || reflexivity ..|].
  apply (chain_lt 1 (a * m1 - b * n1) _ m M); try lia.
  assert (X1 : m * n2 - (n + 1) * m2 <> 0).
  { intro X0. pose proof (cone_m m1 n1 m2 n2 m (n + 1) D) as EM. rewrite X0 in EM.
    set (y := (n + 1) * m1 - m * n1) in *. clearbody y n. assert (y < 2) by (apply Z.nle_gt; intro; assert (2 * m2 <= y * m2) by (apply Z.mul_le_mono_nonneg_r; lia); lia).
    assert (y = 1) by lia. subst y. lia. }
  specialize (V X1). lia.
Qed.

(** ** Certificates along a table *)
Definition cert : Type := Z * Z * (Z * Z).

Fixpoint cwalk (good : Z -> Z -> cert -> bool) (ix : Z -> Z) (l : list cert) (n ip p5 : Z) : bool :=
  match l with
  | [] => true
  | c :: t =>
      let i := ix n in
      let p := if i =? ip then p5 else if i =? ip + 1 then 5 * p5 else 5 ^ i in
      (0 <=? i) && good n p c && cwalk good ix t (n + 1) i p
  end.

Lemma cwalk_ok good ix l n ip : cwalk good ix l n ip (5 ^ ip) = true -> 0 <= ip ->
  forall k c, nth_error l k = Some c ->
  0 <= ix (n + Z.of_nat k) /\ good (n + Z.of_nat k) (5 ^ ix (n + Z.of_nat k)) c = true.
Proof.
  revert n ip. induction l as [|c0 l IH]; intros n ip W Hi k c E; [destruct k; discriminate E|].
  cbn [cwalk] in W. set (p := if ix n =? ip then _ else _) in W.
  apply andb_prop in W. destruct W as [W W2]. apply andb_prop in W. destruct W as [W0 G]. apply Z.leb_le in W0.
  assert (P : p = 5 ^ ix n).
  { unfold p. destruct (Z.eqb_spec (ix n) ip) as [->|_]; [reflexivity|].
    destruct (Z.eqb_spec (ix n) (ip + 1)) as [->|_]; [|reflexivity]. rewrite Z.pow_add_r by lia. change (5 ^ 1) with 5. ring. }
  rewrite P in G, W2. destruct k as [|k].
  - cbn in E. injection E as <-. replace (n + Z.of_nat 0) with n by lia. now split.
  - replace (n + Z.of_nat (S k)) with (n + 1 + Z.of_nat k) by lia. apply (IH _ _ W2 W0 k c E).
Qed.

Lemma cwalk_at good ix l n0 ip n : cwalk good ix l n0 ip (5 ^ ip) = true -> 0 <= ip ->
  n0 <= n < n0 + Z.of_nat (length l) ->
  exists c, 0 <= ix n /\ good n (5 ^ ix n) c = true.
Proof.
  intros W Hi Hn. destruct (nth_error l (Z.to_nat (n - n0))) as [c|] eqn:E.
  - exists c. pose proof (cwalk_ok _ _ _ _ _ W Hi _ _ E) as G.
    replace (n0 + Z.of_nat (Z.to_nat (n - n0))) with n in G by lia. exact G.
  - apply nth_error_None in E. lia.
Qed.

(** Parameters of a family of products with a truncated positive power 5^(pi n): bound on m, extra
    factor 2^pt, table precision, and the power of two divided by. *)
Definition pow_check (M t BC : Z) (qf ix : Z -> Z) (n p : Z) (c : cert) : bool :=
  let '(m1, n1, (m2, n2)) := c in
  let i := ix n in let q := qf n in let B := L25 i + 1 in
  (0 <=? q) && (0 <=? q + BC - B) &&
  ((B <=? BC) ||
   (let a := Z.shiftl p t in
    let s1 := m1 * a - Z.shiftl n1 q in
    let s2 := m2 * a - Z.shiftl n2 q in
    (m1 * n2 - m2 * n1 =? 1) && (0 <? m1) && (0 <? m2) && (M <? m1 + m2) &&
    (0 <? s1) && (s2 <? 0) && (Z.shiftl m1 (B + t) <=? Z.shiftl s1 BC))).

Lemma pow_check_ok M t BC qf ix n c :
  0 <= ix n -> pow_check M t BC qf ix n (5 ^ ix n) c = true -> 0 <= t -> 0 <= BC ->
  forall T m, 0 < m <= M ->
  T * 2 ^ (L25 (ix n) + 1) <= 5 ^ ix n * 2 ^ BC < (T + 1) * 2 ^ (L25 (ix n) + 1) ->
  0 <= qf n /\ 0 <= qf n + BC - (L25 (ix n) + 1) /\
  m * 2 ^ t * T / 2 ^ (qf n + BC - (L25 (ix n) + 1)) = m * 2 ^ t * 5 ^ ix n / 2 ^ qf n.
Proof.
  intros Hi G Ht HBC T m Hm [T1 T2]. destruct c as ((m1, n1), (m2, n2)). unfold pow_check in G.
  set (i := ix n) in *. set (q := qf n) in *. pose proof (L25_nonneg i Hi) as HL. set (B := L25 i + 1) in *.
  apply andb_prop in G. destruct G as [G0 G]. apply andb_prop in G0. destruct G0 as [Hq Hj].
  apply Z.leb_le in Hq, Hj. split; [exact Hq|]. split; [exact Hj|].
  assert (PB : 0 < 2 ^ B) by (apply Z.pow_pos_nonneg; lia).
  apply orb_prop in G. destruct G as [G|G].
  - apply Z.leb_le in G.
    assert (ET : T = 5 ^ i * 2 ^ (BC - B)).
    { assert (E : 5 ^ i * 2 ^ BC = 5 ^ i * 2 ^ (BC - B) * 2 ^ B) by (rewrite <- Z.mul_assoc, <- Z.pow_add_r by lia; f_equal; f_equal; lia).
      rewrite E in T1, T2. nia. }
    rewrite ET. replace (q + BC - B) with (q + (BC - B)) by lia. rewrite Z.pow_add_r by lia.
    rewrite Z.mul_assoc. apply Z.div_mul_cancel_r; apply Z.pow_nonzero; lia.
  - rewrite !Z.shiftl_mul_pow2 in G by lia. repeat rewrite andb_true_iff in G.
    rewrite !Z.ltb_lt, Z.eqb_eq, Z.leb_le in G. destruct G as ((((((G1 & G2) & G3) & G4) & G5) & G6) & G7).
    rewrite <- !(Z.mul_assoc m). rewrite (Z.mul_comm (2 ^ t) (5 ^ i)).
    set (j := q + BC - B) in *. assert (PJ : 0 < 2 ^ j) by (apply Z.pow_pos_nonneg; lia).
    assert (Pq : 0 < 2 ^ q) by (apply Z.pow_pos_nonneg; lia). assert (Pt : 0 < 2 ^ t) by (apply Z.pow_pos_nonneg; lia).
    assert (EJ : 2 ^ j * 2 ^ B = 2 ^ q * 2 ^ BC) by (rewrite <- !Z.pow_add_r by lia; f_equal; unfold j; lia).
    apply (floor_below (5 ^ i * 2 ^ t) (2 ^ q) m1 n1 m2 n2 M (2 ^ j) (2 ^ t * T) (2 ^ t * 2 ^ q) m); try (lia || assumption).
    + split.
      * apply Z.mul_le_mono_pos_r with (2 ^ B); [exact PB|].
        replace (5 ^ i * 2 ^ t * 2 ^ j * 2 ^ B) with (5 ^ i * 2 ^ t * (2 ^ j * 2 ^ B)) by ring. rewrite EJ.
        replace (2 ^ t * T * 2 ^ q * 2 ^ B) with (2 ^ t * 2 ^ q * (T * 2 ^ B)) by ring.
        replace (5 ^ i * 2 ^ t * (2 ^ q * 2 ^ BC)) with (2 ^ t * 2 ^ q * (5 ^ i * 2 ^ BC)) by ring.
        apply Z.mul_le_mono_nonneg_l; nia.
      * apply Z.mul_lt_mono_pos_r with (2 ^ B); [exact PB|].
        replace (5 ^ i * 2 ^ t * 2 ^ j * 2 ^ B) with (5 ^ i * 2 ^ t * (2 ^ j * 2 ^ B)) by ring. rewrite EJ.
        replace ((2 ^ t * T * 2 ^ q + 2 ^ t * 2 ^ q) * 2 ^ B) with (2 ^ t * 2 ^ q * ((T + 1) * 2 ^ B)) by ring.
        replace (5 ^ i * 2 ^ t * (2 ^ q * 2 ^ BC)) with (2 ^ t * 2 ^ q * (5 ^ i * 2 ^ BC)) by ring.
        apply Z.mul_lt_mono_pos_l; nia.
    + apply Z.mul_le_mono_pos_r with (2 ^ B); [exact PB|].
      replace ((5 ^ i * 2 ^ t * m1 - 2 ^ q * n1) * 2 ^ j * 2 ^ B) with ((m1 * (5 ^ i * 2 ^ t) - n1 * 2 ^ q) * (2 ^ j * 2 ^ B)) by ring.
      rewrite EJ. rewrite Z.pow_add_r in G7 by lia.
      replace (m1 * (2 ^ t * 2 ^ q) * 2 ^ B) with (2 ^ q * (m1 * (2 ^ B * 2 ^ t))) by ring.
      replace ((m1 * (5 ^ i * 2 ^ t) - n1 * 2 ^ q) * (2 ^ q * 2 ^ BC)) with (2 ^ q * ((m1 * (5 ^ i * 2 ^ t) - n1 * 2 ^ q) * 2 ^ BC)) by ring.
      apply Z.mul_le_mono_nonneg_l; lia.
Qed.

(** Products with the rounded-up inverse of 5^(ix n): m * 2^(af n) / (5^(ix n) * 2^bs), extra factor
    2^t, result shifted by jf n. *)
Definition inv_check (M t bs BC : Z) (af jf ix : Z -> Z) (n p : Z) (c : cert) : bool :=
  let '(m1, n1, (m2, n2)) := c in
  let i := ix n in let af := af n in let j := jf n in
  (0 <=? af) && (0 <=? j) && (af + j =? L25 i + BC + bs) &&
  (let b := Z.shiftl p bs in
   let s1 := Z.shiftl m1 (af + t) - n1 * b in
   let s2 := Z.shiftl m2 (af + t) - n2 * b in
   (m1 * n2 - m2 * n1 =? 1) && (0 <? m1) && (0 <? m2) && (M <? m1 + m2) &&
   (0 <=? s1) && (s2 <? 0) && (Z.shiftl (m2 * b) t <? Z.shiftl (- s2) j)).

Lemma inv_check_ok M t bs BC af jf ix n c :
  0 <= ix n -> inv_check M t bs BC af jf ix n (5 ^ ix n) c = true -> 0 <= t -> 0 <= bs -> 0 <= BC ->
  forall T m, 0 < m <= M ->
  (T - 1) * 5 ^ ix n <= 2 ^ (L25 (ix n) + BC) <= T * 5 ^ ix n ->
  0 <= af n /\ 0 <= jf n /\
  m * 2 ^ t * T / 2 ^ jf n = m * 2 ^ t * 2 ^ af n / (5 ^ ix n * 2 ^ bs).
Proof.
  intros Hi G Ht Hbs HBC T m Hm [T1 T2]. destruct c as ((m1, n1), (m2, n2)). unfold inv_check in G.
  set (i := ix n) in *. set (af' := af n) in *. set (j := jf n) in *. pose proof (L25_nonneg i Hi) as HL.
  apply andb_prop in G. destruct G as [G0 G]. repeat rewrite andb_true_iff in G0.
  rewrite !Z.leb_le, Z.eqb_eq in G0. destruct G0 as [[Ha Hj] EA]. split; [exact Ha|]. split; [exact Hj|].
  rewrite !Z.shiftl_mul_pow2 in G by lia. repeat rewrite andb_true_iff in G.
  rewrite !Z.ltb_lt, Z.eqb_eq, Z.leb_le in G. destruct G as ((((((G1 & G2) & G3) & G4) & G5) & G6) & G7).
  rewrite <- !(Z.mul_assoc m). rewrite (Z.pow_add_r 2 af' t) in * by lia.
  rewrite (Z.mul_comm (2 ^ t) (2 ^ af')).
  assert (Pp : 0 < 5 ^ i) by (apply Z.pow_pos_nonneg; lia).
  assert (PJ : 0 < 2 ^ j) by (apply Z.pow_pos_nonneg; lia). assert (Pb : 0 < 2 ^ bs) by (apply Z.pow_pos_nonneg; lia).
  assert (Pt : 0 < 2 ^ t) by (apply Z.pow_pos_nonneg; lia).
  assert (EJ : 2 ^ af' * 2 ^ j = 2 ^ (L25 i + BC) * 2 ^ bs) by (rewrite <- !Z.pow_add_r by lia; f_equal; lia).
  apply (floor_above (2 ^ af' * 2 ^ t) (5 ^ i * 2 ^ bs) m1 n1 m2 n2 M (2 ^ j) (2 ^ t * T) (2 ^ t * (5 ^ i * 2 ^ bs)) m);
    try (lia || assumption || (apply Z.mul_pos_pos; assumption) || nia).
  replace (2 ^ af' * 2 ^ t * 2 ^ j) with (2 ^ t * (2 ^ af' * 2 ^ j)) by ring. rewrite EJ.
  set (X := 2 ^ (L25 i + BC)) in *.
  replace (2 ^ t * T * (5 ^ i * 2 ^ bs)) with (2 ^ t * (T * 5 ^ i * 2 ^ bs)) by ring.
  replace (2 ^ t * (X * 2 ^ bs) + 2 ^ t * (5 ^ i * 2 ^ bs)) with (2 ^ t * ((X + 5 ^ i) * 2 ^ bs)) by ring.
  split; apply Z.mul_le_mono_nonneg_l; try lia; apply Z.mul_le_mono_nonneg_r; lia.
Qed.
