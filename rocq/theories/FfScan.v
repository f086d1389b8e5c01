(** parse_number_string (ascii_number.h) against a grammar of decimal numerals: it finds the
    longest numeral the format allows, its digits and its exponent. *)
From Coq Require Import ZArith List Bool Lia.
From Verif Require Import Mem RyuText RyuArith RyuConv RyuScan FfModel FfWord.
Import ListNotations.
Open Scope Z_scope.
Local Notation len l := (Z.of_nat (length l)).

(** ** Specification *)
(** the text of a numeral with the given decimal point: [-]ddd[.ddd][e[+-]ddd] *)
Definition point_text (dot : Z) (o : option (list Z)) : list Z := match o with None => [] | Some ds => dot :: ascii ds end.
Definition numeral_text (dot : Z) (n : numeral) : list Z := minus (nneg n) ++ ascii (nint n) ++ point_text dot (nfrac n) ++ exp_part (nexp n).
(** numerals the format admits: some digit; an exponent only in scientific format, and then with a digit; always
    one if the format is not also fixed *)
Definition allowed (o : options) (n : numeral) : Prop :=
  wf n /\ nint n ++ frac_digits n <> [] /\
  match nexp n with
  | Some (_, _, es) => has o chars_scientific = true /\ es <> []
  | None => ~ (has o chars_scientific = true /\ has o chars_fixed = false)
  end.
(** the longest one at the start of the text *)
Definition longest (o : options) (text : list Z) (n : numeral) (rest : list Z) : Prop :=
  text = numeral_text (decimal_point o) n ++ rest /\ allowed o n /\
  forall n' rest', allowed o n' -> text = numeral_text (decimal_point o) n' ++ rest' -> (length (numeral_text (decimal_point o) n') <= length (numeral_text (decimal_point o) n))%nat.
(** a decimal point that cannot be mistaken for something else *)
Definition point_ok (dot : Z) : Prop := ~ (48 <= dot <= 57) /\ dot <> 45 /\ dot <> 101 /\ dot <> 69.

(** ** Digits *)
Lemma dv_app a c : digit_val (a ++ c) = digit_val a * 10 ^ len c + digit_val c.
Proof.
  revert a. induction c as [|x c IH] using rev_ind; intro a.
  - rewrite app_nil_r. cbn. lia.
  - rewrite app_assoc, !digit_val_snoc, IH, app_length. cbn [length]. replace (Z.of_nat (length c + 1)) with (len c + 1) by lia. rewrite Z.pow_add_r by lia. lia.
Qed.
Lemma dv_bound ds : Forall dig ds -> 0 <= digit_val ds < 10 ^ len ds.
Proof.
  induction ds as [|x ds IH] using rev_ind; intro F; [cbn; lia|]. apply Forall_app in F. destruct F as [F Fx]. inversion_clear Fx as [|? ? Hx _]. unfold dig in Hx. specialize (IH F).
  rewrite digit_val_snoc, app_length. cbn [length]. replace (Z.of_nat (length ds + 1)) with (len ds + 1) by lia. rewrite Z.pow_add_r by lia. lia.
Qed.
Lemma dv_cons x ds : digit_val (x :: ds) = x * 10 ^ len ds + digit_val ds.
Proof. change (x :: ds) with ([x] ++ ds). rewrite dv_app. reflexivity. Qed.
Lemma ascii_app a c : ascii (a ++ c) = ascii a ++ ascii c.
Proof. apply map_app. Qed.
Lemma ascii_len a : length (ascii a) = length a.
Proof. apply map_length. Qed.
Lemma dig_int d : dig d -> is_integer (48 + d) = true.
Proof. unfold dig, is_integer. lia. Qed.
Lemma int_dig c : is_integer c = true -> dig (c - 48) /\ 48 + (c - 48) = c.
Proof. unfold dig, is_integer. lia. Qed.
Definition ends (r : list Z) : Prop := at_ r is_integer = false.
Lemma span p : exists ds r, p = ascii ds ++ r /\ Forall dig ds /\ ends r.
Proof.
  induction p as [|c p IH]; [exists [], []; repeat split; constructor|]. destruct (is_integer c) eqn:E.
  - destruct IH as (ds & r & -> & F & N). destruct (int_dig c E) as [D1 D2]. exists (c - 48 :: ds), r. cbn [ascii map app]. rewrite D2. repeat split; [now constructor|exact N].
  - exists [], (c :: p). repeat split; [constructor|exact E].
Qed.
(** a digit prefix of a digit run *)
Lemma prefix_digits a : forall s a' s', ascii a ++ s = ascii a' ++ s' -> ends s -> Forall dig a' -> exists d, a = a' ++ d /\ s' = ascii d ++ s.
Proof.
  induction a as [|x a IH]; intros s [|x' a'] s' E N F; cbn [ascii map app] in E.
  - exists []. split; [reflexivity|]. now symmetry.
  - exfalso. subst s. inversion_clear F as [|? ? H _]. unfold ends in N. cbn [at_] in N. rewrite dig_int in N by exact H. discriminate N.
  - exists (x :: a). split; [reflexivity|]. now symmetry.
  - assert (E0 := f_equal (hd 0) E). apply (f_equal (@tl Z)) in E. cbn [hd tl] in E0, E. inversion_clear F as [|? ? _ F']. apply IH in E; try assumption. destruct E as (d & -> & ->). assert (x = x') as -> by lia. now exists d.
Qed.
Lemma prefix_exact a s a' s' : ascii a ++ s = ascii a' ++ s' -> ends s -> ends s' -> Forall dig a -> Forall dig a' -> a = a' /\ s = s'.
Proof.
  intros E N N' F F'. destruct (prefix_digits a s a' s' E N F') as ([|x d] & -> & E'); [rewrite app_nil_r; auto|]. exfalso. subst s'. apply Forall_app in F. destruct F as [_ F]. inversion_clear F as [|? ? H _].
  unfold ends in N'. cbn [ascii map app at_] in N'. rewrite dig_int in N' by exact H. discriminate N'.
Qed.

(** ** The digit loops *)
Lemma u64_mul_add i k x : u64 (u64 i * k + x) = u64 (i * k + x).
Proof. unfold u64. rewrite (Z.add_mod (i mod 2 ^ 64 * k)), Z.mul_mod_idemp_l, <- Z.add_mod by lia. reflexivity. Qed.
Lemma one_digit_ok ds : forall r i, Forall dig ds -> ends r -> one_digit (ascii ds ++ r) (u64 i) = (r, u64 (i * 10 ^ len ds + digit_val ds)).
Proof.
  induction ds as [|d ds IH]; intros r i F N.
  - cbn [ascii map app length]. change (10 ^ Z.of_nat 0) with 1. change (digit_val []) with 0. replace (i * 1 + 0) with i by lia. destruct r as [|c r]; [reflexivity|]. cbn [one_digit]. unfold ends in N. cbn [at_] in N. now rewrite N.
  - inversion_clear F as [|? ? Hd F']. cbn [ascii map app one_digit]. rewrite dig_int by exact Hd. replace (48 + d - 48) with d by lia. rewrite (Z.mul_comm 10), u64_mul_add. fold (ascii ds). rewrite IH by assumption.
    f_equal. f_equal. rewrite dv_cons. cbn [length]. replace (Z.of_nat (S (length ds))) with (len ds + 1) by lia. rewrite Z.pow_add_r by lia. lia.
Qed.
Lemma eight_digits_ok t : forall n ds r i, (length ds <= n)%nat -> Forall dig ds -> ends r -> Forall byte r ->
  exists a c, ds = a ++ c /\ eight_digits t (ascii ds ++ r) (u64 i) = (ascii c ++ r, u64 (i * 10 ^ len a + digit_val a)).
Proof.
  assert (Z0 : forall i, u64 (i * 10 ^ len (@nil Z) + digit_val []) = u64 i) by (intro i; f_equal; cbn; lia).
  induction n as [|n IH]; intros ds r i L F N Fr.
  - destruct ds; [|cbn in L; lia]. exists [], []. split; [reflexivity|]. rewrite Z0. cbn [ascii map app].
    do 8 (destruct r as [|? r]; [reflexivity|]). cbn [eight_digits].
    rewrite read_u64_ok by (try assumption; cbn; lia). rewrite eight_test; [|reflexivity|cbn [firstn]; repeat match goal with H : Forall _ (_ :: _) |- _ => inversion_clear H end; repeat (apply Forall_cons; [assumption|]); apply Forall_nil].
    cbn [firstn forallb]. unfold ends in N. cbn [at_] in N. rewrite N. reflexivity.
  - assert (Fb : Forall byte (ascii ds)) by (apply Forall_forall; intros x Hx; apply in_map_iff in Hx; destruct Hx as (d & <- & Hd); rewrite Forall_forall in F; specialize (F d Hd); unfold dig, byte in *; lia).
    assert (Fa : Forall byte (ascii ds ++ r)) by (apply Forall_app; now split).
    destruct (Nat.le_gt_cases 8 (length ds)) as [G|G].
    + do 8 (destruct ds as [|? ds]; [cbn in G; lia|]).
      match type of F with Forall dig (?a :: ?b :: ?c :: ?d :: ?e :: ?f :: ?g :: ?h :: ds) =>
        remember [a; b; c; d; e; f; g; h] as o eqn:Eo; change (a :: b :: c :: d :: e :: f :: g :: h :: ds) with ([a; b; c; d; e; f; g; h] ++ ds) in *; rewrite <- Eo in * end.
      assert (Lo : length o = 8%nat) by (subst o; reflexivity). apply Forall_app in F. destruct F as [Fo Fd]. rewrite app_length in L.
      destruct (IH ds r (i * 100000000 + digit_val o) ltac:(lia) Fd N Fr) as (a & c & -> & E). exists (o ++ a), c. split; [apply app_assoc|].
      assert (T : eight_digits t (ascii (o ++ a ++ c) ++ r) (u64 i) = eight_digits t (ascii (a ++ c) ++ r) (u64 (i * 100000000 + digit_val o))).
      { assert (Rd : read_u64 t (ascii (o ++ a ++ c) ++ r) = le_value (ascii o)). { rewrite read_u64_ok; [|rewrite app_length, ascii_len, app_length; lia|exact Fa]. f_equal. rewrite ascii_app, <- app_assoc, firstn_app, ascii_len, Lo, Nat.sub_diag, firstn_O, app_nil_r. apply firstn_all2. rewrite ascii_len. lia. }
        assert (T8 : is_made_of_eight_digits_fast (le_value (ascii o)) = true). { rewrite eight_test; [|rewrite ascii_len; exact Lo|rewrite ascii_app in Fb; apply Forall_app in Fb; apply Fb]. apply forallb_forall. intros x Hx. apply in_map_iff in Hx. destruct Hx as (d & <- & Hd). apply dig_int. rewrite Forall_forall in Fo. now apply Fo. }
        assert (V8 : parse_eight_digits_unrolled (le_value (ascii o)) = digit_val o).
        { subst o. repeat match goal with H : Forall dig (_ :: _) |- _ => inversion_clear H end. unfold dig in *. unfold ascii. rewrite swar by assumption. unfold digit_val. cbn [fold_left]. lia. }
        assert (EX : exists p1 p2 p3 p4 p5 p6 p7 p8, ascii (o ++ a ++ c) ++ r = p1 :: p2 :: p3 :: p4 :: p5 :: p6 :: p7 :: p8 :: (ascii (a ++ c) ++ r)) by (subst o; do 8 eexists; reflexivity).
        destruct EX as (p1 & p2 & p3 & p4 & p5 & p6 & p7 & p8 & EX). rewrite EX in Rd |- *. cbn [eight_digits]. rewrite Rd, T8, V8, u64_mul_add. reflexivity. }
      rewrite T, E. f_equal. f_equal. rewrite dv_app, app_length, Lo. replace (Z.of_nat (8 + length a)) with (8 + len a) by lia. rewrite Z.pow_add_r by lia. change (10 ^ 8) with 100000000. ring.
    + exists [], ds. split; [reflexivity|]. rewrite Z0.
      assert (NT : (8 <= length (ascii ds ++ r))%nat -> is_made_of_eight_digits_fast (read_u64 t (ascii ds ++ r)) = false).
      { intro L8. rewrite read_u64_ok by assumption. rewrite eight_test; [|apply firstn_length_le; exact L8|apply Forall_forall; intros x Hx; rewrite Forall_forall in Fa; apply Fa; rewrite <- (firstn_skipn 8 (ascii ds ++ r)); apply in_or_app; now left].
        rewrite firstn_app, forallb_app, ascii_len. destruct r as [|c r']; [rewrite app_nil_r, ascii_len in L8; lia|]. apply andb_false_iff. right. replace (8 - length ds)%nat with (S (7 - length ds)) by lia. cbn [firstn forallb]. unfold ends in N. cbn [at_] in N. now rewrite N. }
      remember (ascii ds ++ r) as p eqn:Ep. do 8 (destruct p as [|? p]; [reflexivity|]). cbn [eight_digits]. rewrite NT by (cbn; lia). reflexivity.
Qed.
Lemma digits_ok t ds r i : Forall dig ds -> ends r -> Forall byte r ->
  (let '(p, i) := eight_digits t (ascii ds ++ r) (u64 i) in one_digit p i) = (r, u64 (i * 10 ^ len ds + digit_val ds)).
Proof.
  intros F N Fr. destruct (eight_digits_ok t (length ds) ds r i (Nat.le_refl _) F N Fr) as (a & c & -> & ->). apply Forall_app in F. destruct F as [Fa Fc]. rewrite one_digit_ok by assumption. f_equal. f_equal.
  rewrite dv_app, app_length. replace (Z.of_nat (length a + length c)) with (len a + len c) by lia. rewrite Z.pow_add_r by lia. ring.
Qed.

(** what the cap on the exponent's digits keeps *)
Definition CAP : Z := 0x10000000.
Definition capped (e x : Z) : Prop := (Z.abs e < CAP -> x = e) /\ (CAP <= e -> CAP <= x) /\ (e <= - CAP -> x <= - CAP).
Lemma exp_digits_ok es : forall r i, Forall dig es -> ends r -> 0 <= i ->
  exists x, exp_digits (ascii es ++ r) i = (r, x) /\ 0 <= x /\ (i * 10 ^ len es + digit_val es < CAP -> x = i * 10 ^ len es + digit_val es) /\ (CAP <= i * 10 ^ len es + digit_val es -> CAP <= x).
Proof.
  induction es as [|d es IH]; intros r i F N Hi.
  - exists i. cbn [ascii map app length digit_val fold_left]. change (10 ^ Z.of_nat 0) with 1. split; [|lia]. destruct r as [|c r]; [reflexivity|]. cbn [exp_digits]. unfold ends in N. cbn [at_] in N. now rewrite N.
  - inversion_clear F as [|? ? Hd F']. cbn [ascii map app exp_digits]. rewrite dig_int by exact Hd. replace (48 + d - 48) with d by lia. fold (ascii es). rewrite dv_cons. cbn [length]. replace (Z.of_nat (S (length es))) with (len es + 1) by lia. rewrite Z.pow_add_r by lia. change (10 ^ 1) with 10.
    pose proof (dv_bound es F') as Bd. assert (P : 0 < 10 ^ len es) by (apply Z.pow_pos_nonneg; lia). unfold dig in Hd.
    destruct (Z.ltb_spec i 0x10000000) as [L|L].
    + destruct (IH r (10 * i + d) F' N ltac:(lia)) as (x & E & H0 & H1 & H2). exists x. split; [exact E|]. split; [exact H0|]. replace (i * (10 ^ len es * 10) + (d * 10 ^ len es + digit_val es)) with ((10 * i + d) * 10 ^ len es + digit_val es) by ring. auto.
    + destruct (IH r i F' N Hi) as (x & E & H0 & H1 & H2). exists x. split; [exact E|]. split; [exact H0|]. unfold CAP in *. split; [intro; nia|]. intros _. apply H2. nia.
Qed.

(** ** Leading zeros, and the first nineteen digits *)
Lemma sig_app a c : sig (a ++ c) = match sig a with [] => sig c | s => s ++ c end.
Proof. induction a as [|x a IH]; [reflexivity|]. destruct x; [exact IH|reflexivity|reflexivity]. Qed.
Lemma sig_len ds : len (sig ds) <= len ds.
Proof. induction ds as [|x ds IH]; [cbn; lia|]. destruct x; [|cbn; lia|cbn; lia]. change (sig (0 :: ds)) with (sig ds). change (length (0 :: ds)) with (S (length ds)). lia. Qed.
Lemma sig_head ds x s : sig ds = x :: s -> x <> 0.
Proof. induction ds as [|y ds IH]; [discriminate|]. destruct y; [exact IH| |]; intro E; cbn in E; injection E as <- _; discriminate. Qed.
Lemma sig_dig ds : Forall dig ds -> Forall dig (sig ds).
Proof. induction ds as [|x ds IH]; intro F; [exact F|]. destruct x; [apply IH; now inversion F|exact F|exact F]. Qed.
Lemma sig_val ds : digit_val (sig ds) = digit_val ds.
Proof. induction ds as [|x ds IH]; [reflexivity|]. destruct x; [|reflexivity|reflexivity]. change (sig (0 :: ds)) with (sig ds). rewrite IH, dv_cons. lia. Qed.
Lemma sig_low ds : Forall dig ds -> sig ds <> [] -> 10 ^ (len (sig ds) - 1) <= digit_val ds.
Proof.
  intros F N. rewrite <- sig_val. apply sig_dig in F. destruct (sig ds) as [|x s] eqn:E; [contradiction|]. pose proof (sig_head _ _ _ E). inversion_clear F as [|? ? Hx Hs]. unfold dig in Hx. rewrite dv_cons.
  pose proof (dv_bound s Hs). cbn [length]. replace (Z.of_nat (S (length s)) - 1) with (len s) by lia. assert (0 < 10 ^ len s) by (apply Z.pow_pos_nonneg; lia). nia.
Qed.
Lemma skip_digits dot ds : forall r c, point_ok dot -> Forall dig ds ->
  skip_leading dot (ascii ds ++ r) c = match sig ds with [] => skip_leading dot r (c - len ds) | s => c - len ds + len s end.
Proof.
  induction ds as [|d ds IH]; intros r c P F; [cbn [ascii map app sig length]; f_equal; lia|]. inversion_clear F as [|? ? Hd F']. cbn [ascii map app skip_leading]. fold (ascii ds). unfold dig in Hd. destruct (Z.eq_dec d 0) as [->|Nd].
  - change (48 + 0 =? 48) with true. cbn [orb]. rewrite IH by assumption. change (sig (0 :: ds)) with (sig ds). cbn [length]. destruct (sig ds); [f_equal; lia|lia].
  - destruct (Z.eqb_spec (48 + d) 48) as [E|E]; [lia|]. destruct P as [P _]. destruct (Z.eqb_spec (48 + d) dot) as [E2|E2]; [lia|]. cbn [orb]. destruct d; [contradiction| |]; cbn [sig length]; lia.
Qed.
Lemma skip_le dot r : forall c, skip_leading dot r c <= c.
Proof. induction r as [|x r IH]; intro c; [cbn; lia|]. cbn [skip_leading]. destruct ((x =? 48) || (x =? dot)); [|lia]. specialize (IH (if x =? 48 then c - 1 else c)). destruct (x =? 48); lia. Qed.
Definition fdigits (o : option (list Z)) : list Z := match o with None => [] | Some ds => ds end.
Lemma skip_numeral dot int fr r : point_ok dot -> Forall dig int -> Forall dig (fdigits fr) ->
  (19 <? skip_leading dot (ascii int ++ point_text dot fr ++ r) (len int + len (fdigits fr))) = (19 <? len (sig (int ++ fdigits fr))).
Proof.
  intros P F1 F2. rewrite skip_digits by assumption. rewrite sig_app. destruct (sig int) as [|x s]; [|rewrite app_length; f_equal; lia].
  destruct fr as [fr|]; cbn [fdigits point_text] in *.
  - cbn [app skip_leading]. rewrite Z.eqb_refl, orb_true_r. destruct (Z.eqb_spec dot 48) as [E|E]; [destruct P as [P _]; lia|]. rewrite skip_digits by assumption. destruct (sig fr) as [|y s]; [|f_equal; lia].
    match goal with |- context[skip_leading dot r ?c] => pose proof (skip_le dot r c) end. cbn [length]. lia.
  - cbn [app sig]. match goal with |- context[skip_leading dot r ?c] => pose proof (skip_le dot r c) end. cbn [length] in *. lia.
Qed.
Lemma nineteen_ok ds : forall i, Forall dig ds -> 0 <= i < 10 ^ 19 ->
  exists a c, ds = a ++ c /\ nineteen (ascii ds) i = (ascii c, i * 10 ^ len a + digit_val a) /\ i * 10 ^ len a + digit_val a < 10 ^ 19 /\ (c = [] \/ 10 ^ 18 <= i * 10 ^ len a + digit_val a) /\ (a = [] \/ i < 10 ^ 18).
Proof.
  induction ds as [|d ds IH]; intros i F Hi.
  - exists [], []. cbn [app length]. change (10 ^ Z.of_nat 0) with 1. change (digit_val []) with 0. split; [reflexivity|]. split; [cbn [ascii map nineteen]; f_equal; lia|]. split; [lia|]. split; now left.
  - inversion_clear F as [|? ? Hd F']. unfold dig in Hd. cbn [ascii map nineteen]. fold (ascii ds). destruct (Z.ltb_spec i 1000000000000000000) as [L|L].
    + replace (i * 10 + (48 + d - 48)) with (i * 10 + d) by lia. unfold u64. rewrite Z.mod_small by lia.
      destruct (IH (i * 10 + d) F' ltac:(lia)) as (a & c & -> & E & H1 & H2 & H3). exists (d :: a), c. split; [reflexivity|]. rewrite E, dv_cons. cbn [length]. replace (Z.of_nat (S (length a))) with (len a + 1) by lia. rewrite Z.pow_add_r by lia. change (10 ^ 1) with 10.
      replace (i * (10 ^ len a * 10) + (d * 10 ^ len a + digit_val a)) with ((i * 10 + d) * 10 ^ len a + digit_val a) by ring. split; [reflexivity|]. split; [exact H1|]. split; [exact H2|]. right. lia.
    + exists [], (d :: ds). cbn [app length]. change (10 ^ Z.of_nat 0) with 1. change (digit_val []) with 0. split; [reflexivity|]. split; [cbn [ascii map]; f_equal; lia|]. split; [lia|]. split; [right; lia|now left].
Qed.

(** ** The exponent part *)
Definition is_e (c : Z) : Prop := c = 101 \/ c = 69.
Definition exp_at (o : options) (r : list Z) (c : Z) (s : option bool) (es rest : list Z) : Prop :=
  r = (c :: sign_char s ++ ascii es) ++ rest /\ has o chars_scientific = true /\ is_e c /\ es <> [] /\ Forall dig es.
Lemma ends_digit d l : dig d -> ~ ends ((48 + d) :: l).
Proof. unfold ends. cbn [at_]. intros H E. rewrite dig_int in E by exact H. discriminate E. Qed.
Lemma exp_unique o r c s es rest c' s' es' rest' : exp_at o r c s es rest -> ends rest -> exp_at o r c' s' es' rest' -> c' = c /\ s' = s /\ exists d, es = es' ++ d /\ rest' = ascii d ++ rest.
Proof.
  intros (E1 & _ & _ & N1 & F1) En (E2 & _ & _ & N2 & F2). rewrite E1 in E2. cbn [app] in E2. assert (E0 := f_equal (hd 0) E2). apply (f_equal (@tl Z)) in E2. cbn [hd tl] in E0, E2. split; [now symmetry|].
  rewrite <- !app_assoc in E2. destruct es as [|x es]; [contradiction|]. destruct es' as [|x' es']; [contradiction|].
  assert (X : dig x) by (now inversion F1). assert (X' : dig x') by (now inversion F2). unfold dig in X, X'. assert (E3 := f_equal (hd 0) E2).
  assert (Es : s' = s). { destruct s as [[|]|], s' as [[|]|]; try reflexivity; exfalso; cbn [sign_char app ascii map hd] in E3; lia. }
  split; [exact Es|]. subst s'. apply app_inv_head in E2. now apply prefix_digits in E2.
Qed.
Definition exp_value (s : option bool) (es : list Z) : Z := match s with Some true => - digit_val es | _ => digit_val es end.
Lemma exponent_ok o r :
  (exists c s es rest x, exp_at o r c s es rest /\ ends rest /\ parse_exponent o r = Some (rest, x) /\ capped (exp_value s es) x) \/
  ((forall c s es rest, ~ exp_at o r c s es rest) /\ parse_exponent o r = if has o chars_scientific && negb (has o chars_fixed) then None else Some (r, 0)).
Proof.
  unfold parse_exponent. destruct (has o chars_scientific) eqn:S; cbn [andb].
  2:{ right. split; [|reflexivity]. intros c s es rest (_ & H & _). congruence. }
  destruct (at_ r (fun c => (c =? 101) || (c =? 69))) eqn:A.
  2:{ right. split; [|reflexivity]. intros c s es rest (-> & _ & [-> | ->] & _); discriminate A. }
  destruct r as [|c r]; [discriminate A|]. cbn [at_] in A. cbn [tl]. assert (Ec : is_e c) by (unfold is_e; apply orb_prop in A; destruct A as [A|A]; apply Z.eqb_eq in A; auto).
  assert (G : exists s r', r = sign_char s ++ r' /\ (if at_ r (Z.eqb 45) then (true, tl r) else if at_ r (Z.eqb 43) then (false, tl r) else (false, r)) = (match s with Some true => true | _ => false end, r') /\ (s = None -> at_ r' (Z.eqb 45) = false /\ at_ r' (Z.eqb 43) = false)).
  { destruct r as [|x r]; [exists None, []; repeat split|]. cbn [at_ tl]. destruct (Z.eqb_spec 45 x) as [<-|N1]; [exists (Some true), r; repeat split; discriminate|]. destruct (Z.eqb_spec 43 x) as [<-|N2]; [exists (Some false), r; repeat split; discriminate|].
    exists None, (x :: r). split; [reflexivity|]. split; [reflexivity|]. intros _. cbn [at_]. split; apply Z.eqb_neq; assumption. }
  destruct G as (s & r' & -> & -> & Ns). destruct (span r') as (es & rest & -> & F & En). destruct es as [|d es].
  - right. cbn [ascii map app] in *. unfold ends in En. rewrite En. cbn [negb]. split; [|destruct (has o chars_fixed); reflexivity].
    intros c' s' es' rest' (E & _ & _ & N & F'). destruct es' as [|d' es']; [contradiction|]. assert (D' : dig d') by (now inversion F'). apply (f_equal (@tl Z)) in E. cbn [app tl] in E. rewrite <- app_assoc in E.
    assert (X : rest = ascii (d' :: es') ++ rest').
    { unfold dig in D'. destruct s as [b|].
      - assert (E3 := f_equal (hd 0) E). destruct s' as [b'|]; [|exfalso; cbn [ascii map app sign_char] in E3; destruct b; cbn [app hd] in E3; lia]. destruct b, b'; try (exfalso; cbn [sign_char app hd] in E3; lia); apply app_inv_head in E; exact E.
      - destruct s' as [b'|]; [|exact E]. exfalso. destruct (Ns eq_refl) as [N1 N2]. cbn [sign_char app] in E. rewrite E in N1, N2. destruct b'; [discriminate N1|discriminate N2]. }
    rewrite X in En. cbn [ascii map app at_] in En. rewrite dig_int in En by exact D'. discriminate En.
  - left. assert (D : dig d) by (now inversion F). cbn [ascii map app at_]. rewrite dig_int by exact D. cbn [negb]. fold (ascii es). change ((48 + d) :: ascii es ++ rest) with (ascii (d :: es) ++ rest).
    destruct (exp_digits_ok (d :: es) rest 0 F En ltac:(lia)) as (x & -> & X0 & X1 & X2). exists c, s, (d :: es), rest. eexists. split; [|split; [exact En|split; [reflexivity|]]].
    + split; [cbn [app]; now rewrite <- app_assoc|]. split; [exact S|]. split; [exact Ec|]. split; [discriminate|exact F].
    + pose proof (dv_bound (d :: es) F) as Bd. rewrite Z.mul_0_l, Z.add_0_l in X1, X2. unfold capped, exp_value. destruct s as [[|]|]; split; unfold CAP in *; lia.
Qed.

(** ** The whole function *)
(** the digits and the scaled value of what was parsed; [x] is the exponent as scanned *)
Definition scanned (num : parsed) (neg : bool) (int : list Z) (fr : option (list Z)) (x : Z) (rest : list Z) : Prop :=
  let n := digit_val (int ++ fdigits fr) in
  integer num = ascii int /\ fraction num = option_map ascii fr /\ negative num = neg /\ lastmatch num = rest /\
  (too_many_digits num = (19 <? len (sig (int ++ fdigits fr)))) /\
  (too_many_digits num = false -> mantissa_ num = n /\ n < 10 ^ 19 /\ exponent_ num = x - len (fdigits fr)) /\
  (too_many_digits num = true -> exists k, 0 <= k /\ exponent_ num = x - len (fdigits fr) + k /\ 10 ^ 18 <= mantissa_ num < 10 ^ 19 /\
     mantissa_ num * 10 ^ k <= n < (mantissa_ num + 1) * 10 ^ k).

Lemma upto_app a r : upto (a ++ r) r = a.
Proof. unfold upto. rewrite app_length, Nat.add_sub, firstn_app, Nat.sub_diag, firstn_O, app_nil_r. apply firstn_all. Qed.
Lemma ends_point dot l : point_ok dot -> ends (dot :: l).
Proof. intros (H & _). unfold ends, is_integer. cbn [at_]. lia. Qed.
Lemma ends_e c l : is_e c -> ends (c :: l).
Proof. intros [-> | ->]; reflexivity. Qed.

(** the parts of any text: sign, digits, decimal point with digits, rest *)
Definition parts (dot : Z) (p : list Z) (neg : bool) (int : list Z) (fr : option (list Z)) (r : list Z) : Prop :=
  p = minus neg ++ ascii int ++ point_text dot fr ++ r /\ Forall dig int /\ Forall dig (fdigits fr) /\ ends r /\
  (fr = None -> at_ r (Z.eqb dot) = false) /\ (neg = false -> at_ p (Z.eqb 45) = false).
Lemma parts_exist dot p : exists neg int fr r, parts dot p neg int fr r.
Proof.
  assert (G : forall q, exists int fr r, q = ascii int ++ point_text dot fr ++ r /\ Forall dig int /\ Forall dig (fdigits fr) /\ ends r /\ (fr = None -> at_ r (Z.eqb dot) = false)).
  { intro q. destruct (span q) as (int & r & -> & F & En). destruct (at_ r (Z.eqb dot)) eqn:A.
    - destruct r as [|c r]; [discriminate A|]. cbn [at_] in A. apply Z.eqb_eq in A. subst c. destruct (span r) as (fr & r' & -> & F' & En'). exists int, (Some fr), r'. repeat split; try assumption. discriminate.
    - exists int, None, r. split; [reflexivity|]. split; [exact F|]. split; [constructor|]. split; [exact En|]. intros _. exact A. }
  destruct (at_ p (Z.eqb 45)) eqn:A.
  - destruct p as [|c p]; [discriminate A|]. cbn [at_] in A. apply Z.eqb_eq in A. subst c. destruct (G p) as (int & fr & r & -> & H1 & H2 & H3 & H4). exists true, int, fr, r. repeat split; try assumption. discriminate.
  - destruct (G p) as (int & fr & r & E & H1 & H2 & H3 & H4). exists false, int, fr, r. repeat split; auto.
Qed.

Lemma parse_parts t p o neg int fr r : p <> [] -> Forall byte p -> point_ok (decimal_point o) -> parts (decimal_point o) p neg int fr r ->
  (int ++ fdigits fr = [] -> parse_number_string t p o = Ok None) /\
  (int ++ fdigits fr <> [] ->
    match parse_exponent o r with
    | None => parse_number_string t p o = Ok None
    | Some (rest, x) => exists num, parse_number_string t p o = Ok (Some num) /\ scanned num neg int fr x rest
    end).
Proof.
  intros Np Fp P (Ep & F1 & F2 & En & Ndot & Nneg). set (dot := decimal_point o) in *.
  assert (D0 : deref p = Ok (hd 0 p)) by (destruct p; [contradiction|reflexivity]).
  assert (D1 : (hd 0 p =? 45) = neg). { destruct p as [|c p]; [contradiction|]. cbn [hd]. destruct neg; [cbn [minus app] in Ep; injection Ep as -> _; reflexivity|]. specialize (Nneg eq_refl). cbn [at_] in Nneg. lia. }
  set (q := ascii int ++ point_text dot fr ++ r) in *.
  assert (D2 : (if neg then tl p else p) = q) by (destruct neg; rewrite Ep; reflexivity).
  assert (Fq : Forall byte q) by (rewrite Ep in Fp; apply Forall_app in Fp; apply Fp).
  assert (Fr : Forall byte r) by (unfold q in Fq; apply Forall_app in Fq; destruct Fq as [_ Fq]; apply Forall_app in Fq; apply Fq).
  assert (En1 : ends (point_text dot fr ++ r)) by (destruct fr; [apply ends_point; exact P|exact En]).
  assert (G : int ++ fdigits fr <> [] -> at_ q (fun c => is_integer c || (c =? dot)) = true).
  { intro H. unfold q. destruct int as [|d int]; [|cbn [ascii map app at_]; rewrite dig_int by (now inversion F1); reflexivity]. destruct fr as [fr|]; [|contradiction H; reflexivity]. cbn [ascii map app point_text at_]. rewrite Z.eqb_refl. apply orb_true_r. }
  assert (S1 : (let '(p, i) := eight_digits t q 0 in one_digit p i) = (point_text dot fr ++ r, u64 (digit_val int))).
  { change 0 with (u64 0). unfold q. rewrite digits_ok; [|assumption|exact En1|unfold q in Fq; apply Forall_app in Fq; apply Fq]. rewrite Z.mul_0_l. reflexivity. }
  assert (U1 : upto q (point_text dot fr ++ r) = ascii int) by apply upto_app.
  pose (body := fun x : list Z * Z * Z * option (list Z) * Z => let '(p, i, exponent, frac, digit_count) := x in
    if digit_count =? 0 then Ok None
    else match parse_exponent o p with
    | None => Ok None
    | Some (p, exp_number) =>
        let exponent := exponent + exp_number in
        let last := p in
        if (19 <? digit_count) && (19 <? skip_leading dot q digit_count) then
          let '(p, i) := nineteen (ascii int) 0 in
          if 1000000000000000000 <=? i then
            Ok (Some (Parsed (len p + exp_number) i last neg true (ascii int) frac))
          else
            let fr := match frac with Some fr => fr | None => [] end in
            let '(p, i) := nineteen fr i in
            Ok (Some (Parsed (len p - len fr + exp_number) i last neg true (ascii int) frac))
        else Ok (Some (Parsed exponent i last neg false (ascii int) frac))
    end).
  assert (S2 : parse_number_string t p o =
    if neg && negb (at_ q (fun c => is_integer c || (c =? dot))) then Ok None
    else body (r, u64 (digit_val (int ++ fdigits fr)), - len (fdigits fr), option_map ascii fr, len int + len (fdigits fr))).
  { unfold parse_number_string. rewrite D0. cbn [bind]. fold dot. rewrite D1, D2. destruct (neg && _); [reflexivity|].
    destruct (eight_digits t q 0) as [p1 i1]. rewrite S1, U1. cbn beta. rewrite ascii_len. fold q. destruct fr as [fr|]; cbn [point_text app at_ fdigits option_map] in *.
    - rewrite Z.eqb_refl. cbn [tl]. pose proof (digits_ok t fr r (digit_val int) F2 En Fr) as S3. destruct (eight_digits t (ascii fr ++ r) (u64 (digit_val int))) as [p2 i2]. rewrite S3, upto_app, <- dv_app.
      replace (len r - len (ascii fr ++ r)) with (- len fr) by (rewrite app_length, ascii_len; lia). replace (len int - - len fr) with (len int + len fr) by lia. reflexivity.
    - rewrite (Ndot eq_refl). rewrite app_nil_r. cbn [length]. replace (len int + Z.of_nat 0) with (len int) by lia. reflexivity. }
  rewrite S2. split.
  - intro H. destruct (neg && _); [reflexivity|]. apply app_eq_nil in H. destruct H as [-> H]. rewrite H. reflexivity.
  - intro H. rewrite (G H), andb_false_r. unfold body. cbn beta iota. clear S2.
    assert (L0 : 0 < len int + len (fdigits fr)) by (destruct int; [destruct (fdigits fr); [contradiction H; reflexivity|cbn [length]; lia]|cbn [length]; lia]).
    destruct (Z.eqb_spec (len int + len (fdigits fr)) 0) as [E0|_]; [lia|]. destruct (parse_exponent o r) as [[rest x]|]; [|reflexivity].
    assert (T : (19 <? len int + len (fdigits fr)) && (19 <? skip_leading dot q (len int + len (fdigits fr))) = (19 <? len (sig (int ++ fdigits fr)))).
    { unfold q. rewrite skip_numeral by assumption. pose proof (sig_len (int ++ fdigits fr)) as L. rewrite app_length in L. destruct (Z.ltb_spec 19 (len (sig (int ++ fdigits fr)))); lia. }
    rewrite T. cbn zeta. assert (FA : Forall dig (int ++ fdigits fr)) by (apply Forall_app; now split). destruct (Z.ltb_spec 19 (len (sig (int ++ fdigits fr)))) as [L|L].
    + assert (N19 : 10 ^ 19 <= digit_val (int ++ fdigits fr)).
      { transitivity (10 ^ (len (sig (int ++ fdigits fr)) - 1)); [apply Z.pow_le_mono_r; lia|]. apply sig_low; [exact FA|]. intro E. rewrite E in L. cbn in L. lia. }
      destruct (nineteen_ok int 0 F1 ltac:(lia)) as (a & c & Ei & -> & B1 & B2 & _). rewrite Z.mul_0_l, Z.add_0_l in *.
      assert (Fac : Forall dig a /\ Forall dig c) by (rewrite Ei in F1; now apply Forall_app in F1). destruct Fac as [Fa Fc].
      destruct (Z.leb_spec 1000000000000000000 (digit_val a)) as [M|M].
      * eexists. split; [reflexivity|]. unfold scanned. cbn [integer fraction negative lastmatch too_many_digits mantissa_ exponent_]. split; [reflexivity|]. split; [reflexivity|]. split; [reflexivity|]. split; [reflexivity|]. split; [symmetry; apply Z.ltb_lt; exact L|]. split; [discriminate|]. intros _.
        exists (len c + len (fdigits fr)). split; [lia|]. split; [rewrite ascii_len; lia|]. split; [lia|].
        rewrite Ei, <- app_assoc, dv_app, app_length. replace (Z.of_nat (length c + length (fdigits fr))) with (len c + len (fdigits fr)) by lia. pose proof (dv_bound (c ++ fdigits fr)) as Bd. rewrite app_length in Bd. replace (Z.of_nat (length c + length (fdigits fr))) with (len c + len (fdigits fr)) in Bd by lia.
        assert (Bd' := Bd ltac:(apply Forall_app; now split)). lia.
      * assert (Ec : c = []) by (destruct B2 as [|B2]; [assumption|lia]). subst c. rewrite app_nil_r in Ei. subst a.
        assert (Efr : match option_map ascii fr with Some fr => fr | None => [] end = ascii (fdigits fr)) by (destruct fr; reflexivity). rewrite Efr. pose proof (dv_bound int F1) as Bi.
        destruct (nineteen_ok (fdigits fr) (digit_val int) F2 ltac:(lia)) as (a & c & Ef & E19 & B3 & B4 & _). rewrite E19.
        assert (Fac : Forall dig a /\ Forall dig c) by (rewrite Ef in F2; now apply Forall_app in F2). destruct Fac as [Fa' Fc'].
        assert (Em : digit_val int * 10 ^ len a + digit_val a = digit_val (int ++ a)) by (now rewrite dv_app). rewrite Em in *.
        eexists. split; [reflexivity|]. unfold scanned. cbn [integer fraction negative lastmatch too_many_digits mantissa_ exponent_]. split; [reflexivity|]. split; [reflexivity|]. split; [reflexivity|]. split; [reflexivity|]. split; [symmetry; apply Z.ltb_lt; exact L|]. split; [discriminate|]. intros _.
        exists (len c). split; [lia|]. split; [rewrite !ascii_len; lia|].
        rewrite Ef in N19 |- *. rewrite app_assoc, (dv_app (int ++ a) c) in N19 |- *. pose proof (dv_bound c Fc') as Bc. split; [|lia]. split; [|lia]. destruct B4 as [->|B4]; [|exact B4]. change (10 ^ len (@nil Z)) with 1 in N19. change (digit_val []) with 0 in N19. lia.
    + assert (N19 : digit_val (int ++ fdigits fr) < 10 ^ 19).
      { rewrite <- sig_val. eapply Z.lt_le_trans; [apply dv_bound, sig_dig, FA|]. apply Z.pow_le_mono_r; lia. }
      pose proof (dv_bound _ FA) as Bd. eexists. split; [reflexivity|]. unfold scanned. cbn [integer fraction negative lastmatch too_many_digits mantissa_ exponent_]. split; [reflexivity|]. split; [reflexivity|]. split; [reflexivity|]. split; [reflexivity|]. split; [symmetry; apply Z.ltb_ge; exact L|]. split; [|discriminate]. intros _.
      split; [unfold u64; apply Z.mod_small; lia|]. split; [exact N19|lia].
Qed.

(** numerals at the start of a text, given its parts *)
Lemma numeral_parts o p neg int fr r n' rest' : point_ok (decimal_point o) -> parts (decimal_point o) p neg int fr r -> allowed o n' -> p = numeral_text (decimal_point o) n' ++ rest' ->
  nneg n' = neg /\
  ((exists c s es, nint n' = int /\ nfrac n' = fr /\ nexp n' = Some (c, s, es) /\ exp_at o r c s es rest') \/
   (nexp n' = None /\ nint n' = int /\ nfrac n' = fr /\ rest' = r) \/
   (nexp n' = None /\ (length (ascii (nint n') ++ point_text (decimal_point o) (nfrac n')) < length (ascii int ++ point_text (decimal_point o) fr))%nat /\
      (exists d, int = nint n' ++ d) /\ match nfrac n' with None => True | Some f => nint n' = int /\ exists g d, fr = Some g /\ g = f ++ d end)).
Proof.
  intros P (Ep & F1 & F2 & En & Ndot & Nneg) ((W1 & W2 & W3 & W4) & Nd & Ax) E. set (dot := decimal_point o) in *. destruct n' as [neg' int' fr' ex']. unfold numeral_text in E. cbn [nneg nint nfrac nexp frac_digits exp_digs] in *.
  assert (Eneg : neg' = neg).
  { destruct neg'; cbn [minus app] in E; destruct neg; try reflexivity; exfalso.
    - specialize (Nneg eq_refl). rewrite E in Nneg. discriminate Nneg.
    - rewrite Ep in E. cbn [minus app] in E. destruct int' as [|x int']; [|assert (X : dig x) by (now inversion W1); apply (f_equal (hd 0)) in E; cbn [ascii map app hd] in E; unfold dig in X; lia].
      destruct fr' as [fr'|]; [|contradiction Nd; reflexivity]. apply (f_equal (hd 0)) in E. cbn [ascii map app point_text hd] in E. destruct P as (_ & P & _). lia. }
  split; [exact Eneg|]. subst neg'. rewrite Ep in E. rewrite <- !app_assoc in E. apply app_inv_head in E.
  assert (En1 : ends (point_text dot fr ++ r)) by (destruct fr; [apply ends_point; exact P|exact En]).
  assert (XE : forall ex'', ex'' = ex' -> forall r2, exp_part ex' ++ rest' = r2 -> ex' <> None -> r2 = r -> exists c s es, ex' = Some (c, s, es) /\ exp_at o r c s es rest').
  { intros ex'' _ r2 E2 N2 ->. destruct ex' as [[[c s] es]|]; [|contradiction]. exists c, s, es. split; [reflexivity|]. destruct Ax as [A1 A2]. split; [symmetry; exact E2|]. split; [exact A1|]. split; [exact W4|]. split; [exact A2|exact W3]. }
  destruct (prefix_digits _ _ _ _ E En1 W1) as (d & Ei & E').
  assert (EE : ex' <> None -> ends (exp_part ex' ++ rest')) by (destruct ex' as [[[c s] es]|]; [intros _; apply ends_e; exact W4|intro H; contradiction H; reflexivity]).
  assert (Dnil : ends (point_text dot fr' ++ exp_part ex' ++ rest') -> d = []).
  { intro H. rewrite E' in H. destruct d as [|x d]; [reflexivity|]. exfalso. assert (X : dig x) by (rewrite Ei in F1; apply Forall_app in F1; destruct F1 as [_ F1]; now inversion F1). now apply (ends_digit x _ X) in H. }
  destruct fr' as [f'|].
  - rewrite (Dnil (ends_point dot _ P)) in *. rewrite app_nil_r in Ei. cbn [ascii map app point_text] in E'. destruct fr as [f|]; [|exfalso; specialize (Ndot eq_refl); cbn [point_text app] in E'; rewrite <- E' in Ndot; cbn [at_] in Ndot; now rewrite Z.eqb_refl in Ndot].
    cbn [point_text app fdigits] in *. injection E' as E'. destruct (prefix_digits _ _ _ _ (eq_sym E') En W2) as (d2 & Ef & E2). destruct ex' as [ex'|].
    + assert (d2 = []) as ->. { specialize (EE ltac:(discriminate)). rewrite E2 in EE. destruct d2 as [|x d2]; [reflexivity|]. exfalso. assert (X : dig x) by (rewrite Ef in F2; apply Forall_app in F2; destruct F2 as [_ F2]; now inversion F2). now apply (ends_digit x _ X) in EE. }
      rewrite app_nil_r in Ef. cbn [ascii map app] in E2. left. destruct (XE _ eq_refl _ eq_refl ltac:(discriminate) E2) as (c & s & es & H1 & H2). exists c, s, es. subst. auto.
    + cbn [exp_part app] in E2. right. destruct d2 as [|x d2]; [left; rewrite app_nil_r in Ef; subst; auto|]. right. split; [reflexivity|]. split; [subst; rewrite !app_length; cbn [length]; rewrite !ascii_len, app_length; cbn [length]; lia|]. split; [exists []; rewrite app_nil_r; auto|]. split; [auto|]. exists f, (x :: d2). auto.
  - cbn [point_text app] in *. destruct ex' as [ex'|].
    + rewrite (Dnil (EE ltac:(discriminate))) in *. rewrite app_nil_r in Ei. cbn [ascii map app] in E'. assert (fr = None) as ->. { destruct fr as [f|]; [|reflexivity]. exfalso. destruct ex' as [[c s] es]. cbn [point_text app exp_part] in E'. injection E' as E' _. destruct P as (_ & _ & P1 & P2). destruct W4 as [-> | ->]; lia. }
      cbn [point_text app] in *. left. destruct (XE _ eq_refl _ eq_refl ltac:(discriminate) E') as (c & s & es & H1 & H2). exists c, s, es. subst. auto.
    + cbn [exp_part app] in E'. right. destruct d as [|x d].
      * rewrite app_nil_r in Ei. cbn [ascii map app] in E'. destruct fr as [f|]; [|left; subst; auto]. right. split; [reflexivity|]. split; [subst; rewrite !app_length; cbn [point_text length]; lia|]. split; [exists []; rewrite app_nil_r; auto|exact I].
      * right. split; [reflexivity|]. split; [subst; rewrite !app_length, !ascii_len, app_length; cbn [length]; lia|]. split; [eauto|exact I].
Qed.

Lemma text_length dot n : length (numeral_text dot n) = (length (minus (nneg n)) + length (ascii (nint n) ++ point_text dot (nfrac n)) + length (exp_part (nexp n)))%nat.
Proof. unfold numeral_text. rewrite !app_length. lia. Qed.
Lemma parse_number_string_ok t p o : p <> [] -> Forall byte p -> point_ok (decimal_point o) ->
  (exists n rest num x, longest o p n rest /\ (forall n' rest', longest o p n' rest' -> n' = n /\ rest' = rest) /\
     parse_number_string t p o = Ok (Some num) /\ scanned num (nneg n) (nint n) (nfrac n) x rest /\ capped (exp_val n) x) \/
  (parse_number_string t p o = Ok None /\ forall n rest, p = numeral_text (decimal_point o) n ++ rest -> ~ allowed o n).
Proof.
  intros Np Fp P. destruct (parts_exist (decimal_point o) p) as (neg & int & fr & r & Hp). destruct (parse_parts t p o neg int fr r Np Fp P Hp) as [PN PS].
  pose proof (fun n' rest' => numeral_parts o p neg int fr r n' rest' P Hp) as NP. destruct Hp as (Ep & F1 & F2 & En & _).
  destruct (int ++ fdigits fr) as [|d0 ds0] eqn:Ed.
  - right. split; [auto|]. intros n rest E A. destruct (NP n rest A E) as [_ H]. destruct A as (_ & Nd & _). apply app_eq_nil in Ed. destruct Ed as [-> Ef]. apply Nd. unfold frac_digits.
    destruct H as [(c & s & es & -> & -> & _)|[(_ & -> & -> & _)|(_ & _ & (d & Hd) & H)]]; [exact Ef|exact Ef|]. symmetry in Hd. apply app_eq_nil in Hd. destruct Hd as [-> _]. destruct (nfrac n) as [f|]; [|reflexivity]. destruct H as (_ & g & d' & -> & ->). cbn [fdigits] in Ef. apply app_eq_nil in Ef. now destruct Ef as [-> _].
  - assert (Nd : int ++ fdigits fr <> []) by (rewrite Ed; discriminate). rewrite <- Ed in *. clear d0 ds0 Ed. specialize (PS Nd).
    destruct (exponent_ok o r) as [(c & s & es & rest & x & XA & Er & Ex & Cx)|[NX Ex]]; rewrite Ex in PS.
    + destruct PS as (num & PS & SC). left. exists (Num neg int fr (Some (c, s, es))), rest, num, x. cbn [nneg nint nfrac nexp].
      assert (AL : allowed o (Num neg int fr (Some (c, s, es)))). { destruct XA as (_ & A1 & A2 & A3 & A4). unfold allowed, wf, frac_digits, exp_digs. cbn [nneg nint nfrac nexp]. repeat split; assumption. }
      assert (TX : p = numeral_text (decimal_point o) (Num neg int fr (Some (c, s, es))) ++ rest). { unfold numeral_text. cbn [nneg nint nfrac nexp exp_part]. rewrite Ep. destruct XA as (-> & _). rewrite <- !app_assoc. reflexivity. }
      assert (CMP : forall n' rest', allowed o n' -> p = numeral_text (decimal_point o) n' ++ rest' ->
        (length (numeral_text (decimal_point o) n') < length (numeral_text (decimal_point o) (Num neg int fr (Some (c, s, es)))))%nat \/ (n' = Num neg int fr (Some (c, s, es)) /\ rest' = rest)).
      { intros n' rest' A' E'. destruct (NP n' rest' A' E') as [Hn H]. rewrite !text_length, Hn. cbn [nneg nint nfrac nexp exp_part]. destruct n' as [ng' i' f' e']. cbn [nneg nint nfrac nexp] in *.
        destruct H as [(c' & s' & es' & -> & -> & -> & X')|[(-> & -> & -> & _)|(-> & L & _)]].
        - destruct (exp_unique _ _ _ _ _ _ _ _ _ _ XA Er X') as (-> & -> & d & -> & ->). destruct d as [|y d]; [right; rewrite app_nil_r in *; subst; auto|]. left. cbn [exp_part length]. rewrite !app_length, !ascii_len, !app_length. cbn [length]. lia.
        - left. cbn [exp_part length]. lia.
        - left. cbn [exp_part length]. lia. }
      assert (LG : longest o p (Num neg int fr (Some (c, s, es))) rest). { split; [exact TX|]. split; [exact AL|]. intros n' rest' A' E'. destruct (CMP n' rest' A' E') as [L|[-> _]]; lia. }
      split; [exact LG|]. split; [|split; [exact PS|split; [exact SC|exact Cx]]].
      intros n' rest' (E' & A' & M'). destruct (CMP n' rest' A' E') as [L|H]; [|exact H]. exfalso. specialize (M' _ _ AL TX). lia.
    + destruct (has o chars_scientific && negb (has o chars_fixed)) eqn:Fmt.
      * right. split; [exact PS|]. intros n rest E A. destruct (NP n rest A E) as [_ H]. destruct A as (_ & _ & Ax). apply andb_prop in Fmt. destruct Fmt as [M1 M2]. apply negb_true_iff in M2.
        destruct H as [(c & s & es & _ & _ & _ & X)|[(N & _)|(N & _)]]; [exact (NX _ _ _ _ X)| |]; rewrite N in Ax; tauto.
      * destruct PS as (num & PS & SC). left. exists (Num neg int fr None), r, num, 0. cbn [nneg nint nfrac nexp].
        assert (AL : allowed o (Num neg int fr None)). { unfold allowed, wf, frac_digits, exp_digs. cbn [nneg nint nfrac nexp]. split; [repeat split; [exact F1|exact F2|constructor]|]. split; [exact Nd|]. intros [M1 M2]. rewrite M1, M2 in Fmt. discriminate Fmt. }
        assert (TX : p = numeral_text (decimal_point o) (Num neg int fr None) ++ r). { unfold numeral_text. cbn [nneg nint nfrac nexp exp_part]. rewrite app_nil_r, Ep, <- !app_assoc. reflexivity. }
        assert (CMP : forall n' rest', allowed o n' -> p = numeral_text (decimal_point o) n' ++ rest' ->
          (length (numeral_text (decimal_point o) n') < length (numeral_text (decimal_point o) (Num neg int fr None)))%nat \/ (n' = Num neg int fr None /\ rest' = r)).
        { intros n' rest' A' E'. destruct (NP n' rest' A' E') as [Hn H]. rewrite !text_length, Hn. cbn [nneg nint nfrac nexp exp_part]. destruct n' as [ng' i' f' e']. cbn [nneg nint nfrac nexp] in *.
          destruct H as [(c' & s' & es' & _ & _ & _ & X')|[(-> & -> & -> & ->)|(-> & L & _)]]; [exfalso; exact (NX _ _ _ _ X')|right; subst; auto|left; cbn [exp_part length]; lia]. }
        assert (LG : longest o p (Num neg int fr None) r). { split; [exact TX|]. split; [exact AL|]. intros n' rest' A' E'. destruct (CMP n' rest' A' E') as [L|[-> _]]; lia. }
        split; [exact LG|]. split; [|split; [exact PS|split; [exact SC|]]].
        -- intros n' rest' (E' & A' & M'). destruct (CMP n' rest' A' E') as [L|H]; [|exact H]. exfalso. specialize (M' _ _ AL TX). lia.
        -- unfold capped, exp_val, CAP. cbn [nexp]. lia.
Qed.
