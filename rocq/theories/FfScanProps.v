(** C64, C65: the big integers of fast_float, and its scanner. *)
From Coq Require Import ZArith List Bool Lia.
From Verif Require Import Mem RyuText RyuArith RyuScan FfModel FfWord FfBig FfScan.
Import ListNotations.
Open Scope Z_scope.
Local Notation len l := (Z.of_nat (length l)).

(** ** C64: bigint *)
(** the number a vector of limbs stands for, least significant limb first *)
Fixpoint number (bits : Z) (v : list Z) : Z := match v with [] => 0 | x :: r => x + 2 ^ bits * number bits r end.
(** [v] is the representation of [n] that bigint keeps: limbs in range, none at the top zero *)
Definition represents (t : target) (v : list Z) (n : Z) : Prop :=
  Forall (fun x => 0 <= x < 2 ^ limb_bits t) v /\ (v <> [] -> last v 0 <> 0) /\ number (limb_bits t) v = n.
(** what fits: 62 limbs of 64 bits or 125 of 32 bits *)
Definition room (t : target) : Z := if is_64bit t then 2 ^ 3968 else 2 ^ 4000.

Lemma number_bv t v : number (limb_bits t) v = bv t v.
Proof. induction v as [|x v IH]; [reflexivity|]. cbn [number bv]. now rewrite IH. Qed.
Lemma room_cap t : room t = (2 ^ limb_bits t) ^ capacity t.
Proof. unfold room, capacity, limb_bits. destruct (is_64bit t); rewrite <- Z.pow_mul_r by (vm_compute; discriminate); reflexivity. Qed.
Lemma represents_big t v n : represents t v n <-> big t v n.
Proof.
  unfold represents, big, norm. rewrite number_bv. split; intros (F & N & E); (split; [exact F|]); (split; [|exact E]); intro Nv; specialize (N Nv); destruct v as [|x r _] using rev_ind; try contradiction; rewrite last_last in *.
  - pose proof F as F'. apply Forall_app in F'. destruct F' as [Fr Fx]. inversion_clear Fx as [|? ? Hx _]. rewrite bv_app, app_length. cbn [length bv]. replace (Z.of_nat (length r + 1) - 1) with (len r) by lia. pose proof (bv_bound t r Fr). pose proof (Bk t (len r) ltac:(lia)). nia.
  - intros ->. rewrite bv_app, app_length in N. cbn [length bv] in N. replace (Z.of_nat (length r + 1) - 1) with (len r) in N by lia. apply Forall_app in F. destruct F as [Fr _]. pose proof (bv_bound t r Fr). lia.
Qed.

(** Every operation succeeds and computes with the numbers represented, for all of them, as long as
    the result fits; compare orders them. *)
Theorem C64_arithmetic : forall t v n, represents t v n ->
  (forall x, 0 <= x < 2 ^ 64 -> represents t (bigint_of t x) x) /\
  (forall y, 0 <= y < 2 ^ limb_bits t -> n + y < room t -> exists r, small_add t v y = (true, r) /\ represents t r (n + y)) /\
  (forall y, 1 <= y < 2 ^ limb_bits t -> n * y < room t -> exists r, small_mul t v y = (true, r) /\ represents t r (n * y)) /\
  (forall e, 0 < n -> 0 <= e -> n * 2 ^ e < room t -> exists r, big_shl t v e = (true, r) /\ represents t r (n * 2 ^ e)) /\
  (forall e, 0 < n -> 0 <= e -> n * 5 ^ e < room t -> exists r, big_pow5 t v e = (true, r) /\ represents t r (n * 5 ^ e)) /\
  (forall e, 0 < n -> 0 <= e -> n * 10 ^ e < room t -> exists r, big_pow10 t v e = (true, r) /\ represents t r (n * 10 ^ e)) /\
  (forall w m, represents t w m -> big_compare v w = match n ?= m with Lt => -1 | Eq => 0 | Gt => 1 end).
Proof.
  intros t v n Hv. rewrite room_cap. apply represents_big in Hv. refine (conj _ (conj _ (conj _ (conj _ (conj _ (conj _ _)))))).
  - intros x Hx. apply represents_big, bigint_of_ok. exact Hx.
  - intros y Hy H. destruct (small_add_ok t v n y Hv Hy H) as (r & E & R). exists r. split; [exact E|now apply represents_big].
  - intros y Hy H. destruct (small_mul_ok t v n y Hv Hy H) as (r & E & R). exists r. split; [exact E|now apply represents_big].
  - intros e Hn He H. destruct (big_shl_ok t v n e Hv Hn He H) as (r & E & R). exists r. split; [exact E|now apply represents_big].
  - intros e Hn He H. destruct (big_pow5_ok t v n e Hv Hn He H) as (r & E & R). exists r. split; [exact E|now apply represents_big].
  - intros e Hn He H. destruct (big_pow10_ok t v n e Hv Hn He H) as (r & E & R). exists r. split; [exact E|now apply represents_big].
  - intros w m Hw. apply big_compare_ok with t; [exact Hv|now apply represents_big].
Qed.
Print Assumptions C64_arithmetic.

(** hi64 is the number's top 64 bits, shifted up if it has fewer, and whether anything was cut off below; bit_length its number of bits *)
Theorem C64_top_bits : forall t v n, represents t v n -> 0 < n ->
  exists h s, hi64 t v = Ok (h, s) /\ 2 ^ 63 <= h < 2 ^ 64 /\
    bit_length t v = Ok (Z.log2 n + 1) /\
    (Z.log2 n + 1 <= 64 -> h = n * 2 ^ (63 - Z.log2 n) /\ s = false) /\
    (64 < Z.log2 n + 1 -> h * 2 ^ (Z.log2 n - 63) <= n < (h + 1) * 2 ^ (Z.log2 n - 63) /\ (s = true <-> h * 2 ^ (Z.log2 n - 63) < n)).
Proof.
  intros t v n Hv Hn. apply represents_big in Hv. exists (top64 n), (low_bits n). rewrite (hi64_ok t v n Hv Hn), (bit_length_ok t v n Hv Hn). split; [reflexivity|].
  pose proof (Z.log2_spec n Hn) as L. pose proof (Z.log2_nonneg n) as L0. unfold top64, low_bits. destruct (Z.leb_spec (Z.log2 n + 1) 64) as [C|C].
  - replace (64 - (Z.log2 n + 1)) with (63 - Z.log2 n) by lia. assert (P : 0 < 2 ^ (63 - Z.log2 n)) by (apply Z.pow_pos_nonneg; lia).
    split; [|split; [reflexivity|split; [auto|lia]]]. replace (2 ^ 63) with (2 ^ Z.log2 n * 2 ^ (63 - Z.log2 n)) by (rewrite <- Z.pow_add_r by lia; f_equal; lia). replace (2 ^ 64) with (2 ^ Z.succ (Z.log2 n) * 2 ^ (63 - Z.log2 n)) by (rewrite <- Z.pow_add_r by lia; f_equal; lia). nia.
  - replace (Z.log2 n + 1 - 64) with (Z.log2 n - 63) by lia. assert (P : 0 < 2 ^ (Z.log2 n - 63)) by (apply Z.pow_pos_nonneg; lia). pose proof (Z.div_mod n (2 ^ (Z.log2 n - 63)) ltac:(lia)) as D. pose proof (Z.mod_pos_bound n _ P) as M.
    set (q := n / 2 ^ (Z.log2 n - 63)) in *. set (r := n mod 2 ^ (Z.log2 n - 63)) in *.
    assert (L1 : 2 ^ 63 * 2 ^ (Z.log2 n - 63) <= n) by (rewrite <- Z.pow_add_r by lia; replace (63 + (Z.log2 n - 63)) with (Z.log2 n) by lia; lia).
    assert (L2 : n < 2 ^ 64 * 2 ^ (Z.log2 n - 63)) by (rewrite <- Z.pow_add_r by lia; replace (64 + (Z.log2 n - 63)) with (Z.succ (Z.log2 n)) by lia; lia).
    split; [clearbody q r; nia|]. split; [reflexivity|]. split; [lia|]. intros _. split; [lia|]. rewrite negb_true_iff, Z.eqb_neq. lia.
Qed.
Print Assumptions C64_top_bits.

(** 2^63 times 10^30 on the three kinds of machine, its top bits, and what happens without room *)
Example C64_case :
  let m64 := Target false true false in let m32 := Target false false false in let vs := Target false true true in
  represents m64 [0; 2 ^ 63] (2 ^ 127) /\
  big_pow10 m64 [2 ^ 63] 30 = (true, [0; 2538472135152631808; 27105054312]) /\
  big_pow10 vs [2 ^ 63] 30 = (true, [0; 2538472135152631808; 27105054312]) /\
  big_pow10 m32 [0; 2 ^ 31] 30 = (true, [0; 0; 536870912; 591034101; 1335250536; 6]) /\
  hi64 m64 [0; 2538472135152631808; 27105054312] = Ok (14551915228366851806, true) /\
  bit_length m64 [0; 2538472135152631808; 27105054312] = Ok 163 /\
  big_compare [5; 1] [7] = 1 /\
  fst (big_pow5 m64 (repeat 1 61) 27) = true /\ fst (big_pow5 m64 (repeat 8 62) 27) = false.
Proof. split; [split; [repeat constructor; vm_compute; congruence|split; [cbn; lia|reflexivity]]|]. vm_compute. repeat split. Qed.

(** ** C65: parse_number_string *)
(** For every text and every decimal point that is not a digit, sign or exponent letter: the scanner finds the longest
    numeral the format allows at the start of the text - there is only one - or says so if there is none.
    Its sign, its digits and the text behind it are reported.  Up to 19 significant digits, mantissa and exponent are
    the numeral's value; beyond, the leading 19 digits are, and the flag is set.  An exponent of 0x10000000 and more is
    only known to be that large. *)
Theorem C65_scan : forall t text o, text <> [] -> Forall byte text -> point_ok (decimal_point o) ->
  (exists n rest num x, longest o text n rest /\ (forall n' rest', longest o text n' rest' -> n' = n /\ rest' = rest) /\
     parse_number_string t text o = Ok (Some num) /\
     negative num = nneg n /\ lastmatch num = rest /\ integer num = ascii (nint n) /\ fraction num = option_map ascii (nfrac n) /\
     ((Z.abs (exp_val n) < 0x10000000 -> x = exp_val n) /\ (0x10000000 <= exp_val n -> 0x10000000 <= x) /\ (exp_val n <= - 0x10000000 -> x <= - 0x10000000)) /\
     (digit_val (nint n ++ frac_digits n) < 10 ^ 19 ->
        too_many_digits num = false /\ mantissa_ num = digit_val (nint n ++ frac_digits n) /\ exponent_ num = x - len (frac_digits n)) /\
     (10 ^ 19 <= digit_val (nint n ++ frac_digits n) ->
        too_many_digits num = true /\ 10 ^ 18 <= mantissa_ num < 10 ^ 19 /\
        exists k, 0 <= k /\ exponent_ num = x - len (frac_digits n) + k /\
          mantissa_ num * 10 ^ k <= digit_val (nint n ++ frac_digits n) < (mantissa_ num + 1) * 10 ^ k)) \/
  (parse_number_string t text o = Ok None /\ forall n rest, text = numeral_text (decimal_point o) n ++ rest -> ~ allowed o n).
Proof.
  intros t text o Nt Ft Po. destruct (parse_number_string_ok t text o Nt Ft Po) as [(n & rest & num & x & LG & UQ & PN & SC & CP)|H]; [left|now right]. exists n, rest, num, x. destruct SC as (S1 & S2 & S3 & S4 & S5 & S6 & S7).
  split; [exact LG|]. split; [exact UQ|]. split; [exact PN|]. split; [exact S3|]. split; [exact S4|]. split; [exact S1|]. split; [exact S2|]. split; [exact CP|].
  assert (Ff : fdigits (nfrac n) = frac_digits n) by reflexivity. rewrite Ff in *. destruct LG as (_ & ((W1 & W2 & _) & _) & _). assert (FA : Forall dig (nint n ++ frac_digits n)) by (apply Forall_app; now split).
  split; intro H.
  - assert (T : too_many_digits num = false).
    { rewrite S5. apply Z.ltb_ge. destruct (Z.le_gt_cases (len (sig (nint n ++ frac_digits n))) 19) as [L|L]; [exact L|]. exfalso. assert (10 ^ 19 <= 10 ^ (len (sig (nint n ++ frac_digits n)) - 1)) by (apply Z.pow_le_mono_r; lia).
      assert (10 ^ (len (sig (nint n ++ frac_digits n)) - 1) <= digit_val (nint n ++ frac_digits n)) by (apply sig_low; [exact FA|]; intro E; rewrite E in L; cbn in L; lia). lia. }
    split; [exact T|]. destruct (S6 T) as (A & _ & B). auto.
  - assert (T : too_many_digits num = true).
    { rewrite S5. apply Z.ltb_lt. destruct (Z.le_gt_cases (len (sig (nint n ++ frac_digits n))) 19) as [L|L]; [|exact L]. exfalso. pose proof (dv_bound _ (sig_dig _ FA)) as Bd. rewrite sig_val in Bd. assert (10 ^ len (sig (nint n ++ frac_digits n)) <= 10 ^ 19) by (apply Z.pow_le_mono_r; lia). lia. }
    split; [exact T|]. destruct (S7 T) as (k & K0 & K1 & K2 & K3). split; [exact K2|]. exists k. auto.
Qed.
Print Assumptions C65_scan.

(** "-00.25e+3x"; "1e" keeps the 1 when fixed is allowed and is rejected when not; "." ; a comma; 20 digits; a huge exponent *)
Example C65_case : let t := Target false true false in let g := Options chars_general 46 in
  longest g [45; 48; 48; 46; 50; 53; 101; 43; 51; 120] (Num true [0; 0] (Some [2; 5]) (Some (101, Some false, [3]))) [120] /\
  parse_number_string t [45; 48; 48; 46; 50; 53; 101; 43; 51; 120] g = Ok (Some (Parsed 1 25 [120] true false [48; 48] (Some [50; 53]))) /\
  parse_number_string t [49; 101] g = Ok (Some (Parsed 0 1 [101] false false [49] None)) /\
  parse_number_string t [49; 101] (Options chars_scientific 46) = Ok None /\
  parse_number_string t [49; 101; 50] (Options chars_fixed 46) = Ok (Some (Parsed 0 1 [101; 50] false false [49] None)) /\
  parse_number_string t [46] g = Ok None /\
  parse_number_string t [49; 44; 53] (Options chars_general 44) = Ok (Some (Parsed (-1) 15 [] false false [49] (Some [53]))) /\
  parse_number_string t (ascii (repeat 7 20)) g = Ok (Some (Parsed 1 7777777777777777777 [] false true (ascii (repeat 7 20)) None)) /\
  parse_number_string t (ascii [1] ++ 101 :: ascii (repeat 9 30)) g = Ok (Some (Parsed 999999999 1 [] false false [49] None)).
Proof.
  split; [|vm_compute; repeat split].
  destruct (C65_scan (Target false true false) [45; 48; 48; 46; 50; 53; 101; 43; 51; 120] (Options chars_general 46) ltac:(discriminate)) as [(n & rest & num & x & LG & _ & E & H1 & H2 & H3 & H4 & _)|[E _]]; [repeat constructor; vm_compute; discriminate|unfold point_ok; cbn; lia| |vm_compute in E; discriminate E].
  vm_compute in E. injection E as <-. cbn in H1, H2, H3, H4. pose proof LG as (T & ((W1 & W2 & W3 & W4) & _ & Ax) & _). destruct n as [ng ni nf ne]. cbn [nneg nint nfrac nexp frac_digits exp_digs] in *. subst ng rest.
  assert (INJ : forall a b, ascii a = ascii b -> a = b). { induction a as [|y a IH]; intros [|z b] X; try discriminate X; [reflexivity|]. assert (X0 := f_equal (hd 0) X). apply (f_equal (@tl Z)) in X. cbn [ascii map hd tl] in X0, X. f_equal; [lia|now apply IH]. }
  assert (ni = [0; 0]) as -> by (apply INJ; now rewrite <- H3). assert (nf = Some [2; 5]) as -> by (destruct nf as [nf|]; [|discriminate H4]; cbn in H4; injection H4 as H4; f_equal; apply INJ; now rewrite <- H4).
  assert (XA : exp_part ne = exp_part (Some (101, Some false, [3]))). { unfold numeral_text in T. cbn [nneg nint nfrac nexp] in T. change [45; 48; 48; 46; 50; 53; 101; 43; 51; 120] with ((([45; 48; 48; 46; 50; 53]) ++ [101; 43; 51]) ++ [120]) in T. apply app_inv_tail in T. change (minus true ++ ascii [0; 0] ++ point_text (decimal_point (Options chars_general 46)) (Some [2; 5]) ++ exp_part ne) with ([45; 48; 48; 46; 50; 53] ++ exp_part ne) in T. apply app_inv_head in T. now rewrite <- T. }
  destruct ne as [[[c s] es]|]; [|discriminate XA]. cbn [exp_part] in XA. assert (X0 := f_equal (hd 0) XA). apply (f_equal (@tl Z)) in XA. cbn [hd tl] in X0, XA. subst c.
  destruct es as [|d es]; [destruct Ax as [_ Ax]; contradiction|]. assert (D : dig d) by (now inversion W3). unfold dig in D. assert (X1 := f_equal (hd 0) XA).
  assert (s = Some false) as -> by (destruct s as [[|]|]; [exfalso; cbn in X1; lia|reflexivity|exfalso; cbn [sign_char app ascii map hd] in X1; lia]). apply app_inv_head in XA. apply INJ in XA. rewrite XA in LG. exact LG.
Qed.
