(** C85: what os << x appends, for every type of x. *)
From Coq Require Import ZArith List Bool Lia.
From Flocq Require Import IEEE754.Binary.
From Verif Require Import Mem VecModel StrModel StrSpec IntStrModel IntStrSpec IntStrProofs FpModel FpProofs RyuFmtModel RyuText SsModel SsSpec SsProofs TyModel TraitModel TraitSpec OstrModel.
Import ListNotations.
Open Scope Z_scope.
Local Notation len l := (Z.of_nat (length l)).

(** A platform as nanocstdint.h assumes it: 8-bit char, 16-bit short, 32-bit int, 64-bit long long.  Nothing is said about long, wchar_t
    and the sign of char. *)
Definition nano_platform (p : plat) : Prop :=
  standard p /\ p_bits p SChar = 8 /\ p_bits p Short = 16 /\ p_bits p Int = 32 /\ p_bits p LLong = 64.

(** ** Overload resolution *)
(** A call is resolved iff one candidate converts better than all others. *)
Lemma resolve_spec {F} (dec : forall f g : F, {f = g} + {f <> g}) (c : F -> option nat) fs : NoDup fs -> forall f,
  resolve c fs = Some f <-> In f fs /\ exists n, c f = Some n /\ forall g m, In g fs -> g <> f -> c g = Some m -> (n < m)%nat.
Proof.
  intros ND f.
  assert (K : forall g, In g (filter (least c fs) fs) <-> In g fs /\ exists n, c g = Some n /\ forall h m, In h fs -> c h = Some m -> (n <= m)%nat).
  { intro g. rewrite filter_In. unfold least. split.
    - intros [H1 H2]. split; [exact H1|]. destruct (c g) as [n|]; [|discriminate H2]. exists n. split; [reflexivity|]. intros h m Hh Hm. rewrite forallb_forall in H2. specialize (H2 h Hh). rewrite Hm in H2. now apply Nat.leb_le.
    - intros [H1 (n & H2 & H3)]. split; [exact H1|]. rewrite H2. apply forallb_forall. intros h Hh. destruct (c h) as [m|] eqn:Hm; [|reflexivity]. apply Nat.leb_le. eauto. }
  unfold resolve. pose proof (NoDup_filter (least c fs) ND) as NF. split.
  - destruct (filter (least c fs) fs) as [|g [|h l]] eqn:E; try discriminate. intro H. injection H as ->.
    destruct (proj1 (K f) (or_introl eq_refl)) as (H1 & n & H2 & H3). split; [exact H1|]. exists n. split; [exact H2|]. intros g m Hg Ng Hm.
    specialize (H3 g m Hg Hm) as L. destruct (Nat.eq_dec n m) as [->|Nm]; [|lia]. exfalso. assert (Ig : In g [f]) by (apply K; split; [exact Hg|]; exists m; split; [exact Hm|exact H3]). destruct Ig as [Ig|[]]. now apply Ng.
  - intros (H1 & n & H2 & H3).
    assert (If : In f (filter (least c fs) fs)).
    { apply K. split; [exact H1|]. exists n. split; [exact H2|]. intros h m Hh Hm. destruct (dec h f) as [->|Nh]; [rewrite H2 in Hm; injection Hm as ->; lia|]. specialize (H3 h m Hh Nh Hm). lia. }
    assert (Al : forall g, In g (filter (least c fs) fs) -> g = f).
    { intros g Hg. apply K in Hg. destruct Hg as (G1 & k & G2 & G3). destruct (dec g f) as [->|Ng]; [reflexivity|]. specialize (H3 g k G1 Ng G2). specialize (G3 f n H1 H2). lia. }
    destruct (filter (least c fs) fs) as [|g [|h l]]; [destruct If|f_equal; apply Al; now left|]. exfalso. rewrite (Al g), (Al h) in NF by (cbn; auto). inversion NF as [|? ? Nf _]. apply Nf. now left.
Qed.

Lemma promote_small p a : nano_platform p -> In a [Bool; Char; SChar; UChar; Short; UShort] -> promote p a = Int.
Proof.
  intros (S & B1 & B2 & B3 & B4) H.
  assert (Hd : holds p Int a = true).
  { destruct S. unfold holds, lo, hi, same_range in *. destruct st_char as (C1 & C2 & C3), st_short as (S1 & S2 & S3), st_int as (I1 & _).
    rewrite I1, B3. apply andb_true_iff. rewrite !Z.leb_le.
    repeat destruct H as [<-|H]; try contradiction H; rewrite ?C1, ?C2, ?S1, ?S2, ?C3, ?S3, ?B1, ?B2; try (cbn; lia).
    rewrite st_char_bits, B1. destruct (p_signed p Char); cbn; lia. }
  repeat destruct H as [<-|H]; try contradiction H; unfold promote; now rewrite Hd.
Qed.

(** ** The effect for each arithmetic type *)
Lemma arith_dec (a b : arith) : {a = b} + {a <> b}. Proof. decide equality. Qed.
Lemma param_dec (f g : param) : {f = g} + {f <> g}. Proof. decide equality. apply arith_dec. Qed.
Lemma promoted_int p a : nano_platform p -> In a [Bool; Char; SChar; UChar; Short; UShort; Int] -> promote p a = Int.
Proof. intros N H. destruct (arith_dec a Int) as [->|Na]; [reflexivity|]. apply promote_small; [exact N|]. cbn in *. intuition congruence. Qed.
Lemma resolve_op p a b : In b [Bool; Short; UShort; Int] -> promote p a = Int -> a = b \/ (~ In a [Bool; Short; UShort; Int; UInt; LLong; ULLong; Float; Double; LDouble] /\ b = Int) ->
  resolve (cost p (Arith a)) operators = Some (ByArith b).
Proof.
  intros H E C. unfold resolve, least, cost, arith_cost. rewrite E. destruct C as [<-|[C ->]].
  - repeat (destruct H as [<-|H]; [reflexivity|]). contradiction H.
  - destruct a; try reflexivity; exfalso; apply C; cbn; tauto.
Qed.
Lemma resolve_to_string p a : promote p a = Int -> ~ In a [UInt; LLong; ULLong; Float; Double] -> resolve (arith_cost p a) to_strings = Some Int.
Proof. intros E C. unfold resolve, least, arith_cost. rewrite E. destruct a; try reflexivity; exfalso; apply C; cbn; tauto. Qed.
Lemma shl_small p a z : nano_platform p -> In a [Bool; Char; SChar; UChar; Short; UShort; Int] -> shl p (Arith a) (Num z) = appends (to_string_int z).
Proof.
  intros N H. pose proof (promoted_int p a N H) as E.
  assert (K : exists b, In b [Bool; Short; UShort; Int] /\ (a = b \/ (~ In a [Bool; Short; UShort; Int; UInt; LLong; ULLong; Float; Double; LDouble] /\ b = Int))).
  { repeat (destruct H as [<-|H]; [first [solve [eexists; split; [|left; reflexivity]; cbn; tauto]|solve [exists Int; split; [cbn; tauto|right; split; [cbn; intuition discriminate|reflexivity]]]]|]). contradiction H. }
  destruct K as (b & Hb & K). unfold shl. rewrite (resolve_op p a b Hb E K).
  assert (E2 : to_string_of p b z = appends (to_string_int z)).
  { unfold to_string_of. rewrite resolve_to_string; [reflexivity| |cbn in Hb |- *; intuition congruence]. apply promoted_int; [exact N|]. cbn in Hb |- *. intuition. }
  rewrite <- E2. repeat destruct Hb as [<-|Hb]; try reflexivity. contradiction Hb.
Qed.
Lemma shl_exact p a z : In a [UInt; LLong; ULLong; Float; Double; LDouble; Long; ULong] -> shl p (Arith a) (Num z) =
  match a with LLong => appends (to_string_int64 z) | Float => appends (to_string_float z) | Double => appends (to_string_double z) | Long | ULong => DoesNotCompile | _ => DoesNotLink end.
Proof. intro H. repeat (destruct H as [<-|H]; [reflexivity|]). contradiction H. Qed.
Lemma shl_pointer p k m : shl p (Pointer k) (Memory m) = match k with ToStreambuf => DoesNotLink | _ => Appends (Ok m) end.
Proof. destruct k; reflexivity. Qed.
Lemma shl_nullptr p v : shl p Nullptr v = Appends (Ok (Some nullptr_text)).
Proof. reflexivity. Qed.

(** ** What is shown *)
(** The text of an argument.  The types of characters show their code; that is what the code does and not what a reader of [cout << 'A'] expects
    ([C85_char_refuted]). *)
Definition shows (x : arg * value) (t : list Z) : Prop :=
  match x with
  | (Arith Float, Num z) => text_of float32 (val float32 z) t
  | (Arith Double, Num z) => text_of float64 (val float64 z) t
  | (Arith _, Num z) => decimal z t
  | (Pointer _, Memory (Some m)) => cstring m = Some t
  | (Pointer _, Memory None) => t = []
  | (Nullptr, _) => t = [110; 117; 108; 108; 112; 116; 114]
  | _ => False
  end.
(** The arguments for which that is so: integers not wider than int (all but those below -10^9 + 1), long long within the range of int, every
    float and double, every pointer to NUL-terminated memory. *)
Definition printable (x : arg * value) : Prop :=
  match x with
  | (Arith Bool, Num z) => 0 <= z <= 1
  | (Arith (Char | SChar | UChar), Num z) => - 2 ^ 7 <= z < 2 ^ 8
  | (Arith (Short | UShort), Num z) => - 2 ^ 15 <= z < 2 ^ 16
  | (Arith Int, Num z) => - 10 ^ 9 < z < 2 ^ 31
  | (Arith LLong, Num z) => - 2 ^ 31 < z < 2 ^ 31
  | (Arith Float, Num z) => pattern float32 z
  | (Arith Double, Num z) => pattern float64 z
  | (Pointer (ToChar | ToOther), Memory (Some m)) => cstring m <> None
  | (Pointer (ToChar | ToOther), Memory None) => True
  | (Nullptr, _) => True
  | _ => False
  end.
(** chars that suffice for its text *)
Definition room (x : arg * value) : Z :=
  match x with (Pointer _, Memory (Some m)) => match cstring m with Some t => len t | None => 0 end | (Pointer _, Memory None) => 0 | _ => 24 end.
Definition rooms (xs : list (arg * value)) : Z := fold_right (fun x n => room x + n) 0 xs.
Lemma room_pos x : 0 <= room x.
Proof. destruct x as [[] [|[m|]|]]; cbn; try lia. destruct (cstring m); lia. Qed.
Lemma rooms_pos xs : 0 <= rooms xs.
Proof. induction xs as [|x xs IH]; [cbn; lia|]. change (0 <= room x + rooms xs). pose proof (room_pos x). lia. Qed.

Lemma plain_cstring l : Forall (fun c => 0 < c < 256) l -> cstring (l ++ [0]) = Some l.
Proof.
  induction 1 as [|c l Hc _ IH]; [reflexivity|]. cbn [app cstring].
  destruct (Z.eqb_spec c 0); [lia|]. unfold is_byte. destruct (Z.ltb_spec 0 c); [|lia]. destruct (Z.ltb_spec c 256); [|lia].
  cbn [andb]. rewrite IH. reflexivity.
Qed.
Lemma text_plain f v t : text_of f v t -> Forall (fun c => 0 < c < 256) t.
Proof.
  assert (M : forall s, Forall (fun c => 0 < c < 256) (minus s)) by (intros []; repeat constructor; lia).
  assert (A : forall l, Forall dig l -> Forall (fun c => 0 < c < 256) (ascii l)).
  { intros l H. unfold ascii. apply Forall_map. eapply Forall_impl; [|exact H]. unfold dig. intros x Hx. lia. }
  destruct v as [s|s|s pl e|s m e b]; cbn [text_of].
  - intros ->. apply Forall_app. split; [apply M|repeat constructor; lia].
  - intros ->. apply Forall_app. split; [apply M|repeat constructor; lia].
  - intros ->. repeat constructor; lia.
  - intros (d & k & (d0 & ds & xneg & es & -> & D0 & _ & D & E & _) & _). apply Forall_app. split; [apply M|]. constructor; [unfold dig in D0; lia|].
    apply Forall_app. split; [destruct ds; [constructor|constructor; [lia|now apply A]]|]. constructor; [lia|]. apply Forall_app. split; [apply M|now apply A].
Qed.
Lemma decimal_len z t : decimal z t -> Z.abs z < 10 ^ 10 -> len t <= 11.
Proof.
  intros (ds & -> & N & F & V & H) B. rewrite app_length. assert (L : len (if z <? 0 then [45] else []) <= 1) by (destruct (z <? 0); cbn; lia).
  assert (Ld : len ds <= 10); [|rewrite Nat2Z.inj_add; revert L; generalize (len (if z <? 0 then [45] else [])); intros; lia]. destruct ds as [|c ds]; [contradiction|]. cbn [hd] in H. inversion F as [|? ? Fc Fd]; subst.
  destruct (Z.eq_dec c 48) as [->|Nc]; [rewrite H by reflexivity; cbn; lia|]. rewrite dv_cons in V. pose proof (dv_bound ds Fd) as Bd.
  destruct (Z_le_gt_dec (len (c :: ds)) 10) as [G|G]; [exact G|exfalso]. cbn [length] in G. assert (P : 10 ^ 10 <= 10 ^ len ds) by (apply Z.pow_le_mono_r; lia). nia.
Qed.

Lemma shl_shows p x : nano_platform p -> printable x ->
  exists m t, shl p (fst x) (snd x) = Appends (Ok m) /\ shows x t /\ len t <= room x /\ match m with Some b => cstring b = Some t | None => t = [] end.
Proof.
  intros N P.
  assert (KI : forall a z, In a [Bool; Char; SChar; UChar; Short; UShort; Int] -> - 10 ^ 9 < z < 2 ^ 31 -> x = (Arith a, Num z) ->
    exists m t, shl p (fst x) (snd x) = Appends (Ok m) /\ shows x t /\ len t <= room x /\ match m with Some b => cstring b = Some t | None => t = [] end).
  { intros a z Ia Hz ->. destruct (to_string_int_ok z Hz) as (t & E & D). exists (Some (t ++ [0])), t. cbn [fst snd]. rewrite shl_small by assumption. unfold appends. rewrite E. cbn [bind].
    split; [reflexivity|]. split; [|split; [cbn [room]; pose proof (decimal_len z t D); lia|now apply decimal_cstring in D]].
    unfold shows. repeat destruct Ia as [<-|Ia]; try exact D. contradiction Ia. }
  destruct x as [[a|k| |] v]; cbn [printable fst snd] in *.
  - destruct v as [z|m|]; [|destruct a; contradiction P|destruct a; contradiction P].
    destruct a; try contradiction P; try (eapply KI; [| |reflexivity]; [cbn; tauto|lia]).
    + destruct (to_string_int64_ok z P) as (t & E & D). exists (Some (t ++ [0])), t. rewrite shl_exact by (cbn; tauto). unfold appends. rewrite E. cbn [bind].
      split; [reflexivity|]. split; [exact D|]. split; [cbn [room]; pose proof (decimal_len z t D); lia|now apply decimal_cstring in D].
    + destruct (to_string_float_ok z P) as (t & E & D & L). exists (Some (t ++ [0])), t. rewrite shl_exact by (cbn; tauto). unfold appends. rewrite E. cbn [bind].
      split; [reflexivity|]. split; [exact D|]. split; [cbn [room]; lia|]. eapply plain_cstring, text_plain, D.
    + destruct (to_string_double_ok z P) as (t & E & D & L). exists (Some (t ++ [0])), t. rewrite shl_exact by (cbn; tauto). unfold appends. rewrite E. cbn [bind].
      split; [reflexivity|]. split; [exact D|]. split; [cbn [room]; lia|]. eapply plain_cstring, text_plain, D.
  - assert (K : k <> ToStreambuf) by (destruct k; [discriminate|destruct v; contradiction P|discriminate]).
    destruct v as [z|[m|]|]; try (destruct k; exact (False_ind _ P)).
    + destruct (cstring m) as [t|] eqn:E; [|exfalso; destruct k; now try apply P]. exists (Some m), t. rewrite shl_pointer. split; [now destruct k|]. split; [exact E|]. split; [cbn [room]; rewrite E; lia|exact E].
    + exists None, []. rewrite shl_pointer. split; [now destruct k|]. repeat split. unfold room. cbn. lia.
  - exists (Some nullptr_text), [110; 117; 108; 108; 112; 116; 114]. rewrite shl_nullptr. split; [reflexivity|]. split; [reflexivity|]. split; [|reflexivity].
    cbn [room length]. lia.
  - contradiction P.
Qed.

(** ** Chains of insertions *)
Definition yields (p : plat) (Q : arg * value -> list Z -> Prop) (x : arg * value) : Prop :=
  exists m t, shl p (fst x) (snd x) = Appends (Ok m) /\ Q x t /\ len t <= room x /\ match m with Some b => cstring b = Some t | None => t = [] end.
Lemma inserts_yield p os Q : forall xs sp w l, WRel sp w -> written sp os = Some l -> Forall (yields p Q) xs -> tlen (concat l) + rooms xs < max_text ->
  exists w1 ts, inserts p w os xs = Some (Ok w1) /\ Forall2 Q xs ts /\ WRel (SSpec (set_ (written sp) os (Some (l ++ ts))) (texts sp) (printed sp)) w1.
Proof.
  induction xs as [|x xs IH]; intros sp w l WR W P F.
  - exists w, []. split; [reflexivity|]. split; [constructor|]. rewrite app_nil_r. destruct WR as (s & I & R & [A1 A2 A3 A4] & O). exists s. split; [exact I|]. split; [exact R|]. split; [|exact O].
    assert (Sw : forall y, set_ (written sp) os (Some l) y = written sp y) by (intro y; destruct (Nat.eq_dec y os) as [->|Ny]; [now rewrite set_eq|now rewrite set_neq]).
    constructor; cbn [written texts]; auto; intros; rewrite ?Sw in *; eauto.
  - inversion P as [|? ? Px Pxs]; subst. destruct Px as (m & t & E & S & L & M). pose proof (rooms_pos xs) as RP. change (tlen (concat l) + (room x + rooms xs) < max_text) in F. pose proof (room_pos x) as RX.
    assert (Ft : fits (l ++ [t])) by (unfold fits; rewrite concat_snoc; unfold tlen in *; rewrite app_length; lia).
    pose proof WR as (s & I & R & RL & O). destruct (shl_lit_spec sp s os l m t RL W Ft M) as (outs & s' & Es & R').
    destruct (exec_ok sp _ w s _ outs s' I R Es R' O eq_refl) as (w' & Ew & WR').
    destruct (IH _ w' (l ++ [t]) WR') as (w1 & ts & Ei & Fs & W1); [cbn [written]; apply set_eq|exact Pxs|rewrite concat_snoc; unfold tlen in *; rewrite app_length; lia|].
    exists w1, (t :: ts). split; [|split; [now constructor|]].
    + cbn [inserts]. unfold insert. rewrite E. cbn [bind]. rewrite Ew. cbn [bind]. exact Ei.
    + destruct W1 as (s1 & I1 & R1 & [B1 B2 B3 B4] & O1). cbn [written texts printed] in *. exists s1. split; [exact I1|]. split; [exact R1|]. split; [|exact O1].
      assert (Sw : forall y, set_ (set_ (written sp) os (Some (l ++ [t]))) os (Some ((l ++ [t]) ++ ts)) y = set_ (written sp) os (Some (l ++ t :: ts)) y)
        by (intro y; rewrite <- app_assoc; destruct (Nat.eq_dec y os) as [->|Ny]; [now rewrite !set_eq|now rewrite !set_neq by exact Ny]).
      constructor; cbn [written texts]; auto; intros; rewrite <- ?Sw in *; eauto.
Qed.

(** After any history over any number of streams, [os << x1 << x2 << ...] appends the texts of the arguments, in order: str() returns them after
    what was there, flush prints them; the other streams keep their text. *)
Theorem C85_prints : forall p ops outs sp os l xs,
  nano_platform p -> ss_run sspec0 ops outs sp -> written sp os = Some l -> Forall printable xs -> tlen (concat l) + rooms xs < max_text ->
  exists w w1 ts, ssrun ssworld0 ops = Ok (outs, w) /\ inserts p w os xs = Some (Ok w1) /\ Forall2 shows xs ts /\
    stdout w1 = stdout w /\ ssstep w1 (Read os) = Ok (Some (concat l ++ concat ts), w1) /\
    (forall y k, y <> os -> written sp y = Some k -> ssstep w1 (Read y) = Ok (Some (concat k), w1)) /\
    exists w2, ssstep w1 (Flush os) = Ok (None, w2) /\ stdout w2 = stdout w ++ concat l ++ concat ts /\ ssstep w2 (Read os) = Ok (Some [], w2).
Proof.
  intros p ops outs sp os l xs N H W P F. destruct (ssrun_refines ops _ _ _ _ wrel0 H) as (w & E & WR). exists w.
  assert (Y : Forall (yields p shows) xs) by (eapply Forall_impl; [|exact P]; intros x Px; now apply shl_shows).
  destruct (inserts_yield p os shows xs sp w l WR W Y F) as (w1 & ts & Ei & Fs & W1). exists w1, ts. split; [exact E|]. split; [exact Ei|]. split; [exact Fs|].
  assert (P0 : stdout w = printed sp) by (destruct WR as (? & _ & _ & _ & O); exact O). assert (P1 : stdout w1 = printed sp) by (destruct W1 as (? & _ & _ & _ & O); exact O).
  assert (Wo : written (SSpec (set_ (written sp) os (Some (l ++ ts))) (texts sp) (printed sp)) os = Some (l ++ ts)) by apply set_eq.
  split; [congruence|]. split; [cbn [ssstep]; rewrite (read_ok _ _ _ _ W1 Wo), concat_app; reflexivity|]. split.
  - intros y k Ny Wy. cbn [ssstep]. rewrite (read_ok _ _ y k W1); [reflexivity|]. cbn [written]. now rewrite set_neq.
  - destruct (ssstep_refines _ _ _ _ _ W1 (s_flush _ os _ Wo)) as (w2 & E2 & W2). exists w2. split; [exact E2|]. split.
    + destruct W2 as (? & _ & _ & _ & O). cbn [printed] in O. rewrite O, P0, concat_app. reflexivity.
    + cbn [ssstep]. rewrite (read_ok _ _ os [] W2); [reflexivity|]. cbn [written]. apply set_eq.
Qed.
Print Assumptions C85_prints.

(** The other types.  A string never returns; long and unsigned long are ambiguous; for unsigned int, unsigned long long, long double and a streambuf
    the selected function is defined nowhere.  wchar_t, char16_t and char32_t are handled as the type they are promoted to. *)
Theorem C85_other_types : forall p z v,
  shl p (Arith Long) (Num z) = DoesNotCompile /\ shl p (Arith ULong) (Num z) = DoesNotCompile /\
  shl p (Arith UInt) (Num z) = DoesNotLink /\ shl p (Arith ULLong) (Num z) = DoesNotLink /\ shl p (Arith LDouble) (Num z) = DoesNotLink /\
  shl p (Pointer ToStreambuf) v = DoesNotLink /\ shl p Str v = Appends (UB NoReturn) /\
  (forall a, In a [WChar; Char16; Char32] -> shl p (Arith a) (Num z) = shl p (Arith (promote p a)) (Num z)).
Proof.
  intros p z v. repeat match goal with |- _ /\ _ => split; [reflexivity|] end. intros a Ha.
  assert (K : In (promote p a) [Int; UInt; Long; ULong; LLong; ULLong]).
  { repeat destruct Ha as [<-|Ha]; try contradiction Ha; unfold promote; repeat match goal with |- context [if ?b then _ else _] => destruct b end; cbn; tauto. }
  assert (R : resolve (cost p (Arith a)) operators = resolve (cost p (Arith (promote p a))) operators).
  { unfold resolve, least, cost, arith_cost. remember (promote p a) as b. assert (Pb : promote p b = b) by (repeat destruct K as [<-|K]; try reflexivity; contradiction K). rewrite Pb.
    repeat destruct Ha as [<-|Ha]; try contradiction Ha; repeat destruct K as [<-|K]; try contradiction K; reflexivity. }
  unfold shl. now rewrite R.
Qed.
Print Assumptions C85_other_types.

(** [cout << 'A'] prints 65. *)
Theorem C85_char_refuted : forall p, nano_platform p -> exists m, shl p (Arith Char) (Num 65) = Appends (Ok (Some m)) /\ cstring m = Some [54; 53].
Proof. intros p N. rewrite shl_small by (assumption || (cbn; tauto)). exists [54; 53; 0]. split; reflexivity. Qed.
Print Assumptions C85_char_refuted.

(** cout << "v=" << -7 << ' ' << nullptr << 1.5 << true, then flush *)
Definition c85_args : list (arg * value) :=
  [(Pointer ToChar, Memory (Some [118; 61; 0])); (Arith Int, Num (-7)); (Arith Char, Num 32); (Nullptr, Nothing);
   (Arith Double, Num 0x3FF8000000000000); (Arith Bool, Num 1); (Pointer ToChar, Memory None)].
Definition lp64 : plat := {| p_signed := fun a => match a with UChar | UShort | UInt | ULong | ULLong | Bool | Char16 | Char32 => false | _ => true end;
  p_bits := fun a => match a with Bool => 1 | Char | SChar | UChar => 8 | Short | UShort | Char16 => 16 | Int | UInt | WChar | Char32 | Float => 32 | LDouble => 128 | _ => 64 end |}.
Example C85_case : Forall printable c85_args /\ rooms c85_args < max_text /\
  match ssrun ssworld0 [Stream 0] with
  | Ok (_, w) => match inserts lp64 w 0 c85_args with
                 | Some (Ok w1) => ssstep w1 (Read 0) = Ok (Some [118; 61; 45; 55; 51; 50; 110; 117; 108; 108; 112; 116; 114; 49; 46; 53; 69; 48; 49], w1)
                 | _ => False end
  | _ => False
  end.
Proof. split; [repeat constructor; cbn; try lia; discriminate|]. split; [reflexivity|]. vm_compute. reflexivity. Qed.
Example C85_case_platform : nano_platform lp64.
Proof. split; [|repeat split]. constructor; repeat split; cbn; lia. Qed.
