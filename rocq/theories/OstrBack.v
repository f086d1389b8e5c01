(** C86: floating-point numbers written to a stream with a separator and read back by fast_float. *)
From Coq Require Import ZArith List Bool Lia.
From Flocq Require Import IEEE754.Binary.
From Verif Require Import Mem StrSpec FpModel FpProofs RyuFmtModel RyuText SsModel SsSpec SsProofs TyModel TraitModel TraitSpec OstrModel OstrProps FfModel FfWord FfAgree.
Import ListNotations.
Open Scope Z_scope.
Local Notation len l := (Z.of_nat (length l)).

(** The client: [for (x : xs) os << x << sep;] and, to read, [n] times: a number by from_chars, then as many chars as the separator has. *)
Definition listing (a : arith) (sep : list Z) (xs : list Z) : list (arg * value) :=
  flat_map (fun x => [(Arith a, Num x); (Pointer ToChar, Memory (Some (sep ++ [0])))]) xs.
Fixpoint read_all (t : target) (b : bformat) (sep : list Z) (n : nat) (text : list Z) : option (list Z * list Z) :=
  match n with
  | O => Some ([], text)
  | S n =>
      match from_chars t b text chars_general with
      | Ok (Outcome rest (Some y)) => option_map (fun r => (y :: fst r, snd r)) (read_all t b sep n (skipn (length sep) rest))
      | _ => None
      end
  end.
Definition of_type (a : arith) (b : bformat) : Prop := (a = Double /\ b = bdouble) \/ (a = Float /\ b = bfloat).
(** a separator: NUL-free, not empty, not starting with a digit or an opening parenthesis *)
Definition separator (sep : list Z) : Prop :=
  exists c r, sep = c :: r /\ Forall (fun c => 0 < c < 256) sep /\ ~ (48 <= c <= 57) /\ c <> 40.
(** the same value: the same bits, or both not a number *)
Definition same (f : fmt) (x y : Z) : Prop := (is_nan _ _ (val f x) = false -> y = x) /\ (is_nan _ _ (val f x) = true -> is_nan _ _ (val f y) = true).

Definition printed_as (p : Z -> res (list Z)) (x : arg * value) (t : list Z) : Prop :=
  match x with
  | (Arith _, Num z) => p z = Ok t
  | (Pointer _, Memory (Some m)) => cstring m = Some t
  | _ => False
  end.
Definition printer_of (a : arith) : Z -> res (list Z) := match a with Double => to_string_double | _ => to_string_float end.
Lemma listing_yields p a b sep xs : nano_platform p -> of_type a b -> separator sep -> Forall (pattern (bfmt b)) xs -> Forall (yields p (printed_as (printer_of a))) (listing a sep xs).
Proof.
  intros N T (c & r & Es & Fs & _) F. induction F as [|x xs Px _ IH]; [constructor|]. cbn [listing flat_map app]. constructor; [|constructor; [|exact IH]].
  - destruct T as [[-> ->]|[-> ->]]; [destruct (to_string_double_ok x Px) as (t & E & D & L)|destruct (to_string_float_ok x Px) as (t & E & D & L)];
      exists (Some (t ++ [0])), t; cbn [fst snd]; rewrite shl_exact by (cbn; tauto); unfold appends; rewrite E; cbn [bind];
      (split; [reflexivity|]); (split; [exact E|]); (split; [cbn [room]; lia|]); eapply plain_cstring, text_plain, D.
  - exists (Some (sep ++ [0])), sep. cbn [fst snd]. rewrite shl_pointer. split; [reflexivity|]. cbn [printed_as room]. rewrite plain_cstring by exact Fs. repeat split. lia.
Qed.
Lemma listing_rooms a b sep xs : of_type a b -> separator sep -> rooms (listing a sep xs) = (24 + len sep) * len xs.
Proof.
  intros T (c & r & Es & Fs & _). induction xs as [|x xs IH]; [cbn; lia|].
  change (rooms (listing a sep (x :: xs))) with (room (Arith a, Num x) + (room (Pointer ToChar, Memory (Some (sep ++ [0]))) + rooms (listing a sep xs))). rewrite IH. cbn [room]. rewrite plain_cstring by exact Fs. cbn [length]. lia.
Qed.
(** the texts of a listing *)
Lemma listing_texts a sep : separator sep -> forall xs ts, Forall2 (printed_as (printer_of a)) (listing a sep xs) ts ->
  exists us, Forall2 (fun x u => printer_of a x = Ok u) xs us /\ concat ts = concat (map (fun u => u ++ sep) us).
Proof.
  intros (c & r & _ & Fs & _). induction xs as [|x xs IH]; intros ts H.
  - inversion H; subst. exists []. split; [constructor|reflexivity].
  - cbn [listing flat_map app] in H. inversion H as [|? u ? ts1 H1 H2]; clear H; subst. inversion H2 as [|? v ? ts2 G3 H4]; clear H2; subst.
    destruct (IH ts2 H4) as (us & U1 & U2). exists (u :: us). split; [constructor; [exact H1|exact U1]|].
    cbn [printed_as] in G3. rewrite plain_cstring in G3 by exact Fs. injection G3 as <-. cbn [concat map]. rewrite U2, app_assoc. reflexivity.
Qed.
Lemma read_listing t a b sep : of_type a b -> separator sep -> forall xs us, Forall (pattern (bfmt b)) xs -> Forall2 (fun x u => printer_of a x = Ok u) xs us ->
  (24 + len sep) * len xs < 2 ^ 28 - 2000 ->
  exists ys, read_all t b sep (length xs) (concat (map (fun u => u ++ sep) us)) = Some (ys, []) /\ Forall2 (same (bfmt b)) xs ys /\
    Forall FfWord.byte (concat (map (fun u => u ++ sep) us)) /\ len (concat (map (fun u => u ++ sep) us)) <= (24 + len sep) * len xs.
Proof.
  intros T S xs us F H. pose proof S as (c & r & Es & Fs & Dc & Pc). induction H as [|x u xs us Hu H IH]; intro L.
  - exists []. repeat split; [constructor|constructor|cbn; lia].
  - inversion F as [|? ? Px Fx]; subst x0 l. cbn [length] in L. destruct (IH Fx) as (ys & R & Sm & B & Lc); [lia|].
    set (rest := sep ++ concat (map (fun u => u ++ sep) us)).
    assert (Bs : Forall FfWord.byte sep) by (eapply Forall_impl; [|exact Fs]; unfold FfWord.byte; intros; lia).
    assert (Br : Forall FfWord.byte rest) by (apply Forall_app; split; assumption).
    assert (RP : ryu_printer b (printer_of a)) by (destruct T as [[-> ->]|[-> ->]]; [left|right]; split; reflexivity).
    assert (Lu : Forall FfWord.byte u /\ len u <= 24).
    { destruct T as [[-> ->]|[-> ->]]; cbn [printer_of] in Hu; [destruct (to_string_double_ok x Px) as (t0 & E & D & L0)|destruct (to_string_float_ok x Px) as (t0 & E & D & L0)];
        rewrite Hu in E; injection E as <-; (split; [|lia]); apply text_plain in D; eapply Forall_impl; [|exact D| |exact D]; unfold FfWord.byte; intros; lia. }
    destruct Lu as [Bu Lu]. assert (Lr : len rest = len sep + len (concat (map (fun u => u ++ sep) us))) by (unfold rest; rewrite app_length; lia).
    assert (Hr : forall c0 r0, rest = c0 :: r0 -> ~ (48 <= c0 <= 57) /\ c0 <> 40).
    { intros c0 r0 E. unfold rest in E. rewrite Es in E. cbn [app] in E. injection E as <- _. split; assumption. }
    destruct (C84_round_trip t b (printer_of a) (Options chars_general 46) x rest RP Px eq_refl eq_refl Br ltac:(lia) Hr) as (text & y & E1 & E2 & N1 & N2).
    rewrite Hu in E1. injection E1 as <-. exists (y :: ys).
    assert (Cc : concat (map (fun u => u ++ sep) (u :: us)) = u ++ rest) by (cbn [map concat]; unfold rest; now rewrite app_assoc). rewrite Cc.
    split; [|split; [constructor; [split; assumption|exact Sm]|split; [apply Forall_app; split; assumption|cbn [length]; rewrite app_length; lia]]].
    cbn [length read_all]. unfold from_chars. rewrite E2. unfold rest. rewrite skipn_app, skipn_all, Nat.sub_diag. cbn [skipn app]. rewrite R. reflexivity.
Qed.

(** Whatever the floats or doubles are, written to an empty stream with a separator after each they are all read back from its text, in order and
    to its end: finite numbers and infinities to the same bits, NaNs as NaN. *)
Theorem C86_list_read_back : forall p ops outs sp os l t a b sep xs,
  nano_platform p -> of_type a b -> separator sep -> ss_run sspec0 ops outs sp -> written sp os = Some l -> concat l = [] ->
  Forall (pattern (bfmt b)) xs -> (24 + len sep) * len xs < 2 ^ 28 - 2000 ->
  exists w w1 text ys, ssrun ssworld0 ops = Ok (outs, w) /\ inserts p w os (listing a sep xs) = Some (Ok w1) /\
    ssstep w1 (Read os) = Ok (Some text, w1) /\ read_all t b sep (length xs) text = Some (ys, []) /\ Forall2 (same (bfmt b)) xs ys.
Proof.
  intros p ops outs sp os l t a b sep xs N T S H W El F L. destruct (ssrun_refines ops _ _ _ _ wrel0 H) as (w & E & WR).
  pose proof (listing_yields p a b sep xs N T S F) as Y.
  assert (Fi : tlen (concat l) + rooms (listing a sep xs) < max_text) by (rewrite El, (listing_rooms a b) by assumption; unfold tlen; cbn [length]; unfold max_text; lia).
  destruct (inserts_yield p os _ _ sp w l WR W Y Fi) as (w1 & ts & Ei & Fs & W1).
  destruct (listing_texts a sep S xs ts Fs) as (us & U1 & U2). destruct (read_listing t a b sep T S xs us F U1 L) as (ys & R & Sm & _).
  exists w, w1, (concat ts), ys. split; [exact E|]. split; [exact Ei|]. split; [|split; [rewrite U2; exact R|exact Sm]].
  cbn [ssstep]. rewrite (read_ok _ _ os (l ++ ts) W1); [|cbn [written]; apply set_eq]. rewrite concat_app, El. reflexivity.
Qed.
Print Assumptions C86_list_read_back.
(** 1.5, -infinity and the smallest double, each followed by ", " *)
Example C86_case : of_type Double bdouble /\ separator [44; 32] /\ Forall (pattern (bfmt bdouble)) [0x3FF8000000000000; 0xFFF0000000000000; 1] /\
  match ssrun ssworld0 [Stream 0] with
  | Ok (_, w) => match inserts lp64 w 0 (listing Double [44; 32] [0x3FF8000000000000; 0xFFF0000000000000; 1]) with
                 | Some (Ok w1) => ssstep w1 (Read 0) = Ok (Some [49; 46; 53; 69; 48; 44; 32; 45; 73; 110; 102; 105; 110; 105; 116; 121; 44; 32; 53; 69; 45; 51; 50; 52; 44; 32], w1)
                 | _ => False end
  | _ => False
  end.
Proof.
  split; [left; split; reflexivity|]. split; [exists 44, [32]; repeat split; try lia; repeat constructor; lia|]. split; [repeat constructor; cbn; lia|]. vm_compute. reflexivity.
Qed.
