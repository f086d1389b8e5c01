(** The scanning loops of the parsers, against a specification of decimal numerals. *)
From Coq Require Import ZArith List Bool Lia.
From Verif Require Import Mem RyuText RyuArith RyuModel RyuParseModel RyuConv RyuCvt.
Import ListNotations.
Open Scope Z_scope.
Local Notation len l := (Z.of_nat (length l)).

(** ** Specification: [-]ip[.fp][(e|E)[-|+]es], every part possibly empty *)
Record numeral := Num { nneg : bool; nint : list Z; nfrac : option (list Z); nexp : option (Z * option bool * list Z) }.
Definition sign_char (s : option bool) : list Z := match s with None => [] | Some true => [45] | Some false => [43] end.
Definition frac_text (o : option (list Z)) : list Z := match o with None => [] | Some ds => 46 :: ascii ds end.
Definition exp_part (o : option (Z * option bool * list Z)) : list Z :=
  match o with None => [] | Some (c, s, es) => c :: sign_char s ++ ascii es end.
Definition spell (n : numeral) : list Z := minus (nneg n) ++ ascii (nint n) ++ frac_text (nfrac n) ++ exp_part (nexp n).
Definition frac_digits (n : numeral) : list Z := match nfrac n with None => [] | Some ds => ds end.
Definition exp_digs (n : numeral) : list Z := match nexp n with None => [] | Some (_, _, es) => es end.
Definition exp_val (n : numeral) : Z :=
  match nexp n with None => 0 | Some (_, s, es) => match s with Some true => - digit_val es | _ => digit_val es end end.
Definition wf (n : numeral) : Prop :=
  Forall dig (nint n) /\ Forall dig (frac_digits n) /\ Forall dig (exp_digs n) /\
  match nexp n with None => True | Some (c, _, _) => c = 101 \/ c = 69 end.
(** the digits without leading zeros *)
Fixpoint sig (ds : list Z) : list Z := match ds with 0 :: r => sig r | _ => ds end.
Definition fits (maxd : Z) (n : numeral) : Prop :=
  len (sig (nint n ++ frac_digits n)) <= maxd /\ len (sig (exp_digs n)) <= 4.
(** its value is (-1)^nneg * nsig * 10^nten *)
Definition nsig (n : numeral) : Z := digit_val (nint n ++ frac_digits n).
Definition nten (n : numeral) : Z := exp_val n - len (frac_digits n).

(** ** Digits *)
Lemma digit_val_snoc ds d : digit_val (ds ++ [d]) = 10 * digit_val ds + d.
Proof. unfold digit_val. rewrite fold_left_app. reflexivity. Qed.
Lemma sig_snoc ds d : sig (ds ++ [d]) = match sig ds with [] => (if d =? 0 then [] else [d]) | _ => sig ds ++ [d] end.
Proof.
  induction ds as [|x ds IH].
  - cbn. destruct d; reflexivity.
  - destruct x; [exact IH|reflexivity|reflexivity].
Qed.
Lemma digit_val_sig ds : Forall dig ds -> 0 <= digit_val ds /\ (digit_val ds = 0 -> sig ds = []) /\ (digit_val ds <> 0 -> ndig (digit_val ds) (len (sig ds))) /\ (sig ds = [] -> digit_val ds = 0).
Proof.
  induction ds as [|d ds IH] using rev_ind; intro F; [cbn; repeat split; intros; try reflexivity; try lia|].
  apply Forall_app in F. destruct F as [F Fd]. inversion_clear Fd as [|? ? Hd _]. unfold dig in Hd. destruct (IH F) as (P & Z & N & S).
  rewrite digit_val_snoc, sig_snoc. destruct (Z.eq_dec (digit_val ds) 0) as [E|E].
  - rewrite (Z E), E. destruct (Z.eqb_spec d 0) as [->|D]; cbn [length]; repeat split; intros; try lia; try reflexivity; try discriminate.
  - destruct (sig ds) as [|x l] eqn:El; [exfalso; auto|]. specialize (N E). destruct N as (N1 & N2 & N3). set (k := len (x :: l)) in *.
    assert (K : len ((x :: l) ++ [d]) = k + 1) by (unfold k; rewrite app_length; cbn; lia).
    assert (Q : 10 ^ (k + 1) = 10 * 10 ^ k) by (rewrite Z.add_1_r, Z.pow_succ_r by lia; reflexivity).
    assert (Q2 : 10 ^ k = 10 * 10 ^ (k - 1)) by (replace k with (Z.succ (k - 1)) at 1 by lia; rewrite Z.pow_succ_r by lia; reflexivity).
    split; [lia|]. split; [lia|]. split; [|discriminate]. intros _. unfold ndig. rewrite K. replace (k + 1 - 1) with k by lia. lia.
Qed.
Lemma sig_mono ds d : len (sig ds) <= len (sig (ds ++ [d])).
Proof. rewrite sig_snoc. destruct (sig ds); [cbn [length]; lia|rewrite app_length; lia]. Qed.
Lemma sig_mono_app ds es : len (sig ds) <= len (sig (ds ++ es)).
Proof.
  induction es as [|e es IH] using rev_ind; [rewrite app_nil_r; lia|]. rewrite app_assoc. pose proof (sig_mono (ds ++ es) e). lia.
Qed.
Lemma sig_step ds d : Forall dig ds -> dig d -> digit_val (ds ++ [d]) <> 0 -> len (sig (ds ++ [d])) = len (sig ds) + 1.
Proof.
  intros F Hd H. rewrite digit_val_snoc in H. rewrite sig_snoc. pose proof (digit_val_sig ds F) as (P & Z & N & S).
  destruct (sig ds) as [|x l] eqn:El; [|rewrite app_length; cbn [length]; lia].
  rewrite (S eq_refl) in H. destruct (Z.eqb_spec d 0); [lia|]. cbn [length]. lia.
Qed.
Lemma sig_zero ds : Forall dig ds -> digit_val ds = 0 -> len (sig ds) = 0.
Proof. intros F H. pose proof (digit_val_sig ds F) as (_ & Z & _). now rewrite (Z H). Qed.

(** ** The loops on lists *)
Definition digc (c : Z) : bool := negb ((c <? 48) || (57 <? c)).
Fixpoint ml (maxd : Z) (l : list Z) (d : option Z) (m dg : Z) : status + (list Z * option Z * Z * Z) :=
  match l with
  | [] => inr ([], d, m, dg)
  | c :: l' =>
      if c =? 46 then match d with Some _ => inl MALFORMED_INPUT | None => ml maxd l' (Some 0) m dg end
      else if negb (digc c) then inr (l, d, m, dg)
      else if maxd <=? dg then inl INPUT_TOO_LONG
      else let m := 10 * m + (c - 48) in ml maxd l' (option_map Z.succ d) m (if negb (m =? 0) then dg + 1 else dg)
  end.
Fixpoint el (l : list Z) (e ed : Z) : status + Z :=
  match l with
  | [] => inr e
  | c :: l' =>
      if negb (digc c) then inl MALFORMED_INPUT
      else if 3 <? ed then inl INPUT_TOO_LONG
      else let e := 10 * e + (c - 48) in el l' e (if negb (e =? 0) then ed + 1 else ed)
  end.
Definition exl (l : list Z) : status + Z :=
  match l with
  | [] => inr 0
  | c :: l' =>
      if (c =? 101) || (c =? 69) then
        match l' with
        | [] => inr 0
        | c' :: l'' => if (c' =? 45) || (c' =? 43) then match el l'' 0 0 with inl s => inl s | inr e => inr (if c' =? 45 then - e else e) end
                       else el l' 0 0
        end
      else inl MALFORMED_INPUT
  end.
Definition slist (maxd : Z) (t : list Z) : status + scanned :=
  match t with
  | [] => inl INPUT_TOO_SHORT
  | c :: t' =>
      match ml maxd (if c =? 45 then t' else t) None 0 0 with
      | inl s => inl s
      | inr (l, d, m, dg) =>
          match exl l with
          | inl s => inl s
          | inr e => inr (Scanned (c =? 45) m dg (e - match d with Some k => k | None => 0 end))
          end
      end
  end.

(** ** They are the loops *)
Lemma rd_at pre c l : rd (pre ++ c :: l) (len pre) = Ok c.
Proof. unfold rd. rewrite Nat2Z.id. replace (0 <=? len pre) with true by (symmetry; apply Z.leb_le; lia). rewrite nth_error_app2 by lia. now rewrite Nat.sub_diag. Qed.
Lemma i32_ok x : - 2 ^ 31 <= x < 2 ^ 31 -> i32 x = Ok x.
Proof. intro H. unfold i32. apply chk_ok. apply andb_true_intro. split; [apply Z.leb_le|apply Z.ltb_lt]; lia. Qed.

Definition dot_at (L i : Z) (d : option Z) : Z := match d with None => L | Some k => i - 1 - k end.

Section L.
Variables (W maxd : Z) (r : list Z).
Hypothesis HW : 10 ^ maxd <= 2 ^ W.

Lemma mant_loop_list l : forall pre fuel d m dg, let L := len pre + len l in
  (length l <= fuel)%nat -> 0 <= m < 10 ^ dg -> 0 <= dg -> (match d with Some k => 0 <= k < len pre | None => True end) ->
  mant_loop fuel W maxd (pre ++ l ++ r) L (len pre) (dot_at L (len pre) d) m dg =
  Ok match ml maxd l d m dg with
     | inl s => inl s
     | inr (l', d', m', dg') => inr (L - len l', dot_at L (L - len l') d', m', dg')
     end.
Proof.
  induction l as [|c l IH]; intros pre fuel d m dg L Hf Hm Hg Hd.
  - cbn [ml]. assert (E : L - len (@nil Z) = len pre) by (unfold L; cbn; lia). rewrite E.
    destruct fuel; cbn [mant_loop]; (replace (len pre <? L) with false by (symmetry; apply Z.ltb_ge; unfold L; cbn; lia)); reflexivity.
  - destruct fuel as [|fuel]; [cbn in Hf; lia|]. cbn [mant_loop ml].
    replace (len pre <? L) with true by (symmetry; apply Z.ltb_lt; unfold L; cbn [length]; lia).
    cbn [app]. rewrite rd_at. cbn [bind].
    assert (EL : len (pre ++ [c]) + len l = L) by (unfold L; rewrite app_length; cbn [length]; lia).
    assert (EP : len (pre ++ [c]) = len pre + 1) by (rewrite app_length; cbn [length]; lia).
    assert (EB : pre ++ c :: l ++ r = (pre ++ [c]) ++ l ++ r) by (rewrite <- app_assoc; reflexivity).
    cbn [length] in Hf.
    destruct (Z.eqb_spec c 46) as [->|N46].
    + destruct d as [k|]; cbn [dot_at].
      * replace (len pre - 1 - k =? L) with false by (symmetry; apply Z.eqb_neq; unfold L; lia). reflexivity.
      * rewrite Z.eqb_refl. cbn [negb]. specialize (IH (pre ++ [46]) fuel (Some 0) m dg ltac:(lia) Hm Hg ltac:(cbv beta iota; rewrite EP; lia)). cbv zeta in IH.
        rewrite EL, EP in IH. cbn [dot_at] in IH. replace (len pre + 1 - 1 - 0) with (len pre) in IH by lia. rewrite EB. exact IH.
    + unfold digc. destruct ((c <? 48) || (57 <? c)) eqn:Dc; cbn [negb].
      * assert (E : L - len (c :: l) = len pre) by (unfold L; lia). rewrite E. reflexivity.
      * apply orb_false_elim in Dc. destruct Dc as [Dc1 Dc2]. apply Z.ltb_ge in Dc1. apply Z.ltb_ge in Dc2.
        destruct (Z.leb_spec maxd dg) as [K|K]; [reflexivity|].
        assert (B : 0 <= 10 * m + (c - 48) < 10 ^ (dg + 1)) by (rewrite Z.add_1_r, Z.pow_succ_r by lia; lia).
        assert (B2 : 10 ^ (dg + 1) <= 10 ^ maxd) by (apply Z.pow_le_mono_r; lia).
        rewrite Z.mod_small by lia. set (m' := 10 * m + (c - 48)) in *.
        assert (B3 : 0 <= m' < 10 ^ (if negb (m' =? 0) then dg + 1 else dg)).
        { destruct (Z.eqb_spec m' 0) as [E0|E0]; cbn [negb]; [rewrite E0; split; [lia|apply Z.pow_pos_nonneg; lia]|exact B]. }
        specialize (IH (pre ++ [c]) fuel (option_map Z.succ d) m' (if negb (m' =? 0) then dg + 1 else dg) ltac:(lia) B3 ltac:(destruct (negb _); lia)).
        specialize (IH ltac:(destruct d; cbn [option_map]; [rewrite EP; lia|exact I])). cbv zeta in IH. rewrite EL, EP in IH.
        replace (dot_at L (len pre + 1) (option_map Z.succ d)) with (dot_at L (len pre) d) in IH by (destruct d; cbn [dot_at option_map]; lia).
        rewrite EB. exact IH.
Qed.

Lemma exp_loop_list l : forall pre fuel e ed, let L := len pre + len l in
  (length l <= fuel)%nat -> 0 <= e < 10 ^ ed -> 0 <= ed ->
  exp_loop fuel (pre ++ l ++ r) L (len pre) e ed = Ok match el l e ed with inl s => inl s | inr e' => inr (L, e') end.
Proof.
  induction l as [|c l IH]; intros pre fuel e ed L Hf He Hg.
  - cbn [el]. assert (E : L = len pre) by (unfold L; cbn; lia).
    destruct fuel; cbn [exp_loop]; (replace (len pre <? L) with false by (symmetry; apply Z.ltb_ge; lia)); rewrite E; reflexivity.
  - destruct fuel as [|fuel]; [cbn in Hf; lia|]. cbn [exp_loop el].
    replace (len pre <? L) with true by (symmetry; apply Z.ltb_lt; unfold L; cbn [length]; lia).
    cbn [app]. rewrite rd_at. cbn [bind].
    assert (EL : len (pre ++ [c]) + len l = L) by (unfold L; rewrite app_length; cbn [length]; lia).
    assert (EP : len (pre ++ [c]) = len pre + 1) by (rewrite app_length; cbn [length]; lia).
    assert (EB : pre ++ c :: l ++ r = (pre ++ [c]) ++ l ++ r) by (rewrite <- app_assoc; reflexivity).
    cbn [length] in Hf. unfold digc. destruct ((c <? 48) || (57 <? c)) eqn:Dc; cbn [negb]; [reflexivity|].
    apply orb_false_elim in Dc. destruct Dc as [Dc1 Dc2]. apply Z.ltb_ge in Dc1. apply Z.ltb_ge in Dc2.
    destruct (Z.ltb_spec 3 ed) as [K|K]; [reflexivity|].
    assert (B : 0 <= 10 * e + (c - 48) < 10 ^ (ed + 1)) by (rewrite Z.add_1_r, Z.pow_succ_r by lia; lia).
    assert (B2 : 10 ^ (ed + 1) <= 10 ^ 4) by (apply Z.pow_le_mono_r; lia). change (10 ^ 4) with 10000 in B2.
    rewrite i32_ok by (change (2 ^ 31) with 2147483648; lia). cbn [bind]. set (e' := 10 * e + (c - 48)) in *.
    assert (B3 : 0 <= e' < 10 ^ (if negb (e' =? 0) then ed + 1 else ed)).
    { destruct (Z.eqb_spec e' 0) as [E0|E0]; cbn [negb]; [rewrite E0; split; [lia|apply Z.pow_pos_nonneg; lia]|exact B]. }
    specialize (IH (pre ++ [c]) fuel e' (if negb (e' =? 0) then ed + 1 else ed) ltac:(lia) B3 ltac:(destruct (negb _); lia)).
    cbv zeta in IH. rewrite EL, EP in IH. rewrite EB. exact IH.
Qed.

Lemma scan_exp_list l pre d : let L := len pre + len l in L < 2 ^ 31 -> (match d with Some k => 0 <= k < len pre | None => True end) ->
  scan_exp (pre ++ l ++ r) L (len pre) (dot_at L (len pre) d) =
  match exl l with
  | inl s => Ok (inl s)
  | inr e => x <- i32 (e - match d with Some k => k | None => 0 end) ;; Ok (inr x)
  end.
Proof.
  intros L HL Hd.
  assert (D : forall eI, (eI = L /\ l = [] \/ eI = len pre /\ l <> []) -> (if dot_at L (len pre) d <? eI then i32 (eI - dot_at L (len pre) d - 1) else Ok 0) = Ok (match d with Some k => k | None => 0 end)).
  { intros eI HeI. assert (eI = len pre) by (destruct HeI as [[-> ->]|[-> _]]; [unfold L; cbn; lia|reflexivity]).
    subst eI. destruct d as [k|]; cbn [dot_at].
    - replace (len pre - 1 - k <? len pre) with true by (symmetry; apply Z.ltb_lt; lia). rewrite i32_ok by (unfold L in HL; lia). f_equal. lia.
    - replace (L <? len pre) with false by (symmetry; apply Z.ltb_ge; unfold L; lia). reflexivity. }
  unfold scan_exp. destruct l as [|c l].
  - replace (len pre <? L) with false by (symmetry; apply Z.ltb_ge; unfold L; cbn; lia). cbn [bind exl].
    replace (len pre <? L) with false by (symmetry; apply Z.ltb_ge; unfold L; cbn; lia).
    rewrite D by (left; split; reflexivity). reflexivity.
  - replace (len pre <? L) with true by (symmetry; apply Z.ltb_lt; unfold L; cbn [length]; lia).
    cbn [app]. rewrite rd_at. cbn [bind exl]. destruct ((c =? 101) || (c =? 69)) eqn:Ec.
    2:{ cbn [bind]. replace (len pre <? L) with true by (symmetry; apply Z.ltb_lt; unfold L; cbn [length]; lia). reflexivity. }
    assert (EP : len (pre ++ [c]) = len pre + 1) by (rewrite app_length; cbn [length]; lia).
    assert (EL : len (pre ++ [c]) + len l = L) by (unfold L; rewrite app_length; cbn [length]; lia).
    assert (EB : pre ++ c :: l ++ r = (pre ++ [c]) ++ l ++ r) by (rewrite <- app_assoc; reflexivity).
    assert (FU : (length pre + length l < Z.to_nat L)%nat) by (unfold L; cbn [length]; lia).
    rewrite EB. rewrite <- EP.
    assert (TAIL : forall (e : Z) (se : bool), 
      (if L <? L then Ok (inl MALFORMED_INPUT) else
        d0 <- (if dot_at L (len pre) d <? len pre then i32 (len pre - dot_at L (len pre) d - 1) else Ok 0) ;;
        x <- i32 ((if se then - e else e) - d0) ;; Ok (inr x : status + Z)) =
      (x <- i32 ((if se then - e else e) - match d with Some k => k | None => 0 end) ;; Ok (inr x))).
    { intros e se. rewrite Z.ltb_irrefl. rewrite D by (right; split; [reflexivity|discriminate]). reflexivity. }
    destruct l as [|c' l].
    + replace (len (pre ++ [c]) <? L) with false by (symmetry; apply Z.ltb_ge; cbn [length] in EL; lia). cbn [bind].
      pose proof (exp_loop_list [] (pre ++ [c]) (Z.to_nat L) 0 0 ltac:(cbn; lia) ltac:(lia) ltac:(lia)) as X. cbv zeta in X. rewrite EL in X.
      cbn [app] in X |- *. rewrite X. cbn [bind el]. exact (TAIL 0 false).
    + replace (len (pre ++ [c]) <? L) with true by (symmetry; apply Z.ltb_lt; cbn [length] in EL; lia).
      cbn [app]. rewrite rd_at. cbn [bind]. destruct ((c' =? 45) || (c' =? 43)) eqn:Es.
      * cbn [bind]. assert (EP2 : len ((pre ++ [c]) ++ [c']) = len (pre ++ [c]) + 1) by (rewrite !app_length; cbn [length]; lia).
        assert (EL2 : len ((pre ++ [c]) ++ [c']) + len l = L) by (rewrite EP2; cbn [length] in EL; lia).
        assert (EB2 : (pre ++ [c]) ++ c' :: l ++ r = ((pre ++ [c]) ++ [c']) ++ l ++ r) by (rewrite <- (app_assoc (pre ++ [c])); reflexivity).
        pose proof (exp_loop_list l ((pre ++ [c]) ++ [c']) (Z.to_nat L) 0 0 ltac:(cbn [length] in *; lia) ltac:(lia) ltac:(lia)) as X. cbv zeta in X. rewrite EL2, EP2 in X.
        rewrite EB2, X. cbn [bind]. destruct (el l 0 0) as [s|e]; cbn [bind]; [reflexivity|]. apply TAIL.
      * cbn [bind]. pose proof (exp_loop_list (c' :: l) (pre ++ [c]) (Z.to_nat L) 0 0 ltac:(cbn [length] in *; lia) ltac:(lia) ltac:(lia)) as X. cbv zeta in X. rewrite EL in X.
        cbn [app] in X. rewrite X. cbn [bind]. destruct (el (c' :: l) 0 0) as [s|e]; cbn [bind]; [reflexivity|]. exact (TAIL e false).
Qed.

Lemma ml_rest l : forall d m dg l' d' m' dg', ml maxd l d m dg = inr (l', d', m', dg') -> exists pre, l = pre ++ l' /\
  match d with Some k => exists k', d' = Some k' /\ k' = k + len pre | None => match d' with Some k' => 0 <= k' < len pre | None => True end end.
Proof.
  induction l as [|c l IH]; intros d m dg l' d' m' dg'; cbn [ml].
  - intros [= <- <- <- <-]. exists []. split; [reflexivity|]. destruct d as [k|]; [exists k; split; [reflexivity|cbn; lia]|exact I].
  - destruct (c =? 46).
    + destruct d as [k|]; [discriminate|]. intro H. apply IH in H. destruct H as (pre & -> & k' & -> & E). exists (c :: pre). split; [reflexivity|].
      cbn [length]. lia.
    + destruct (negb (digc c)).
      * intros [= <- <- <- <-]. exists []. split; [reflexivity|]. destruct d as [k|]; [exists k; split; [reflexivity|cbn; lia]|exact I].
      * destruct (maxd <=? dg); [discriminate|]. intro H. apply IH in H. destruct H as (pre & -> & E). exists (c :: pre). split; [reflexivity|].
        destruct d as [k|]; cbn [option_map] in E.
        -- destruct E as (k' & -> & E). exists k'. split; [reflexivity|]. cbn [length]. lia.
        -- destruct d' as [k'|]; [|exact I]. cbn [length]. lia.
Qed.

Theorem scan_list t : len t < 2 ^ 31 ->
  scan W maxd (t ++ r) (len t) = match slist maxd t with inl s => Ok (inl s) | inr s => x <- i32 (e10 s) ;; Ok (inr s) end.
Proof.
  intro HL. unfold scan, slist. destruct t as [|c t]; [reflexivity|].
  replace (len (c :: t) =? 0) with false by (symmetry; apply Z.eqb_neq; cbn [length]; lia).
  pose proof (rd_at [] c (t ++ r)) as R0. cbn [app length] in R0. change (Z.of_nat 0) with 0 in R0. cbn [app]. rewrite R0. cbn [bind]. clear R0.
  set (pre := if c =? 45 then [c] else []). set (l := if c =? 45 then t else c :: t).
  assert (EB : c :: t ++ r = pre ++ l ++ r) by (unfold pre, l; destruct (c =? 45); reflexivity).
  assert (EL : len pre + len l = len (c :: t)) by (unfold pre, l; destruct (c =? 45); cbn [length]; lia).
  assert (EI : (if c =? 45 then 1 else 0) = len pre) by (unfold pre; destruct (c =? 45); reflexivity).
  rewrite EB, EI. 
  pose proof (mant_loop_list l pre (Z.to_nat (len (c :: t))) None 0 0 ltac:(lia) ltac:(lia) ltac:(lia) I) as X. cbv zeta in X. rewrite EL in X. cbn [dot_at] in X.
  rewrite X. cbn [bind]. clear X. destruct (ml maxd l None 0 0) as [s|[[[l' d] m] dg]] eqn:M; [reflexivity|].
  destruct (ml_rest _ _ _ _ _ _ _ _ M) as (p2 & El & Hd).
  pose proof (scan_exp_list l' (pre ++ p2) d) as X. cbv zeta in X.
  assert (EL2 : len (pre ++ p2) + len l' = len (c :: t)) by (rewrite <- EL, El, !app_length; lia). rewrite EL2 in X.
  specialize (X HL ltac:(destruct d; [rewrite app_length; lia|exact I])).
  replace (len (c :: t) - len l') with (len (pre ++ p2)) by lia. rewrite El. rewrite <- !app_assoc in X |- *. rewrite X.
  destruct (exl l') as [s|e]; [reflexivity|]. cbn [e10]. unfold i32, chk. destruct (_ && _); reflexivity.
Qed.
End L.

(** ** Numerals are accepted with their value *)
Lemma digc_ascii d : dig d -> digc (48 + d) = true /\ (48 + d =? 46) = false.
Proof.
  unfold dig, digc. intro H. split; [|apply Z.eqb_neq; lia]. rewrite negb_true_iff, orb_false_iff. split; apply Z.ltb_ge; lia.
Qed.
Lemma digc_inv c : digc c = true -> dig (c - 48) /\ c = 48 + (c - 48).
Proof.
  unfold digc, dig. rewrite negb_true_iff, orb_false_iff. intros [A B]. apply Z.ltb_ge in A. apply Z.ltb_ge in B. lia.
Qed.
Definition addn (d : option Z) (n : Z) : option Z := option_map (Z.add n) d.

Section S.
Variables (x : Z) (all ds : list Z).
Hypothesis Fa : Forall dig all.
Hypothesis Hx : dig x.
Lemma step_all : all ++ x :: ds = (all ++ [x]) ++ ds.
Proof. now rewrite <- app_assoc. Qed.
Lemma step_dig : Forall dig (all ++ [x]).
Proof. apply Forall_app. split; [assumption|now constructor]. Qed.
Lemma step_count : (if negb (10 * digit_val all + (48 + x - 48) =? 0) then len (sig all) + 1 else len (sig all)) = len (sig (all ++ [x])).
Proof.
  replace (48 + x - 48) with x by lia. rewrite <- digit_val_snoc. pose proof step_dig as Fx. destruct (Z.eqb_spec (digit_val (all ++ [x])) 0) as [E|E]; cbn [negb].
  - rewrite (sig_zero _ Fx E). pose proof (sig_mono all x). rewrite (sig_zero _ Fx E) in H. lia.
  - symmetry. now apply sig_step.
Qed.
Lemma step_over : 1 <= len (sig all) -> len (sig all) < len (sig (all ++ x :: ds)).
Proof.
  intro H. rewrite step_all. pose proof (sig_mono_app (all ++ [x]) ds) as Mo. assert (len (sig (all ++ [x])) = len (sig all) + 1); [|lia].
  rewrite sig_snoc. destruct (sig all); [cbn in H; lia|]. rewrite app_length. cbn [length]. lia.
Qed.
Lemma step_le : len (sig (all ++ [x])) <= len (sig all) + 1.
Proof. rewrite <- step_count. destruct (negb _); lia. Qed.
End S.

Lemma ml_digits maxd ds : 1 <= maxd -> forall all l d, Forall dig all -> Forall dig ds -> len (sig all) <= maxd ->
  ml maxd (ascii ds ++ l) d (digit_val all) (len (sig all)) =
  if len (sig (all ++ ds)) <=? maxd then ml maxd l (addn d (len ds)) (digit_val (all ++ ds)) (len (sig (all ++ ds)))
  else inl INPUT_TOO_LONG.
Proof.
  intro Hm. induction ds as [|x ds IH]; intros all l d Fa Fd Hb.
  - rewrite app_nil_r. replace (_ <=? _) with true by (symmetry; apply Z.leb_le; lia). destruct d; reflexivity.
  - inversion_clear Fd as [|? ? Hx Fd']. cbn [ascii map app ml]. destruct (digc_ascii x Hx) as [D1 D2]. rewrite D1, D2. cbn [negb].
    destruct (Z.leb_spec maxd (len (sig all))) as [K|K].
    + pose proof (step_over x all ds ltac:(lia)). replace (_ <=? _) with false by (symmetry; apply Z.leb_gt; lia). reflexivity.
    + cbv zeta. rewrite (step_count x all Fa Hx). replace (48 + x - 48) with x by lia. rewrite <- digit_val_snoc, (step_all x all ds).
      pose proof (step_le x all Fa Hx).
      change (map (Z.add 48) ds) with (ascii ds). rewrite IH by (try apply step_dig; assumption || lia).
      replace (addn (option_map Z.succ d) (len ds)) with (addn d (len (x :: ds))) by (destruct d; [cbn [addn option_map length]; f_equal; lia|reflexivity]).
      reflexivity.
Qed.
Lemma el_digits ds : forall all, Forall dig all -> Forall dig ds -> len (sig all) <= 4 ->
  el (ascii ds) (digit_val all) (len (sig all)) = if len (sig (all ++ ds)) <=? 4 then inr (digit_val (all ++ ds)) else inl INPUT_TOO_LONG.
Proof.
  induction ds as [|x ds IH]; intros all Fa Fd Hb.
  - rewrite app_nil_r. replace (_ <=? _) with true by (symmetry; apply Z.leb_le; lia). reflexivity.
  - inversion_clear Fd as [|? ? Hx Fd']. cbn [ascii map el]. destruct (digc_ascii x Hx) as [D1 _]. rewrite D1. cbn [negb].
    destruct (Z.ltb_spec 3 (len (sig all))) as [K|K].
    + pose proof (step_over x all ds ltac:(lia)). replace (_ <=? _) with false by (symmetry; apply Z.leb_gt; lia). reflexivity.
    + cbv zeta. rewrite (step_count x all Fa Hx). replace (48 + x - 48) with x by lia. rewrite <- digit_val_snoc, (step_all x all ds).
      pose proof (step_le x all Fa Hx). change (map (Z.add 48) ds) with (ascii ds). now rewrite IH by (try apply step_dig; assumption || lia).
Qed.

Definition wf_exp (o : option (Z * option bool * list Z)) : Prop :=
  match o with None => True | Some (c, _, es) => (c = 101 \/ c = 69) /\ Forall dig es end.
Lemma ml_exp maxd o d m dg : wf_exp o -> ml maxd (exp_part o) d m dg = inr (exp_part o, d, m, dg).
Proof. destruct o as [[[c s] es]|]; [|reflexivity]. intros [[->| ->] _]; reflexivity. Qed.
Lemma exl_exp o : wf_exp o ->
  exl (exp_part o) = match o with None => inr 0 | Some (_, s, es) =>
    if len (sig es) <=? 4 then inr (match s with Some true => - digit_val es | _ => digit_val es end) else inl INPUT_TOO_LONG end.
Proof.
  destruct o as [[[c s] es]|]; [|reflexivity]. intros [Hc Fe]. cbn [exp_part exl].
  replace ((c =? 101) || (c =? 69)) with true by (destruct Hc as [-> | ->]; reflexivity).
  pose proof (el_digits es [] (Forall_nil _) Fe ltac:(cbn; lia)) as X. cbn [app] in X. change (digit_val []) with 0 in X. change (len (sig [])) with 0 in X.
  destruct s as [[|]|]; cbn [sign_char app].
  - cbn [Z.eqb orb Pos.eqb]. rewrite X. destruct (_ <=? _); reflexivity.
  - cbn [Z.eqb orb Pos.eqb]. rewrite X. destruct (_ <=? _); reflexivity.
  - destruct es as [|x es]; [reflexivity|]. inversion_clear Fe as [|? ? Hx _]. cbn [ascii map] in X |- *.
    replace ((48 + x =? 45) || (48 + x =? 43)) with false by (symmetry; unfold dig in Hx; apply orb_false_iff; split; apply Z.eqb_neq; lia). exact X.
Qed.

Lemma ml_body maxd ip fr ex : 1 <= maxd -> Forall dig ip -> Forall dig (match fr with None => [] | Some ds => ds end) -> wf_exp ex ->
  let all := ip ++ match fr with None => [] | Some ds => ds end in
  ml maxd (ascii ip ++ frac_text fr ++ exp_part ex) None 0 0 =
  if len (sig all) <=? maxd then inr (exp_part ex, option_map (fun ds => len ds) fr, digit_val all, len (sig all)) else inl INPUT_TOO_LONG.
Proof.
  intros Hm Fi Ff Fe all. pose proof (ml_digits maxd ip Hm [] (frac_text fr ++ exp_part ex) None (Forall_nil _) Fi ltac:(cbn; lia)) as X.
  cbn [app] in X. change (digit_val []) with 0 in X. change (len (sig [])) with 0 in X. rewrite X. clear X. unfold all.
  destruct fr as [fp|].
  - pose proof (sig_mono_app ip fp). destruct (Z.leb_spec (len (sig ip)) maxd) as [K|K].
    + cbn [frac_text app ml addn option_map]. change (46 =? 46) with true. cbv iota. rewrite ml_digits by assumption. rewrite ml_exp by assumption.
      cbn [addn option_map]. rewrite Z.add_0_r. reflexivity.
    + replace (_ <=? maxd) with false by (symmetry; apply Z.leb_gt; lia). reflexivity.
  - rewrite app_nil_r. cbn [frac_text app addn option_map]. rewrite ml_exp by assumption. reflexivity.
Qed.

Lemma wf_wf_exp n : wf n -> wf_exp (nexp n).
Proof. intros (_ & _ & E & C). unfold wf_exp, exp_digs in *. destruct (nexp n) as [[[c s] es]|]; [|exact I]. now split. Qed.

Theorem slist_numeral maxd n : 1 <= maxd -> wf n -> spell n <> [] ->
  (fits maxd n -> slist maxd (spell n) = inr (Scanned (nneg n) (nsig n) (len (sig (nint n ++ frac_digits n))) (nten n))) /\
  (~ fits maxd n -> slist maxd (spell n) = inl INPUT_TOO_LONG).
Proof.
  intros Hm Wf Ne. pose proof (wf_wf_exp n Wf) as We. pose proof Wf as (Fi & Ff & Fx & _).
  set (body := ascii (nint n) ++ frac_text (nfrac n) ++ exp_part (nexp n)).
  assert (Sp : slist maxd (spell n) = match ml maxd body None 0 0 with inl s => inl s | inr (l, d, m, dg) =>
     match exl l with inl s => inl s | inr e => inr (Scanned (nneg n) m dg (e - match d with Some k => k | None => 0 end)) end end).
  { unfold spell in *. fold body in Ne |- *. destruct (nneg n); cbn [minus app] in *; [reflexivity|].
    unfold slist. destruct body as [|c t] eqn:Eb; [now destruct Ne|].
    assert (C : (c =? 45) = false).
    { apply Z.eqb_neq. unfold body in Eb. destruct (nint n) as [|x ip]; cbn [ascii map app] in Eb.
      - destruct (nfrac n) as [fp|]; cbn [frac_text app] in Eb; [injection Eb as <- _; lia|].
        destruct (nexp n) as [[[c0 s] es]|]; cbn [exp_part] in Eb; [injection Eb as <- _|discriminate]. cbn [wf_exp] in We. lia.
      - inversion_clear Fi as [|? ? Hx _]. assert (Ec : 48 + x = c) by congruence. unfold dig in Hx. lia. }
    now rewrite C. }
  rewrite Sp. unfold body. rewrite (ml_body maxd (nint n) (nfrac n) (nexp n) Hm Fi Ff We). fold (frac_digits n).
  unfold fits. destruct (Z.leb_spec (len (sig (nint n ++ frac_digits n))) maxd) as [K|K]; [|split; intro H; [exfalso; lia|reflexivity]].
  rewrite exl_exp by exact We. unfold exp_digs, nten, exp_val, nsig.
  assert (Q : match option_map (fun ds => len ds) (nfrac n) with Some k => k | None => 0 end = len (frac_digits n)) by (unfold frac_digits; destruct (nfrac n); reflexivity).
  rewrite Q. destruct (nexp n) as [[[c s] es]|].
  - destruct (Z.leb_spec (len (sig es)) 4) as [K2|K2]; split; intro H; solve [reflexivity | exfalso; lia].
  - split; intro H; [reflexivity|]. exfalso. apply H. split; [exact K|cbn; lia].
Qed.

(** ** Only numerals are accepted *)
Lemma ml_inv maxd l : forall d m dg l' d' m' dg', ml maxd l d m dg = inr (l', d', m', dg') ->
  exists ip fr, Forall dig ip /\ Forall dig (match fr with None => [] | Some ds => ds end) /\ l = ascii ip ++ frac_text fr ++ l' /\ (d <> None -> fr = None).
Proof.
  induction l as [|c l IH]; intros d m dg l' d' m' dg'; cbn [ml].
  - intros [= <- _ _ _]. exists [], None. repeat split; constructor.
  - destruct (Z.eqb_spec c 46) as [->|N].
    + destruct d; [discriminate|]. intro H. apply IH in H. destruct H as (ip & fr & F1 & F2 & -> & F3). rewrite (F3 ltac:(discriminate)).
      exists [], (Some ip). split; [constructor|]. split; [exact F1|]. split; [reflexivity|congruence].
    + destruct (digc c) eqn:Dc; cbn [negb].
      * destruct (maxd <=? dg); [discriminate|]. intro H. apply IH in H. destruct H as (ip & fr & F1 & F2 & -> & F3).
        destruct (digc_inv c Dc) as [D1 D2]. exists ((c - 48) :: ip), fr. split; [now constructor|]. split; [exact F2|]. split.
        -- cbn [ascii map app]. f_equal. exact D2.
        -- intro H. apply F3. destruct d; [discriminate|congruence].
      * intros [= <- _ _ _]. exists [], None. repeat split; constructor.
Qed.
Lemma el_inv l : forall e ed e', el l e ed = inr e' -> exists es, Forall dig es /\ l = ascii es.
Proof.
  induction l as [|c l IH]; intros e ed e'; cbn [el]; [exists []; split; [constructor|reflexivity]|].
  destruct (digc c) eqn:Dc; cbn [negb]; [|discriminate]. destruct (3 <? ed); [discriminate|]. intro H. apply IH in H.
  destruct H as (es & F & ->). destruct (digc_inv c Dc) as [D1 D2]. exists ((c - 48) :: es). split; [now constructor|]. cbn [ascii map]. f_equal. exact D2.
Qed.
Lemma exl_inv l e : exl l = inr e -> exists o, wf_exp o /\ l = exp_part o.
Proof.
  destruct l as [|c l]; cbn [exl]; [intros _; exists None; split; [exact I|reflexivity]|].
  destruct ((c =? 101) || (c =? 69)) eqn:Ec; [|discriminate].
  assert (C : c = 101 \/ c = 69) by (apply orb_true_iff in Ec; rewrite !Z.eqb_eq in Ec; exact Ec).
  destruct l as [|c' l]; [intros _; exists (Some (c, None, [])); split; [split; [exact C|constructor]|reflexivity]|].
  destruct ((c' =? 45) || (c' =? 43)) eqn:Es.
  - destruct (el l 0 0) eqn:E; [discriminate|]. intros _. apply el_inv in E. destruct E as (es & F & ->).
    exists (Some (c, Some (c' =? 45), es)). split; [now split|]. cbn [exp_part sign_char app]. f_equal.
    apply orb_true_iff in Es. rewrite !Z.eqb_eq in Es. destruct Es as [-> | ->]; reflexivity.
  - intro E. apply el_inv in E. destruct E as (es & F & E). exists (Some (c, None, es)). split; [now split|]. cbn [exp_part sign_char app]. now rewrite E.
Qed.
Theorem slist_inv maxd t s : slist maxd t = inr s -> t <> [] /\ exists n, wf n /\ t = spell n.
Proof.
  unfold slist. destruct t as [|c t]; [discriminate|]. destruct (ml _ _ _ _ _) as [|[[[l d] m] dg]] eqn:M; [discriminate|].
  destruct (exl l) as [|e] eqn:E; [discriminate|]. intros _. split; [discriminate|].
  apply ml_inv in M. destruct M as (ip & fr & F1 & F2 & El & _). apply exl_inv in E. destruct E as (o & We & ->).
  exists (Num (c =? 45) ip fr o). split.
  - unfold wf, frac_digits, exp_digs. cbn [nint nfrac nexp]. unfold wf_exp in We. split; [exact F1|]. split; [exact F2|]. destruct o as [[[c0 s0] es]|]; [split; apply We|split; [constructor|exact I]].
  - unfold spell. cbn [nneg nint nfrac nexp]. rewrite <- El. destruct (Z.eqb_spec c 45) as [->|]; reflexivity.
Qed.
Lemma slist_empty maxd t : slist maxd t = inl INPUT_TOO_SHORT <-> t = [].
Proof.
  split; [|now intros ->]. destruct t as [|c t]; [reflexivity|]. unfold slist.
  assert (M : forall l d m dg, ml maxd l d m dg <> inl INPUT_TOO_SHORT).
  { clear. induction l as [|c l IH]; intros d m dg; cbn [ml]; [discriminate|]. destruct (c =? 46); [destruct d; [discriminate|apply IH]|].
    destruct (negb _); [discriminate|]. destruct (maxd <=? dg); [discriminate|apply IH]. }
  assert (E : forall l e ed, el l e ed <> inl INPUT_TOO_SHORT).
  { clear. induction l as [|c l IH]; intros e ed; cbn [el]; [discriminate|]. destruct (negb _); [discriminate|]. destruct (3 <? ed); [discriminate|apply IH]. }
  destruct (ml _ _ _ _ _) as [s|[[[l d] m] dg]] eqn:Em; [intro H; exfalso; injection H as ->; now apply M in Em|].
  destruct (exl l) as [s|e] eqn:Ee; [|discriminate]. intro H. injection H as ->. exfalso. unfold exl in Ee.
  destruct l as [|c0 l]; [discriminate|]. destruct (_ || _); [|discriminate]. destruct l as [|c1 l]; [discriminate|].
  destruct (_ || _); [destruct (el l 0 0) eqn:X; [injection Ee as ->; now apply E in X|discriminate]|now apply E in Ee].
Qed.
