(** C23: stringstream and ostream. *)
From Coq Require Import ZArith List Bool Lia.
From Verif Require Import Mem VecModel StrModel StrSpec IntStrModel IntStrSpec SsModel SsSpec SsProofs.
Import ListNotations.
Open Scope Z_scope.

(** Every history over any number of streams: no undefined behaviour, every result is the one
    of the specification, the printed bytes are the specified ones, and afterwards str() of every
    live stream is the concatenation of what was written to it since it was emptied.
    Partial: integers are limited to the range in which to_string is right (C12, C13), and the
    operator<< of a nanostl::string on an ostream is the subject of the refutation below. *)
Theorem C23_stream_partial : forall ops outs sp,
  ss_run sspec0 ops outs sp ->
  exists w, ssrun ssworld0 ops = Ok (outs, w) /\ stdout w = printed sp /\
    forall x l, written sp x = Some l -> ssstep w (Read x) = Ok (Some (concat l), w).
Proof.
  intros ops outs sp H. destruct (ssrun_refines ops _ _ _ _ wrel0 H) as (w & E & WR).
  exists w. split; [exact E|]. split; [destruct WR as (s & _ & _ & _ & P); exact P|].
  intros x l W. cbn [ssstep]. rewrite (read_ok _ _ _ _ WR W). reflexivity.
Qed.
Print Assumptions C23_stream_partial.

(** operator<<(ostream&, const string&) calls itself: it never returns. *)
Theorem C23_ostream_string_refuted : forall n os s, ostream_shl_string n os s = UB NoReturn.
Proof. exact shl_string_never. Qed.
Print Assumptions C23_ostream_string_refuted.

(** x << "ab" << -7; y = move(x); x << "c" << y.str(); flush y; *)
Definition demo : list ssop :=
  [Stream 0; Stream 1; PutLit 0 (Some [97; 98; 0]); PutInt 0 (-7); Move 1 0; Read 0; PutLit 0 (Some [99; 0]);
   PutStr 0 1; Flush 1; Read 1; Read 0].
Example C23_case :
  match ssrun ssworld0 demo with
  | Ok (outs, w) => stdout w = [97; 98; 45; 55] /\ nth 5 outs None = Some [] /\ nth 9 outs None = Some [] /\
                    nth 10 outs None = Some [99; 97; 98; 45; 55]
  | _ => False
  end.
Proof. vm_compute. repeat split. Qed.
Example C23_case_spec : exists outs sp, ss_run sspec0 demo outs sp /\ printed sp = [97; 98; 45; 55].
Proof.
  eexists _, _. split.
  - assert (D : decimal (-7) [45; 55]).
    { exists [55]. repeat split; try discriminate. repeat constructor; lia. }
    unfold demo.
    repeat first [ apply ss_nil
      | eapply ss_cons; [ first [ now apply s_stream | eapply s_putlit; reflexivity | eapply s_putnull; reflexivity
        | eapply s_putint; [reflexivity|lia|exact D|reflexivity]
        | eapply s_putstr; [discriminate|reflexivity|reflexivity|reflexivity]
        | eapply s_move; reflexivity | eapply s_clear; reflexivity | eapply s_read; reflexivity | eapply s_flush; reflexivity ] |] ].
  - reflexivity.
Qed.
