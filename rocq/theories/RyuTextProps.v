(** C27, C28, C29: to_string(float) and to_string(double). *)
From Coq Require Import ZArith List Bool Lia Reals.
From Flocq Require Import Core IEEE754.Binary IEEE754.Bits.
From Verif Require Import Mem IntStrModel FpModel FpProofs RyuRound RyuDec RyuFmtModel RyuFmt RyuText.
Import ListNotations.
Open Scope Z_scope.

(** C27: every float prints; a finite non-zero one as the shortest decimal that reads back as it,
    the closest one of that length; the others as NaN, [-]Infinity, [-]0E0. *)
Theorem C27_to_string_float_shortest : forall x, pattern float32 x ->
  exists t, to_string_float x = Ok t /\ text_of float32 (val float32 x) t.
Proof. intros x H. destruct (to_string_float_ok x H) as (t & E & T & _). now exists t. Qed.
Print Assumptions C27_to_string_float_shortest.

(** 0x3dcccccd = 0.1f, 0xff7fffff = -FLT_MAX, 0x80000001 = the negative number closest to zero *)
Example C27_case : pattern float32 1036831949 /\
  to_string_float 1036831949 = Ok [49; 69; 45; 49] /\
  to_string_float 4286578687 = Ok [45; 51; 46; 52; 48; 50; 56; 50; 51; 53; 69; 51; 56] /\
  to_string_float 2147483649 = Ok [45; 49; 69; 45; 52; 53] /\
  to_string_float 2147483648 = Ok [45; 48; 69; 48] /\
  to_string_float 4286578688 = Ok [45; 73; 110; 102; 105; 110; 105; 116; 121] /\
  to_string_float 4290772992 = Ok [78; 97; 78].
Proof. split; [split; vm_compute; [discriminate|reflexivity]|]. vm_compute. repeat split. Qed.

Theorem C28_to_string_double_shortest : forall x, pattern float64 x ->
  exists t, to_string_double x = Ok t /\ text_of float64 (val float64 x) t.
Proof. intros x H. destruct (to_string_double_ok x H) as (t & E & T & _). now exists t. Qed.
Print Assumptions C28_to_string_double_shortest.

(** 0.3, 123456789012345680.0, the smallest subnormal, 2^60 *)
Example C28_case : pattern float64 4599075939470750515 /\
  to_string_double 4599075939470750515 = Ok [51; 69; 45; 49] /\
  to_string_double 4862596447618666293 = Ok [49; 46; 50; 51; 52; 53; 54; 55; 56; 57; 48; 49; 50; 51; 52; 53; 54; 56; 69; 49; 55] /\
  to_string_double 1 = Ok [53; 69; 45; 51; 50; 52] /\
  to_string_double 4877398396442247168 = Ok [49; 46; 49; 53; 50; 57; 50; 49; 53; 48; 52; 54; 48; 54; 56; 52; 55; 69; 49; 56].
Proof. split; [split; vm_compute; [discriminate|reflexivity]|]. vm_compute. repeat split. Qed.

(** C29: into any 16-byte (25-byte) buffer, whatever it held: no store outside it, and what it then
    holds, read up to the terminator, is the text described by C27 (C28). *)
Theorem C29_formatting_fits : 
  (forall x b, pattern float32 x -> length b = 16%nat ->
     exists b' t, f2s_buffered x b = Ok b' /\ length b' = 16%nat /\ read_cstr b' = Ok t /\
       (length t <= 15)%nat /\ text_of float32 (val float32 x) t) /\
  (forall x b, pattern float64 x -> length b = 25%nat ->
     exists b' t, d2s_buffered x b = Ok b' /\ length b' = 25%nat /\ read_cstr b' = Ok t /\
       (length t <= 24)%nat /\ text_of float64 (val float64 x) t).
Proof.
  split; intros x b Hx Hb.
  - destruct (f2s_ok x b Hx ltac:(lia)) as (t & b' & E & T & L & P & F). exists b', t.
    split; [exact E|]. split; [destruct P as (-> & _); exact Hb|]. split; [|split; [lia|exact T]]. apply (read_terminated b); [exact P|lia|exact F].
  - destruct (d2s_ok x b Hx ltac:(lia)) as (t & b' & E & T & L & P & F). exists b', t.
    split; [exact E|]. split; [destruct P as (-> & _); exact Hb|]. split; [|split; [lia|exact T]]. apply (read_terminated b); [exact P|lia|exact F].
Qed.
Print Assumptions C29_formatting_fits.

(** The sizes are needed: -1.02222785E-30 and -2.2250738585072014E-308 fill them. *)
Theorem C29_sizes_tight :
  (exists x, pattern float32 x /\ f2s_buffered x (repeat None 15) = UB OutOfBounds) /\
  (exists x, pattern float64 x /\ d2s_buffered x (repeat None 24) = UB OutOfBounds).
Proof.
  split.
  - exists 2376457647. split; [split; vm_compute; [discriminate|reflexivity]|]. vm_compute. reflexivity.
  - exists 9227875636482146304. split; [split; vm_compute; [discriminate|reflexivity]|]. vm_compute. reflexivity.
Qed.
Print Assumptions C29_sizes_tight.

Example C29_case : 
  match f2s_buffered 2376457647 (repeat (Some 7) 16) with Ok b => length b = 16%nat /\ read_cstr b = Ok [45; 49; 46; 48; 50; 50; 50; 50; 55; 56; 53; 69; 45; 51; 48] | _ => False end.
Proof. vm_compute. repeat split. Qed.
