(** Correctly rounded conversion of a non-negative rational to a bit pattern
    (round to nearest, ties to even).  It has no counterpart in the repository: it is what the C++
    compiler does with the decimal floating literals of include/nanolimits.h, and
    LitProofs proves it equal to Flocq's rounding operator. *)
From Coq Require Import ZArith Bool.
From Verif Require Import FpModel.
Open Scope Z_scope.

(** Exponent of the least significant bit of subnormals: the weight of pattern 1 is 2^emin. *)
Definition femin (f : fmt) : Z := 3 - 2 ^ (ew f - 1) - (mw f + 1).
(** Pattern of +infinity. *)
Definition inf_pattern (f : fmt) : Z := (2 ^ ew f - 1) * 2 ^ mw f.

(** floor (log2 (n/d)) *)
Definition log2_ratio (n d : Z) : Z :=
  let k := Z.log2 n - Z.log2 d in
  if (if 0 <=? k then d * 2 ^ k <=? n else d <=? n * 2 ^ (- k)) then k else k - 1.
(** n/d to nearest, ties to even *)
Definition div_rne (n d : Z) : Z :=
  let q := n / d in let r := n mod d in
  if (d <? 2 * r) || ((2 * r =? d) && Z.odd q) then q + 1 else q.

(** no code counterpart: n * 2^-e when e < 0 *)
Definition scale_num (n e : Z) : Z := if 0 <=? e then n else n * 2 ^ (- e).
(** no code counterpart: d * 2^e when e >= 0 *)
Definition scale_den (d e : Z) : Z := if 0 <=? e then d * 2 ^ e else d.

(** no code counterpart: exponent of the last bit kept *)
Definition round_exp (f : fmt) (n d : Z) : Z := Z.max (femin f) (log2_ratio n d - mw f).
(** no code counterpart: integer mantissa at that exponent *)
Definition round_man (f : fmt) (n d : Z) : Z :=
  let e := round_exp f n d in div_rne (scale_num n e) (scale_den d e).

(** no code counterpart: n/d rounded to the format, as a pattern *)
Definition round_ratio (f : fmt) (n d : Z) : Z :=
  if n =? 0 then 0
  else Z.min (inf_pattern f) ((round_exp f n d - femin f) * 2 ^ mw f + round_man f n d).

(** The literal m * 10^e10. *)
Definition literal (f : fmt) (m e10 : Z) : Z :=
  if 0 <=? e10 then round_ratio f (m * 10 ^ e10) 1 else round_ratio f m (10 ^ (- e10)).
