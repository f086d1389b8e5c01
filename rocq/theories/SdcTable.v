(** The two tables of include/fast_float/simple_decimal_conversion.h, copied by a script. *)
From Coq Require Import ZArith List.
Import ListNotations.
Open Scope Z_scope.

(** simple_decimal_conversion.h:35-44 number_of_digits_decimal_left_shift_table *)
Definition left_shift_table : list Z := [
  0x0000; 0x0800; 0x0801; 0x0803; 0x1006; 0x1009; 0x100D; 0x1812; 0x1817; 0x181D; 0x2024; 0x202B;
  0x2033; 0x203C; 0x2846; 0x2850; 0x285B; 0x3067; 0x3073; 0x3080; 0x388E; 0x389C; 0x38AB; 0x38BB;
  0x40CC; 0x40DD; 0x40EF; 0x4902; 0x4915; 0x4929; 0x513E; 0x5153; 0x5169; 0x5180; 0x5998; 0x59B0;
  0x59C9; 0x61E3; 0x61FD; 0x6218; 0x6A34; 0x6A50; 0x6A6D; 0x6A8B; 0x72AA; 0x72C9; 0x72E9; 0x7B0A;
  0x7B2B; 0x7B4D; 0x8370; 0x8393; 0x83B7; 0x83DC; 0x8C02; 0x8C28; 0x8C4F; 0x9477; 0x949F; 0x94C8;
  0x9CF2; 0x051C; 0x051C; 0x051C; 0x051C].
(** simple_decimal_conversion.h:50-107 number_of_digits_decimal_left_shift_table_powers_of_5 *)
Definition powers_of_5 : list Z := [
  5; 2; 5; 1; 2; 5; 6; 2; 5; 3; 1; 2; 5; 1; 5; 6; 2; 5; 7; 8; 1; 2; 5; 3; 9; 0; 6; 2; 5; 1; 9; 5; 3; 1; 2; 5; 9; 7; 6; 5;
  6; 2; 5; 4; 8; 8; 2; 8; 1; 2; 5; 2; 4; 4; 1; 4; 0; 6; 2; 5; 1; 2; 2; 0; 7; 0; 3; 1; 2; 5; 6; 1; 0; 3; 5; 1; 5; 6; 2; 5;
  3; 0; 5; 1; 7; 5; 7; 8; 1; 2; 5; 1; 5; 2; 5; 8; 7; 8; 9; 0; 6; 2; 5; 7; 6; 2; 9; 3; 9; 4; 5; 3; 1; 2; 5; 3; 8; 1; 4; 6;
  9; 7; 2; 6; 5; 6; 2; 5; 1; 9; 0; 7; 3; 4; 8; 6; 3; 2; 8; 1; 2; 5; 9; 5; 3; 6; 7; 4; 3; 1; 6; 4; 0; 6; 2; 5; 4; 7; 6; 8;
  3; 7; 1; 5; 8; 2; 0; 3; 1; 2; 5; 2; 3; 8; 4; 1; 8; 5; 7; 9; 1; 0; 1; 5; 6; 2; 5; 1; 1; 9; 2; 0; 9; 2; 8; 9; 5; 5; 0; 7;
  8; 1; 2; 5; 5; 9; 6; 0; 4; 6; 4; 4; 7; 7; 5; 3; 9; 0; 6; 2; 5; 2; 9; 8; 0; 2; 3; 2; 2; 3; 8; 7; 6; 9; 5; 3; 1; 2; 5; 1;
  4; 9; 0; 1; 1; 6; 1; 1; 9; 3; 8; 4; 7; 6; 5; 6; 2; 5; 7; 4; 5; 0; 5; 8; 0; 5; 9; 6; 9; 2; 3; 8; 2; 8; 1; 2; 5; 3; 7; 2;
  5; 2; 9; 0; 2; 9; 8; 4; 6; 1; 9; 1; 4; 0; 6; 2; 5; 1; 8; 6; 2; 6; 4; 5; 1; 4; 9; 2; 3; 0; 9; 5; 7; 0; 3; 1; 2; 5; 9; 3;
  1; 3; 2; 2; 5; 7; 4; 6; 1; 5; 4; 7; 8; 5; 1; 5; 6; 2; 5; 4; 6; 5; 6; 6; 1; 2; 8; 7; 3; 0; 7; 7; 3; 9; 2; 5; 7; 8; 1; 2;
  5; 2; 3; 2; 8; 3; 0; 6; 4; 3; 6; 5; 3; 8; 6; 9; 6; 2; 8; 9; 0; 6; 2; 5; 1; 1; 6; 4; 1; 5; 3; 2; 1; 8; 2; 6; 9; 3; 4; 8;
  1; 4; 4; 5; 3; 1; 2; 5; 5; 8; 2; 0; 7; 6; 6; 0; 9; 1; 3; 4; 6; 7; 4; 0; 7; 2; 2; 6; 5; 6; 2; 5; 2; 9; 1; 0; 3; 8; 3; 0;
  4; 5; 6; 7; 3; 3; 7; 0; 3; 6; 1; 3; 2; 8; 1; 2; 5; 1; 4; 5; 5; 1; 9; 1; 5; 2; 2; 8; 3; 6; 6; 8; 5; 1; 8; 0; 6; 6; 4; 0;
  6; 2; 5; 7; 2; 7; 5; 9; 5; 7; 6; 1; 4; 1; 8; 3; 4; 2; 5; 9; 0; 3; 3; 2; 0; 3; 1; 2; 5; 3; 6; 3; 7; 9; 7; 8; 8; 0; 7; 0;
  9; 1; 7; 1; 2; 9; 5; 1; 6; 6; 0; 1; 5; 6; 2; 5; 1; 8; 1; 8; 9; 8; 9; 4; 0; 3; 5; 4; 5; 8; 5; 6; 4; 7; 5; 8; 3; 0; 0; 7;
  8; 1; 2; 5; 9; 0; 9; 4; 9; 4; 7; 0; 1; 7; 7; 2; 9; 2; 8; 2; 3; 7; 9; 1; 5; 0; 3; 9; 0; 6; 2; 5; 4; 5; 4; 7; 4; 7; 3; 5;
  0; 8; 8; 6; 4; 6; 4; 1; 1; 8; 9; 5; 7; 5; 1; 9; 5; 3; 1; 2; 5; 2; 2; 7; 3; 7; 3; 6; 7; 5; 4; 4; 3; 2; 3; 2; 0; 5; 9; 4;
  7; 8; 7; 5; 9; 7; 6; 5; 6; 2; 5; 1; 1; 3; 6; 8; 6; 8; 3; 7; 7; 2; 1; 6; 1; 6; 0; 2; 9; 7; 3; 9; 3; 7; 9; 8; 8; 2; 8; 1;
  2; 5; 5; 6; 8; 4; 3; 4; 1; 8; 8; 6; 0; 8; 0; 8; 0; 1; 4; 8; 6; 9; 6; 8; 9; 9; 4; 1; 4; 0; 6; 2; 5; 2; 8; 4; 2; 1; 7; 0;
  9; 4; 3; 0; 4; 0; 4; 0; 0; 7; 4; 3; 4; 8; 4; 4; 9; 7; 0; 7; 0; 3; 1; 2; 5; 1; 4; 2; 1; 0; 8; 5; 4; 7; 1; 5; 2; 0; 2; 0;
  0; 3; 7; 1; 7; 4; 2; 2; 4; 8; 5; 3; 5; 1; 5; 6; 2; 5; 7; 1; 0; 5; 4; 2; 7; 3; 5; 7; 6; 0; 1; 0; 0; 1; 8; 5; 8; 7; 1; 1;
  2; 4; 2; 6; 7; 5; 7; 8; 1; 2; 5; 3; 5; 5; 2; 7; 1; 3; 6; 7; 8; 8; 0; 0; 5; 0; 0; 9; 2; 9; 3; 5; 5; 6; 2; 1; 3; 3; 7; 8;
  9; 0; 6; 2; 5; 1; 7; 7; 6; 3; 5; 6; 8; 3; 9; 4; 0; 0; 2; 5; 0; 4; 6; 4; 6; 7; 7; 8; 1; 0; 6; 6; 8; 9; 4; 5; 3; 1; 2; 5;
  8; 8; 8; 1; 7; 8; 4; 1; 9; 7; 0; 0; 1; 2; 5; 2; 3; 2; 3; 3; 8; 9; 0; 5; 3; 3; 4; 4; 7; 2; 6; 5; 6; 2; 5; 4; 4; 4; 0; 8;
  9; 2; 0; 9; 8; 5; 0; 0; 6; 2; 6; 1; 6; 1; 6; 9; 4; 5; 2; 6; 6; 7; 2; 3; 6; 3; 2; 8; 1; 2; 5; 2; 2; 2; 0; 4; 4; 6; 0; 4;
  9; 2; 5; 0; 3; 1; 3; 0; 8; 0; 8; 4; 7; 2; 6; 3; 3; 3; 6; 1; 8; 1; 6; 4; 0; 6; 2; 5; 1; 1; 1; 0; 2; 2; 3; 0; 2; 4; 6; 2;
  5; 1; 5; 6; 5; 4; 0; 4; 2; 3; 6; 3; 1; 6; 6; 8; 0; 9; 0; 8; 2; 0; 3; 1; 2; 5; 5; 5; 5; 1; 1; 1; 5; 1; 2; 3; 1; 2; 5; 7;
  8; 2; 7; 0; 2; 1; 1; 8; 1; 5; 8; 3; 4; 0; 4; 5; 4; 1; 0; 1; 5; 6; 2; 5; 2; 7; 7; 5; 5; 5; 7; 5; 6; 1; 5; 6; 2; 8; 9; 1;
  3; 5; 1; 0; 5; 9; 0; 7; 9; 1; 7; 0; 2; 2; 7; 0; 5; 0; 7; 8; 1; 2; 5; 1; 3; 8; 7; 7; 7; 8; 7; 8; 0; 7; 8; 1; 4; 4; 5; 6;
  7; 5; 5; 2; 9; 5; 3; 9; 5; 8; 5; 1; 1; 3; 5; 2; 5; 3; 9; 0; 6; 2; 5; 6; 9; 3; 8; 8; 9; 3; 9; 0; 3; 9; 0; 7; 2; 2; 8; 3;
  7; 7; 6; 4; 7; 6; 9; 7; 9; 2; 5; 5; 6; 7; 6; 2; 6; 9; 5; 3; 1; 2; 5; 3; 4; 6; 9; 4; 4; 6; 9; 5; 1; 9; 5; 3; 6; 1; 4; 1;
  8; 8; 8; 2; 3; 8; 4; 8; 9; 6; 2; 7; 8; 3; 8; 1; 3; 4; 7; 6; 5; 6; 2; 5; 1; 7; 3; 4; 7; 2; 3; 4; 7; 5; 9; 7; 6; 8; 0; 7;
  0; 9; 4; 4; 1; 1; 9; 2; 4; 4; 8; 1; 3; 9; 1; 9; 0; 6; 7; 3; 8; 2; 8; 1; 2; 5; 8; 6; 7; 3; 6; 1; 7; 3; 7; 9; 8; 8; 4; 0;
  3; 5; 4; 7; 2; 0; 5; 9; 6; 2; 2; 4; 0; 6; 9; 5; 9; 5; 3; 3; 6; 9; 1; 4; 0; 6; 2; 5].
