(** Model of to_string(int) and to_string(int64_t) (include/nanostring.h:274-368). *)
From Coq Require Import ZArith List Bool.
From Verif Require Import Mem.
Import ListNotations.
Open Scope Z_scope.

(** The local [char buffer[N]] (nanostring.h:290, 338); cells start indeterminate.
    chars are unsigned values 0..255. *)
Notation buf := (list (option Z)).

(** buffer[i] = c; out-of-range stores are UB. *)
Definition bstore (b : buf) (i c : Z) : res buf :=
  if (0 <=? i) && (i <? Z.of_nat (length b))
  then Ok (set_nth b (Z.to_nat i) (Some (c mod 256))) else UB OutOfBounds.

(** buffer[i] as an rvalue. *)
Definition bload (b : buf) (i : Z) : res Z :=
  if (0 <=? i) && (i <? Z.of_nat (length b))
  then match nth (Z.to_nat i) b None with Some c => Ok c | None => UB Indet end
  else UB OutOfBounds.

(** nanostring.h:278-288 / 327-336 myreverse lambda. *)
Fixpoint myreverse (fuel : nat) (b : buf) (i j : Z) : res buf :=
  if i <? j then
    match fuel with
    | O => UB NoReturn
    | S f =>
      tmp <- bload b j ;;
      bi <- bload b i ;;
      b1 <- bstore b j bi ;;
      b2 <- bstore b1 i tmp ;;
      myreverse f b2 (i + 1) (j - 1)
    end
  else Ok b.

(** nanostring.h:295-305 / 343-353: while (n) { r = n % base; ... n = n / base; }
    with base = 10; C++ % and / truncate towards zero. *)
Fixpoint digit_loop (fuel : nat) (b : buf) (n i : Z) : res (buf * Z) :=
  if n =? 0 then Ok (b, i) else
  match fuel with
  | O => UB NoReturn
  | S f =>
    let r := Z.rem n 10 in
    b' <- bstore b i (if 10 <=? r then 65 + (r - 10) else 48 + r) ;;
    digit_loop f b' (Z.quot n 10) (i + 1)
  end.

(** string(buffer) (nanostring.h:71-78): the text up to the first NUL; the
    construction of the string object from it is StrModel.str_lit. *)
Fixpoint read_cstr (b : buf) : res (list Z) :=
  match b with
  | [] => UB OutOfBounds
  | None :: _ => UB Indet
  | Some c :: t => if c =? 0 then Ok [] else l <- read_cstr t ;; Ok (c :: l)
  end.

(** Common body, nanostring.h:290-319 and 338-367, from the buffer declaration
    on; [n] is the value of the local int n, [neg] is (value < 0). *)
Definition itoa (bufsize : nat) (neg : bool) (n : Z) : res (list Z) :=
  let b0 := repeat None bufsize in
  '(b1, i1) <- digit_loop 64 b0 n 0 ;;
  '(b2, i2) <- (if i1 =? 0 then b <- bstore b1 i1 48 ;; Ok (b, i1 + 1) else Ok (b1, i1)) ;;
  '(b3, i3) <- (if neg then b <- bstore b2 i2 45 ;; Ok (b, i2 + 1) else Ok (b2, i2)) ;;
  b4 <- bstore b3 i3 0 ;;
  b5 <- myreverse (Z.to_nat i3) b4 0 (i3 - 1) ;;
  read_cstr b5.

(** nanostring.h:274-320; the buffer has numeric_limits<int>::digits10 + 2 = 11
    chars (nanolimits.h:107); -value overflows for INT_MIN. *)
Definition to_string_int (value : Z) : res (list Z) :=
  if value =? - 2 ^ 31 then UB BadArith
  else itoa 11 (value <? 0) (if value <? 0 then - value else value).

(** Conversion of a long long to int (two's complement truncation). *)
Definition wrap32s (z : Z) : Z := (z + 2 ^ 31) mod 2 ^ 32 - 2 ^ 31.

(** nanostring.h:323-368; buffer of digits10 + 2 = 20 chars (nanolimits.h:130);
    line 340 stores the absolute value in a local of type int. *)
Definition to_string_int64 (value : Z) : res (list Z) :=
  if value =? - 2 ^ 63 then UB BadArith
  else itoa 20 (value <? 0) (wrap32s (if value <? 0 then - value else value)).
