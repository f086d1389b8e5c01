(** Model of the compile-time integer sequences of include/tao/seq (make_integer_sequence.hpp, sum.hpp,
    is_all.hpp, at_index.hpp, select.hpp, map.hpp, zip.hpp, plus.hpp, minus.hpp, partial_sum.hpp,
    exclusive_scan.hpp, inclusive_scan.hpp).

    integer_sequence<T, Ns...> is the list of its numbers; [None] is a program that does not compile
    (a failing static_assert, overflow in a constant expression, packs of different lengths, no or more
    than one base class to convert to).  Template recursion is bounded by [fuel]; the theorems show that
    it never runs out.  Both settings of TAO_SEQ_FOLD_EXPRESSIONS (config.hpp 31-33) are modelled.
    Simplification: integer types are at least as wide as int, so that there are no promotions. *)
From Coq Require Import ZArith List Bool.
Import ListNotations.
Open Scope Z_scope.
Local Notation len l := (Z.of_nat (length l)).

(* no code counterpart: monad of compilation *)
Definition bind {A B} (x : option A) (f : A -> option B) : option B := match x with Some a => f a | None => None end.
Notation "x <- m ; k" := (bind m (fun x => k)) (at level 61, m at next level, right associativity).
(* no code counterpart: expansion of a pack *)
Fixpoint expand {A B} (f : A -> option B) (l : list A) : option (list B) :=
  match l with [] => Some [] | a :: r => b <- f a ; bs <- expand f r ; Some (b :: bs) end.
(* no code counterpart: two packs expanded together *)
Fixpoint expand2 {A B C} (f : A -> B -> option C) (l : list A) (m : list B) : option (list C) :=
  match l, m with
  | [], [] => Some []
  | a :: l', b :: m' => c <- f a b ; cs <- expand2 f l' m' ; Some (c :: cs)
  | _, _ => None
  end.

(** An integer type: its width and signedness. *)
Record ity := Ity { width : Z; is_signed : bool }.
Definition size_t : ity := Ity 64 false.
Definition fits (t : ity) (x : Z) : bool :=
  if is_signed t then (- 2 ^ (width t - 1) <=? x) && (x <? 2 ^ (width t - 1)) else (0 <=? x) && (x <? 2 ^ width t).
(** conversion to T (modulo 2^width) *)
Definition convert (t : ity) (x : Z) : Z :=
  let r := x mod 2 ^ width t in if is_signed t && (2 ^ (width t - 1) <=? r) then r - 2 ^ width t else r.
(** the result of an operation on T in a constant expression: unsigned wraps, signed must not overflow *)
Definition arith (t : ity) (x : Z) : option Z :=
  if is_signed t then if fits t x then Some x else None else Some (x mod 2 ^ width t).

(** make_integer_sequence.hpp:32-63 generate_sequence<V, E>::f<T, M, N, S, Ns...> *)
Fixpoint generate (fuel : nat) (V E : bool) (M N S : Z) (Ns : list Z) : option (list Z) :=
  if E then Some (if V then Ns ++ [S] else Ns)
  else match fuel with
  | O => None
  | Datatypes.S fuel =>
      generate fuel (negb (Z.land N (M / 2) =? 0)) (M / 2 =? 0) (M / 2) N (if V then 2 * S + 1 else 2 * S)
        (Ns ++ map (fun n => n + S) Ns ++ (if V then [2 * S] else []))
  end.
(** make_integer_sequence.hpp:72: the first power of two that the generator starts with *)
Definition start_bit (N : Z) : Z :=
  if N <? 2 then 2 else if N <? 4 then 4 else if N <? 8 then 8 else if N <? 16 then 16 else if N <? 32 then 32
  else if N <? 64 then 64 else if N <? 128 then 128 else if N <? 256 then 256 else if N <? 512 then 512
  else if N <? 1024 then 1024 else 1048576.
(** make_integer_sequence.hpp:65-74 memoize_sequence, 78-82 make_integer_sequence, make_index_sequence *)
Definition make_index_sequence (N : Z) : option (list Z) :=
  if N <? 1048576 then generate 22 false false (start_bit N) N 0 [] else None.
(** make_integer_sequence.hpp:84-85 *)
Definition index_sequence_for {A} (Ts : list A) : option (list Z) := make_index_sequence (len Ts).

(** at_index.hpp:22-47: the class indexer derives from indexed<Is, Ts>...; the argument of select<I> is
    converted to the base class with index I, which must be one *)
Definition at_index {A} (I : Z) (Ts : list A) : option A :=
  Is <- index_sequence_for Ts ;
  match filter (fun p => fst p =? I) (combine Is Ts) with [p] => Some (snd p) | _ => None end.
(** select.hpp:17-27 *)
Definition select (I : Z) (Ns : list Z) : option Z := at_index I Ns.
(** map.hpp:20-27 *)
Definition map_seq (Ns M : list Z) : option (list Z) := expand (fun n => select n M) Ns.

(** is_all.hpp:22-23 with fold expressions, 27-28 without *)
Definition is_all (fold : bool) (Bs : list bool) : bool :=
  if fold then fold_right andb true Bs
  else if list_eq_dec bool_dec (true :: Bs) (Bs ++ [true]) then true else false.

Section Sum.
  Context (fold : bool).
  (** sum.hpp:37-50: sizeof( collector<...> ), whose bases are char arrays of N + 1 elements; an object has
      at most 2^63 - 1 bytes *)
  Definition sizeof_collector (Ns : list Z) : option Z :=
    Is <- make_index_sequence (len Ns) ;
    let n := fold_right Z.add 0 (map (fun n => n + 1) Ns) in
    if (length Is =? length Ns)%nat && (n <? 2 ^ 63) then Some n else None.
  (** sum.hpp:55-59 impl::sum<true, ...> *)
  Definition sum_unsigned (t : ity) (Ns : list Z) : option Z :=
    n <- sizeof_collector Ns ; Some (convert t ((n - len Ns) mod 2 ^ 64)).
  (** sum.hpp:61-67 impl::sum<false, ...> *)
  Definition sum_signed (t : ity) (Ns : list Z) : option Z :=
    ps <- expand (fun n => Some (if 0 <? n then n else 0)) Ns ;
    positive <- sum_unsigned t ps ;
    ns <- expand (fun n => if n <? 0 then arith t (- n) else Some 0) Ns ;
    negative <- sum_unsigned t ns ;
    arith t (positive - negative).
  (** sum.hpp:27-31 with fold expressions (a right fold), 71-75 without *)
  Definition sum (t : ity) (Ns : list Z) : option Z :=
    if fold then fold_right (fun n s => s <- s ; arith t (n + s)) (Some 0) Ns
    else if is_signed t then sum_signed t (Ns ++ [0]) else sum_unsigned t (Ns ++ [0]).

  (** partial_sum.hpp:22-44 *)
  Definition partial_sum (t : ity) (I : Z) (Ns : list Z) : option Z :=
    Is <- make_index_sequence (len Ns) ;
    if len Is <? I then None
    else ns <- expand2 (fun i n => Some (if i <? I then n else 0)) Is Ns ; sum t ns.
  (** exclusive_scan.hpp:18-42 *)
  Definition exclusive_scan (t : ity) (Ns : list Z) : option (list Z) :=
    Is <- make_index_sequence (len Ns) ; expand (fun i => partial_sum t i Ns) Is.
  (** zip.hpp:19-24 with plus.hpp:19-23 and minus.hpp:18-22; both sequences of type T *)
  Definition plus (t : ity) (As Bs : list Z) : option (list Z) := expand2 (fun a b => arith t (a + b)) As Bs.
  Definition minus (t : ity) (As Bs : list Z) : option (list Z) := expand2 (fun a b => arith t (a - b)) As Bs.
  (** inclusive_scan.hpp:17-27 *)
  Definition inclusive_scan (t : ity) (Ns : list Z) : option (list Z) :=
    es <- exclusive_scan t Ns ; plus t es Ns.
End Sum.
