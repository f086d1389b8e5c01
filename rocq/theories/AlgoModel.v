(** Model of nanoalgorithm.h, nanocstring.h, nanoratio.h and the operators of
    nanoutility.h. *)
From Coq Require Import ZArith List Bool.
From Verif Require Import Mem.
Import ListNotations.
Open Scope Z_scope.

Section Algo.
  Context {V : Type}.
  Variables (ltb gtb : V -> V -> bool).

  (** nanoalgorithm.h:30-33 min: returns a reference to one of its arguments.
      [V] stands for the objects themselves, so that equal-valued objects can be
      told apart. *)
  Definition min_ (a b : V) : V := if negb (ltb b a) then a else b.

  (** nanoalgorithm.h:35-38 max (uses operator>). *)
  Definition max_ (a b : V) : V := if negb (gtb b a) then a else b.

  (* an element as an rvalue; reading an uninitialised one is UB *)
  Definition rd (h : heap V) (p : ptr) (i : Z) : res V :=
    c <- load h p i ;; match c with Some v => Ok v | None => UB Indet end.

  (** nanoalgorithm.h:46-50, the loop of max_element.  Iterators are positions in
      the array [p]; [first != last] is the only exit, the fuel exceeds the array
      length so running out means the array has been left. *)
  Fixpoint max_loop (fuel : nat) (h : heap V) (p : ptr) (largest first last : Z) : res Z :=
    if first =? last then Ok largest else
    match fuel with
    | O => UB OutOfBounds
    | S f =>
      l <- rd h p largest ;;
      x <- rd h p first ;;
      max_loop f h p (if ltb l x then first else largest) (first + 1) last
    end.

  (* ghost: number of elements in the array, an upper bound on loop iterations *)
  Definition extent (h : heap V) (p : ptr) : nat :=
    match p with None => 1 | Some b => match mem h b with None => 1 | Some a => S (length a) end end.

  (** nanoalgorithm.h:40-52 max_element. *)
  Definition max_element (h : heap V) (p : ptr) (first last : Z) : res Z :=
    if first =? last then Ok last else max_loop (extent h p) h p first (first + 1) last.

  (** nanoalgorithm.h:54-57 fill: while (first != last) *first++ = value. *)
  Fixpoint fill_loop (fuel : nat) (h : heap V) (p : ptr) (first last : Z) (v : V) : res (heap V) :=
    if first =? last then Ok h else
    match fuel with
    | O => UB OutOfBounds
    | S f => h1 <- store h p first (Some v) ;; fill_loop f h1 p (first + 1) last v
    end.
  (** nanoalgorithm.h:54-57 fill *)
  Definition fill (h : heap V) (p : ptr) (first last : Z) (v : V) : res (heap V) :=
    fill_loop (extent h p) h p first last v.
End Algo.

(** nanocstring.h:33-44 memcpy on a flat byte memory; [None] is an address that
    may not be accessed.  Address arithmetic is not wrapped: both regions lie in
    the address space. *)
Definition bytes := Z -> option Z.
(** *a = v *)
Definition wr (m : bytes) (a v : Z) : bytes := fun x => if x =? a then Some v else m x.
(** The for loop, i = i .. i+k-1 (nanocstring.h:39-41). *)
Fixpoint memcpy_loop (k : nat) (i : Z) (m : bytes) (dest src : Z) : res bytes :=
  match k with
  | O => Ok m
  | S k' =>
    match m (src + i), m (dest + i) with
    | Some v, Some _ => memcpy_loop k' (i + 1) (wr m (dest + i) v) dest src
    | _, _ => UB OutOfBounds
    end
  end.
(** nanocstring.h:33-44 memcpy(dest, src, num) *)
Definition memcpy (m : bytes) (dest src num : Z) : res (bytes * Z) :=
  m' <- memcpy_loop (Z.to_nat num) 0 m dest src ;; Ok (m', dest).

(** nanoratio.h:36-53 nanogcd<a, b>: recursive template instantiation; [%]
    truncates; the order of the cases is that of the specialisations.  The fuel
    stands for the instantiation depth. *)
Fixpoint nanogcd (fuel : nat) (a b : Z) : option Z :=
  match fuel with
  | O => None
  | S f =>
    if b =? 0 then (if a =? 0 then Some 1 else Some a) else nanogcd f b (Z.rem a b)
  end.
(** More than enough for |b| < 2^63 (proved by the theorems). *)
Definition gcd_depth : nat := 200.

(** intmax_t is 64 bits; a constant expression that overflows does not compile. *)
Definition fits (z : Z) : option Z :=
  if (- 2 ^ 63 <=? z) && (z <? 2 ^ 63) then Some z else None.
(** no code counterpart: sequencing of computations that may fail to compile *)
Definition obind {A B} (m : option A) (f : A -> option B) : option B :=
  match m with Some a => f a | None => None end.
Notation "x <~ m ;; k" := (obind m (fun x => k)) (at level 61, m at next level, right associativity).

(** nanoratio.h:56-60 nanolcm. *)
Definition nanolcm (a b : Z) : option Z :=
  g <~ nanogcd gcd_depth a b ;; q <~ fits (Z.quot a g) ;; fits (q * b).
(** nanoratio.h:63-67 nanoabs. *)
Definition nanoabs (v : Z) : option Z := if v <? 0 then fits (- v) else Some v.
(** nanoratio.h:69-73 nanosign. *)
Definition nanosign (v : Z) : Z := if v =? 0 then 0 else if v <? 0 then -1 else 1.
(** nanoratio.h:78-94 ratio<N, D>: (num, den); [None] if it does not compile. *)
Definition ratio (n d : Z) : option (Z * Z) :=
  if d =? 0 then None else
  na <~ nanoabs n ;; da <~ nanoabs d ;;
  let ss := nanosign n * nanosign d in
  g <~ nanogcd gcd_depth na da ;;
  sn <~ fits (ss * na) ;;
  Some (Z.quot sn g, Z.quot da g).

(** nanoutility.h:42-50 pair operator== and operator<. *)
Section Pair.
  Context {A B : Type}.
  Variables (aeq alt : A -> A -> bool) (beq blt : B -> B -> bool).
  (** nanoutility.h:42-45 operator== *)
  Definition pair_eq (x y : A * B) : bool := aeq (fst x) (fst y) && beq (snd x) (snd y).
  (** nanoutility.h:47-50 operator< *)
  Definition pair_lt (x y : A * B) : bool :=
    alt (fst x) (fst y) || (negb (alt (fst y) (fst x)) && blt (snd x) (snd y)).
End Pair.
