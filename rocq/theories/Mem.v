(** A small memory model shared by the container models.

    Models the array part of the C++ abstract machine that nanostl relies on:
    [new T[n]] / [delete[] p] as used by nanostl::allocator
    (include/nanoallocator.h:61-81) and element access through [T*].
    Simplifications: an array is a list of cells, a cell is [option V] where
    [None] is a default-initialised element (indeterminate for scalar types);
    element copy/assignment is a plain value copy; element destructors have no
    effect; allocation fails (exception) only for requests of 2^63 elements or
    more, which is what [new T[n]] guarantees for every sizeof(T) >= 1. *)
From Coq Require Import ZArith List Lia Bool.
Import ListNotations.
Open Scope Z_scope.

(** Kinds of undefined behaviour the models can exhibit. *)
Inductive ub : Set :=
| NullDeref      (* access through a null pointer *)
| UseAfterFree   (* access to a released array *)
| OutOfBounds    (* index outside the array *)
| BadFree        (* release of something not currently allocated *)
| NoObject       (* operation on an object that is not alive (harness level) *)
| NoReturn       (* unbounded recursion *)
| BadArith       (* signed overflow and similar *)
| Indet.         (* read of an indeterminate value *)

Inductive res (A : Type) : Type :=
| Ok (a : A)
| Throw          (* C++ exception: allocation request too large *)
| UB (u : ub).
Arguments Ok {A} a.
Arguments Throw {A}.
Arguments UB {A} u.

Definition bind {A B} (m : res A) (f : A -> res B) : res B :=
  match m with Ok a => f a | Throw => Throw | UB u => UB u end.

Notation "x <- m ;; k" := (bind m (fun x => k))
  (at level 61, m at next level, right associativity).
Notation "' p <- m ;; k" := (bind m (fun p => k))
  (at level 61, p pattern, m at next level, right associativity).

(** unsigned 64-bit wrap: nanostl::size_type is unsigned long long
    (include/nanoallocator.h / nanocommon.h size_type typedef). *)
Definition w64 (z : Z) : Z := z mod 2 ^ 64.

(** A pointer to the first element of an array; [None] is the null pointer. *)
Definition ptr := option nat.

Section Mem.
  Context {V : Type}.
  Notation cell := (option V).

  (** [mem] maps an array identity to its cells while it is allocated;
      [fresh] is the next unused identity; [allocs]/[moves]/[frees] are ghost
      counters (not in the code) used by the cost properties. *)
  Record heap := Heap {
    mem : nat -> option (list cell);
    fresh : nat;
    allocs : Z;
    moves : Z }.

  (* ghost initial heap; no code counterpart *)
  Definition empty_heap : heap := Heap (fun _ => None) 0%nat 0 0.

  Definition upd_mem (m : nat -> option (list cell)) (b : nat) (x : option (list cell))
    : nat -> option (list cell) :=
    fun b' => if Nat.eqb b' b then x else m b'.

  (* replace the i-th element of a list *)
  Fixpoint set_nth {A} (l : list A) (i : nat) (x : A) : list A :=
    match l, i with
    | [], _ => []
    | _ :: t, O => x :: t
    | y :: t, S j => y :: set_nth t j x
    end.

  (** C++ [p[i]] as rvalue. *)
  Definition load (h : heap) (p : ptr) (i : Z) : res cell :=
    match p with
    | None => UB NullDeref
    | Some b =>
      match mem h b with
      | None => UB UseAfterFree
      | Some a =>
        if (0 <=? i) && (i <? Z.of_nat (length a))
        then Ok (nth (Z.to_nat i) a None)
        else UB OutOfBounds
      end
    end.

  (** C++ [p[i] = c]. *)
  Definition store (h : heap) (p : ptr) (i : Z) (c : cell) : res heap :=
    match p with
    | None => UB NullDeref
    | Some b =>
      match mem h b with
      | None => UB UseAfterFree
      | Some a =>
        if (0 <=? i) && (i <? Z.of_nat (length a))
        then Ok (Heap (upd_mem (mem h) b (Some (set_nth a (Z.to_nat i) c)))
                      (fresh h) (allocs h) (moves h))
        else UB OutOfBounds
      end
    end.

  (** nanoallocator.h:61-76 allocator::allocate(n): null for n < 1, else new T[n]. *)
  Definition allocate (h : heap) (n : Z) : res (ptr * heap) :=
    if n <? 1 then Ok (None, h)
    else if 2 ^ 63 <=? n then Throw
    else Ok (Some (fresh h),
             Heap (upd_mem (mem h) (fresh h) (Some (repeat None (Z.to_nat n))))
                  (S (fresh h)) (allocs h + 1) (moves h)).

  (** nanoallocator.h:78-81 allocator::deallocate: delete[] p (no-op on null). *)
  Definition deallocate (h : heap) (p : ptr) : res heap :=
    match p with
    | None => Ok h
    | Some b =>
      match mem h b with
      | None => UB BadFree
      | Some _ => Ok (Heap (upd_mem (mem h) b None) (fresh h) (allocs h) (moves h))
      end
    end.

  (* ghost: count one element copy made while relocating *)
  Definition tick (h : heap) : heap :=
    Heap (mem h) (fresh h) (allocs h) (moves h + 1).
End Mem.
Arguments heap V : clear implicits.
