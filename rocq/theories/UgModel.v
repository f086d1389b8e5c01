(** Model of nanostl::unique_ptr (include/nanomemory.h 393-603) where the objects themselves
    hold unique_ptrs: lists, trees and graphs linked by unique_ptr.

    An object has a list of unique_ptr members.  Deleting an object runs its destructor, which
    destroys the members from the last to the first, each by ~unique_ptr, and then releases the
    storage; the recursion is in C++'s destructors.  A unique_ptr is at a place: a variable, or
    a member of an object.  A member of an object whose storage was released is not accessible.
    [UptrModel] has the single unique_ptr; here its bodies run on places.
    Not modelled: the stack that the recursion needs, converting moves, references as deleters. *)
From Coq Require Import List Bool PeanoNat.
From Verif Require Import Mem.
Import ListNotations.

(** __compressed_pair<pointer, deleter_type> (294-382): the pointer and the deleter, a number *)
Record cell := Cell { cptr : option nat; cdel : nat }.
(* no code counterpart: finite maps as lists, the first entry of a key counts *)
Fixpoint get {A} (k : nat) (l : list (nat * A)) : option A :=
  match l with [] => None | (x, a) :: l => if Nat.eqb x k then Some a else get k l end.
Fixpoint put {A} (k : nat) (b : A) (l : list (nat * A)) : list (nat * A) :=
  match l with [] => [] | (x, a) :: l => if Nat.eqb x k then (x, b) :: l else (x, a) :: put k b l end.
Fixpoint drop {A} (k : nat) (l : list (nat * A)) : list (nat * A) :=
  match l with [] => [] | (x, a) :: l => if Nat.eqb x k then l else (x, a) :: drop k l end.
Fixpoint take1 (o : nat) (l : list nat) : list nat :=
  match l with [] => [] | x :: l => if Nat.eqb x o then l else x :: take1 o l end.
Fixpoint set_nth (i : nat) (c : cell) (l : list cell) : list cell :=
  match l, i with [], _ => [] | _ :: l, O => c :: l | x :: l, S i => x :: set_nth i c l end.

(** The state: unique_ptr variables, live objects with their members, the number of objects
    made so far, the raw pointers that the client is responsible for, and the deletions so far,
    with the deleter that did it ([None]: a delete by the client). *)
Record world := World {
  vars : list (nat * cell);
  heap : list (nat * list cell);
  nobj : nat;
  raws : list nat;
  log : list (nat * option nat) }.
Definition init : world := World [] [] 0 [] [].
Inductive place : Set := V (x : nat) | F (o i : nat).

(* no code counterpart: reading and writing the unique_ptr at a place *)
Definition read (w : world) (p : place) : res cell :=
  match p with
  | V x => match get x (vars w) with Some c => Ok c | None => UB NoObject end
  | F o i => match get o (heap w) with
             | Some fs => match nth_error fs i with Some c => Ok c | None => UB NoObject end
             | None => UB UseAfterFree
             end
  end.
Definition write (w : world) (p : place) (c : cell) : res world :=
  match p with
  | V x => match get x (vars w) with
           | Some _ => Ok (World (put x c (vars w)) (heap w) (nobj w) (raws w) (log w))
           | None => UB NoObject
           end
  | F o i => match get o (heap w) with
             | Some fs => match nth_error fs i with
                          | Some _ => Ok (World (vars w) (put o (set_nth i c fs) (heap w)) (nobj w) (raws w) (log w))
                          | None => UB NoObject
                          end
             | None => UB UseAfterFree
             end
  end.
(* no code counterpart: the storage of an object is released *)
Definition free (w : world) (o : nat) (d : option nat) : world :=
  World (vars w) (drop o (heap w)) (nobj w) (raws w) (log w ++ [(o, d)]).

(** default_delete (154-161), or another deleter that deletes: the destructor of the object
    destroys its members, the last first, each by reset() (550), then the storage is released.
    [n] bounds the depth of the recursion; running out of it counts as not returning. *)
Fixpoint delete (n : nat) (w : world) (d : option nat) (o : nat) : res world :=
  match n with
  | O => UB NoReturn
  | S n =>
      match get o (heap w) with
      | None => UB BadFree
      | Some fs =>
          w' <- (fix members (i : nat) (w : world) : res world :=
                   match i with
                   | O => Ok w
                   | S i =>
                       (* ~unique_ptr of member i: 591-597 with a null pointer *)
                       c <- read w (F o i) ;;
                       w1 <- write w (F o i) (Cell None (cdel c)) ;;
                       w2 <- match cptr c with Some q => delete n w1 (Some (cdel c)) q | None => Ok w1 end ;;
                       members i w2
                   end) (length fs) w ;;
          Ok (free w' o d)
      end
  end.
(* no code counterpart: a depth that is enough: the number of live objects *)
Definition depth (w : world) : nat := S (length (heap w)).

(** 591-597 reset(p): store the new pointer, then call the deleter on the old one *)
Definition reset (w : world) (p : place) (q : option nat) : res world :=
  c <- read w p ;;
  w1 <- write w p (Cell q (cdel c)) ;;
  match cptr c with Some o => delete (depth w1) w1 (Some (cdel c)) o | None => Ok w1 end.
(** 585-589 release *)
Definition release (w : world) (p : place) : res (option nat * world) :=
  c <- read w p ;; w1 <- write w p (Cell None (cdel c)) ;; Ok (cptr c, w1).
(** 513-518 operator=(unique_ptr&& u): reset(u.release()); then the deleter of u is read *)
Definition move_assign (w : world) (p q : place) : res world :=
  '(o, w1) <- release w q ;;
  w2 <- reset w1 p o ;;
  cq <- read w2 q ;;
  cp <- read w2 p ;;
  write w2 p (Cell (cptr cp) (cdel cq)).
(** 600-602, 365-372 swap: pointers and deleters are exchanged *)
Definition swap (w : world) (p q : place) : res world :=
  a <- read w p ;; b <- read w q ;; w1 <- write w p b ;; write w1 q a.

(** What a client can do. *)
Inductive op : Set :=
| New (ds : list nat)             (* new T, whose members have these deleters and are null *)
| Delete (o : nat)                (* delete of a raw pointer *)
| Make (x d : nat) (o : option nat)   (* 450-482: a variable with deleter d, null or from a raw pointer *)
| MoveNew (x : nat) (p : place)   (* 489-492: a variable from the unique_ptr at p *)
| MoveAssign (p q : place)
| Reset (p : place) (o : option nat)  (* null, or a raw pointer *)
| Release (p : place)
| Swap (p q : place)
| Destroy (x : nat)               (* 550: the variable goes out of scope *)
| Get (p : place).                (* 568-570 *)

(* no code counterpart: a raw pointer becomes owned; is in the hands of the client *)
Definition give (w : world) (o : option nat) : world :=
  match o with Some o => World (vars w) (heap w) (nobj w) (take1 o (raws w)) (log w) | None => w end.
Definition keep (w : world) (o : option nat) : world :=
  match o with Some o => World (vars w) (heap w) (nobj w) (o :: raws w) (log w) | None => w end.
Definition fresh (w : world) (x : nat) : bool := match get x (vars w) with Some _ => false | None => true end.
Definition mine (w : world) (o : option nat) : bool :=
  match o with Some o => existsb (Nat.eqb o) (raws w) | None => true end.
Definition new_var (w : world) (x : nat) (c : cell) : world :=
  World ((x, c) :: vars w) (heap w) (nobj w) (raws w) (log w).

(** One step and its result.  A variable made twice, or a pointer used that is not the client's,
    is a client error. *)
Definition step (w : world) (a : op) : res (option nat * world) :=
  match a with
  | New ds => Ok (Some (nobj w), World (vars w) ((nobj w, map (Cell None) ds) :: heap w) (S (nobj w)) (nobj w :: raws w) (log w))
  | Delete o => if mine w (Some o) then let w1 := give w (Some o) in w' <- delete (depth w1) w1 None o ;; Ok (None, w') else UB NoObject
  | Make x d o => if fresh w x && mine w o then Ok (None, new_var (give w o) x (Cell o d)) else UB NoObject
  | MoveNew x p =>
      if fresh w x
      then '(o, w1) <- release w p ;; c <- read w1 p ;; Ok (None, new_var w1 x (Cell o (cdel c)))
      else UB NoObject
  | MoveAssign p q => w' <- move_assign w p q ;; Ok (None, w')
  | Reset p o => if mine w o then w' <- reset (give w o) p o ;; Ok (None, w') else UB NoObject
  | Release p => '(o, w') <- release w p ;; Ok (o, keep w' o)
  | Swap p q => w' <- swap w p q ;; Ok (None, w')
  | Destroy x => w' <- reset w (V x) None ;; Ok (None, World (drop x (vars w')) (heap w') (nobj w') (raws w') (log w'))
  | Get p => c <- read w p ;; Ok (cptr c, w)
  end.
Fixpoint run (w : world) (ops : list op) : res world :=
  match ops with [] => Ok w | a :: ops => '(_, w') <- step w a ;; run w' ops end.
