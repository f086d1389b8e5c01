(** Model of unique_ptr<T, D> and unique_ptr<T, D&> side by side (include/nanomemory.h 472-603): deleters stored by value and references to deleter objects of the client.

    Objects are numbered in the order they are created; a deleter is its state, a number.  Calling a deleter appends the object and the state to [log].  Every operation
    creates the object it hands over.  Deleters are assigned and swapped as a whole and do not touch the unique_ptrs. *)
From Coq Require Import List Arith Bool.
From Verif Require Import Mem.
Import ListNotations.

(** nanomemory.h:221-256 the second element of the pair: a deleter (D) or a reference to the deleter object number d (D&) *)
Inductive dref := Own (v : nat) | Ref (d : nat).
Record cell := Cell { ptr : option nat; del : dref }.
(** no code counterpart: the client program: variables, its deleter objects, objects created, deleter calls *)
Record world := World { vars : nat -> option cell; dels : nat -> option nat; nobj : nat; log : list (nat * nat) }.
(** no code counterpart: map update *)
Definition upd {A} (f : nat -> A) (x : nat) (v : A) : nat -> A := fun y => if Nat.eqb y x then v else f y.
Definition set_var (w : world) (x : nat) (c : option cell) : world := World (upd (vars w) x c) (dels w) (nobj w) (log w).
Definition set_del (w : world) (d : nat) (v : option nat) : world := World (vars w) (upd (dels w) d v) (nobj w) (log w).
(** no code counterpart: new T *)
Definition new (w : world) : nat * world := (nobj w, World (vars w) (dels w) (S (nobj w)) (log w)).
(** no code counterpart: a variable that is in scope, a name that is not *)
Definition var (w : world) (x : nat) : res cell := match vars w x with Some c => Ok c | None => UB NoObject end.
Definition fresh (w : world) (x : nat) : res unit := match vars w x with Some _ => UB NoObject | None => Ok tt end.
(** no code counterpart: the state of a deleter object of the client *)
Definition deleter_object (w : world) (d : nat) : res nat := match dels w d with Some v => Ok v | None => UB UseAfterFree end.

(** nanomemory.h:572-579 get_deleter *)
Definition get_deleter (w : world) (x : nat) : res nat :=
  c <- var w x ;; match del c with Own v => Ok v | Ref d => deleter_object w d end.
(** nanomemory.h:517, 527 __ptr_.second() = ...: through a reference the deleter object is assigned *)
Definition assign_deleter (w : world) (x : nat) (v : nat) : res world :=
  c <- var w x ;;
  match del c with
  | Own _ => Ok (set_var w x (Some (Cell (ptr c) (Own v))))
  | Ref d => _ <- deleter_object w d ;; Ok (set_del w d (Some v))
  end.
(** nanomemory.h:592-597 reset(p) *)
Definition reset (w : world) (x : nat) (p : option nat) : res world :=
  c <- var w x ;;
  let w1 := set_var w x (Some (Cell p (del c))) in
  match ptr c with
  | Some o => v <- get_deleter w1 x ;; Ok (World (vars w1) (dels w1) (nobj w1) (log w1 ++ [(o, v)]))
  | None => Ok w1
  end.
(** nanomemory.h:585-589 release *)
Definition release (w : world) (x : nat) : res (option nat * world) :=
  c <- var w x ;; Ok (ptr c, set_var w x (Some (Cell None (del c)))).

Inductive op :=
| NewVal (x v : nat) | NewRef (x d : nat)
| MoveNew (x y : nat) | MoveNewVal (x y : nat)
| Assign (x y : nat) | Swap (x y : nat)
| ResetNew (x : nat) | ResetNull (x : nat) | Release (x : nat) | Destroy (x : nat)
| MakeDel (d v : nat) | SetDel (d v : nat) | EndDel (d : nat).

Definition step (w : world) (i : op) : res world :=
  match i with
  (** nanomemory.h:472-476, 478-485 unique_ptr(p, d) with D by value; 472-476 with D& *)
  | NewVal x v => _ <- fresh w x ;; let '(o, w1) := new w in Ok (set_var w1 x (Some (Cell (Some o) (Own v))))
  | NewRef x d => _ <- fresh w x ;; _ <- deleter_object w d ;; let '(o, w1) := new w in Ok (set_var w1 x (Some (Cell (Some o) (Ref d))))
  (** nanomemory.h:492-495, 497-503 unique_ptr(unique_ptr&&): forward<D> moves the deleter, forward<D&> binds to the same one *)
  | MoveNew x y => _ <- fresh w x ;; '(p, w1) <- release w y ;; c <- var w1 y ;; Ok (set_var w1 x (Some (Cell p (del c))))
  (** nanomemory.h:497-503 from unique_ptr<U, E> with E = D or D& to unique_ptr<T, D> *)
  | MoveNewVal x y => _ <- fresh w x ;; '(p, w1) <- release w y ;; v <- get_deleter w1 y ;; Ok (set_var w1 x (Some (Cell p (Own v))))
  (** nanomemory.h:514-518, 525-529 operator=(unique_ptr&&), same or other deleter type *)
  | Assign x y => '(p, w1) <- release w y ;; w2 <- reset w1 x p ;; v <- get_deleter w2 y ;; assign_deleter w2 x v
  (** nanomemory.h:600-602, 364-371 swap: pointers, then deleters; between different types it does not compile *)
  | Swap x y =>
      c <- var w x ;; e <- var w y ;;
      match del c, del e with
      | Own _, Own _ | Ref _, Ref _ =>
          let w1 := set_var (set_var w x (Some (Cell (ptr e) (del c)))) y (Some (Cell (ptr c) (del e))) in
          v <- get_deleter w1 x ;; u <- get_deleter w1 y ;; w2 <- assign_deleter w1 x u ;; assign_deleter w2 y v
      | _, _ => UB NoObject
      end
  (** nanomemory.h:592-597 reset(new T); 553-556, 592 reset() *)
  | ResetNew x => let '(o, w1) := new w in reset w1 x (Some o)
  | ResetNull x => reset w x None
  (** nanomemory.h:585-589: the client keeps the pointer *)
  | Release x => '(_, w1) <- release w x ;; Ok w1
  (** nanomemory.h:550 ~unique_ptr *)
  | Destroy x => w1 <- reset w x None ;; Ok (set_var w1 x None)
  (** no code counterpart: the client makes, changes and ends its deleter objects *)
  | MakeDel d v => match dels w d with Some _ => UB NoObject | None => Ok (set_del w d (Some v)) end
  | SetDel d v => _ <- deleter_object w d ;; Ok (set_del w d (Some v))
  | EndDel d => _ <- deleter_object w d ;; Ok (set_del w d None)
  end.
(** no code counterpart: a program *)
Fixpoint run (w : world) (l : list op) : res world := match l with [] => Ok w | i :: l => w1 <- step w i ;; run w1 l end.
(* no code counterpart: its start *)
Definition init : world := World (fun _ => None) (fun _ => None) 0 [].
