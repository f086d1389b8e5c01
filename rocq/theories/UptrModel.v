(** Model of nanostl::unique_ptr<T, D> and unique_ptr<T[], D>:
    include/nanomemory.h 393-603 and 605-837 (the member functions of the array
    specialisation have the same bodies), comparisons 847-872.

    Objects are numbered in the order they are created.  A unique_ptr variable
    holds [first] (the pointer) and [second] (the deleter, a number; default
    constructed deleters are 0).  Calling a deleter appends to [log] the object,
    the deleter and what get() on that unique_ptr returns during the call; calling
    it on an object that is not alive is undefined behaviour.
    [raws] is the client: the raw pointers it is responsible for.
    Not modelled: converting moves between different T/D, references as deleters,
    deleters that throw or touch other unique_ptrs. *)
From Coq Require Import ZArith List Lia Bool PeanoNat.
From Verif Require Import Mem.
Import ListNotations.

(** __compressed_pair<pointer, deleter_type> (294-382). *)
Record cell := Cell { first : option nat; second : nat }.

(** the state of a client program *)
Record world := World {
  vars : nat -> option cell;           (* unique_ptr variables in scope *)
  live : list nat;                     (* objects allocated and not deleted *)
  nobj : nat;                          (* objects created so far *)
  raws : list nat;                     (* raw pointers the client must dispose of *)
  log : list (nat * nat * option nat)  (* deleter calls *)
}.
(* no code counterpart: the start of a program *)
Definition init : world := World (fun _ => None) [] 0 [] [].

(** no code counterpart: map update *)
Definition upd (v : nat -> option cell) (x : nat) (c : option cell) : nat -> option cell :=
  fun y => if Nat.eqb y x then c else v y.
(** no code counterpart: assignment to a variable *)
Definition set_var (w : world) (x : nat) (c : option cell) : world :=
  World (upd (vars w) x c) (live w) (nobj w) (raws w) (log w).
(** no code counterpart: client bookkeeping *)
Definition set_raws (w : world) (r : list nat) : world := World (vars w) (live w) (nobj w) r (log w).

(** no code counterpart: membership *)
Definition memb (o : nat) (l : list nat) : bool := existsb (Nat.eqb o) l.
(** no code counterpart: removal *)
Definition del (o : nat) (l : list nat) : list nat := filter (fun p => negb (Nat.eqb p o)) l.

(** second()(tmp): run the deleter of variable [x] on [o]. *)
Definition call_deleter (w : world) (x : nat) (o : nat) : res world :=
  match vars w x with
  | None => UB NoObject
  | Some c =>
      if memb o (live w)
      then Ok (World (vars w) (del o (live w)) (nobj w) (raws w) (log w ++ [(o, second c, first c)]))
      else UB BadFree
  end.

(** 591-597 reset(p) (and 813-822, 824-830): store the new pointer, then delete the old. *)
Definition reset (w : world) (x : nat) (p : option nat) : res world :=
  match vars w x with
  | None => UB NoObject
  | Some c =>
      let tmp := first c in
      let w1 := set_var w x (Some (Cell p (second c))) in
      match tmp with Some o => call_deleter w1 x o | None => Ok w1 end
  end.

(** 585-589 release. *)
Definition release (w : world) (x : nat) : res (option nat * world) :=
  match vars w x with
  | None => UB NoObject
  | Some c => Ok (first c, set_var w x (Some (Cell None (second c))))
  end.

(** get_deleter() (572-579). *)
Definition get_deleter (w : world) (x : nat) : res nat :=
  match vars w x with None => UB NoObject | Some c => Ok (second c) end.

(** 489-492 (733-736) unique_ptr(unique_ptr&& u). *)
Definition move_ctor (w : world) (x y : nat) : res world :=
  '(p, w1) <- release w y ;; d <- get_deleter w1 y ;; Ok (set_var w1 x (Some (Cell p d))).

(** 513-518 (738-743) operator=(unique_ptr&& u). *)
Definition move_assign (w : world) (x y : nat) : res world :=
  '(p, w1) <- release w y ;; w2 <- reset w1 x p ;; d <- get_deleter w2 y ;;
  match vars w2 x with
  | None => UB NoObject
  | Some c => Ok (set_var w2 x (Some (Cell (first c) d)))
  end.

(** 600-602 swap, __compressed_pair::swap (365-372): swap first, then second, each
    through the generic nanostl::swap.  That template is only declared in this
    version (nanotype_traits.h:1183-1187), so its contract (exchange the two
    scalars) is assumed here. *)
Definition swap (w : world) (x y : nat) : res world :=
  match vars w x, vars w y with
  | Some cx, Some cy =>
      (* swap(first(), u.first()) *)
      let w1 := set_var w x (Some (Cell (first cy) (second cx))) in
      match vars w1 y with
      | None => UB NoObject
      | Some cy1 =>
          let w2 := set_var w1 y (Some (Cell (first cx) (second cy1))) in
          (* swap(second(), u.second()) *)
          match vars w2 x, vars w2 y with
          | Some ax, Some ay =>
              let w3 := set_var w2 x (Some (Cell (first ax) (second ay))) in
              match vars w3 y with
              | None => UB NoObject
              | Some ay1 => Ok (set_var w3 y (Some (Cell (first ay1) (second ax))))
              end
          | _, _ => UB NoObject
          end
      end
  | _, _ => UB NoObject
  end.

(** 550 ~unique_ptr: reset(), then the variable's lifetime ends. *)
Definition destroy (w : world) (x : nat) : res world :=
  w1 <- reset w x None ;; Ok (set_var w1 x None).

(** What a client program can do. *)
Inductive op :=
| Alloc                        (* T* p = new T *)
| Delete (o : nat)             (* delete p, on a raw pointer the client holds *)
| NewNull (x d : nat)          (* 450-459: unique_ptr() / unique_ptr(nullptr) with deleter d *)
| NewPtr (x d o : nat)         (* 467-482: unique_ptr(p, d) *)
| MoveNew (x y : nat)
| MoveAssign (x y : nat)
| Reset (x : nat) (p : option nat)   (* reset(p); reset() and = nullptr are p = null *)
| Release (x : nat)
| Swap (x y : nat)
| Destroy (x : nat)
| Get (x : nat)                (* 568-570 *)
| ToBool (x : nat)             (* 580-582 *)
| Deref (x : nat)              (* 559-563 *)
| Equal (x y : nat).           (* 847-850 *)

(** no code counterpart: results *)
Inductive out := Unit | Ptr (p : option nat) | Bool (b : bool).

(** operator== on raw pointers (nanomemory.h:847-850) *)
Definition opt_eqb (a b : option nat) : bool :=
  match a, b with Some i, Some j => Nat.eqb i j | None, None => true | _, _ => false end.

(** One step.  Constructing over a live variable is a client error (NoObject). *)
Definition step (w : world) (o : op) : res (out * world) :=
  match o with
  | Alloc => Ok (Ptr (Some (nobj w)),
                 World (vars w) (nobj w :: live w) (S (nobj w)) (nobj w :: raws w) (log w))
  | Delete p =>
      if memb p (live w) then Ok (Unit, World (vars w) (del p (live w)) (nobj w) (del p (raws w)) (log w))
      else UB BadFree
  | NewNull x d => match vars w x with Some _ => UB NoObject
                   | None => Ok (Unit, set_var w x (Some (Cell None d))) end
  | NewPtr x d p => match vars w x with Some _ => UB NoObject
                    | None => Ok (Unit, set_raws (set_var w x (Some (Cell (Some p) d))) (del p (raws w))) end
  | MoveNew x y => match vars w x with Some _ => UB NoObject
                   | None => w1 <- move_ctor w x y ;; Ok (Unit, w1) end
  | MoveAssign x y => w1 <- move_assign w x y ;; Ok (Unit, w1)
  | Reset x p => w1 <- reset w x p ;;
      Ok (Unit, match p with Some i => set_raws w1 (del i (raws w1)) | None => w1 end)
  | Release x => '(p, w1) <- release w x ;;
      Ok (Ptr p, match p with Some i => set_raws w1 (i :: raws w1) | None => w1 end)
  | Swap x y => w1 <- swap w x y ;; Ok (Unit, w1)
  | Destroy x => w1 <- destroy w x ;; Ok (Unit, w1)
  | Get x => match vars w x with None => UB NoObject | Some c => Ok (Ptr (first c), w) end
  | ToBool x => match vars w x with None => UB NoObject
                | Some c => Ok (Bool (match first c with Some _ => true | None => false end), w) end
  | Deref x => match vars w x with
               | None => UB NoObject
               | Some c => match first c with
                           | None => UB NullDeref
                           | Some o => if memb o (live w) then Ok (Ptr (Some o), w) else UB UseAfterFree
                           end
               end
  | Equal x y => match vars w x, vars w y with
                 | Some a, Some b => Ok (Bool (opt_eqb (first a) (first b)), w)
                 | _, _ => UB NoObject end
  end.

(** What a client must respect: variables in scope (or not yet), raw pointers it is
    responsible for, no dereference of an empty unique_ptr. *)
Definition in_scope (w : world) (x : nat) : Prop := vars w x <> None.
(** no code counterpart: the client contract *)
Definition client_ok (w : world) (o : op) : Prop :=
  match o with
  | Alloc => True
  | Delete p => In p (raws w)
  | NewNull x _ => ~ in_scope w x
  | NewPtr x _ p => ~ in_scope w x /\ In p (raws w)
  | MoveNew x y => ~ in_scope w x /\ in_scope w y
  | MoveAssign x y | Swap x y | Equal x y => in_scope w x /\ in_scope w y
  | Reset x (Some p) => in_scope w x /\ In p (raws w)
  | Reset x None | Release x | Destroy x | Get x | ToBool x => in_scope w x
  | Deref x => exists c o, vars w x = Some c /\ first c = Some o
  end.

(** A client-correct execution from the initial state. *)
Inductive exec : list op -> list out -> world -> Prop :=
| exec_nil : exec [] [] init
| exec_snoc ops outs w o r w' : exec ops outs w -> client_ok w o -> step w o = Ok (r, w') ->
    exec (ops ++ [o]) (outs ++ [r]) w'.
