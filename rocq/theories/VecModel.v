(** Model of nanostl::vector (include/nanovector.h). *)
From Coq Require Import ZArith List Bool.
From Verif Require Import Mem.
Import ListNotations.
Open Scope Z_scope.

Section Vec.
  Context {V : Type}.
  Notation heap := (heap V).
  Notation cell := (option V).

  (** nanovector.h:196-198: T* elements_; size_type capacity_; size_type size_. *)
  Record vec := Vec { elements : ptr; capacity : Z; size : Z }.

  (** nanovector.h:60 default constructor and 177-181 __initialize. *)
  Definition vec_new : vec := Vec None 0 0.

  (** nanovector.h:190-194 recommended_size: 2 * capacity() in size_type. *)
  Definition recommended_size (v : vec) : Z := w64 (2 * capacity v).

  (** nanovector.h:103-105: for (i = 0; i < size(); i++) new[i] = old[i].
      [k] is the number of iterations left; the copy is counted by [tick]. *)
  Fixpoint copy_loop (k : nat) (i : Z) (h : heap) (dst src : ptr) : res heap :=
    match k with
    | O => Ok h
    | S k' =>
      c <- load h src i ;;
      h' <- store h dst i c ;;
      copy_loop k' (i + 1) (tick h') dst src
    end.

  (** nanovector.h:84-115 resize(count). *)
  Definition resize (h : heap) (v : vec) (count : Z) : res (vec * heap) :=
    if count <? 1 then Ok (v, h)
    else if capacity v <? count then
      let n := if recommended_size v <? count then count else recommended_size v in
      '(p, h1) <- allocate h n ;;
      h2 <- copy_loop (Z.to_nat (size v)) 0 h1 p (elements v) ;;
      h3 <- deallocate h2 (elements v) ;;
      Ok (Vec p n count, h3)
    else Ok (Vec (elements v) (capacity v) count, h).

  (** nanovector.h:117-120 push_back(const value_type& val) when [val] refers to
      an object outside every vector array (a temporary or a local variable). *)
  Definition push_back (h : heap) (v : vec) (c : cell) : res (vec * heap) :=
    '(v', h') <- resize h v (w64 (size v + 1)) ;;
    h'' <- store h' (elements v') (w64 (size v' - 1)) c ;;
    Ok (v', h'').

  (** nanovector.h:117-120 push_back when [val] is a reference to element [j] of
      array [src]: the reference is read after the resize, as in the code. *)
  Definition push_back_ref (h : heap) (v : vec) (src : ptr) (j : Z) : res (vec * heap) :=
    '(v', h') <- resize h v (w64 (size v + 1)) ;;
    c <- load h' src j ;;
    h'' <- store h' (elements v') (w64 (size v' - 1)) c ;;
    Ok (v', h'').

  (** nanovector.h:124 empty. *)
  Definition vempty (v : vec) : bool := size v =? 0.

  (** nanovector.h:128 clear: keeps the array and the capacity. *)
  Definition clear (v : vec) : vec := Vec (elements v) (capacity v) 0.

  (** nanovector.h:74-82 at and 132-134 operator[]: no range check. *)
  Definition get (h : heap) (v : vec) (i : Z) : res cell := load h (elements v) i.

  (** nanovector.h:132 operator[] used as an lvalue: v[i] = c. *)
  Definition set (h : heap) (v : vec) (i : Z) (c : cell) : res heap :=
    store h (elements v) i c.

  (** nanovector.h:145-150 pop_back: size_-- with unsigned wrap. *)
  Definition pop_back (v : vec) : vec := Vec (elements v) (capacity v) (w64 (size v - 1)).

  (** nanovector.h:153-156: while (pos + 1 != end()) { *pos = *(pos+1); pos++; }.
      [i] is pos - begin().  The fuel given by [erase] exceeds the array length,
      so when it runs out an access has already left the array. *)
  Fixpoint erase_loop (fuel : nat) (h : heap) (p : ptr) (i sz : Z) : res (Z * heap) :=
    if i + 1 =? sz then Ok (i, h) else
    match fuel with
    | O => UB OutOfBounds
    | S f =>
      c <- load h p (i + 1) ;;
      h' <- store h p i c ;;
      erase_loop f h' p (i + 1) sz
    end.

  (** nanovector.h:152-160 erase(begin() + i); also returns the returned
      iterator as an offset from begin(). *)
  Definition erase (h : heap) (v : vec) (i : Z) : res (Z * vec * heap) :=
    '(r, h') <- erase_loop (S (Z.to_nat (capacity v))) h (elements v) i (size v) ;;
    Ok (r, Vec (elements v) (capacity v) (w64 (size v - 1)), h').

  (** nanovector.h:165-167: for (; first != last; ++first) push_back( *first ),
      [k] iterations left, [first] = src + j. *)
  Fixpoint assign_loop (k : nat) (h : heap) (v : vec) (src : ptr) (j : Z) : res (vec * heap) :=
    match k with
    | O => Ok (v, h)
    | S k' =>
      '(v', h') <- push_back_ref h v src j ;;
      assign_loop k' h' v' src (j + 1)
    end.

  (** nanovector.h:162-168 assign(first, last) with first = src + i, last = src + j. *)
  Definition assign (h : heap) (v : vec) (src : ptr) (i j : Z) : res (vec * heap) :=
    assign_loop (Z.to_nat (j - i)) h (clear v) src i.

  (** nanovector.h:62-65 copy constructor. *)
  Definition vec_copy (h : heap) (rhs : vec) : res (vec * heap) :=
    assign h vec_new (elements rhs) 0 (size rhs).

  (** nanovector.h:67-72 destructor. *)
  Definition vec_delete (h : heap) (v : vec) : res heap := deallocate h (elements v).

  (** A program using any number of vectors; variables are named by [nat].
      This harness has no code counterpart: it is the client of the class. *)
  Record world := World { hp : heap; vecs : nat -> option vec }.

  (** no code counterpart: map update *)
  Definition upd {A} (f : nat -> A) (x : nat) (a : A) : nat -> A :=
    fun y => if Nat.eqb y x then a else f y.

  (** no code counterpart: start of the program *)
  Definition world0 : world := World empty_heap (fun _ => None).

  (** the client operations *)
  Inductive op :=
  | New (x : nat)                    (* vector<T> x;            *)
  | NewCopy (x y : nat)              (* vector<T> x(y);         *)
  | Delete (x : nat)                 (* x.~vector()             *)
  | PushBack (x : nat) (c : V)       (* x.push_back(value)      *)
  | PopBack (x : nat)                (* x.pop_back()            *)
  | Erase (x : nat) (i : Z)          (* x.erase(x.begin()+i)    *)
  | Clear (x : nat)                  (* x.clear()               *)
  | Resize (x : nat) (n : Z)         (* x.resize(n)             *)
  | Set_ (x : nat) (i : Z) (c : V)   (* x[i] = value            *)
  | Assign (x y : nat)               (* x = y   (also x = x)    *)
  | AssignRange (x y : nat) (i j : Z)(* x.assign(y.begin()+i, y.begin()+j) *)
  | PushBackOf (x y : nat) (i : Z)   (* x.push_back(y[i])       *)
  | Swap (x y : nat)                 (* x.swap(y)               *)
  | Get (x : nat) (i : Z)            (* observe x[i] / x.at(i)  *)
  | Size (x : nat)                   (* observe x.size()        *)
  | Empty (x : nat).                 (* observe x.empty()       *)

  (** no code counterpart: results *)
  Inductive out := ONone | OCell (c : cell) | OZ (z : Z) | OBool (b : bool).

  (** no code counterpart: variable lookup *)
  Definition find (w : world) (x : nat) : res vec :=
    match vecs w x with Some v => Ok v | None => UB NoObject end.

  (** no code counterpart: variable update *)
  Definition put (w : world) (x : nat) (v : vec) (h : heap) : world :=
    World h (upd (vecs w) x (Some v)).

  (** One client statement. *)
  Definition step (w : world) (o : op) : res (out * world) :=
    match o with
    | New x =>
      match vecs w x with
      | Some _ => UB NoObject
      | None => Ok (ONone, put w x vec_new (hp w))
      end
    | NewCopy x y =>
      match vecs w x with
      | Some _ => UB NoObject
      | None =>
        rhs <- find w y ;;
        '(v, h) <- vec_copy (hp w) rhs ;;
        Ok (ONone, put w x v h)
      end
    | Delete x =>
      v <- find w x ;;
      h <- vec_delete (hp w) v ;;
      Ok (ONone, World h (upd (vecs w) x None))
    | PushBack x c =>
      v <- find w x ;;
      '(v', h) <- push_back (hp w) v (Some c) ;;
      Ok (ONone, put w x v' h)
    | PopBack x =>
      v <- find w x ;; Ok (ONone, put w x (pop_back v) (hp w))
    | Erase x i =>
      v <- find w x ;;
      '(_, v', h) <- erase (hp w) v i ;;
      Ok (ONone, put w x v' h)   (* the returned iterator is treated by C04 *)
    | Clear x =>
      v <- find w x ;; Ok (ONone, put w x (clear v) (hp w))
    | Resize x n =>
      v <- find w x ;;
      '(v', h) <- resize (hp w) v (w64 n) ;;
      Ok (ONone, put w x v' h)
    | Set_ x i c =>
      v <- find w x ;;
      h <- set (hp w) v i (Some c) ;;
      Ok (ONone, World h (vecs w))
    | Assign x y =>
      (* nanovector.h:201-208: if (this != &rhs) assign(rhs.begin(), rhs.end()) *)
      v <- find w x ;;
      rhs <- find w y ;;
      if Nat.eqb x y then Ok (ONone, w) else
      '(v', h) <- assign (hp w) v (elements rhs) 0 (size rhs) ;;
      Ok (ONone, put w x v' h)
    | AssignRange x y i j =>
      v <- find w x ;;
      rhs <- find w y ;;
      '(v', h) <- assign (hp w) v (elements rhs) i j ;;
      Ok (ONone, put w x v' h)
    | PushBackOf x y i =>
      v <- find w x ;;
      rhs <- find w y ;;
      '(v', h) <- push_back_ref (hp w) v (elements rhs) i ;;
      Ok (ONone, put w x v' h)
    | Swap x y =>
      (* nanovector.h:170-174 with 183-188 __swap *)
      v <- find w x ;;
      u <- find w y ;;
      Ok (ONone, World (hp w) (upd (upd (vecs w) x (Some u)) y (Some v)))
    | Get x i =>
      v <- find w x ;; c <- get (hp w) v i ;; Ok (OCell c, w)
    | Size x =>
      v <- find w x ;; Ok (OZ (size v), w)
    | Empty x =>
      v <- find w x ;; Ok (OBool (vempty v), w)
    end.

  (** no code counterpart: a client program *)
  Fixpoint run (w : world) (ops : list op) : res (list out * world) :=
    match ops with
    | [] => Ok ([], w)
    | o :: t =>
      '(r, w') <- step w o ;;
      '(rs, w'') <- run w' t ;;
      Ok (r :: rs, w'')
    end.
End Vec.
Arguments op V : clear implicits.
Arguments world V : clear implicits.
Arguments out V : clear implicits.
