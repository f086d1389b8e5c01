(** Model of nanostl::thread (include/nanothread.h 168-234, src/nanothread.cc 18-66).

    A world holds the live thread objects with their thread_handle_, the operating system
    threads created so far with the function each still has to run, and the log of functions
    that have run.  [Sched t] lets operating system thread t run its function.  The start of an
    operating system thread is [os_create]; no code of nanostl::thread calls it.  The move
    constructor, move assignment, swap, detach and get_id are declared but defined nowhere. *)
From Coq Require Import List Bool Arith.
From Verif Require Import Mem.
Import ListNotations.

Definition fn := nat.          (* the pair of a callable and its arguments *)
Record os := Os { pending : nat -> option fn; next : nat; ran : list fn }.
(** thread objects in scope (their thread_handle_, nanothread.h:233) and the operating system *)
Record world := World { objs : nat -> option (option nat); sys : os }.

(** no code counterpart: map update *)
Definition upd {A} (f : nat -> A) (x : nat) (v : A) : nat -> A := fun y => if Nat.eqb y x then v else f y.

(** src/libs_thread.h thread_create / thread_join / thread_destroy, by contract: create registers a
    thread that has not run yet; join and destroy wait until it has run. *)
Definition os_create (s : os) (f : fn) : nat * os := (next s, Os (upd (pending s) (next s) (Some f)) (S (next s)) (ran s)).
(** no code counterpart: the thread runs its function *)
Definition os_run (s : os) (t : nat) : os :=
  match pending s t with
  | Some f => Os (upd (pending s) t None) (next s) (ran s ++ [f])
  | None => s
  end.
(** src/libs_thread.h thread_join / thread_destroy, by contract *)
Definition os_join (s : os) (t : nat) : os := os_run s t.

(** thread_handle_ of a live object *)
Definition handle (w : world) (x : nat) : res (option nat) :=
  match objs w x with Some h => Ok h | None => UB NoObject end.

(** src/nanothread.cc:18-20 thread(): thread_handle_(nullptr) *)
Definition ctor_default (w : world) (x : nat) : res world :=
  match objs w x with Some _ => UB NoObject | None => Ok (World (upd (objs w) x (Some None)) (sys w)) end.
(** nanothread.h:194-205 thread(f, args...): a tuple with copies of f and args is built in a local
    unique_ptr and destroyed at the end of the constructor; thread_handle_ keeps its default nullptr. *)
Definition ctor_fn (w : world) (x : nat) (f : fn) : res world :=
  match objs w x with Some _ => UB NoObject | None => Ok (World (upd (objs w) x (Some None)) (sys w)) end.
(** src/nanothread.cc:29-37 joinable *)
Definition joinable (w : world) (x : nat) : res bool :=
  h <- handle w x ;; Ok (match h with Some _ => true | None => false end).
(** src/nanothread.cc:39-46 join *)
Definition join (w : world) (x : nat) : res world :=
  h <- handle w x ;;
  Ok (match h with
      | Some t => World (upd (objs w) x (Some None)) (os_join (sys w) t)
      | None => w
      end).
(** src/nanothread.cc:22-27 ~thread *)
Definition dtor (w : world) (x : nat) : res world :=
  h <- handle w x ;;
  Ok (World (upd (objs w) x None) (match h with Some t => os_join (sys w) t | None => sys w end)).
(** nanothread.h:225-227 native_handle *)
Definition native_handle (w : world) (x : nat) : res (option nat) := handle w x.

(** the client operations and the scheduler *)
Inductive op := New (x : nat) | NewFn (x : nat) (f : fn) | Joinable (x : nat) | Join (x : nat)
  | Native (x : nat) | Delete (x : nat) | Sched (t : nat).
(** no code counterpart: results *)
Inductive out := Unit | Bool (b : bool) | Handle (h : option nat).

(** one client operation *)
Definition step (w : world) (o : op) : res (out * world) :=
  match o with
  | New x => w' <- ctor_default w x ;; Ok (Unit, w')
  | NewFn x f => w' <- ctor_fn w x f ;; Ok (Unit, w')
  | Joinable x => b <- joinable w x ;; Ok (Bool b, w)
  | Join x => w' <- join w x ;; Ok (Unit, w')
  | Native x => h <- native_handle w x ;; Ok (Handle h, w)
  | Delete x => w' <- dtor w x ;; Ok (Unit, w')
  | Sched t => Ok (Unit, World (objs w) (os_run (sys w) t))
  end.

(** no code counterpart: a client program *)
Fixpoint run (w : world) (ops : list op) : res (list out * world) :=
  match ops with
  | [] => Ok ([], w)
  | o :: t => '(r, w1) <- step w o ;; '(rs, w2) <- run w1 t ;; Ok (r :: rs, w2)
  end.

(** no code counterpart: start of the program *)
Definition world0 : world := World (fun _ => None) (Os (fun _ => None) 0 []).
