(** Model of the mutex of src/libs_thread.h (thread_mutex_init, _term, _lock, _unlock, lines 778-848) used by threads that share variables.

    Each function is one call into the system; the system is taken to behave as documented: a critical section of Windows can be entered
    again by its owner and must be left as often; a pthread mutex with default attributes may not.  What the documentation leaves undefined is
    [Bad]: a mutex that is not initialised (or initialised twice), unlocking by another thread than the owner, destroying a locked mutex,
    locking a pthread mutex twice.  A thread that finds the mutex taken does not go on ([Blocked]).

    A thread is the list of calls and memory accesses it still has to make, and one register.  Threads are interleaved arbitrarily, one
    access at a time (sequential consistency, which the mutexes give to programs without data races). *)
From Coq Require Import List ZArith Arith Bool.
Import ListNotations.

(** no code counterpart: the two implementations selected by _WIN32 (libs_thread.h:780, 791) *)
Inductive system := Windows | Posix.
(** no code counterpart: the state of a mutex; the owner and how often it has locked it *)
Inductive mstate := NotInit | Free | Held (t n : nat).
(** no code counterpart: what a thread does next.  [Access x f]: one load or store of the shared variable x: f takes the register and the
    variable and gives both. *)
Inductive instr := Init (m : nat) | Term (m : nat) | Lock (m : nat) | Unlock (m : nat) | Access (x : nat) (f : Z -> Z -> Z * Z).
Record world := World { mtx : nat -> mstate; prog : nat -> list instr; reg : nat -> Z; var : nat -> Z }.
(** no code counterpart: map update *)
Definition upd {A} (f : nat -> A) (x : nat) (v : A) : nat -> A := fun y => if Nat.eqb y x then v else f y.

(** no code counterpart: outcome of letting a thread go on *)
Inductive outcome {A} := Blocked | Bad | Next (a : A).
Arguments outcome : clear implicits.

(** libs_thread.h:778-800 thread_mutex_init *)
Definition mutex_init (s : system) (t : nat) (m : mstate) : outcome mstate :=
  match m with NotInit => Next Free | _ => Bad end.
(** libs_thread.h:803-816 thread_mutex_term *)
Definition mutex_term (s : system) (t : nat) (m : mstate) : outcome mstate :=
  match m with Free => Next NotInit | _ => Bad end.
(** libs_thread.h:819-832 thread_mutex_lock: EnterCriticalSection, pthread_mutex_lock *)
Definition mutex_lock (s : system) (t : nat) (m : mstate) : outcome mstate :=
  match m with
  | NotInit => Bad
  | Free => Next (Held t 1)
  | Held u n => if Nat.eqb u t then match s with Windows => Next (Held t (S n)) | Posix => Bad end else Blocked
  end.
(** libs_thread.h:835-848 thread_mutex_unlock: LeaveCriticalSection, pthread_mutex_unlock *)
Definition mutex_unlock (s : system) (t : nat) (m : mstate) : outcome mstate :=
  match m with
  | Held u n => if Nat.eqb u t then Next (match n with S (S k) => Held t (S k) | _ => Free end) else Bad
  | _ => Bad
  end.

(** no code counterpart: thread t makes its next call or access *)
Definition step (s : system) (w : world) (t : nat) : outcome world :=
  let call m (o : outcome mstate) p :=
    match o with Blocked => Blocked | Bad => Bad | Next n => Next (World (upd (mtx w) m n) (upd (prog w) t p) (reg w) (var w)) end in
  match prog w t with
  | [] => Blocked
  | Init m :: p => call m (mutex_init s t (mtx w m)) p
  | Term m :: p => call m (mutex_term s t (mtx w m)) p
  | Lock m :: p => call m (mutex_lock s t (mtx w m)) p
  | Unlock m :: p => call m (mutex_unlock s t (mtx w m)) p
  | Access x f :: p => let '(r, v) := f (reg w t) (var w x) in Next (World (mtx w) (upd (prog w) t p) (upd (reg w) t r) (upd (var w) x v))
  end.
(** no code counterpart: an execution: the threads go on in this order *)
Fixpoint exec (s : system) (w : world) (sched : list nat) : option world :=
  match sched with
  | [] => Some w
  | t :: ts => match step s w t with Next w' => exec s w' ts | _ => None end
  end.
