(** Model of the rest of src/libs_thread.h that is not signals or queues: atomic pointers
    (1147-1222), the timer (1271-1293), thread-local storage (1296-1366) and the creation,
    exit and joining of threads (656-758).

    What the operating system does is a parameter or an event of the environment: the
    interleaving of the threads, the signals that interrupt nanosleep, the key chosen by
    pthread_key_create or TlsAlloc, whether memory is left for pthread_setspecific, whether a
    thread can be started and how it ends.  Not modelled: thread_set_high_priority,
    thread_yield, the debug name of a thread, thread_timer_init and thread_timer_term. *)
From Coq Require Import ZArith List Bool.
From Verif Require Import QueueModel.
Import ListNotations.
Local Open Scope Z_scope.

(** * Atomic pointers *)

(** The operations, as the sequence of steps on the variable that each makes; a step gives
    the new value and the result.  Pointers are addresses, NULL is 0.
    1147-1160 load, 1163-1184 store, 1187-1207 swap, 1209-1222 compare_and_swap. *)
Inductive pop : Set := PLoad | PStore (x : Z) | PSwap (x : Z) | PCas (e d : Z).
Definition psteps (p : platform) (o : pop) : list (Z -> Z * Z) :=
  match o, p with
  | PLoad, Win => [fun v => (if v =? 0 then 0 else v, v)]
  | PLoad, Gcc => [fun v => ((v + 0) mod 2 ^ 64, v)]
  | PStore x, Win => [fun v => (x, 0)]
  | PStore x, Gcc => [fun v => (x, 0); fun v => (0, 0)]
  | PSwap x, Win => [fun v => (x, v)]
  | PSwap x, Gcc => [fun v => (x, v); fun v => (0, 0)]
  | PCas e d, _ => [fun v => (if v =? e then d else v, v)]
  end.

(* no code counterpart: threads that work on one variable: what is left of the current
   operation of each thread, its further operations, the results so far (latest first); a step
   of a thread, and a schedule *)
Record pthreads := PThreads { pcell : Z; prest : nat -> list (Z -> Z * Z); pprog : nat -> list pop; presults : nat -> list Z }.
Definition upd {A} (f : nat -> A) (t : nat) (a : A) : nat -> A := fun u => if Nat.eqb u t then a else f u.
Definition pstep (p : platform) (t : nat) (m : pthreads) : pthreads :=
  match prest m t with
  | f :: fs => PThreads (fst (f (pcell m))) (upd (prest m) t fs) (pprog m) (presults m)
  | [] => match pprog m t with
          | [] => m
          | o :: os => match psteps p o with
                       | [] => m
                       | f :: fs => PThreads (fst (f (pcell m))) (upd (prest m) t fs) (upd (pprog m) t os)
                                      (upd (presults m) t (snd (f (pcell m)) :: presults m t))
                       end
          end
  end.
Definition prun (p : platform) (ts : list nat) (m : pthreads) : pthreads := fold_left (fun m t => pstep p t m) ts m.

(** * The timer *)

(** What nanosleep does: it sleeps the requested time and [late] nanoseconds more, or a signal
    arrives after [e] nanoseconds. *)
Inductive wake : Set := Full (late : Z) | Signal (e : Z).
(* no code counterpart: the outcome of the wait: it has returned after t nanoseconds; all
   wakes are used up and it still sleeps; nanosleep has failed with EINVAL, and the loop goes
   on with the uninitialised rem *)
Inductive waited : Set := Returned (t : Z) | Sleeping (t : Z) | Uninit.
(* no code counterpart: POSIX: a call of nanosleep for sec seconds and nsec nanoseconds *)
Inductive slept : Set := SDone (t : Z) | SIntr (t sec nsec : Z) | SInval.
Definition nanosleep (sec nsec : Z) (k : wake) : slept :=
  if (sec <? 0) || (nsec <? 0) || (10 ^ 9 <=? nsec) then SInval
  else let total := sec * 10 ^ 9 + nsec in
       match k with
       | Full late => SDone (total + late)
       | Signal e => if e <? total then SIntr e ((total - e) / 10 ^ 9) ((total - e) mod 10 ^ 9) else SDone total
       end.
(** 1286-1287: while( nanosleep( &req, &rem ) ) req = rem *)
Fixpoint sleep_loop (sec nsec t : Z) (ks : list wake) : waited :=
  match ks with
  | [] => Sleeping t
  | k :: ks => match nanosleep sec nsec k with
               | SDone d => Returned (t + d)
               | SIntr d sec' nsec' => sleep_loop sec' nsec' (t + d) ks
               | SInval => Uninit
               end
  end.
(** 1281-1287 thread_timer_wait with nanosleep; time_t has w bits, tv_nsec is a long of at
    least 32; [ns] is a THREAD_U64 *)
Definition timer_posix (w ns : Z) (ks : list wake) : waited :=
  let sec := signed w (ns / 1000000000) in
  let nsec := signed w ((ns - sec * 1000000000) mod 2 ^ 64) in
  sleep_loop sec nsec 0 ks.
(** 1275-1279 thread_timer_wait on Windows: a negative due time is relative, in units of 100 ns;
    due time 0 is a moment in the past *)
Definition timer_win (ns late : Z) : Z :=
  let due := - signed 64 (ns / 100) in
  if due <? 0 then 100 * - due + late else 0 + late.

(** * Thread-local storage *)

(** The system: the keys in use, and the value of each thread for each key. *)
Record tls := Tls { keys : list Z; slot : nat -> Z -> Z }.
(** A call by a thread; [room]: memory is left for the value in pthread_setspecific. *)
Inductive tcall : Set := TCreate | TDestroy (h : Z) | TSet (h v : Z) (room : bool) | TGet (h : Z).

(** 1296-1317 thread_tls_create; [pick keys] is the key that pthread_key_create (TlsAlloc)
    chooses, None when it fails (TLS_OUT_OF_INDEXES); a new key has value NULL in all threads *)
Definition tls_create (pick : list Z -> option Z) (s : tls) : Z * tls :=
  match pick (keys s) with
  | Some k => (k, Tls (k :: keys s) (fun t x => if x =? k then 0 else slot s t x))
  | None => (0, s)
  end.
(* no code counterpart: the key of a handle: a conversion to pthread_key_t or DWORD *)
Definition key (h : Z) : Z := h mod 2 ^ 32.
(** 1320-1333 thread_tls_destroy; None: undefined, the key is not in use *)
Definition tls_destroy (h : Z) (s : tls) : option tls :=
  if existsb (Z.eqb (key h)) (keys s) then Some (Tls (filter (fun x => negb (x =? key h)) (keys s)) (slot s)) else None.
(** 1336-1349 thread_tls_set: the result of pthread_setspecific (TlsSetValue) is dropped *)
Definition tls_set (t : nat) (h v : Z) (room : bool) (s : tls) : option tls :=
  if existsb (Z.eqb (key h)) (keys s)
  then Some (if room then Tls (keys s) (fun u x => if Nat.eqb u t && (x =? key h) then v else slot s u x) else s)
  else None.
(** 1352-1365 thread_tls_get *)
Definition tls_get (t : nat) (h : Z) (s : tls) : option Z :=
  if existsb (Z.eqb (key h)) (keys s) then Some (slot s t (key h)) else None.

(* no code counterpart: calls of the threads, in the order in which they happen; None when one
   is undefined; the trace has the result of each, 0 for those that return nothing *)
Definition tls_call (pick : list Z -> option Z) (t : nat) (c : tcall) (s : tls) : option (Z * tls) :=
  match c with
  | TCreate => Some (tls_create pick s)
  | TDestroy h => option_map (pair 0) (tls_destroy h s)
  | TSet h v room => option_map (pair 0) (tls_set t h v room s)
  | TGet h => option_map (fun v => (v, s)) (tls_get t h s)
  end.
Fixpoint tls_run (pick : list Z -> option Z) (cs : list (nat * tcall)) (s : tls) : option (list (nat * tcall * Z)) :=
  match cs with
  | [] => Some []
  | (t, c) :: cs => match tls_call pick t c s with
                    | Some (r, s') => option_map (cons (t, c, r)) (tls_run pick cs s')
                    | None => None
                    end
  end.
Definition tls0 : tls := Tls [] (fun _ _ => 0).

(** * Threads *)

(** How a thread ends: thread_proc returns c, the upper half of the register that holds the
    int being arbitrary; or it calls thread_exit( c ). *)
Inductive ending : Set := Return (c upper : Z) | Exit (c : Z).
(** 656-670 thread_exit: return_code converted to uintptr_t and then to a pointer, or to DWORD;
    695 thread_proc is called as a function that returns a pointer (678-679: a DWORD) *)
Definition word (p : platform) (e : ending) : Z :=
  match p, e with
  | Win, Return c _ => c mod 2 ^ 32
  | Win, Exit c => c mod 2 ^ 32
  | Gcc, Return c upper => c mod 2 ^ 32 + 2 ^ 32 * (upper mod 2 ^ 32)
  | Gcc, Exit c => c mod 2 ^ 64
  end.
(** 745, 751: (int) retval, (int)(uintptr_t) retval *)
Definition exit_code (w : Z) : Z := to_int w.

(** A thread of the system: the word it ended with, if it has; whether the system still keeps
    it: on Windows until CloseHandle, else until pthread_join. *)
Record thr := Thr { ended : option Z; kept : bool }.
Inductive thcall : Set := Create (started : bool) | Finish (t : nat) (e : ending) | Join (t : nat) | Destroy (t : nat).
(* no code counterpart: the result of a call: the caller goes on with a result, waits until
   the thread has ended, or the call is undefined *)
Inductive tres (A : Type) : Type := Goes (a : A) | Waits | Undef.
Arguments Goes {A} a. Arguments Waits {A}. Arguments Undef {A}.
(* no code counterpart: the threads, numbered by creation; a handle is such a number *)
Definition system := list thr.
Fixpoint put (t : nat) (x : thr) (s : system) : system :=
  match s, t with [], _ => [] | _ :: s, O => x :: s | y :: s, S t => y :: put t x s end.

(** 673-718 thread_create: NULL when CreateThread or pthread_create fails *)
Definition thread_create (started : bool) (s : system) : option nat * system :=
  if started then (Some (length s), s ++ [Thr None true]) else (None, s).
(** 738-757 thread_join: pthread_join also gives the thread back to the system;
    WaitForSingleObject and GetExitCodeThread keep the handle *)
Definition thread_join (p : platform) (t : nat) (s : system) : tres (Z * system) :=
  match nth_error s t with
  | Some (Thr e true) => match e with
                         | Some w => Goes (exit_code w, match p with Win => s | Gcc => put t (Thr e false) s end)
                         | None => Waits
                         end
  | _ => Undef
  end.
(** 721-735 thread_destroy *)
Definition thread_destroy (t : nat) (s : system) : tres system :=
  match nth_error s t with
  | Some (Thr e true) => match e with Some _ => Goes (put t (Thr e false) s) | None => Waits end
  | _ => Undef
  end.
(* no code counterpart: a running thread ends *)
Definition finish (p : platform) (t : nat) (e : ending) (s : system) : system :=
  match nth_error s t with Some (Thr None k) => put t (Thr (Some (word p e)) k) s | _ => s end.

(* no code counterpart: calls in the order in which they return; a call that would have to wait
   does not return there *)
Definition thread_call (p : platform) (c : thcall) (s : system) : tres (option Z * system) :=
  match c with
  | Create started => let (h, s') := thread_create started s in Goes (option_map Z.of_nat h, s')
  | Finish t e => Goes (None, finish p t e s)
  | Join t => match thread_join p t s with Goes (r, s') => Goes (Some r, s') | Waits => Waits | Undef => Undef end
  | Destroy t => match thread_destroy t s with Goes s' => Goes (None, s') | Waits => Waits | Undef => Undef end
  end.
Fixpoint thread_run (p : platform) (cs : list thcall) (s : system) : tres (list (thcall * option Z) * system) :=
  match cs with
  | [] => Goes ([], s)
  | c :: cs => match thread_call p c s with
               | Goes (r, s') => match thread_run p cs s' with
                                 | Goes (l, s'') => Goes ((c, r) :: l, s'')
                                 | Waits => Waits
                                 | Undef => Undef
                                 end
               | Waits => Waits
               | Undef => Undef
               end
  end.
(** 678-679, 695: the stack size asked for from the system, None for its default *)
Definition stack (p : platform) (stack_size : Z) : option Z :=
  match p with
  | Win => if 0 <? stack_size then Some stack_size else None
  | Gcc => None
  end.
