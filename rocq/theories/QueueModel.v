(** Model of the atomic integers and of the single-producer/single-consumer queue of
    src/libs_thread.h (1016-1144, 1368-1434), as interleavings of the two threads.

    Every atomic operation is one step (the builtins used are full barriers, so that the
    steps of the two threads are totally ordered); every access to the array of values is
    one step; thread_signal_wait and thread_signal_raise, which work under a mutex, are one
    step each here (their own model is in SignalModel).  The assertions on thread ids
    (NDEBUG not defined) hold as each side is one thread. *)
From Coq Require Import ZArith List Bool.
Import ListNotations.
Local Open Scope Z_scope.

(** Windows, or Linux/macOS/Android with the GCC builtins. *)
Inductive platform : Set := Win | Gcc.

(* no code counterpart: values of the C type long (32 bits on Windows, 64 otherwise) and
   conversion of a long to int *)
Definition signed (w x : Z) : Z := let r := x mod 2 ^ w in if r <? 2 ^ (w - 1) then r else r - 2 ^ w.
Definition long (p : platform) (x : Z) : Z := signed (match p with Win => 32 | Gcc => 64 end) x.
Definition to_int (x : Z) : Z := signed 32 x.

(** The operations on an atomic int, as the sequence of steps on the variable that each
    makes; a step gives the new value and, in the last place, the result.
    1016-1029 load, 1032-1046 store, 1049-1062 inc, 1065-1078 dec, 1081-1094 add,
    1097-1110 sub, 1113-1128 swap, 1131-1144 compare_and_swap.
    __sync_lock_test_and_set( &i, x ) stores x and gives back the old value;
    __sync_lock_release( &i ) stores 0. *)
Inductive aop : Set := Load | Store (x : Z) | Inc | Dec | Add (x : Z) | Sub (x : Z) | Swap (x : Z) | Cas (e d : Z).
Definition steps (p : platform) (o : aop) : list (Z -> Z * Z) :=
  match o with
  | Load => [fun i => (i, to_int i)]
  | Store x => match p with
               | Win => [fun i => (long p x, 0)]
               | Gcc => [fun i => (long p x, 0); fun i => (0, 0)]
               end
  | Inc => [fun i => (long p (i + 1), to_int i)]
  | Dec => [fun i => (long p (i - 1), to_int i)]
  | Add x => [fun i => (long p (i + x), to_int i)]
  | Sub x => [fun i => (long p (i - x), to_int i)]
  | Swap x => match p with
              | Win => [fun i => (long p x, to_int i)]
              | Gcc => [fun i => (long p x, to_int i); fun i => (0, 0)]
              end
  | Cas e d => [fun i => (if i =? e then long p d else i, to_int i)]
  end.
(* no code counterpart: an operation run without interruption: the new value, and the result,
   which is that of its first step *)
Definition atomic (p : platform) (o : aop) (i : Z) : Z * Z :=
  match steps p o with
  | [] => (i, 0)
  | f :: fs => (fold_left (fun i g => fst (g i)) fs (fst (f i)), snd (f i))
  end.

(** timeout_ms: 0, THREAD_QUEUE_WAIT_INFINITE, or a number of milliseconds *)
Inductive timeout : Set := TZero | TInfinite | TFinite.

Section Queue.
  Context {V : Type}.

  (** Where the producer is in thread_queue_produce (1391-1408), and the consumer in
      thread_queue_consume (1411-1428). *)
  Inductive ppc : Type :=
  | PIdle | PWait (v : V) (t : timeout) | PInc (v : V) | PWrite (v : V) (tail : Z) | PCount (v : V) | PRaise.
  Inductive cpc : Type :=
  | CIdle | CWait | CInc | CRead (head : Z) | CCount (v : V) | CRaise (v : V).

  Record state := State {
    count : Z; head : Z; tail : Z;       (* the atomic longs *)
    values : Z -> V; size : Z;
    data_ready : bool; space_open : bool;  (* the signals *)
    pp : ppc; cp : cpc;
    todo : list (V * timeout);           (* produce calls still to be made *)
    want : list timeout;                 (* consume calls still to be made *)
    got : list (option V)                (* results of consume so far, latest first; None: NULL *)
  }.

  (** What a step of a thread does. *)
  Inductive result : Type :=
  | Next (s : state)
  | Stuck                   (* the thread waits for a signal, or has nothing to do *)
  | OutOfBounds.            (* values[ i ] with i < 0 or i >= size *)

  (* no code counterpart: changing single fields *)
  Definition set_p (s : state) (p : ppc) := State (count s) (head s) (tail s) (values s) (size s) (data_ready s) (space_open s) p (cp s) (todo s) (want s) (got s).
  Definition set_c (s : state) (c : cpc) := State (count s) (head s) (tail s) (values s) (size s) (data_ready s) (space_open s) (pp s) c (todo s) (want s) (got s).
  Definition set_count (s : state) (n : Z) := State n (head s) (tail s) (values s) (size s) (data_ready s) (space_open s) (pp s) (cp s) (todo s) (want s) (got s).
  Definition set_ready (s : state) (b : bool) := State (count s) (head s) (tail s) (values s) (size s) b (space_open s) (pp s) (cp s) (todo s) (want s) (got s).
  Definition set_space (s : state) (b : bool) := State (count s) (head s) (tail s) (values s) (size s) (data_ready s) b (pp s) (cp s) (todo s) (want s) (got s).
  Definition set_head (s : state) (n : Z) := State (count s) n (tail s) (values s) (size s) (data_ready s) (space_open s) (pp s) (cp s) (todo s) (want s) (got s).
  Definition set_tail (s : state) (n : Z) := State (count s) (head s) n (values s) (size s) (data_ready s) (space_open s) (pp s) (cp s) (todo s) (want s) (got s).
  Definition set_value (s : state) (i : Z) (v : V) := State (count s) (head s) (tail s) (fun j => if j =? i then v else values s j) (size s) (data_ready s) (space_open s) (pp s) (cp s) (todo s) (want s) (got s).
  Definition give (s : state) (r : option V) := State (count s) (head s) (tail s) (values s) (size s) (data_ready s) (space_open s) (pp s) CIdle (todo s) (want s) (r :: got s).

  (** 1368-1381 thread_queue_init, on the given array; the programs of the two threads. *)
  Definition start (p : platform) (size : Z) (values : Z -> V) (count : Z) (todo : list (V * timeout)) (want : list timeout) : state :=
    let n := if count >? size then size else count in
    let st x := fst (atomic p (Store x) 0) in
    State (st n) (st 0) (st n) values size false false PIdle CIdle todo want [].

  Context (p : platform).

  (** 1391-1408; [timed]: a wait with a finite timeout gives up *)
  Definition produce_step (timed : bool) (s : state) : result :=
    match pp s with
    | PIdle => match todo s with
               | [] => Stuck
               | (v, t) :: rest =>
                   let s := State (count s) (head s) (tail s) (values s) (size s) (data_ready s) (space_open s) (pp s) (cp s) rest (want s) (got s) in
                   if snd (atomic p Load (count s)) =? size s
                   then match t with TZero => Next (set_p s PIdle) | _ => Next (set_p s (PWait v t)) end
                   else Next (set_p s (PInc v))
               end
    | PWait v t => if space_open s then Next (set_p (set_space s false) (PInc v))
                   else if timed then match t with TFinite => Next (set_p s (PInc v)) | _ => Stuck end
                   else Stuck
    | PInc v => let '(n, old) := atomic p Inc (tail s) in Next (set_p (set_tail s n) (PWrite v old))
    | PWrite v t => let i := Z.rem t (size s) in
                    if (0 <=? i) && (i <? size s) then Next (set_p (set_value s i v) (PCount v)) else OutOfBounds
    | PCount v => let '(n, old) := atomic p Inc (count s) in Next (set_p (set_count s n) (if old =? 0 then PRaise else PIdle))
    | PRaise => Next (set_p (set_ready s true) PIdle)
    end.

  (** 1411-1428; the wait never times out: it is passed THREAD_SIGNAL_WAIT_INFINITE (1421) *)
  Definition consume_step (s : state) : result :=
    match cp s with
    | CIdle => match want s with
               | [] => Stuck
               | t :: rest =>
                   let s := State (count s) (head s) (tail s) (values s) (size s) (data_ready s) (space_open s) (pp s) (cp s) (todo s) rest (got s) in
                   if snd (atomic p Load (count s)) =? 0
                   then match t with TZero => Next (give s None) | _ => Next (set_c s CWait) end
                   else Next (set_c s CInc)
               end
    | CWait => if data_ready s then Next (set_c (set_ready s false) CInc) else Stuck
    | CInc => let '(n, old) := atomic p Inc (head s) in Next (set_c (set_head s n) (CRead old))
    | CRead h => let i := Z.rem h (size s) in
                 if (0 <=? i) && (i <? size s) then Next (set_c s (CCount (values s i))) else OutOfBounds
    | CCount v => let '(n, old) := atomic p Dec (count s) in
                  if old =? size s then Next (set_c (set_count s n) (CRaise v)) else Next (give (set_count s n) (Some v))
    | CRaise v => Next (give (set_space s true) (Some v))
    end.

  (** Which thread runs next. *)
  Inductive who : Set := Producer (timed : bool) | Consumer.
  Definition step (w : who) (s : state) : result :=
    match w with Producer t => produce_step t s | Consumer => consume_step s end.

  (* no code counterpart: an execution; a thread that is stuck is passed over *)
  Fixpoint run (ws : list who) (s : state) : result :=
    match ws with
    | [] => Next s
    | w :: ws' => match step w s with Next s' => run ws' s' | Stuck => run ws' s | OutOfBounds => OutOfBounds end
    end.

  (** 1431-1434 *)
  Definition queue_count (s : state) : Z := snd (atomic p Load (count s)).
End Queue.
Arguments ppc V : clear implicits.
Arguments cpc V : clear implicits.
Arguments state V : clear implicits.
Arguments result V : clear implicits.
