(** Model of thread_signal_raise and thread_signal_wait of src/libs_thread.h (930-955,
    958-1013, the pthread versions) for any number of threads, as interleavings.

    A pthread mutex is its owner.  pthread_cond_wait gives up the mutex and sleeps in one
    step; pthread_cond_signal wakes one sleeping thread, if there is one; a sleeping thread
    may also wake for no reason, and a timed wait may time out, also after it has been
    signalled (POSIX: a timed-out wait may consume a concurrent signal); either way the
    thread must take the mutex again before it goes on. *)
From Coq Require Import ZArith List Bool PeanoNat.
Import ListNotations.

(** The calls of a thread; [timed]: timeout_ms >= 0. *)
Inductive call : Set := Raise | Wait (timed : bool).

(** Where a thread is. *)
Inductive pc : Set :=
| Idle
| RLock | RSet | RUnlock | RSignal                     (* raise 947-950 *)
| WLock (timed : bool)                                 (* 994 *)
| WCheck (timed : bool)                                (* 995 *)
| WSleep (timed : bool)                                (* in 998 or 999 *)
| WWoken (timed : bool)                                (* woken, to take the mutex again *)
| WGaveUp                                              (* timed out, to take the mutex again *)
| WTake                                                (* 1006 *)
| WUnlock (ok : bool).                                 (* 1007 *)

Record state := State {
  value : bool;                 (* internal->value *)
  owner : option nat;           (* of internal->mutex *)
  at_ : nat -> pc;
  prog : nat -> list call;      (* calls still to be made *)
  res : nat -> list bool        (* results of wait so far, latest first *)
}.

(* no code counterpart: state changes *)
Definition put {A} (f : nat -> A) (t : nat) (a : A) : nat -> A := fun u => if Nat.eqb u t then a else f u.
Definition goto (t : nat) (p : pc) (s : state) : state := State (value s) (owner s) (put (at_ s) t p) (prog s) (res s).
Definition set_value (b : bool) (s : state) : state := State b (owner s) (at_ s) (prog s) (res s).
Definition set_owner (o : option nat) (s : state) : state := State (value s) o (at_ s) (prog s) (res s).
Definition asleep (p : pc) : bool := match p with WSleep _ => true | _ => false end.

(** What happens next: thread [t] goes on (if it signals, it wakes [u]), thread [t] wakes
    up for no reason, or its wait times out. *)
Inductive move : Set := Go (t u : nat) | Spurious (t : nat) | Timeout (t : nat).

Section Signal.
  Context (n : nat).   (* number of threads *)

  (** pthread_mutex_lock, also at the end of pthread_cond_wait *)
  Definition lock (t : nat) (p : pc) (s : state) : option state :=
    match owner s with None => Some (goto t p (set_owner (Some t) s)) | Some _ => None end.

  (** One step; [None]: it is not possible now. *)
  Definition go (t u : nat) (s : state) : option state :=
    match at_ s t with
    | Idle => match prog s t with
              | [] => None
              | c :: cs => Some (State (value s) (owner s) (put (at_ s) t (match c with Raise => RLock | Wait b => WLock b end)) (put (prog s) t cs) (res s))
              end
    | RLock => lock t RSet s
    | RSet => Some (goto t RUnlock (set_value true s))
    | RUnlock => Some (goto t RSignal (set_owner None s))
    | RSignal => if existsb (fun u => asleep (at_ s u)) (seq 0 n)
                 then if (u <? n)%nat then match at_ s u with WSleep b => Some (goto u (WWoken b) (goto t Idle s)) | _ => None end else None
                 else Some (goto t Idle s)
    | WLock b => lock t (WCheck b) s
    | WCheck b => if value s then Some (goto t WTake s) else Some (goto t (WSleep b) (set_owner None s))
    | WSleep _ => None
    | WWoken b => lock t (WCheck b) s
    | WGaveUp => lock t (WUnlock false) s
    | WTake => Some (goto t (WUnlock true) (set_value false s))
    | WUnlock ok => Some (State (value s) None (put (at_ s) t Idle) (prog s) (put (res s) t (ok :: res s t)))
    end.
  Definition step (m : move) (s : state) : option state :=
    match m with
    | Go t u => if (t <? n)%nat then go t u s else None
    | Spurious t => if (t <? n)%nat then match at_ s t with WSleep b => Some (goto t (WWoken b) s) | _ => None end else None
    | Timeout t => if (t <? n)%nat then match at_ s t with WSleep true | WWoken true => Some (goto t WGaveUp s) | _ => None end else None
    end.
  (* no code counterpart: an execution; a move that is not possible is passed over *)
  Fixpoint run (ms : list move) (s : state) : state :=
    match ms with
    | [] => s
    | m :: ms' => run ms' match step m s with Some s' => s' | None => s end
    end.
End Signal.

(** 875-902 thread_signal_init; no thread has started *)
Definition start (programs : nat -> list call) : state := State false None (fun _ => Idle) programs (fun _ => []).

(** The deadline computed in 983-991 from time( NULL ), the microseconds of gettimeofday and
    timeout_ms >= 0 (C division and remainder). *)
Definition deadline (now_sec usec ms : Z) : Z * Z :=
  let sec := (now_sec + Z.quot ms 1000)%Z in
  let nsec := (usec * 1000 + 1000 * 1000 * Z.rem ms 1000)%Z in
  let sec := (sec + Z.quot nsec (1000 * 1000 * 1000))%Z in
  (sec, Z.rem nsec (1000 * 1000 * 1000))%Z.
