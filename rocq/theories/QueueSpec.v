(** A bounded first-in-first-out queue, and which step of each call of the implementation
    is the moment at which the call takes effect. *)
From Coq Require Import ZArith List Bool.
From Verif Require Import QueueModel.
Import ListNotations.
Local Open Scope Z_scope.

Section Spec.
  Context {V : Type}.

  (** The calls, and the calls with what came of them. *)
  Inductive call : Type := Put (v : V) | Get.
  Inductive ev : Type :=
  | EPut (v : V) (accepted : bool)   (* produce: put in, or dropped *)
  | EGet (r : option V).             (* consume: None is NULL *)
  Definition call_of (e : ev) : call := match e with EPut v _ => Put v | EGet _ => Get end.

  (** The queue used by one thread: put appends unless the queue is full, get takes the
      oldest value or nothing. *)
  Fixpoint serve (size : nat) (q : list V) (cs : list call) : list ev * list V :=
    match cs with
    | [] => ([], q)
    | Put v :: cs' =>
        if (length q <? size)%nat
        then let (es, r) := serve size (q ++ [v]) cs' in (EPut v true :: es, r)
        else let (es, r) := serve size q cs' in (EPut v false :: es, r)
    | Get :: cs' =>
        match q with
        | [] => let (es, r) := serve size [] cs' in (EGet None :: es, r)
        | v :: q' => let (es, r) := serve size q' cs' in (EGet (Some v) :: es, r)
        end
    end.

  (** The moments at which calls take effect: when produce finds the queue full, or makes
      its value count; when consume finds the queue empty, or gives up the slot it read. *)
  Definition event (w : who) (s : state V) : list ev :=
    match w with
    | Producer _ => match pp s with
                    | PIdle => match todo s with (v, TZero) :: _ => if count s =? size s then [EPut v false] else [] | _ => [] end
                    | PCount v => [EPut v true]
                    | _ => []
                    end
    | Consumer => match cp s with
                  | CIdle => match want s with TZero :: _ => if count s =? 0 then [EGet None] else [] | _ => [] end
                  | CCount v => [EGet (Some v)]
                  | _ => []
                  end
    end.
  Fixpoint events (p : platform) (ws : list who) (s : state V) : list ev :=
    match ws with
    | [] => []
    | w :: ws' => event w s ++ match step p w s with Next s' => events p ws' s' | Stuck => events p ws' s | OutOfBounds => [] end
    end.

  (** What each side sees of the events. *)
  Definition puts (es : list ev) : list V := flat_map (fun e => match e with EPut v _ => [v] | _ => [] end) es.
  Definition gets (es : list ev) : list (option V) := flat_map (fun e => match e with EGet r => [r] | _ => [] end) es.

  (** The produce call that is under way and has not taken effect, and the consume call
      that has taken effect and not returned. *)
  Definition busy (s : state V) : list V :=
    match pp s with PWait v _ | PInc v | PWrite v _ | PCount v => [v] | PIdle | PRaise => [] end.
  Definition due (s : state V) : list (option V) := match cp s with CRaise v => [Some v] | _ => [] end.

  (** No call enters thread_signal_wait in the execution. *)
  Definition waiting (s : state V) : bool :=
    match pp s with PWait _ _ => true | _ => match cp s with CWait => true | _ => false end end.
  Fixpoint calm (p : platform) (ws : list who) (s : state V) : Prop :=
    waiting s = false /\
    match ws with
    | [] => True
    | w :: ws' => match step p w s with Next s' => calm p ws' s' | Stuck => calm p ws' s | OutOfBounds => True end
    end.

  (** The first [n] values of an array. *)
  Definition front (values : Z -> V) (n : nat) : list V := map (fun i => values (Z.of_nat i)) (seq 0 n).
End Spec.
Arguments ev V : clear implicits.
Arguments call V : clear implicits.
