(** What nanostl::optional should do, stated on a plain map from variables to what they
    hold: [None] no such variable, [Some None] an empty optional, [Some (Some v)] one
    holding [v].  No buffers, flags or lifetimes. *)
From Coq Require Import List Bool PeanoNat.
From Verif Require Import LifeModel OptModel.
Import ListNotations.

Section OptSpec.
  Context {V : Type} (moved torn : V -> V) (noexc clang : bool).
  Definition st := nat -> option (option V).
  Definition put (s : st) (x : nat) (o : option (option V)) : st := fun y => if Nat.eqb y x then o else s y.
  Definition declared (s : st) (x : nat) : bool := match s x with Some _ => true | None => false end.
  Definition engaged (s : st) (x : nat) : bool := match s x with Some (Some _) => true | _ => false end.

  (** The calls a correct client may make: variables are declared once and used in scope,
      the value of an empty optional is not accessed (value() may be called on an empty
      optional when exceptions are enabled), and emplace is not given a reference to the
      value that it replaces. *)
  Definition legal (o : op V) (s : st) : bool :=
    match o with
    | ONew x | ONewVal x _ => negb (declared s x)
    | ONewCopy x y | ONewMove x y => negb (declared s x) && declared s y
    | ODel x | OReset x | OVal x _ _ | OEmplace x _ | OHas x | OValueOr x _ | OValueOrMove x _ => declared s x
    | OCopy x y | OMove x y | OConvCopy x y | OConvMove x y | OSwap x y => declared s x && declared s y
    | ORef x y => declared s x && engaged s y
    | OEmplaceRef x y => declared s x && engaged s y && negb (Nat.eqb x y)
    | OGet x | OSet x _ => engaged s x
    | OValue x => if noexc then engaged s x else declared s x
    end.

  (* what a moved-from optional holds: it still has a value, the moved-from one *)
  Definition mvd (o : option (option V)) : option (option V) := option_map (option_map moved) o.
  Definition trn (o : option (option V)) : option (option V) := option_map (option_map torn) o.

  (** State after a call that returns normally. *)
  Definition after (o : op V) (s : st) : st :=
    match o with
    | ONew x => put s x (Some None)
    | ONewVal x v => put s x (Some (Some v))
    | ONewCopy x y => put s x (s y)
    | ONewMove x y => put (put s x (s y)) y (mvd (s y))
    | ODel x => put s x None
    | OReset x => put s x (Some None)
    | OCopy x y => put s x (s y)
    | OMove x y => put (put s x (s y)) y (mvd (s y))
    | OVal x v _ => put s x (Some (Some v))
    | ORef x y => put s x (s y)
    | OConvCopy x y => put s x (s y)
    | OConvMove x y => put (put s y (mvd (s y))) x (s y)
    | OEmplace x v => put s x (Some (Some v))
    | OEmplaceRef x y => put s x (s y)
    | OSwap x y => put (put s x (s y)) y (s x)
    | OHas _ | OGet _ | OValue _ | OValueOr _ _ => s
    | OSet x v => put s x (Some (Some v))
    | OValueOrMove x _ => if clang then s else put s x (mvd (s x))
    end.

  (** What the call gives back; [None]: it throws bad_optional_access. *)
  Definition answer (o : op V) (s : st) : option (obs V) :=
    match o with
    | OHas x => Some (OBool (engaged s x))
    | OGet x | OValue x => match s x with Some (Some v) => Some (OVal_ v) | _ => None end
    | OValueOr x v | OValueOrMove x v => match s x with Some (Some v') => Some (OVal_ v') | _ => Some (OVal_ v) end
    | _ => Some Nothing
    end.

  (** State after a call left by an exception of the element type; [None]: cannot happen. *)
  Definition after_throw (o : op V) (s : st) : option st :=
    match o with
    | ONewVal _ _ | ONewCopy _ _ | ONewMove _ _ | OConvCopy _ _ | OConvMove _ _ | OValueOr _ _ | OValueOrMove _ _ => Some s
    | OCopy x _ | OVal x _ _ | ORef x _ | OSet x _ => Some (if engaged s x then put s x (trn (s x)) else s)
    | OEmplace x _ | OEmplaceRef x _ => Some (put s x (Some None))
    | OSwap x y => Some (if engaged s x && engaged s y then put (put s x (trn (s x))) y (trn (s y)) else s)
    | ONew _ | ODel _ | OReset _ | OMove _ _ | OHas _ | OGet _ | OValue _ => None
    end.

  (** Calls that can end the program because an exception meets a noexcept. *)
  Definition may_terminate (promise : nat -> okind -> bool) (o : op V) : bool :=
    match o with
    | OMove _ _ | OConvCopy _ _ | OConvMove _ _ => negb (promise 0 KMove && promise 0 KMoveAsg)
    | OCopy _ _ => promise 0 KMove && promise 0 KMoveAsg && negb (promise 0 KCopy && promise 0 KCopyAsg)
    | _ => false
    end.
End OptSpec.
Arguments st V : clear implicits.

(** What the model says variable [x] holds (meaningful when the flag and the buffer agree). *)
Definition abs {V} (w : world V bool) : st V :=
  fun x => match disc w (Var x) with
           | None => None
           | Some false => Some None
           | Some true => Some (option_map snd (objs w (Var x)))
           end.

(** One call as the client sees it: its result, or the exception. *)
Definition seen (V : Type) : Type := (obs V + exn)%type.

(** A client program: it makes its calls in order, catches what they throw, and skips the
    calls that would be illegal. *)
Section Program.
  Context {V : Type}.
  Context (promise : nat -> okind -> bool) (moved torn : V -> V) (thr : nat -> bool) (noexc clang : bool).
  Fixpoint run (os : list (op V)) (w : world V bool) : out (world V bool) (list (seen V)) :=
    match os with
    | [] => Ret [] w
    | o :: os' =>
        if legal noexc o (abs w) then
          match exec promise moved torn thr noexc clang o w with
          | Ret r w' => match run os' w' with Ret rs w'' => Ret (inl r :: rs) w'' | Exn e w'' => Exn e w'' | Term => Term | Bad u => Bad u end
          | Exn e w' => match run os' w' with Ret rs w'' => Ret (inr e :: rs) w'' | Exn e w'' => Exn e w'' | Term => Term | Bad u => Bad u end
          | Term => Term
          | Bad u => Bad u
          end
        else run os' w
    end.

  (** The same program on the specification, for an element type that never throws. *)
  Fixpoint spec_run (os : list (op V)) (s : st V) : list (seen V) * st V :=
    match os with
    | [] => ([], s)
    | o :: os' =>
        if legal noexc o s then
          match answer o s with
          | Some r => let (rs, s') := spec_run os' (after moved clang o s) in (inl r :: rs, s')
          | None => let (rs, s') := spec_run os' s in (inr BadAccess :: rs, s')
          end
        else spec_run os' s
    end.
End Program.
