(** What nanostl::any should do, on a plain map from variables to what they hold: [None] no
    such variable, [Some None] an empty any, [Some (Some (t, v))] one holding the value [v]
    of type [t].  No pointers, heap or lifetimes. *)
From Coq Require Import List Bool PeanoNat.
From Verif Require Import LifeModel AnyModel.
Import ListNotations.

Section AnySpec.
  Context {V : Type} (torn : V -> V) (noexc : bool).
  Definition st := nat -> option (option (nat * V)).
  Definition put (s : st) (x : nat) (o : option (option (nat * V))) : st := fun y => if Nat.eqb y x then o else s y.
  Definition declared (s : st) (x : nat) : bool := match s x with Some _ => true | None => false end.
  (** [x] holds a value of type [t] *)
  Definition holds (s : st) (x t : nat) : option V := match s x with Some (Some (t', v)) => if Nat.eqb t' t then Some v else None | _ => None end.

  (** The calls a correct client may make: variables are declared once and used in scope;
      without exceptions, any_cast names the type that is there. *)
  Definition legal (o : op V) (s : st) : bool :=
    match o with
    | ANew x | AValNew x _ _ _ | AInPlace x _ _ => negb (declared s x)
    | ACopyNew x y | AMoveNew x y => negb (declared s x) && declared s y
    | ACopy x y | AMove x y | ASwap x y => declared s x && declared s y
    | ADel x | AVal x _ _ _ | AEmplace x _ _ | AReset x | AHas x | AType x | APeek x _ | APoke x _ _ => declared s x
    | ACast x t => declared s x && (negb noexc || match holds s x t with Some _ => true | None => false end)
    end.

  (** State after a call that returns normally.  A moved-from any is empty; moving an any
      to itself changes nothing. *)
  Definition after (o : op V) (s : st) : st :=
    match o with
    | ANew x => put s x (Some None)
    | AValNew x t _ v | AInPlace x t v | AVal x t _ v | AEmplace x t v => put s x (Some (Some (t, v)))
    | ACopyNew x y | ACopy x y => put s x (s y)
    | AMoveNew x y | AMove x y => put (put s y (Some None)) x (s y)
    | ASwap x y => put (put s x (s y)) y (s x)
    | ADel x => put s x None
    | AReset x => put s x (Some None)
    | APoke x t v => match holds s x t with Some _ => put s x (Some (Some (t, v))) | None => s end
    | AHas _ | AType _ | ACast _ _ | APeek _ _ => s
    end.

  (** What the call gives back; [None]: it throws bad_any_cast. *)
  Definition answer (o : op V) (s : st) : option (obs V) :=
    match o with
    | AHas x => Some (OBool (match s x with Some (Some _) => true | _ => false end))
    | AType x => Some (OType (match s x with Some (Some (t, _)) => Some t | _ => None end))
    | ACast x t => option_map OVal (holds s x t)
    | APeek x t => Some (OPtr (holds s x t))
    | APoke x t _ => Some (OBool (match holds s x t with Some _ => true | None => false end))
    | _ => Some Nothing
    end.

  (** State after a call left by an exception of the element type; [None]: cannot happen.
      Assigning through any_cast's pointer leaves what the element type leaves; everything
      else has no effect. *)
  Definition after_throw (o : op V) (s : st) : option st :=
    match o with
    | ACopyNew _ _ | AInPlace _ _ _ | ACopy _ _ | AEmplace _ _ _ | ACast _ _ => Some s
    | APoke x t _ => match holds s x t with Some v => Some (put s x (Some (Some (t, torn v)))) | None => None end
    | _ => None
    end.

  (** Calls that can end the program because an exception meets a noexcept. *)
  Definition may_terminate (promise : nat -> okind -> bool) (o : op V) : bool :=
    match o with
    | AValNew _ t mv _ | AVal _ t mv _ => negb (promise t (if mv then KMove else KCopy))
    | AEmplace _ t _ => negb (promise t KMove)
    | _ => false
    end.
End AnySpec.
Arguments st V : clear implicits.

(** What the model says variable [x] holds. *)
Definition look {V} (w : world V (option nat)) (l : loc) : option (option (nat * V)) :=
  match disc w l with None => None | Some None => Some None | Some (Some p) => Some (objs w (Tmp p)) end.
Definition abs {V} (w : world V (option nat)) : st V := fun x => look w (Var x).

(** A client program: it makes its calls in order, catches what they throw, and skips the
    calls that would be illegal. *)
Section Program.
  Context {V : Type}.
  Context (promise : nat -> okind -> bool) (torn : V -> V) (thr : nat -> bool) (noexc : bool).
  Fixpoint run (os : list (op V)) (w : world V (option nat)) : out (world V (option nat)) (list (obs V + exn)) :=
    match os with
    | [] => Ret [] w
    | o :: os' =>
        if legal noexc o (abs w) then
          match exec promise torn thr noexc o w with
          | Ret r w' => match run os' w' with Ret rs w'' => Ret (inl r :: rs) w'' | Exn e w'' => Exn e w'' | Term => Term | Bad u => Bad u end
          | Exn e w' => match run os' w' with Ret rs w'' => Ret (inr e :: rs) w'' | Exn e w'' => Exn e w'' | Term => Term | Bad u => Bad u end
          | Term => Term
          | Bad u => Bad u
          end
        else run os' w
    end.

  (** The same program on the specification, for element types that never throw. *)
  Fixpoint spec_run (os : list (op V)) (s : st V) : list (obs V + exn) * st V :=
    match os with
    | [] => ([], s)
    | o :: os' =>
        if legal noexc o s then
          match answer o s with
          | Some r => let (rs, s') := spec_run os' (after o s) in (inl r :: rs, s')
          | None => let (rs, s') := spec_run os' s in (inr BadAccess :: rs, s')
          end
        else spec_run os' s
    end.
End Program.
