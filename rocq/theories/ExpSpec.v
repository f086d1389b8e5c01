(** What nanostl::expected should do, stated on a plain map from variables to what they
    hold: [None] no such variable, [Some (inl v)] a value, [Some (inr e)] an error.  No
    buffers, flags or lifetimes. *)
From Coq Require Import List Bool PeanoNat.
From Verif Require Import LifeModel ExpModel.
Import ListNotations.

Section ExpSpec.
  Context {V : Type} (promise : nat -> okind -> bool) (moved torn : V -> V) (noexc : bool).
  Definition st := nat -> option (V + V).
  Definition put (s : st) (x : nat) (o : option (V + V)) : st := fun y => if Nat.eqb y x then o else s y.
  Definition declared (s : st) (x : nat) : bool := match s x with Some _ => true | None => false end.
  Definition valued (s : st) (x : nat) : bool := match s x with Some (inl _) => true | _ => false end.
  Definition failed (s : st) (x : nat) : bool := match s x with Some (inr _) => true | _ => false end.

  (** The calls a correct client may make: variables are declared once and used in scope,
      only the alternative that is there is accessed (value() may be called on an error
      when exceptions are enabled). *)
  Definition legal (o : op V) (s : st) : bool :=
    match o with
    | ONew x _ | ONewVal x _ _ | ONewErr x _ _ => negb (declared s x)
    | ONewCopy x y | ONewMove x y => negb (declared s x) && declared s y
    | ODel x | OVal x _ _ | OErr x _ _ | OEmplace x _ | OHas x | OValueOr x _ | OValueOrMove x _ => declared s x
    | OCopy x y | OMove x y | OSwap x y => declared s x && declared s y
    | OGet x | OSet x _ => valued s x
    | OError x | OSetErr x _ | OUnexpected x => failed s x
    | OValue x => if noexc then valued s x else declared s x
    end.

  Definition both (f : V -> V) (o : option (V + V)) : option (V + V) :=
    match o with Some (inl v) => Some (inl (f v)) | Some (inr v) => Some (inr (f v)) | None => None end.

  (** State after a call that returns normally. *)
  Definition after (o : op V) (s : st) : st :=
    match o with
    | ONew x v | ONewVal x _ v | OVal x _ v | OEmplace x v | OSet x v => put s x (Some (inl v))
    | ONewErr x _ e | OErr x _ e | OSetErr x e => put s x (Some (inr e))
    | ONewCopy x y | OCopy x y => put s x (s y)
    | ONewMove x y => put (put s x (s y)) y (both moved (s y))
    | OMove x y => put (put s y (both moved (s y))) x (s y)
    | ODel x => put s x None
    | OSwap x y => put (put s x (s y)) y (s x)
    | OHas _ | OGet _ | OError _ | OValue _ | OUnexpected _ | OValueOr _ _ => s
    | OValueOrMove x _ => if valued s x then put s x (both moved (s x)) else s
    end.

  (** What the call gives back; [None]: it throws bad_expected_access. *)
  Definition answer (o : op V) (s : st) : option (obs V) :=
    match o with
    | OHas x => Some (OBool (valued s x))
    | OEmplace _ v => Some (OVal_ v)
    | OGet x | OValue x => match s x with Some (inl v) => Some (OVal_ v) | _ => None end
    | OError x | OUnexpected x => match s x with Some (inr v) => Some (OVal_ v) | _ => None end
    | OValueOr x v | OValueOrMove x v => match s x with Some (inl v') => Some (OVal_ v') | _ => Some (OVal_ v) end
    | _ => Some Nothing
    end.

  (** [x] holds a value (error) of a type whose swap may throw *)
  Definition frail (o : option (V + V)) : bool :=
    match o with Some (inl _) => negb (promise 0 KSwap) | Some (inr _) => negb (promise 1 KSwap) | None => false end.
  Definition alike (a b : option (V + V)) : bool :=
    match a, b with Some (inl _), Some (inl _) | Some (inr _), Some (inr _) => true | _, _ => false end.
  Definition tear (x : nat) (s : st) : st := put s x (both torn (s x)).

  (** The states in which a call can be left by an exception of an element type whose
      moves do not throw: nothing changed, or (only when a swap of two alternatives of the
      same kind was the operation that threw) the target holds what that swap left. *)
  Definition after_throw (o : op V) (s : st) : list st :=
    match o with
    | ONew _ _ | ONewVal _ _ _ | ONewErr _ _ _ | ONewCopy _ _ | OUnexpected _ | OValue _ | OValueOr _ _ | OValueOrMove _ _ => [s]
    | OCopy x y => if alike (s x) (s y) && frail (s x) then [s; tear x s] else [s]
    | OMove x y => if alike (s x) (s y) && frail (s x) then [tear x (put s y (both moved (s y)))] else []
    | OVal x _ v | OEmplace x v => if alike (s x) (Some (inl v)) && frail (s x) then [s; tear x s] else [s]
    | OErr x _ v => if alike (s x) (Some (inr v)) && frail (s x) then [s; tear x s] else [s]
    | OSet x _ | OSetErr x _ => [tear x s]
    | OSwap x y => if alike (s x) (s y) && frail (s x) then [put (tear x s) y (both torn (s y))] else []
    | ONewMove _ _ | ODel _ | OHas _ | OGet _ | OError _ => []
    end.

  (** Calls that can end the program because an exception meets a noexcept: construction
      from a non-const lvalue of a type with a throwing copy constructor, and move
      assignment when swap may throw although move assignment does not. *)
  Definition may_terminate (o : op V) : bool :=
    let mv := promise 0 KMoveAsg && promise 1 KMoveAsg && negb (promise 0 KSwap && promise 1 KSwap) in
    match o with
    | ONewVal _ FromLvalue _ => negb (promise 0 KCopy)
    | OVal _ FromLvalue _ => negb (promise 0 KCopy) || mv
    | OVal _ _ _ | OMove _ _ => mv
    | _ => false
    end.
  (** For expected<void,E>: move assignment when swap may throw although moves and move assignment do not. *)
  Definition vmay_terminate (o : vop V) : bool :=
    match o with VMove _ _ => promise 1 KMove && promise 1 KMoveAsg && negb (promise 1 KSwap) | _ => false end.
End ExpSpec.
Arguments st V : clear implicits.

(** What the model says variable [x] holds (meaningful when the flag and the union agree). *)
Definition abs {V} (w : world V bool) : st V :=
  fun x => match disc w (Var x), objs w (Var x) with
           | Some true, Some (_, v) => Some (inl v)
           | Some false, Some (_, v) => Some (inr v)
           | _, _ => None
           end.

(** One call as the client sees it: its result, or the exception. *)
Definition seen (V : Type) : Type := (obs V + exn)%type.

(** A client program: it makes its calls in order, catches what they throw, and skips the
    calls that would be illegal. *)
Section Program.
  Context {V : Type}.
  Context (promise : nat -> okind -> bool) (moved torn : V -> V) (thr : nat -> bool) (noexc : bool).
  Fixpoint run (os : list (op V)) (w : world V bool) : out (world V bool) (list (seen V)) :=
    match os with
    | [] => Ret [] w
    | o :: os' =>
        if legal noexc o (abs w) then
          match exec promise moved torn thr noexc o w with
          | Ret r w' => match run os' w' with Ret rs w'' => Ret (inl r :: rs) w'' | Exn e w'' => Exn e w'' | Term => Term | Bad u => Bad u end
          | Exn e w' => match run os' w' with Ret rs w'' => Ret (inr e :: rs) w'' | Exn e w'' => Exn e w'' | Term => Term | Bad u => Bad u end
          | Term => Term
          | Bad u => Bad u
          end
        else run os' w
    end.

  (** The same program on the specification, for element types that never throw. *)
  Fixpoint spec_run (os : list (op V)) (s : st V) : list (seen V) * st V :=
    match os with
    | [] => ([], s)
    | o :: os' =>
        if legal noexc o s then
          match answer o s with
          | Some r => let (rs, s') := spec_run os' (after moved o s) in (inl r :: rs, s')
          | None => let (rs, s') := spec_run os' s in (inr BadAccess :: rs, s')
          end
        else spec_run os' s
    end.
End Program.

(** * expected<void,E>: [Some None] success, [Some (Some e)] an error *)
Section VoidSpec.
  Context {V : Type} (promise : nat -> okind -> bool) (moved torn : V -> V) (noexc : bool).
  Definition vst := nat -> option (option V).
  Definition vput (s : vst) (x : nat) (o : option (option V)) : vst := fun y => if Nat.eqb y x then o else s y.
  Definition vdeclared (s : vst) (x : nat) : bool := match s x with Some _ => true | None => false end.
  Definition vfailed (s : vst) (x : nat) : bool := match s x with Some (Some _) => true | _ => false end.
  Definition vgood (s : vst) (x : nat) : bool := match s x with Some None => true | _ => false end.

  (** As [legal]; moreover assignment and swap are only used between two successes or two
      errors. *)
  Definition vlegal (o : vop V) (s : vst) : bool :=
    match o with
    | VNew x | VNewErr x _ _ => negb (vdeclared s x)
    | VNewCopy x y | VNewMove x y => negb (vdeclared s x) && vdeclared s y
    | VDel x | VHas x => vdeclared s x
    | VEmplace x => vgood s x
    | VCopy x y | VMove x y | VSwap x y => (vgood s x && vgood s y) || (vfailed s x && vfailed s y)
    | VError x => vfailed s x
    | VValue x => if noexc then vgood s x else vdeclared s x
    end.
  Definition vafter (o : vop V) (s : vst) : vst :=
    match o with
    | VNew x | VEmplace x => vput s x (Some None)
    | VNewErr x _ e => vput s x (Some (Some e))
    | VNewCopy x y | VCopy x y => vput s x (s y)
    | VNewMove x y | VMove x y => vput (vput s y (option_map (option_map moved) (s y))) x (s y)
    | VDel x => vput s x None
    | VSwap x y => vput (vput s x (s y)) y (s x)
    | VHas _ | VError _ | VValue _ => s
    end.
  Definition vanswer (o : vop V) (s : vst) : option (obs V) :=
    match o with
    | VHas x => Some (OBool (vgood s x))
    | VError x => match s x with Some (Some e) => Some (OVal_ e) | _ => None end
    | VValue x => if vgood s x then Some Nothing else None
    | _ => Some Nothing
    end.
End VoidSpec.
Arguments vst V : clear implicits.

Definition vabs {V} (w : world V bool) : vst V :=
  fun x => match disc w (Var x) with
           | None => None
           | Some true => Some None
           | Some false => Some (option_map snd (objs w (Var x)))
           end.

Section VoidProgram.
  Context {V : Type}.
  Context (promise : nat -> okind -> bool) (moved torn : V -> V) (thr : nat -> bool) (noexc : bool).
  (** Programs that make the calls allowed by [ok]. *)
  Fixpoint vrun (ok : vop V -> vst V -> bool) (os : list (vop V)) (w : world V bool) : out (world V bool) (list (seen V)) :=
    match os with
    | [] => Ret [] w
    | o :: os' =>
        if ok o (vabs w) then
          match vexec promise moved torn thr noexc o w with
          | Ret r w' => match vrun ok os' w' with Ret rs w'' => Ret (inl r :: rs) w'' | Exn e w'' => Exn e w'' | Term => Term | Bad u => Bad u end
          | Exn e w' => match vrun ok os' w' with Ret rs w'' => Ret (inr e :: rs) w'' | Exn e w'' => Exn e w'' | Term => Term | Bad u => Bad u end
          | Term => Term
          | Bad u => Bad u
          end
        else vrun ok os' w
    end.
End VoidProgram.
