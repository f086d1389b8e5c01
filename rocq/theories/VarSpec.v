(** What nanostl::variant should do, stated on a plain map from variables to what they
    hold: [None] no such variable, [Some None] valueless, [Some (Some (t, v))] alternative
    number [t] with value [v].  No buffers, indices or lifetimes. *)
From Coq Require Import List Bool PeanoNat.
From Verif Require Import LifeModel VarModel.
Import ListNotations.

Section VarSpec.
  Context {V : Type} (promise : nat -> okind -> bool) (moved torn : V -> V) (noexc : bool) (n : nat).
  Definition cell := option (option (nat * V)).
  Definition st := nat -> cell.
  Definition put (s : st) (x : nat) (o : cell) : st := fun y => if Nat.eqb y x then o else s y.
  Definition declared (s : st) (x : nat) : bool := match s x with Some _ => true | None => false end.
  Definition has (s : st) (x t : nat) : bool := match s x with Some (Some (u, _)) => Nat.eqb u t | _ => false end.
  Definition full (s : st) (x : nat) : bool := match s x with Some (Some _) => true | _ => false end.

  (** The calls a correct client may make: variables are declared once and used in scope,
      alternatives exist, and get names the alternative that is there (other alternatives
      may be tried when exceptions are enabled). *)
  Definition legal (o : op V) (s : st) : bool :=
    match o with
    | ONew x _ => negb (declared s x) && Nat.ltb 0 n
    | ONewVal x t _ _ | ONewIn x t _ => negb (declared s x) && Nat.ltb t n
    | ONewCopy x y | ONewMove x y => negb (declared s x) && declared s y
    | ODel x | OIndex x | OValueless x => declared s x
    | OCopy x y | OMove x y | OSwap x y => declared s x && declared s y
    | OVal x t _ _ | OEmplace x t _ | OHolds x t | OGetIf x t => declared s x && Nat.ltb t n
    | OGet x t | OSet x t _ => if noexc then has s x t else declared s x && Nat.ltb t n
    | OVisit xs => forallb (declared s) xs && Nat.ltb 0 (length xs) && Nat.leb (length xs) 5
    end.

  Definition on (f : V -> V) (c : cell) : cell :=
    match c with Some (Some (t, v)) => Some (Some (t, f v)) | c => c end.

  (** State after a call that returns normally. *)
  Definition after (o : op V) (s : st) : st :=
    match o with
    | ONew x v => put s x (Some (Some (0, v)))
    | ONewVal x t _ v | ONewIn x t v | OVal x t _ v | OEmplace x t v | OSet x t v => put s x (Some (Some (t, v)))
    | ONewCopy x y | OCopy x y => put s x (s y)
    | ONewMove x y | OMove x y => put (put s x (s y)) y (on moved (s y))
    | ODel x => put s x None
    | OSwap x y => put (put s x (s y)) y (s x)
    | OIndex _ | OValueless _ | OHolds _ _ | OGet _ _ | OGetIf _ _ | OVisit _ => s
    end.

  (** What the call gives back; [None]: it throws bad_variant_access. *)
  Definition answer (o : op V) (s : st) : option (obs V) :=
    match o with
    | OEmplace _ _ v => Some (OVal_ v)
    | OIndex x => Some (OIdx match s x with Some (Some (t, _)) => Some t | _ => None end)
    | OValueless x => Some (OBool (negb (full s x)))
    | OHolds x t => Some (OBool (has s x t))
    | OGet x t => match s x with Some (Some (u, v)) => if Nat.eqb u t then Some (OVal_ v) else None | _ => None end
    | OGetIf x t => Some (OPtr match s x with Some (Some (u, v)) => if Nat.eqb u t then Some v else None | _ => None end)
    | OSet x t _ => if has s x t then Some Nothing else None
    | OVisit xs => Some (OArgs (flat_map (fun x => match s x with Some (Some c) => [c] | _ => [] end) xs))
    | _ => Some Nothing
    end.

  Definition alike (a b : cell) : bool :=
    match a, b with Some (Some (t, _)), Some (Some (u, _)) => Nat.eqb t u | _, _ => false end.
  Definition tear (x : nat) (s : st) : st := put s x (on torn (s x)).

  (** The states in which a call can be left by an exception of an alternative's operation.
      An assignment of the alternative that is there leaves what the element's assignment
      leaves; an assignment of another alternative and emplace leave the variant valueless. *)
  Definition after_throw (o : op V) (s : st) : list st :=
    match o with
    | ONew _ _ | ONewVal _ _ _ _ | ONewIn _ _ _ | ONewCopy _ _ | ONewMove _ _ | OVisit _ => [s]
    | OCopy x y | OMove x y => if alike (s x) (s y) then [tear x s] else [put s x (Some None)]
    | OVal x t _ v => if alike (s x) (Some (Some (t, v))) then [tear x s] else [put s x (Some None)]
    | OEmplace x _ _ => [put s x (Some None)]
    | OSet x _ _ => [tear x s]
    | OSwap x y => if alike (s x) (s y) then [put (tear x s) y (on torn (s y))]
                   else [s; put s x (Some None); put (put s x (s y)) y (Some None)]
    | ODel _ | OIndex _ | OValueless _ | OHolds _ _ | OGet _ _ | OGetIf _ _ => []
    end.

  (** Calls that can end the program: move assignment (also within swap) promises not to
      throw when all move assignments do, although it also uses the move constructors; visit
      terminates on a valueless variant. *)
  Definition may_terminate (o : op V) (s : st) : bool :=
    match o with
    | OMove _ _ | OSwap _ _ => all promise n KMoveAsg && negb (all promise n KMove)
    | OVisit xs => negb (forallb (full s) xs)
    | _ => false
    end.
End VarSpec.
Arguments st V : clear implicits.
Arguments cell V : clear implicits.

(** What the model says variable [x] holds (meaningful when the index and the buffer agree). *)
Definition abs {V} (w : world V (option nat)) : st V :=
  fun x => match disc w (Var x) with
           | None => None
           | Some None => Some None
           | Some (Some t) => Some (option_map (fun o => (t, snd o)) (objs w (Var x)))
           end.

(** One call as the client sees it: its result, or the exception. *)
Definition seen (V : Type) : Type := (obs V + exn)%type.

(** A client program: it makes its calls in order, catches what they throw, and skips the
    calls that would be illegal. *)
Section Program.
  Context {V : Type}.
  Context (promise : nat -> okind -> bool) (moved torn : V -> V) (thr : nat -> bool) (noexc : bool) (n : nat).
  Fixpoint run (os : list (op V)) (w : world V (option nat)) : out (world V (option nat)) (list (seen V)) :=
    match os with
    | [] => Ret [] w
    | o :: os' =>
        if legal noexc n o (abs w) then
          match exec promise moved torn thr noexc n o w with
          | Ret r w' => match run os' w' with Ret rs w'' => Ret (inl r :: rs) w'' | Exn e w'' => Exn e w'' | Term => Term | Bad u => Bad u end
          | Exn e w' => match run os' w' with Ret rs w'' => Ret (inr e :: rs) w'' | Exn e w'' => Exn e w'' | Term => Term | Bad u => Bad u end
          | Term => Term
          | Bad u => Bad u
          end
        else run os' w
    end.

  (** The same program on the specification, for alternatives that never throw. *)
  Fixpoint spec_run (os : list (op V)) (s : st V) : list (seen V) * st V :=
    match os with
    | [] => ([], s)
    | o :: os' =>
        if legal noexc n o s then
          match answer o s with
          | Some r => let (rs, s') := spec_run os' (after moved o s) in (inl r :: rs, s')
          | None => let (rs, s') := spec_run os' s in (inr BadAccess :: rs, s')
          end
        else spec_run os' s
    end.
End Program.
