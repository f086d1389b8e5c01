(** Independent specification of a sequence container: plain lists.

    A list element is [option V]; [None] is "unspecified" (an element created by
    resize whose value the caller has not written yet). *)
From Coq Require Import ZArith List Bool.
From Verif Require Import VecModel.
Import ListNotations.
Open Scope Z_scope.

Section Spec.
  Context {V : Type}.
  Definition seq := list (option V).
  Definition sstate := nat -> option seq.

  Definition len (l : seq) : Z := Z.of_nat (length l).
  (** Lists longer than this do not fit a 64-bit address space; histories that
      would exceed it are outside the specification (the code then throws). *)
  Definition max_len : Z := 2 ^ 62.
  Definition sset (s : sstate) (x : nat) (l : option seq) : sstate :=
    fun y => if Nat.eqb y x then l else s y.
  Definition spec0 : sstate := fun _ => None.

  Definition slice (l : seq) (i j : Z) : seq :=
    firstn (Z.to_nat (j - i)) (skipn (Z.to_nat i) l).

  Definition sget (s : sstate) (x : nat) (k : seq -> option (out V * sstate))
    : option (out V * sstate) :=
    match s x with Some l => k l | None => None end.

  Definition guard (b : bool) (k : option (out V * sstate)) : option (out V * sstate) :=
    if b then k else None.

  (** [spec_step s o = None] when the precondition of [o] is not met.
      [OCell None] as an output means "any value". *)
  Definition spec_step (s : sstate) (o : op V) : option (out V * sstate) :=
    match o with
    | New x => match s x with Some _ => None | None => Some (ONone, sset s x (Some [])) end
    | NewCopy x y =>
      match s x with Some _ => None
      | None => sget s y (fun l => Some (ONone, sset s x (Some l))) end
    | Delete x => sget s x (fun _ => Some (ONone, sset s x None))
    | PushBack x c => sget s x (fun l =>
        guard (len l + 1 <? max_len) (Some (ONone, sset s x (Some (l ++ [Some c])))))
    | PopBack x => sget s x (fun l =>
        guard (0 <? len l) (Some (ONone, sset s x (Some (removelast l)))))
    | Erase x i => sget s x (fun l =>
        guard ((0 <=? i) && (i <? len l))
          (Some (ONone,
                 sset s x (Some (firstn (Z.to_nat i) l ++ skipn (S (Z.to_nat i)) l)))))
    | Clear x => sget s x (fun _ => Some (ONone, sset s x (Some [])))
    | Resize x n => sget s x (fun l =>
        guard ((1 <=? n) && (n <? max_len))
          (Some (ONone, sset s x (Some (firstn (Z.to_nat n) l ++
                                        repeat None (Z.to_nat n - length l))))))
    | Set_ x i c => sget s x (fun l =>
        guard ((0 <=? i) && (i <? len l))
          (Some (ONone, sset s x (Some (firstn (Z.to_nat i) l ++ Some c ::
                                        skipn (S (Z.to_nat i)) l)))))
    | Assign x y => sget s x (fun _ => sget s y (fun l => Some (ONone, sset s x (Some l))))
    | AssignRange x y i j => sget s x (fun _ => sget s y (fun l =>
        guard (negb (Nat.eqb x y) && (0 <=? i) && (i <=? j) && (j <=? len l))
          (Some (ONone, sset s x (Some (slice l i j))))))
    | PushBackOf x y i => sget s x (fun lx => sget s y (fun l =>
        guard (negb (Nat.eqb x y) && (0 <=? i) && (i <? len l) && (len lx + 1 <? max_len))
          (Some (ONone, sset s x (Some (lx ++ [nth (Z.to_nat i) l None]))))))
    | Swap x y => sget s x (fun lx => sget s y (fun ly =>
        Some (ONone, sset (sset s x (Some ly)) y (Some lx))))
    | Get x i => sget s x (fun l =>
        guard ((0 <=? i) && (i <? len l)) (Some (OCell (nth (Z.to_nat i) l None), s)))
    | Size x => sget s x (fun l => Some (OZ (len l), s))
    | Empty x => sget s x (fun l => Some (OBool (len l =? 0), s))
    end.

  Fixpoint spec_run (s : sstate) (ops : list (op V)) : option (list (out V) * sstate) :=
    match ops with
    | [] => Some ([], s)
    | o :: t =>
      match spec_step s o with
      | None => None
      | Some (r, s') =>
        match spec_run s' t with
        | None => None
        | Some (rs, s'') => Some (r :: rs, s'')
        end
      end
    end.

  (** A concrete cell is acceptable for a specified one. *)
  Definition cell_ok (spec conc : option V) : Prop :=
    match spec with None => True | Some v => conc = Some v end.

  Definition out_ok (spec conc : out V) : Prop :=
    match spec, conc with
    | ONone, ONone => True
    | OCell a, OCell b => cell_ok a b
    | OZ a, OZ b => a = b
    | OBool a, OBool b => a = b
    | _, _ => False
    end.
End Spec.
Arguments sstate V : clear implicits.
Arguments seq V : clear implicits.
