(** Specification of strings: byte lists without NUL. *)
From Coq Require Import ZArith List Bool.
From Verif Require Import StrModel.
Import ListNotations.
Open Scope Z_scope.

Definition text := list Z.
Definition tstate := nat -> option text.
Definition tlen (l : text) : Z := Z.of_nat (length l).
Definition max_text : Z := 2 ^ 61.
Definition tset (s : tstate) (x : nat) (l : option text) : tstate :=
  fun y => if Nat.eqb y x then l else s y.
Definition tspec0 : tstate := fun _ => None.

Definition is_byte (c : Z) : bool := (0 <? c) && (c <? 256).

(** The text a NUL-terminated memory denotes: everything before the first NUL. *)
Fixpoint cstring (m : list Z) : option text :=
  match m with
  | [] => None
  | c :: t => if c =? 0 then Some []
              else if is_byte c then option_map (cons c) (cstring t) else None
  end.

(** Lexicographic comparison of texts. *)
Fixpoint lex (a b : text) : comparison :=
  match a, b with
  | [], [] => Eq
  | [], _ :: _ => Lt
  | _ :: _, [] => Gt
  | x :: a', y :: b' => match x ?= y with Eq => lex a' b' | c => c end
  end.

(** Expected outputs; [XCmp] expects any integer of the given sign. *)
Inductive xout := XNone | XZ (z : Z) | XBool (b : bool) | XText (l : text) | XCmp (c : comparison).
Definition xout_ok (e : xout) (o : sout) : Prop :=
  match e, o with
  | XNone, TNone => True
  | XZ a, TZ b => a = b
  | XBool a, TBool b => a = b
  | XText a, TText b => a = b
  | XCmp c, TCmp z => (z ?= 0) = c
  | _, _ => False
  end.

Definition tget (s : tstate) (x : nat) (k : text -> option (xout * tstate)) :=
  match s x with Some l => k l | None => None end.
Definition tnew (s : tstate) (x : nat) (l : text) : option (xout * tstate) :=
  match s x with
  | Some _ => None
  | None => if tlen l <? max_text then Some (XNone, tset s x (Some l)) else None
  end.
Definition tupd (s : tstate) (x : nat) (l : text) : option (xout * tstate) :=
  if tlen l <? max_text then Some (XNone, tset s x (Some l)) else None.

Definition tspec_step (s : tstate) (o : sop) : option (xout * tstate) :=
  match o with
  | SNew x => tnew s x []
  | SLit x None => tnew s x []
  | SLit x (Some m) => match cstring m with Some l => tnew s x l | None => None end
  | SFromCstr x y => tget s y (fun l => tnew s x l)
  | SCopy x y => tget s y (fun l => tnew s x l)
  | SPlus x y z => tget s y (fun a => tget s z (fun b => tnew s x (a ++ b)))
  | SDelete x => tget s x (fun _ => Some (XNone, tset s x None))
  | SAssign x y => tget s x (fun _ => tget s y (fun l => tupd s x l))
  | SClear x => tget s x (fun _ => tupd s x [])
  | SAppend x y => tget s x (fun a => tget s y (fun b =>
      if Nat.eqb x y then None else tupd s x (a ++ b)))
  | SErase x i => tget s x (fun l =>
      if (0 <=? i) && (i <? tlen l)
      then tupd s x (firstn (Z.to_nat i) l ++ skipn (S (Z.to_nat i)) l) else None)
  | SSet x i c => tget s x (fun l =>
      if (0 <=? i) && (i <? tlen l) && is_byte c
      then tupd s x (firstn (Z.to_nat i) l ++ c :: skipn (S (Z.to_nat i)) l) else None)
  | SSize x => tget s x (fun l => Some (XZ (tlen l), s))
  | SEmpty x => None                  (* not specified here: see C11 *)
  | SAt x i => tget s x (fun l =>
      if (0 <=? i) && (i <=? tlen l) then Some (XZ (nth (Z.to_nat i) (l ++ [0]) 0), s) else None)
  | SText x => tget s x (fun l => Some (XText l, s))
  | SCmp x y => tget s x (fun a => tget s y (fun b => Some (XCmp (lex a b), s)))
  | SCmpLit x None => None
  | SCmpLit x (Some m) => tget s x (fun a =>
      match cstring m with Some b => Some (XCmp (lex a b), s) | None => None end)
  | SEq x y => tget s x (fun a => tget s y (fun b =>
      Some (XBool (match lex a b with Eq => true | _ => false end), s)))
  | SNe x y => tget s x (fun a => tget s y (fun b =>
      Some (XBool (match lex a b with Eq => false | _ => true end), s)))
  | SLt x y => tget s x (fun a => tget s y (fun b =>
      Some (XBool (match lex a b with Lt => true | _ => false end), s)))
  | SGt x y => tget s x (fun a => tget s y (fun b =>
      Some (XBool (match lex a b with Gt => true | _ => false end), s)))
  end.

Fixpoint tspec_run (s : tstate) (ops : list sop) : option (list xout * tstate) :=
  match ops with
  | [] => Some ([], s)
  | o :: t =>
    match tspec_step s o with
    | None => None
    | Some (r, s') =>
      match tspec_run s' t with None => None | Some (rs, s'') => Some (r :: rs, s'') end
    end
  end.
