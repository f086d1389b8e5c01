(** Independent specification of a dictionary with ordered keys: association
    lists in insertion order. *)
From Coq Require Import ZArith List Bool Sorting.Sorted.
From Verif Require Import Mem MapModel.
Import ListNotations.
Open Scope Z_scope.

(** The key comparisons are those of a strict total order. *)
Record key_order {K} (eqb gtb ltb : K -> K -> bool) : Prop := {
  ko_eq : forall a b, eqb a b = true <-> a = b;
  ko_gt : forall a b, gtb a b = ltb b a;
  ko_irrefl : forall a, ltb a a = false;
  ko_trans : forall a b c, ltb a b = true -> ltb b c = true -> ltb a c = true;
  ko_total : forall a b, ltb a b = true \/ a = b \/ ltb b a = true }.

Section Spec.
  Context {K T : Type}.
  Variables (eqb ltb : K -> K -> bool) (dflt : T).
  Notation dict := (list (K * T)).

  Fixpoint dlookup (d : dict) (k : K) : option T :=
    match d with
    | [] => None
    | (k', v) :: t => if eqb k k' then Some v else dlookup t k
    end.
  (** insert never overwrites *)
  Definition dinsert (d : dict) (k : K) (v : T) : dict :=
    match dlookup d k with Some _ => d | None => d ++ [(k, v)] end.
  (** assignment overwrites *)
  Definition dassign (d : dict) (k : K) (v : T) : dict :=
    match dlookup d k with
    | Some _ => map (fun kv => if eqb k (fst kv) then (fst kv, v) else kv) d
    | None => d ++ [(k, v)]
    end.
  (** the entry with the least key among [d] *)
  Fixpoint dmin (d : dict) : option (K * T) :=
    match d with
    | [] => None
    | kv :: t => match dmin t with
                 | None => Some kv
                 | Some m => Some (if ltb (fst m) (fst kv) then m else kv)
                 end
    end.
  Definition dupper (d : dict) (k : K) : option (K * T) :=
    dmin (filter (fun kv => ltb k (fst kv)) d).

  Notation st := (list (option dict)).

  (** [None]: the object named by the operation is not alive. *)
  Definition mspec_step (s : st) (o : mop K T) : option (mobs K T * st) :=
    let on m f := match nth_error s m with Some (Some d) => f d | _ => None end in
    match o with
    | MNew => Some (ONone, s ++ [Some []])
    | MInsert m k v => on m (fun d =>
        match dlookup d k with
        | Some v' => Some (OIns (k, v') false, s)
        | None => Some (OIns (k, v) true, set_nth s m (Some (d ++ [(k, v)])))
        end)
    | MAssign m k v => on m (fun d => Some (ONone, set_nth s m (Some (dassign d k v))))
    | MAt m k => on m (fun d =>
        Some (OVal (match dlookup d k with Some v => v | None => dflt end),
              set_nth s m (Some (dinsert d k dflt))))
    | MFind m k => on m (fun d =>
        Some (OIt (match dlookup d k with Some v => Some (k, v) | None => None end), s))
    | MUpper m k => on m (fun d => Some (OIt (dupper d k), s))
    | MEmpty m => on m (fun d => Some (OBool (match d with [] => true | _ => false end), s))
    | MDestroy m => on m (fun d => Some (ONone, set_nth s m None))
    end.

  Fixpoint mspec_run (s : st) (ops : list (mop K T)) : option (list (mobs K T) * st) :=
    match ops with
    | [] => Some ([], s)
    | o :: t =>
      match mspec_step s o with
      | None => None
      | Some (x, s1) =>
        match mspec_run s1 t with None => None | Some (xs, s2) => Some (x :: xs, s2) end
      end
    end.

  (** Shape of the linked structure: a binary tree whose nodes carry identity,
      key, value and priority. *)
  Inductive tree : Type :=
  | E
  | N (i : nat) (k : K) (v : T) (p : Z) (l r : tree).

  (** [rep h q t]: following pointers from [q] in [h] unfolds to [t]. *)
  Fixpoint rep (h : nheap K T) (q : ptr) (t : tree) : Prop :=
    match t with
    | E => q = None
    | N i k v p l r =>
      q = Some i /\
      exists ql qr, nodes h i = Some (Node k v p ql qr) /\ rep h ql l /\ rep h qr r
    end.

  (** in-order listing (identity, key, value) *)
  Fixpoint nl (t : tree) : list (nat * (K * T)) :=
    match t with E => [] | N i k v _ l r => nl l ++ (i, (k, v)) :: nl r end.
  Definition ids (t : tree) : list nat := map fst (nl t).
  Definition entries (t : tree) : dict := map snd (nl t).
  Definition key_lt (a b : K * T) : Prop := ltb (fst a) (fst b) = true.
  (** search order *)
  Definition search_order (t : tree) : Prop := StronglySorted key_lt (entries t).
  (** heap order: no child has a smaller priority than its parent *)
  Definition hroot (B : Z) (t : tree) : Prop :=
    match t with E => True | N _ _ _ p _ _ => B <= p end.
  Fixpoint heap_order (t : tree) : Prop :=
    match t with
    | E => True
    | N _ _ _ p l r => hroot p l /\ hroot p r /\ heap_order l /\ heap_order r
    end.
End Spec.
Arguments tree K T : clear implicits.
