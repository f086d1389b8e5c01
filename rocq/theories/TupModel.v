(** Model of tao::tuple (include/tao/tuple/tuple.hpp), which include/nanotuple.h exports as nanostl::tuple:
    element access, relational operators, tuple_cat, assignment and swap.

    The elements of a tuple are a list (of values, or of locations where assignment matters).  The tuple
    derives from tuple_value<Is, Ts>..., Is = index_sequence_for<Ts...>; get<I> converts to the base class
    with index I.  [None] is a program that does not compile.

    The constructors are in TcModel.  Not modelled: noexcept, empty base classes.  tie with ignore does not
    compile (ignore is const, its operator= is not). *)
From Coq Require Import ZArith List Bool.
From Verif Require Import SeqModel.
Import ListNotations.
Open Scope Z_scope.
Local Notation len l := (Z.of_nat (length l)).

(** tuple.hpp:677-701 get<I> *)
Definition get {A} (I : Z) (t : list A) : option A := at_index I t.

Section GetT.
  Context (fold : bool) {T A : Type} (same : forall x y : T, {x = y} + {x <> y}).
  (** tuple.hpp:706-707 count_of *)
  Definition count_of (x : T) (Ts : list T) : option Z := sum fold size_t (map (fun y => if same x y then 1 else 0) Ts).
  (** tuple.hpp:709-721 index_of with its static_asserts *)
  Definition index_of (x : T) (Ts : list T) : option Z :=
    Is <- index_sequence_for Ts ;
    c <- count_of x Ts ;
    if (0 <? c) && (c <? 2) then ns <- expand2 (fun i y => Some (if same x y then i else 0)) Is Ts ; sum fold size_t ns else None.
  (** tuple.hpp:726-748 get<T>; an element is its type and its value *)
  Definition get_type (x : T) (t : list (T * A)) : option (T * A) := i <- index_of x (map fst t) ; get i t.
End GetT.

Section Relational.
  (** the operators == and < of the elements *)
  Context (fold : bool) {A : Type} (eq lt : A -> A -> bool).
  (** get<I>( lhs ) op get<I>( rhs ) *)
  Definition at2 (op : A -> A -> bool) (I : Z) (lhs rhs : list A) : option bool :=
    a <- get I lhs ; b <- get I rhs ; Some (op a b).
  (** tuple.hpp:757-768 tuple_equal with fold expressions *)
  Definition equal_fold (lhs rhs : list A) : option bool :=
    Is <- make_index_sequence (len lhs) ;
    fold_right (fun I r => b <- at2 eq I lhs rhs ; if b then r else Some false) (Some true) Is.
  (** tuple.hpp:773-794 tuple_equal<I, S> *)
  Fixpoint tuple_equal (fuel : nat) (I S : Z) (lhs rhs : list A) : option bool :=
    if I =? S then Some true
    else match fuel with
    | O => None
    | Datatypes.S fuel => b <- at2 eq I lhs rhs ; if b then tuple_equal fuel (I + 1) S lhs rhs else Some false
    end.
  (** tuple.hpp:799-820 tuple_less<I, S> *)
  Fixpoint tuple_less (fuel : nat) (I S : Z) (lhs rhs : list A) : option bool :=
    if I =? S then Some false
    else match fuel with
    | O => None
    | Datatypes.S fuel =>
        b <- at2 lt I lhs rhs ;
        if b then Some true
        else c <- at2 lt I rhs lhs ; if negb c then tuple_less fuel (I + 1) S lhs rhs else Some false
    end.
  (* no code counterpart: the condition sizeof...( Ts ) == sizeof...( Us ) *)
  Definition same_size (lhs rhs : list A) (r : option bool) : option bool := if len lhs =? len rhs then r else None.
  (** tuple.hpp:826-842 operator== *)
  Definition t_eq (lhs rhs : list A) : option bool :=
    same_size lhs rhs (if fold then equal_fold lhs rhs else tuple_equal (length lhs) 0 (len lhs) lhs rhs).
  (** tuple.hpp:844-848 operator!= *)
  Definition t_ne (lhs rhs : list A) : option bool := option_map negb (t_eq lhs rhs).
  (** tuple.hpp:850-854 operator< *)
  Definition t_lt (lhs rhs : list A) : option bool := same_size lhs rhs (tuple_less (length lhs) 0 (len lhs) lhs rhs).
  (** tuple.hpp:856-860 operator>=, 862-866 operator>, 868-872 operator<= *)
  Definition t_ge (lhs rhs : list A) : option bool := option_map negb (t_lt lhs rhs).
  Definition t_gt (lhs rhs : list A) : option bool := t_lt rhs lhs.
  Definition t_le (lhs rhs : list A) : option bool := option_map negb (t_lt rhs lhs).
End Relational.

Section Cat.
  Context (fold : bool).
  (** tuple.hpp:888-891 count_less_or_equal, 893-903 expand *)
  Definition outer_indices (Is Ns : list Z) : option (list Z) :=
    expand (fun I => sum fold size_t (map (fun n => if n <=? I then 1 else 0) Ns)) Is.
  (** tuple.hpp:920-927 tuple_cat_helper: outer_index_sequence and inner_index_sequence *)
  Definition cat_indices (sizes : list Z) : option (list Z * list Z) :=
    n <- sum fold size_t sizes ;
    result <- make_index_sequence n ;
    incl <- inclusive_scan fold size_t sizes ;
    outer <- outer_indices result incl ;
    excl <- exclusive_scan fold size_t sizes ;
    starts <- map_seq outer excl ;
    inner <- minus size_t result starts ;
    Some (outer, inner).
  (** tuple.hpp:932-936 and 941-945 tuple_cat: get<Is>( get<Os>( v ) )...; the elements are copied (get on the
      parameter v gives lvalues) *)
  Definition tuple_cat {A} (ts : list (list A)) : option (list A) :=
    oi <- cat_indices (map (fun t => len t) ts) ;
    expand2 (fun O I => t <- get O ts ; get I t) (fst oi) (snd oi).
End Cat.

(** Assignment and swap: elements are locations (the tuple's own members, or what its references are bound
    to), a store maps locations to values. *)
Section Assign.
  Context {V : Type} (moved : V -> V).
  Notation store := (nat -> V).
  Definition put (s : store) (l : nat) (v : V) : store := fun x => if Nat.eqb x l then v else s x.
  (** tuple.hpp:200-205 tuple_value::operator=: from an lvalue, or from an rvalue *)
  Definition assign_copy (s : store) (l src : nat) : store := put s l (s src).
  Definition assign_move (s : store) (l src : nat) : store := let v := s src in put (put s src (moved v)) l v.
  (** tuple.hpp:207-212 tuple_value::swap *)
  Definition swap_value (s : store) (l m : nat) : store := put (put s l (s m)) m (s l).
  (** tuple.hpp:351, 353, 362, 364, 373, 375: ( f< Is >, ... ) or swallow{ ( f< Is >, true )... }: index by index, from the first *)
  Fixpoint each (f : store -> nat -> nat -> store) (Is : list Z) (l m : list nat) (s : store) : option store :=
    match Is with
    | [] => Some s
    | i :: r => a <- get i l ; b <- get i m ; each f r l m (f s a b)
    end.
  (* no code counterpart: over all indices, both tuples of the same size *)
  Definition all_indices (f : store -> nat -> nat -> store) (l m : list nat) (s : store) : option store :=
    if len l =? len m then Is <- index_sequence_for l ; each f Is l m s else None.
  (** tuple.hpp:347-356 copy assignment, 358-367 move assignment (from a tuple< Us... > whose elements
      are values), 369-377 swap *)
  Definition copy_assign := all_indices assign_copy.
  Definition move_assign := all_indices assign_move.
  Definition swap := all_indices swap_value.
End Assign.
