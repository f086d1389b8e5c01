(** Object lifetimes in raw storage: the part of the C++ abstract machine used by
    nonstd::optional, nonstd::expected and nonstd::variant
    (include/nonstd/optional.hpp, expected.hpp, variant.hpp), which construct and
    destroy objects by hand in a buffer and remember in a discriminator what the
    buffer holds.

    A storage location holds nothing or one object, which has a type (a number) and a
    value.  Constructing over a live object, and destroying, reading or assigning an
    object that is not there or has another type, is reported as an error.  Operations
    of the element types may throw: the n-th such operation of the program throws when
    the oracle [thr n] says so and its type does not promise (noexcept) otherwise.
    Destructors never throw.  A throwing constructor leaves no object and its source
    alone; a throwing assignment or swap leaves some value behind ([torn]). *)
From Coq Require Import List Bool PeanoNat.
Import ListNotations.

(** The storage of a variable, of a temporary, or of a local object of the library. *)
Inductive loc : Set := Var (x : nat) | Tmp (k : nat).

(* no code counterpart: equality of locations *)
Definition loc_eqb (a b : loc) : bool :=
  match a, b with
  | Var x, Var y => Nat.eqb x y
  | Tmp x, Tmp y => Nat.eqb x y
  | _, _ => false
  end.

(** The operations of an element type that may throw. *)
Inductive okind : Set := KNew (* constructor from arguments *) | KCopy | KMove | KCopyAsg | KMoveAsg | KSwap.

(** What goes wrong. *)
Inductive lub : Set :=
| Overwrite    (* an object is constructed over a live object, which is never destroyed *)
| NoObj        (* use or destruction of an object that is not alive *)
| WrongType    (* use or destruction of an object as another type *)
| AssertFail   (* assert (an error with and without NDEBUG) *)
| NoVar.       (* the client uses a variable that does not exist, or declares it twice *)

(** exceptions: from the element type, or the library's bad_..._access *)
Inductive exn : Set := User | BadAccess.

(** The outcome of a piece of code. *)
Inductive out (W A : Type) : Type :=
| Ret (a : A) (w : W)
| Exn (e : exn) (w : W)
| Term                 (* std::terminate: an exception left a noexcept function *)
| Bad (u : lub).
Arguments Ret {W A} a w.
Arguments Exn {W A} e w.
Arguments Term {W A}.
Arguments Bad {W A} u.

Section Life.
  (** [V] values of every element type, [D] the discriminator kept by the library class. *)
  Context {V D : Type}.

  Record world := World {
    objs : loc -> option (nat * V);   (* what each storage holds *)
    disc : loc -> option D;           (* the library objects in scope and their discriminator *)
    clk : nat;                        (* throwing operations so far *)
    made : loc -> nat;                (* ghost: objects constructed in each storage *)
    gone : loc -> nat                 (* ghost: objects destroyed in each storage *)
  }.

  (* no code counterpart: the start of a program *)
  Definition init : world := World (fun _ => None) (fun _ => None) 0 (fun _ => 0) (fun _ => 0).

  (* no code counterpart: map update *)
  Definition upd {A} (m : loc -> A) (l : loc) (a : A) : loc -> A := fun k => if loc_eqb k l then a else m k.

  Definition M (A : Type) : Type := world -> out world A.
  (* no code counterpart: sequencing *)
  Definition ret {A} (a : A) : M A := fun w => Ret a w.
  Definition seq {A B} (m : M A) (f : A -> M B) : M B :=
    fun w => match m w with Ret a w' => f a w' | Exn e w' => Exn e w' | Term => Term | Bad u => Bad u end.
  (* no code counterpart: undefined behaviour *)
  Definition bad {A} (u : lub) : M A := fun _ => Bad u.
  (** C++ [assert(b)]. *)
  Definition assert_ (b : bool) : M unit := if b then ret tt else bad AssertFail.
  (** C++ [throw] of one of the library's exceptions. *)
  Definition throw_ {A} : M A := fun w => Exn BadAccess w.
  (** [noexcept(b)] on a function: an exception that leaves it ends the program. *)
  Definition noexcept (b : bool) {A} (m : M A) : M A :=
    fun w => match m w with Exn e w' => if b then Term else Exn e w' | r => r end.
  (** Stack unwinding: run the destructor [d] (which does not throw) on both exits of [m]. *)
  Definition finally {A} (m : M A) (d : M unit) : M A :=
    fun w => match m w with
             | Ret a w' => match d w' with Ret _ w'' => Ret a w'' | Exn _ _ => Term | Term => Term | Bad u => Bad u end
             | Exn e w' => match d w' with Ret _ w'' => Exn e w'' | Exn _ _ => Term | Term => Term | Bad u => Bad u end
             | Term => Term | Bad u => Bad u
             end.
  (** Stack unwinding out of a constructor body: only the exceptional exit runs [d]. *)
  Definition on_exn {A} (m : M A) (d : M unit) : M A :=
    fun w => match m w with
             | Exn e w' => match d w' with Ret _ w'' => Exn e w'' | Exn _ _ => Term | Term => Term | Bad u => Bad u end
             | r => r
             end.

  (* no code counterpart: state changes *)
  Definition set_obj (l : loc) (o : option (nat * V)) (w : world) : world :=
    World (upd (objs w) l o) (disc w) (clk w) (made w) (gone w).
  Definition tick (w : world) : world := World (objs w) (disc w) (S (clk w)) (made w) (gone w).
  Definition count_made (l : loc) (w : world) : world :=
    World (objs w) (disc w) (clk w) (upd (made w) l (S (made w l))) (gone w).
  Definition count_gone (l : loc) (w : world) : world :=
    World (objs w) (disc w) (clk w) (made w) (upd (gone w) l (S (gone w l))).

  (** The discriminator of the library object at [l]. *)
  Definition get_disc (l : loc) : M D := fun w => match disc w l with Some d => Ret d w | None => Bad NoVar end.
  Definition put_disc (l : loc) (d : option D) : M unit :=
    fun w => Ret tt (World (objs w) (upd (disc w) l d) (clk w) (made w) (gone w)).
  (** A new library object at [l], whose storage is empty. *)
  Definition enter (l : loc) (d : D) : M unit :=
    fun w => match disc w l, objs w l with None, None => put_disc l (Some d) w | _, _ => Bad NoVar end.

  (** the element types: which operations are declared noexcept, what a move leaves
      behind, what a failed assignment leaves behind, and which operations throw *)
  Context (promise : nat -> okind -> bool) (moved torn : V -> V) (thr : nat -> bool).

  (** One operation of kind [k] of type [t] that may throw. *)
  Definition step (t : nat) (k : okind) : M bool :=
    fun w => Ret (thr (clk w) && negb (promise t k)) (tick w).

  (** The object at [l], used as a [t]. *)
  Definition read (l : loc) (t : nat) : M V :=
    fun w => match objs w l with
             | None => Bad NoObj
             | Some (t', v) => if Nat.eqb t t' then Ret v w else Bad WrongType
             end.
  Definition write (l : loc) (t : nat) (v : V) : M unit :=
    seq (read l t) (fun _ w => Ret tt (set_obj l (Some (t, v)) w)).

  (** Placement new of a [t] at [l], from a value that is not in any storage. *)
  Definition make (l : loc) (t : nat) (k : okind) (v : V) : M unit :=
    fun w => match objs w l with
             | Some _ => Bad Overwrite
             | None => seq (step t k) (fun th => if th then fun w => Exn User w
                         else fun w => Ret tt (count_made l (set_obj l (Some (t, v)) w))) w
             end.
  (** Placement new by copy or move construction from the object at [src]. *)
  Definition copy_make (l : loc) (t : nat) (src : loc) : M unit :=
    seq (read src t) (fun v => make l t KCopy v).
  Definition move_make (l : loc) (t : nat) (src : loc) : M unit :=
    seq (read src t) (fun v => seq (make l t KMove v) (fun _ => write src t (moved v))).
  (** Destructor call. *)
  Definition destroy (l : loc) (t : nat) : M unit :=
    seq (read l t) (fun _ w => Ret tt (count_gone l (set_obj l None w))).
  (** Assignment to the object at [l]. *)
  Definition assign (l : loc) (t : nat) (k : okind) (v : V) : M unit :=
    seq (read l t) (fun old => seq (step t k) (fun th =>
      if th then seq (write l t (torn old)) (fun _ w => Exn User w) else write l t v)).
  Definition copy_asg (l : loc) (t : nat) (src : loc) : M unit :=
    seq (read src t) (fun v => assign l t KCopyAsg v).
  (** (moving an object into itself leaves what a move leaves) *)
  Definition move_asg (l : loc) (t : nat) (src : loc) : M unit :=
    seq (read src t) (fun v => seq (assign l t KMoveAsg v) (fun _ => write src t (moved v))).
  (** swap(a, b) on two objects.  nanostl::swap is only declared
      (nanotype_traits.h 1183-1187, no definition in the repository), so this is the
      swap of the element type found by argument-dependent lookup. *)
  Definition swap_objs (a b : loc) (t : nat) : M unit :=
    seq (read a t) (fun va => seq (read b t) (fun vb => seq (step t KSwap) (fun th =>
      if th then seq (write a t (torn va)) (fun _ => seq (write b t (torn vb)) (fun _ w => Exn User w))
      else seq (write a t vb) (fun _ => write b t va)))).
End Life.
Arguments world V D : clear implicits.

Notation "x <-- m ;; k" := (seq m (fun x => k)) (at level 61, m at next level, right associativity).
Notation "m ;;; k" := (seq m (fun _ => k)) (at level 61, right associativity).
