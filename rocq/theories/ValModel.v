(** Model of nanostl::valarray (include/nanovalarray.h 46-233).

    The class body repeats nanovector.h token for token where both define a member, so those
    members are the definitions of VecModel: nanovalarray.h 60-61 vec_new, 64-67 vec_copy,
    76-81 vec_delete, 84-115 resize, 118 vempty, 121 size, 124 clear, 127 capacity, 130-133 get/set,
    151-159 erase, 163-168 assign (through __push_back 185-188 = push_back), 171-175 swap,
    213-220 operator=.  There is no public push_back or pop_back; operator+= is declared but
    not defined.  New here are the constructor from a size and sin(valarray). *)
From Coq Require Import ZArith List Bool.
From Verif Require Import Mem VecModel.
Import ListNotations.
Open Scope Z_scope.

Section Val.
  Context {V : Type} (f : V -> V).   (* f is nanostl::sin on the element type *)

  (** nanovalarray.h:70-73 valarray(n): __initialize(); resize(n). *)
  Definition val_new (h : heap V) (n : Z) : res (vec * heap V) := resize h vec_new n.

  (** nanovalarray.h:228-230: for (i = 0; i < va.size(); i++) result[i] = sin(va[i]). *)
  Fixpoint sin_loop (k : nat) (i : Z) (h : heap V) (result va : vec) : res (heap V) :=
    match k with
    | O => Ok h
    | S k' =>
      c <- get h va i ;;
      match c with
      | None => UB Indet
      | Some a => h' <- set h result i (Some (f a)) ;; sin_loop k' (i + 1) h' result va
      end
    end.
  (** nanovalarray.h:224-233 sin(va), with the returned object constructed in place. *)
  Definition val_sin (h : heap V) (va : vec) : res (vec * heap V) :=
    '(r, h1) <- resize h vec_new (size va) ;;
    h2 <- sin_loop (Z.to_nat (size va)) 0 h1 r va ;;
    Ok (r, h2).

  (** the client operations *)
  Inductive vop :=
  | Base (o : op V)           (* an operation valarray shares with vector *)
  | NewN (x : nat) (n : Z)    (* valarray<T> x(n);      *)
  | Sin (x y : nat).          (* valarray<T> x = sin(y) *)

  (** one client operation *)
  Definition vstep (w : world V) (o : vop) : res (out V * world V) :=
    match o with
    | Base (PushBack _ _) | Base (PopBack _) | Base (PushBackOf _ _ _) => UB NoObject
    | Base o => step w o
    | NewN x n =>
      match vecs w x with
      | Some _ => UB NoObject
      | None => '(v, h) <- val_new (hp w) (w64 n) ;; Ok (ONone, put w x v h)
      end
    | Sin x y =>
      match vecs w x with
      | Some _ => UB NoObject
      | None => u <- find w y ;; '(v, h) <- val_sin (hp w) u ;; Ok (ONone, put w x v h)
      end
    end.

  (** no code counterpart: a client program *)
  Fixpoint vrun (w : world V) (ops : list vop) : res (list (out V) * world V) :=
    match ops with
    | [] => Ok ([], w)
    | o :: t => '(r, w') <- vstep w o ;; '(rs, w'') <- vrun w' t ;; Ok (r :: rs, w'')
    end.
End Val.
Arguments vop V : clear implicits.
