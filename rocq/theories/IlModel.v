(** Model of iterator_traits for pointers and distance (include/nanoiterator.h 52-88) and of initializer_list (include/nanoinitializer_list.h 45-99).

    Arrays are lists; a pointer is null or an element of an array, or one past its end. *)
From Coq Require Import ZArith List Bool.
From Verif Require Import Mem TyModel.
Import ListNotations.
Open Scope Z_scope.

(** nanoiterator.h:52-60 the members of iterator_traits *)
Record traits := Traits { difference_type : ty; value_type : ty; pointer : ty; reference : ty }.
(** nanoiterator.h:62-70 iterator_traits<T* >; 72-80 iterator_traits<const T* >, chosen whenever it matches; T& must exist.  For other types that are not classes the
    primary template does not compile *)
Definition iterator_traits (p : ty) : option traits :=
  match p with
  | TPtr (Cv false false) t =>
      match match_const t with
      | Some u => option_map (fun r => Traits (TArith nocv LLong) u (TPtr nocv (const_of u)) r) (lref (const_of u))
      | None => option_map (fun r => Traits (TArith nocv LLong) t (TPtr nocv t) r) (lref t)
      end
  | _ => None
  end.

Section Il.
  Context {A : Type}.
  (** no code counterpart: pointers, arrays that exist, and what the language says about pointer arithmetic *)
  Inductive pointer_value := Null | At (b : nat) (i : Z).
  Definition arrays := nat -> option (list A).
  Definition len (m : arrays) (b : nat) : res Z := match m b with Some l => Ok (Z.of_nat (length l)) | None => UB UseAfterFree end.
  Definition padd (m : arrays) (p : pointer_value) (n : Z) : res pointer_value :=
    match p with
    | Null => if n =? 0 then Ok Null else UB OutOfBounds
    | At b i => l <- len m b ;; if (0 <=? i + n) && (i + n <=? l) then Ok (At b (i + n)) else UB OutOfBounds
    end.
  Definition psub (m : arrays) (p q : pointer_value) : res Z :=
    match p, q with
    | Null, Null => Ok 0
    | At b i, At c j => if Nat.eqb b c then l <- len m b ;; if (0 <=? i) && (i <=? l) && (0 <=? j) && (j <=? l) then Ok (i - j) else UB OutOfBounds else UB OutOfBounds
    | _, _ => UB OutOfBounds
    end.
  Definition deref (m : arrays) (p : pointer_value) : res A :=
    match p with
    | Null => UB NullDeref
    | At b i => match m b with
                | Some l => if 0 <=? i then match nth_error l (Z.to_nat i) with Some x => Ok x | None => UB OutOfBounds end else UB OutOfBounds
                | None => UB UseAfterFree
                end
    end.
  (** nanoiterator.h:83-88 distance *)
  Definition distance (m : arrays) (first last : pointer_value) : res Z := psub m last first.

  (** nanoinitializer_list.h:46-49 the members; 53-56 the private constructor; 68 the default constructor *)
  Record initializer_list := Il { begin_ : pointer_value; size_ : Z }.
  Definition il_private (b : pointer_value) (s : Z) : initializer_list := Il b s.
  Definition il_default : initializer_list := Il Null 0.
  (** nanoinitializer_list.h:72 size; 76 begin; 80 end *)
  Definition size (il : initializer_list) : Z := size_ il.
  Definition begin (il : initializer_list) : pointer_value := begin_ il.
  Definition end_of (m : arrays) (il : initializer_list) : res pointer_value := padd m (begin_ il) (size_ il).
  (** nanoinitializer_list.h:83-90 begin; 92-99 end, the parameter is a copy *)
  Definition free_begin (il : initializer_list) : pointer_value := begin il.
  Definition free_end (m : arrays) (il : initializer_list) : res pointer_value := end_of m il.
End Il.
