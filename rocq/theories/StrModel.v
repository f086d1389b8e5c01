(** Model of nanostl::basic_string<char> (include/nanostring.h), built on the
    vector model: nanostring.h:180 [nanostl::vector<charT> data_].
    A char is its unsigned value 0..255; the only place where the signedness of
    char could be seen, compare_ (182-190), converts to unsigned char. *)
From Coq Require Import ZArith List Bool.
From Verif Require Import Mem VecModel.
Import ListNotations.
Open Scope Z_scope.

Notation hpz := (heap Z).
Notation str := vec.   (* nanostring.h:180: the only data member *)

(** Read one char through a pointer into an array ([*p] with p = base + i). *)
Definition byte_at (h : hpz) (p : ptr) (i : Z) : res Z :=
  c <- load h p i ;;
  match c with Some b => Ok b | None => UB Indet end.

(** Read one char of caller-owned memory: [m] is the memory the caller's
    [const char*] points to ([None]: null pointer). *)
Definition ext_at (m : option (list Z)) (i : Z) : res Z :=
  match m with
  | None => UB NullDeref
  | Some l =>
    if (0 <=? i) && (i <? Z.of_nat (length l)) then Ok (nth (Z.to_nat i) l 0) else UB OutOfBounds
  end.

(** nanostring.h:62-65 default constructor: data_.resize(1); data_[0] = '\0'. *)
Definition str_new (h : hpz) : res (str * hpz) :=
  '(v, h1) <- resize h vec_new 1 ;;
  h2 <- set h1 v 0 (Some 0) ;;
  Ok (v, h2).

(** nanostring.h:71-78 constructor from a NUL-terminated char array owned by the
    caller: push every char up to the NUL, then '\0'.  [l] is the memory from
    the current position of [s] on; running off its end is out of bounds. *)
Fixpoint str_lit_loop (h : hpz) (v : str) (l : list Z) : res (str * hpz) :=
  match l with
  | [] => UB OutOfBounds
  | c :: t =>
    if c =? 0 then push_back h v (Some 0)
    else '(v', h') <- push_back h v (Some c) ;; str_lit_loop h' v' t
  end.

(** nanostring.h:71-78; [s && ...]: a null pointer gives the empty string. *)
Definition str_lit (h : hpz) (m : option (list Z)) : res (str * hpz) :=
  match m with
  | None => push_back h (clear vec_new) (Some 0)
  | Some l => str_lit_loop h (clear vec_new) l
  end.

(** nanostring.h:71-78 when the argument is another string's c_str(): the chars
    are read from that string's array.  The fuel exceeds the array's length. *)
Fixpoint str_cstr_loop (fuel : nat) (h : hpz) (v : str) (p : ptr) (i : Z) : res (str * hpz) :=
  match fuel with
  | O => UB OutOfBounds
  | S f =>
    c <- byte_at h p i ;;
    if c =? 0 then push_back h v (Some 0)
    else '(v', h') <- push_back_ref h v p i ;; str_cstr_loop f h' v' p (i + 1)
  end.
(** nanostring.h:71-78 basic_string(const charT *s) *)
Definition str_from_cstr (h : hpz) (y : str) : res (str * hpz) :=
  str_cstr_loop (S (Z.to_nat (capacity y))) h (clear vec_new) (elements y) 0.

(** nanostring.h:81-87 constructor (first, last): pushes first..last inclusive
    and no terminator; [l] is the caller's memory from first, n = last - first. *)
Fixpoint str_range_loop (h : hpz) (v : str) (m : option (list Z)) (k : nat) (i : Z) : res (str * hpz) :=
  match k with
  | O => Ok (v, h)
  | S k' =>
    c <- ext_at m i ;;
    '(v', h') <- push_back h v (Some c) ;;
    str_range_loop h' v' m k' (i + 1)
  end.
(** nanostring.h:81-87 basic_string(first, last) *)
Definition str_range (h : hpz) (m : option (list Z)) (n : Z) : res (str * hpz) :=
  match m with
  | None => Ok (vec_new, h)
  | Some _ => str_range_loop h vec_new m (Z.to_nat (n + 1)) 0
  end.

(** nanostring.h:90-94 constructor (s, count): exactly count chars, no terminator. *)
Definition str_count (h : hpz) (m : option (list Z)) (count : Z) : res (str * hpz) :=
  str_range_loop h vec_new m (Z.to_nat count) 0.

(** nanostring.h:68 copy constructor: default-constructed data_, then the
    vector assignment data_ = s.data_ (nanovector.h:201-208). *)
Definition str_copy (h : hpz) (y : str) : res (str * hpz) :=
  assign h vec_new (elements y) 0 (size y).

(** nanostring.h:149-153 operator= between distinct objects. *)
Definition str_assign (h : hpz) (x y : str) : res (str * hpz) :=
  assign h x (elements y) 0 (size y).

(** nanostring.h:97 empty(). *)
Definition str_empty (v : str) : bool := size v =? 0.

(** nanostring.h:100-109 size() and length(): data_.size() - 1 in size_type. *)
Definition str_size (v : str) : Z := w64 (size v - 1).

(** nanostring.h:112-115 clear(). *)
Definition str_clear (h : hpz) (v : str) : res (str * hpz) :=
  '(v1, h1) <- resize h (clear v) 1 ;;
  h2 <- set h1 v1 0 (Some 0) ;;
  Ok (v1, h2).

(** nanostring.h:121-130 at / operator[]. *)
Definition str_at (h : hpz) (v : str) (i : Z) : res Z := byte_at h (elements v) i.

(** What a C routine sees at c_str() (nanostring.h:118): the chars up to the
    first NUL.  Not in the code; the reader of the returned pointer. *)
Fixpoint cstr_loop (fuel : nat) (h : hpz) (p : ptr) (i : Z) : res (list Z) :=
  match fuel with
  | O => UB OutOfBounds
  | S f =>
    c <- byte_at h p i ;;
    if c =? 0 then Ok [] else t <- cstr_loop f h p (i + 1) ;; Ok (c :: t)
  end.
(** nanostring.h:118 c_str(), read up to the terminator *)
Definition str_text (h : hpz) (v : str) : res (list Z) :=
  cstr_loop (S (Z.to_nat (capacity v))) h (elements v) 0.

(** nanostring.h:182-190 compare_: while ( *p && ( *p == *q)) { p++; q++; }
    return *p - *q as unsigned chars.  [rp]/[rq] read p[i]/q[i]. *)
Fixpoint compare_ (fuel : nat) (rp rq : Z -> res Z) (i : Z) : res Z :=
  match fuel with
  | O => UB OutOfBounds
  | S f =>
    a <- rp i ;;
    if a =? 0 then (b <- rq i ;; Ok (a - b))
    else
      b <- rq i ;;
      if a =? b then compare_ f rp rq (i + 1) else Ok (a - b)
  end.

(** nanostring.h:133-135 compare(const basic_string&).  The fuel exceeds the
    length of this string's array. *)
Definition str_compare (h : hpz) (v u : str) : res Z :=
  compare_ (S (Z.to_nat (capacity v))) (byte_at h (elements v)) (byte_at h (elements u)) 0.

(** nanostring.h:138 compare(const charT* ) against caller-owned memory. *)
Definition str_compare_lit (h : hpz) (v : str) (m : option (list Z)) : res Z :=
  compare_ (S (Z.to_nat (capacity v))) (byte_at h (elements v)) (ext_at m) 0.

(** nanostring.h:141 erase(begin()+i): plain vector erase. *)
Definition str_erase (h : hpz) (v : str) (i : Z) : res (str * hpz) :=
  '(_, v', h') <- erase h v i ;; Ok (v', h').

(** nanostring.h:201-226 operator+= : drop the NUL, then push the whole array of
    [s], NUL included.  first/last are computed after the pop. *)
Definition str_append (h : hpz) (v : str) (s : str) : res (str * hpz) :=
  let v1 := if size v <? 1 then v else pop_back v in
  assign_loop (Z.to_nat (size s)) h v1 (elements s) 0.

(** operator+= with s the same object: begin()/end() are those of the popped vector. *)
Definition str_append_self (h : hpz) (v : str) : res (str * hpz) :=
  let v1 := if size v <? 1 then v else pop_back v in
  assign_loop (Z.to_nat (size v1)) h v1 (elements v1) 0.

(** nanostring.h:193-199 operator+ (the returned object is [result] itself:
    copy elision). *)
Definition str_plus (h : hpz) (a b : str) : res (str * hpz) :=
  '(r, h1) <- str_copy h a ;;
  str_append h1 r b.

(** nanostring.h:232-237 operator<<(ostream&, const string&) calls itself with the
    same arguments: it never returns.  [n] counts the calls we are willing to
    follow; the result is [NoReturn] whatever [n] is. *)
Fixpoint ostream_shl_string (n : nat) (os : list Z) (s : list Z) : res (list Z) :=
  match n with O => UB NoReturn | S n' => ostream_shl_string n' os s end.

(** Client programs over string variables (harness, no code counterpart). *)
Inductive sop :=
| SNew (x : nat)                          (* string x;              *)
| SLit (x : nat) (m : option (list Z))    (* string x(ptr);         *)
| SFromCstr (x y : nat)                   (* string x(y.c_str());   *)
| SCopy (x y : nat)                       (* string x(y);           *)
| SPlus (x y z : nat)                     (* string x = y + z;      *)
| SDelete (x : nat)                       (* x.~string()            *)
| SAssign (x y : nat)                     (* x = y;                 *)
| SClear (x : nat)                        (* x.clear();             *)
| SAppend (x y : nat)                     (* x += y;                *)
| SErase (x : nat) (i : Z)                (* x.erase(&x[i]);        *)
| SSet (x : nat) (i : Z) (c : Z)          (* x[i] = c;              *)
| SSize (x : nat)                         (* x.size() / x.length()  *)
| SEmpty (x : nat)                        (* x.empty()              *)
| SAt (x : nat) (i : Z)                   (* x[i] / x.at(i)         *)
| SText (x : nat)                         (* read x.c_str() to NUL  *)
| SCmp (x y : nat)                        (* x.compare(y)           *)
| SCmpLit (x : nat) (m : option (list Z)) (* x.compare(ptr)         *)
| SEq (x y : nat) | SNe (x y : nat) | SLt (x y : nat) | SGt (x y : nat).

(** no code counterpart: results of the client operations *)
Inductive sout := TNone | TZ (z : Z) | TBool (b : bool) | TText (l : list Z) | TCmp (z : Z).

Notation sworld := (world Z).

(** no code counterpart: a constructor call binding a new variable *)
Definition create (w : sworld) (x : nat) (m : res (str * hpz)) : res (sout * sworld) :=
  match vecs w x with
  | Some _ => UB NoObject
  | None => '(v, h) <- m ;; Ok (TNone, put w x v h)
  end.

(** one client operation *)
Definition sstep (w : sworld) (o : sop) : res (sout * sworld) :=
  match o with
  | SNew x => create w x (str_new (hp w))
  | SLit x m => create w x (str_lit (hp w) m)
  | SFromCstr x y => create w x (u <- find w y ;; str_from_cstr (hp w) u)
  | SCopy x y => create w x (u <- find w y ;; str_copy (hp w) u)
  | SPlus x y z => create w x (a <- find w y ;; b <- find w z ;; str_plus (hp w) a b)
  | SDelete x =>
    v <- find w x ;; h <- vec_delete (hp w) v ;; Ok (TNone, World h (upd (vecs w) x None))
  | SAssign x y =>
    v <- find w x ;; u <- find w y ;;
    if Nat.eqb x y then Ok (TNone, w) else
    '(v', h) <- str_assign (hp w) v u ;; Ok (TNone, put w x v' h)
  | SClear x => v <- find w x ;; '(v', h) <- str_clear (hp w) v ;; Ok (TNone, put w x v' h)
  | SAppend x y =>
    v <- find w x ;; u <- find w y ;;
    '(v', h) <- (if Nat.eqb x y then str_append_self (hp w) v else str_append (hp w) v u) ;;
    Ok (TNone, put w x v' h)
  | SErase x i => v <- find w x ;; '(v', h) <- str_erase (hp w) v i ;; Ok (TNone, put w x v' h)
  | SSet x i c => v <- find w x ;; h <- set (hp w) v i (Some c) ;; Ok (TNone, World h (vecs w))
  | SSize x => v <- find w x ;; Ok (TZ (str_size v), w)
  | SEmpty x => v <- find w x ;; Ok (TBool (str_empty v), w)
  | SAt x i => v <- find w x ;; c <- str_at (hp w) v i ;; Ok (TZ c, w)
  | SText x => v <- find w x ;; l <- str_text (hp w) v ;; Ok (TText l, w)
  | SCmp x y =>
    v <- find w x ;; u <- find w y ;; z <- str_compare (hp w) v u ;; Ok (TCmp z, w)
  | SCmpLit x m =>
    v <- find w x ;; z <- str_compare_lit (hp w) v m ;; Ok (TCmp z, w)
  (* nanostring.h:156-177 *)
  | SEq x y => v <- find w x ;; u <- find w y ;; z <- str_compare (hp w) v u ;; Ok (TBool (z =? 0), w)
  | SNe x y => v <- find w x ;; u <- find w y ;; z <- str_compare (hp w) v u ;; Ok (TBool (negb (z =? 0)), w)
  | SLt x y => v <- find w x ;; u <- find w y ;; z <- str_compare (hp w) v u ;; Ok (TBool (z <? 0), w)
  | SGt x y => v <- find w x ;; u <- find w y ;; z <- str_compare (hp w) v u ;; Ok (TBool (z >? 0), w)
  end.

(** no code counterpart: a client program *)
Fixpoint srun (w : sworld) (ops : list sop) : res (list sout * sworld) :=
  match ops with
  | [] => Ok ([], w)
  | o :: t => '(r, w') <- sstep w o ;; '(rs, w'') <- srun w' t ;; Ok (r :: rs, w'')
  end.
