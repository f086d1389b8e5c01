(** Model of nanostl::stringstream (include/nanosstream.h 40-90) and of
    nanostl::ostream's formatted output of integers and char pointers, and flush
    (include/nanoiostream.h 88-192, 232-239).

    Every member function is a few operations on nanostl::string, so it is
    expressed as a program of the string model (StrModel): stream x is the string
    variable 2x+1 (its member str_), user string s is the variable 2s+2, and
    variable 0 is the temporary of the expression.  stdout is a list of bytes. *)
From Coq Require Import ZArith List Bool.
From Verif Require Import Mem VecModel StrModel IntStrModel.
Import ListNotations.
Open Scope Z_scope.

(** no code counterpart: variable numbering, member str_ of stream x *)
Definition st (x : nat) : nat := (2 * x + 1)%nat.
(** no code counterpart: variable numbering, user string s *)
Definition us (s : nat) : nat := (2 * s + 2)%nat.

(** nanosstream.h:75-78 clear: str_ = string(). *)
Definition clear_code (x : nat) : list sop := [SNew 0; SAssign (st x) 0; SDelete 0].
(** nanosstream.h:47-53 operator=(stringstream&&): str_ = other.str_; other.str_ = string(). *)
Definition move_code (x y : nat) : list sop := [SAssign (st x) (st y); SNew 0; SAssign (st y) 0; SDelete 0].
(** nanosstream.h:68-73 operator<<(const string&): str_ += s. *)
Definition shl_code (x v : nat) : list sop := [SAppend (st x) v].
(** nanoiostream.h:179-192 operator<<(const void* p): string str(p); _ss << str. *)
Definition shl_lit_code (x : nat) (m : option (list Z)) : list sop := SLit 0 m :: shl_code x 0 ++ [SDelete 0].

(** the client operations *)
Inductive ssop :=
| Stream (x : nat)                       (* stringstream x;               *)
| EndStream (x : nat)                    (* x.~stringstream()             *)
| Str_ (s : nat) (m : list Z)            (* string s(m); m NUL-terminated *)
| EndStr (s : nat)                       (* s.~string()                   *)
| Put (x s : nat)                        (* x << s                        *)
| PutLit (x : nat) (m : option (list Z)) (* x << "literal"                *)
| PutStr (x y : nat)                     (* x << y.str()                  *)
| PutInt (x : nat) (n : Z)               (* ostream << bool/short/int     *)
| PutInt64 (x : nat) (n : Z)             (* ostream << long long          *)
| Clear (x : nat)
| Move (x y : nat)                       (* x = move(y)                   *)
| Read (x : nat)                         (* x.str().c_str()               *)
| Flush (x : nat).                       (* ostream::flush                *)

(** strings in scope and what has been written to stdout *)
Record ssworld := SsWorld { strs : sworld; stdout : list Z }.
(** no code counterpart: start of the program *)
Definition ssworld0 : ssworld := SsWorld world0 [].

(** no code counterpart: run a sequence of string operations *)
Definition exec_code (w : ssworld) (c : list sop) : res (option (list Z) * ssworld) :=
  '(_, s) <- srun (strs w) c ;; Ok (None, SsWorld s (stdout w)).

(** x.str().c_str(): nanosstream.h:62-65, nanostring.h:118 *)
Definition read_text (w : ssworld) (x : nat) : res (list Z) :=
  '(r, _) <- sstep (strs w) (SText (st x)) ;;
  match r with TText l => Ok l | _ => UB NoObject end.

(** one client operation; lines cited per case *)
Definition ssstep (w : ssworld) (o : ssop) : res (option (list Z) * ssworld) :=
  match o with
  | Stream x => exec_code w [SNew (st x)]                  (* nanosstream.h:55-56 *)
  | EndStream x => exec_code w [SDelete (st x)]            (* nanosstream.h:58-59 *)
  | Str_ s m => exec_code w [SLit (us s) (Some m)]
  | EndStr s => exec_code w [SDelete (us s)]
  | Put x s => exec_code w (shl_code x (us s))
  | PutLit x m => exec_code w (shl_lit_code x m)
  | PutStr x y => exec_code w (shl_code x (st y))
  | PutInt x n => (* nanoiostream.h:88-135: _ss << to_string(n) *)
      t <- to_string_int n ;; exec_code w (shl_lit_code x (Some (t ++ [0])))
  | PutInt64 x n => (* nanoiostream.h:137-145 *)
      t <- to_string_int64 n ;; exec_code w (shl_lit_code x (Some (t ++ [0])))
  | Clear x => exec_code w (clear_code x)
  | Move x y => exec_code w (move_code x y)
  | Read x => l <- read_text w x ;; Ok (Some l, w)
  | Flush x => (* nanoiostream.h:232-239: printf("%s", _ss.str().c_str()); _ss.clear() *)
      l <- read_text w x ;; exec_code (SsWorld (strs w) (stdout w ++ l)) (clear_code x)
  end.

(** no code counterpart: a client program *)
Fixpoint ssrun (w : ssworld) (ops : list ssop) : res (list (option (list Z)) * ssworld) :=
  match ops with
  | [] => Ok ([], w)
  | o :: t => '(r, w') <- ssstep w o ;; '(rs, w'') <- ssrun w' t ;; Ok (r :: rs, w'')
  end.
