(** Model of formatted output, [os << x] for a nanostl::ostream os (include/nanoiostream.h 54-72, 89-193) and the
    operator of nanostring.h 231-237: which of the declared operators overload resolution selects for the type of x, which
    to_string it calls in turn, whether that is defined anywhere, and the text appended to the member _ss.

    The stream's buffer is a stringstream of [SsModel].  Arguments are expressions of the types below that are not the
    literal 0; [long] etc. are the types of the language, their sizes those of a platform [p]. *)
From Coq Require Import ZArith List Bool Arith.
From Verif Require Import Mem VecModel StrModel IntStrModel RyuFmtModel SsModel TyModel TraitModel TraitSpec.
Import ListNotations.
Open Scope nat_scope.

(** no code counterpart: the argument's type; pointers to (const) char, to streambuf, to another object type;
    nanostl::nullptr_t, which is what the macro nullptr makes; nanostl::string *)
Inductive pointee := ToChar | ToStreambuf | ToOther.
Inductive arg := Arith (a : arith) | Pointer (k : pointee) | Nullptr | Str.
(** no code counterpart: the parameter of a declared operator *)
Inductive param := ByArith (a : arith) | ByVoidPtr | ByStreambuf | ByNullptr | ByString.
(** no code counterpart: what the argument is: an integer or the bits of a float or double; the memory a pointer points to (None: a null
    pointer); nothing of interest *)
Inductive value := Num (z : Z) | Memory (m : option (list Z)) | Nothing.

(** nanoiostream.h:54-72 the member operators, nanostring.h:232 the other one *)
Definition operators : list param :=
  map ByArith [Bool; Short; UShort; Int; UInt; LLong; ULLong; Float; Double; LDouble]
  ++ [ByVoidPtr; ByStreambuf; ByNullptr; ByString].
(** nanostring.h:240-255 the declared to_string functions; int64_t and uint64_t are long long and unsigned long long
    (nanocstdint.h:40-45) *)
Definition to_strings : list arith := [Int; UInt; LLong; ULLong; Float; Double].

(** no code counterpart: ranking of the implicit conversion between arithmetic types: 0 none needed, 1 promotion, 2 another conversion
    (float to double is a promotion) *)
Definition arith_cost (p : plat) (a b : arith) : option nat :=
  if arith_eqb a b then Some 0
  else if arith_eqb b (promote p a) || (arith_eqb a Float && arith_eqb b Double) then Some 1
  else Some 2.
(** no code counterpart: the same for all arguments and parameters: 3 a pointer to bool (worse than any other pointer
    conversion), 4 a user-defined conversion: string from a char pointer (nanostring.h:71), any pointer from nullptr_t
    (__nullptr:27-29); None: there is no conversion *)
Definition cost (p : plat) (x : arg) (f : param) : option nat :=
  match x, f with
  | Arith a, ByArith b => arith_cost p a b
  | Pointer ToStreambuf, ByStreambuf => Some 0
  | Pointer _, ByVoidPtr => Some 2
  | Pointer _, ByArith Bool => Some 3
  | Pointer ToChar, ByString => Some 4
  | Nullptr, ByNullptr => Some 0
  | Nullptr, (ByVoidPtr | ByStreambuf | ByArith Bool) => Some 4
  | Str, ByString => Some 0
  | _, _ => None
  end.
(** no code counterpart: overload resolution with one argument: the only candidate of least cost *)
Definition least {F} (c : F -> option nat) (fs : list F) (f : F) : bool :=
  match c f with
  | None => false
  | Some n => forallb (fun g => match c g with None => true | Some m => n <=? m end)%nat fs
  end.
Definition resolve {F} (c : F -> option nat) (fs : list F) : option F :=
  match filter (least c fs) fs with [f] => Some f | _ => None end.

(** no code counterpart: what becomes of a program with the call: it does not compile, it does not link, or the chars at
    this pointer are appended *)
Inductive effect := DoesNotCompile | DoesNotLink | Appends (text : res (option (list Z))).
(** string(buf) keeps the text; its memory ends in a NUL *)
Definition appends (t : res (list Z)) : effect := Appends (l <- t ;; Ok (Some (l ++ [0%Z]))).

(** nanoiostream.h:94, 104, 114, 124, 134, 144, 154, 164, 174: to_string(__n), __n of type [a]; nanostring.h:274-386 defines four of the
    six, the two for unsigned types are nowhere.  An exact match or a promotion does not change the number. *)
Definition to_string_of (p : plat) (a : arith) (z : Z) : effect :=
  match resolve (arith_cost p a) to_strings with
  | Some Int => appends (to_string_int z)
  | Some LLong => appends (to_string_int64 z)
  | Some Float => appends (to_string_float z)
  | Some Double => appends (to_string_double z)
  | Some _ => DoesNotLink
  | None => DoesNotCompile
  end.
(** the text "nullptr" with its NUL *)
Definition nullptr_text : list Z := [110; 117; 108; 108; 112; 116; 114; 0]%Z.

(** nanoiostream.h:70-72, 89-193: the selected operator; those for long double and streambuf are not defined; the one for a
    string calls itself (StrModel.ostream_shl_string) *)
Definition shl (p : plat) (x : arg) (v : value) : effect :=
  match resolve (cost p x) operators with
  | None => DoesNotCompile
  | Some (ByArith LDouble) | Some ByStreambuf => DoesNotLink
  | Some (ByArith a) => match v with Num z => to_string_of p a z | _ => Appends (UB Indet) end
  | Some ByVoidPtr => match v with Memory m => Appends (Ok m) | _ => Appends (UB Indet) end
  | Some ByNullptr =>
      match resolve (cost p (Pointer ToChar)) operators with
      | Some ByVoidPtr => Appends (Ok (Some nullptr_text))
      | _ => DoesNotCompile
      end
  | Some ByString => Appends (UB NoReturn)
  end.

(** os << x: the text goes to _ss (nanoiostream.h:94 etc., 184-185) *)
Definition insert (p : plat) (w : ssworld) (os : nat) (x : arg * value) : option (res ssworld) :=
  match shl p (fst x) (snd x) with
  | Appends t => Some (m <- t ;; '(_, w') <- exec_code w (shl_lit_code os m) ;; Ok w')
  | _ => None
  end.
(** os << x << y ...: every operator returns *this *)
Fixpoint inserts (p : plat) (w : ssworld) (os : nat) (xs : list (arg * value)) : option (res ssworld) :=
  match xs with
  | [] => Some (Ok w)
  | x :: xs =>
      match insert p w os x with
      | Some (Ok w') => inserts p w' os xs
      | r => r
      end
  end.
