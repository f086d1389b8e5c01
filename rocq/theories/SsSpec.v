(** What a stream contains: the list of texts written since it was created, cleared,
    flushed or moved from. *)
From Coq Require Import ZArith List Bool.
From Verif Require Import StrSpec SsModel IntStrSpec.
Import ListNotations.
Open Scope Z_scope.

Record sspec := SSpec {
  written : nat -> option (list text);   (* per stream *)
  texts : nat -> option text;            (* user strings *)
  printed : list Z }.
Definition sspec0 : sspec := SSpec (fun _ => None) (fun _ => None) [].

Definition fits (l : list text) : Prop := tlen (concat l) < max_text.

Definition set_ {A} (f : nat -> option A) (x : nat) (v : option A) : nat -> option A :=
  fun y => if Nat.eqb y x then v else f y.

(** [ss_step s o r s']: operation [o] in state [s] returns [r] and leaves [s']. *)
Inductive ss_step (s : sspec) : ssop -> option text -> sspec -> Prop :=
| s_stream x : written s x = None ->
    ss_step s (Stream x) None (SSpec (set_ (written s) x (Some [])) (texts s) (printed s))
| s_endstream x l : written s x = Some l ->
    ss_step s (EndStream x) None (SSpec (set_ (written s) x None) (texts s) (printed s))
| s_str v m t : texts s v = None -> cstring m = Some t -> fits [t] ->
    ss_step s (Str_ v m) None (SSpec (written s) (set_ (texts s) v (Some t)) (printed s))
| s_endstr v t : texts s v = Some t ->
    ss_step s (EndStr v) None (SSpec (written s) (set_ (texts s) v None) (printed s))
| s_put x v l t : written s x = Some l -> texts s v = Some t -> fits (l ++ [t]) ->
    ss_step s (Put x v) None (SSpec (set_ (written s) x (Some (l ++ [t]))) (texts s) (printed s))
| s_putlit x m l t : written s x = Some l -> cstring m = Some t -> fits (l ++ [t]) ->
    ss_step s (PutLit x (Some m)) None (SSpec (set_ (written s) x (Some (l ++ [t]))) (texts s) (printed s))
| s_putnull x l : written s x = Some l ->
    ss_step s (PutLit x None) None (SSpec (set_ (written s) x (Some (l ++ [[]]))) (texts s) (printed s))
| s_putstr x y l k : x <> y -> written s x = Some l -> written s y = Some k -> fits (l ++ [concat k]) ->
    ss_step s (PutStr x y) None (SSpec (set_ (written s) x (Some (l ++ [concat k]))) (texts s) (printed s))
| s_putint x n l t : written s x = Some l -> - 10 ^ 9 < n < 2 ^ 31 -> decimal n t -> fits (l ++ [t]) ->
    ss_step s (PutInt x n) None (SSpec (set_ (written s) x (Some (l ++ [t]))) (texts s) (printed s))
| s_putint64 x n l t : written s x = Some l -> - 2 ^ 31 < n < 2 ^ 31 -> decimal n t -> fits (l ++ [t]) ->
    ss_step s (PutInt64 x n) None (SSpec (set_ (written s) x (Some (l ++ [t]))) (texts s) (printed s))
| s_clear x l : written s x = Some l ->
    ss_step s (Clear x) None (SSpec (set_ (written s) x (Some [])) (texts s) (printed s))
| s_move x y l k : written s x = Some l -> written s y = Some k ->
    ss_step s (Move x y) None (SSpec (set_ (set_ (written s) x (Some k)) y (Some [])) (texts s) (printed s))
| s_read x l : written s x = Some l ->
    ss_step s (Read x) (Some (concat l)) s
| s_flush x l : written s x = Some l ->
    ss_step s (Flush x) None (SSpec (set_ (written s) x (Some [])) (texts s) (printed s ++ concat l)).

Inductive ss_run : sspec -> list ssop -> list (option text) -> sspec -> Prop :=
| ss_nil s : ss_run s [] [] s
| ss_cons s o r s1 ops rs s2 : ss_step s o r s1 -> ss_run s1 ops rs s2 -> ss_run s (o :: ops) (r :: rs) s2.
