(** Model of nanostl::map, a treap (include/nanomap.h). *)
From Coq Require Import ZArith List Bool.
From Verif Require Import Mem.
Import ListNotations.
Open Scope Z_scope.

Section Map.
  Context {K T : Type}.
  (** operator==, operator> and operator< of the key type; T(); the sequence of
      values returned by successive priority_rand() calls (nanomap.h:51-56; the
      concrete sequence is modelled in XorshiftModel.v). *)
  Variables (eqb gtb ltb : K -> K -> bool) (dflt : T) (pri : nat -> Z).

  (** nanomap.h:69-76 Node: val, pri, ch[2]. *)
  Record node := Node { nkey : K; nval : T; npri : Z; ch0 : ptr; ch1 : ptr }.

  (** Node storage; [nfresh] numbers the [new Node] evaluations, each of which
      calls priority_rand() once (nanomap.h:73). *)
  Record nheap := NHeap { nodes : nat -> option node; nfresh : nat }.
  (* ghost initial heap; no code counterpart *)
  Definition nempty : nheap := NHeap (fun _ => None) 0%nat.

  (** no code counterpart: store update *)
  Definition upd_node (m : nat -> option node) (i : nat) (x : option node) :=
    fun j => if Nat.eqb j i then x else m j.

  (** [*p] as an rvalue. *)
  Definition ldn (h : nheap) (p : ptr) : res node :=
    match p with
    | None => UB NullDeref
    | Some i => match nodes h i with None => UB UseAfterFree | Some n => Ok n end
    end.

  (** [*p = n] (used for writes of a single field of a loaded node). *)
  Definition stn (h : nheap) (p : ptr) (n : node) : res nheap :=
    match p with
    | None => UB NullDeref
    | Some i => match nodes h i with
                | None => UB UseAfterFree
                | Some _ => Ok (NHeap (upd_node (nodes h) i (Some n)) (nfresh h))
                end
    end.

  (** nanomap.h:73 new Node(x). *)
  Definition new_node (h : nheap) (k : K) (v : T) : nat * nheap :=
    (nfresh h,
     NHeap (upd_node (nodes h) (nfresh h) (Some (Node k v (pri (nfresh h)) None None)))
           (S (nfresh h))).

  (** t->ch[b] read and write (nanomap.h:72); b is 0 (false) or 1 (true). *)
  Definition ch (n : node) (b : bool) : ptr := if b then ch1 n else ch0 n.
  (** t->ch[b] = p *)
  Definition set_ch (n : node) (b : bool) (p : ptr) : node :=
    if b then Node (nkey n) (nval n) (npri n) (ch0 n) p
    else Node (nkey n) (nval n) (npri n) p (ch1 n).

  (** nanomap.h:183-188 __rotate(t, b). *)
  Definition rotate (h : nheap) (t : ptr) (b : bool) : res (ptr * nheap) :=
    nt <- ldn h t ;;
    let s := ch nt (negb b) in
    ns <- ldn h s ;;
    h1 <- stn h t (set_ch nt (negb b) (ch ns b)) ;;
    ns1 <- ldn h1 s ;;
    h2 <- stn h1 s (set_ch ns1 b t) ;;
    Ok (s, h2).

  (** nanomap.h:193-207 __insert(t, x): (subtree root, (iterator node, inserted)). *)
  Fixpoint insert_ (fuel : nat) (h : nheap) (t : ptr) (k : K) (v : T)
    : res (ptr * (ptr * bool) * nheap) :=
    match fuel with
    | O => UB NoReturn
    | S f =>
      match t with
      | None => let '(n, h1) := new_node h k v in Ok (Some n, (Some n, true), h1)
      | Some _ =>
        nt <- ldn h t ;;
        if eqb k (nkey nt) then Ok (t, (t, false), h)
        else
          let b := gtb k (nkey nt) in
          '(p, r, h1) <- insert_ f h (ch nt b) k v ;;
          nt1 <- ldn h1 t ;;
          h2 <- stn h1 t (set_ch nt1 b p) ;;
          nt2 <- ldn h2 t ;;
          nc <- ldn h2 (ch nt2 b) ;;
          if Z.gtb (npri nt2) (npri nc) then
            '(t', h3) <- rotate h2 t (negb b) ;; Ok (t', r, h3)
          else Ok (t, r, h2)
      end
    end.

  (** nanomap.h:210-212 __find. *)
  Fixpoint find_ (fuel : nat) (h : nheap) (t : ptr) (k : K) : res ptr :=
    match fuel with
    | O => UB NoReturn
    | S f =>
      match t with
      | None => Ok None
      | Some _ => nt <- ldn h t ;;
                  if eqb k (nkey nt) then Ok t else find_ f h (ch nt (gtb k (nkey nt))) k
      end
    end.

  (** nanomap.h:215-222 __upper_bound. *)
  Fixpoint upper_bound_ (fuel : nat) (h : nheap) (t : ptr) (k : K) : res ptr :=
    match fuel with
    | O => UB NoReturn
    | S f =>
      match t with
      | None => Ok None
      | Some _ =>
        nt <- ldn h t ;;
        if ltb k (nkey nt) then
          s <- upper_bound_ f h (ch0 nt) k ;;
          Ok (match s with Some _ => s | None => t end)
        else upper_bound_ f h (ch1 nt) k
      end
    end.

  (** nanomap.h:225-230 __delete: post-order; delete t releases the node. *)
  Fixpoint delete_ (fuel : nat) (h : nheap) (t : ptr) : res nheap :=
    match fuel with
    | O => UB NoReturn
    | S f =>
      match t with
      | None => Ok h
      | Some i =>
        nt <- ldn h t ;;
        h1 <- delete_ f h (ch0 nt) ;;
        nt1 <- ldn h1 t ;;
        h2 <- delete_ f h1 (ch1 nt1) ;;
        match nodes h2 i with
        | None => UB BadFree
        | Some _ => Ok (NHeap (upd_node (nodes h2) i None) (nfresh h2))
        end
      end
    end.

  (** The member functions; a map object is its [root] (nanomap.h:179), an
      iterator its node pointer [p] (nanomap.h:80; [mp] is the map itself).
      Recursion depth is unbounded in the code; the fuel is the number of nodes
      ever created plus one and running out is an error. *)
  Definition depth (h : nheap) : nat := S (nfresh h).

  (** nanomap.h:121 map(). *)
  Definition map_new : ptr := None.
  (** Implicit copy constructor and assignment: nanomap.h:59-179 declares neither,
      so a copy is a member-wise copy of [root]. *)
  Definition map_copy (root : ptr) : ptr := root.
  (** nanomap.h:124 ~map(). *)
  Definition map_destroy (h : nheap) (root : ptr) : res nheap := delete_ (depth h) h root.
  (** nanomap.h:150-154 insert(x): (new root, (iterator, inserted)). *)
  Definition map_insert (h : nheap) (root : ptr) (k : K) (v : T)
    : res (ptr * (ptr * bool) * nheap) := insert_ (depth h) h root k v.
  (** nanomap.h:141-143 m[k] as an lvalue: m[k] = v. *)
  Definition map_assign (h : nheap) (root : ptr) (k : K) (v : T) : res (ptr * nheap) :=
    '(root', (it, _), h1) <- map_insert h root k dflt ;;
    n <- ldn h1 it ;;
    h2 <- stn h1 it (Node (nkey n) v (npri n) (ch0 n) (ch1 n)) ;;
    Ok (root', h2).
  (** nanomap.h:141-143 m[k] as an rvalue. *)
  Definition map_at (h : nheap) (root : ptr) (k : K) : res (ptr * T * nheap) :=
    '(root', (it, _), h1) <- map_insert h root k dflt ;;
    n <- ldn h1 it ;;
    Ok (root', nval n, h1).
  (** nanomap.h:159-162 find; the node pointer of the iterator, null = end().
      (As written the const overloads pass a const map* to iterator's map*
      constructor, so they do not compile if instantiated; the intended reading
      is modelled.) *)
  Definition map_find (h : nheap) (root : ptr) (k : K) : res ptr := find_ (depth h) h root k.
  (** nanomap.h:165-168 upper_bound. *)
  Definition map_upper_bound (h : nheap) (root : ptr) (k : K) : res ptr :=
    upper_bound_ (depth h) h root k.
  (** nanomap.h:138 empty. *)
  Definition map_empty (root : ptr) : bool := match root with None => true | Some _ => false end.
  (** nanomap.h:129 begin(): an iterator to the root node. *)
  Definition map_begin (root : ptr) : ptr := root.
  (** nanomap.h:132 end(). *)
  Definition map_end : ptr := None.
  (** nanomap.h:85-90 iterator::operator++. *)
  Definition it_next (h : nheap) (root : ptr) (p : ptr) : res ptr :=
    n <- ldn h p ;; upper_bound_ (depth h) h root (nkey n).
  (** nanomap.h:93-97 iterator::operator* / operator->. *)
  Definition it_deref (h : nheap) (p : ptr) : res (K * T) :=
    n <- ldn h p ;; Ok (nkey n, nval n).
  (** nanomap.h:114-115 isEnd. *)
  Definition is_end (p : ptr) : bool := match p with None => true | Some _ => false end.

  (** nanomap.h:99-103 iterator::operator== ([veq] is operator== of T; the pair
      operator== is nanoutility.h:42-45).  [*rhs] only forms a reference, the
      null node is accessed when the pairs are compared. *)
  Definition it_eq (veq : T -> T -> bool) (h : nheap) (a b : ptr) : res bool :=
    if is_end b && is_end a then Ok true
    else nb <- ldn h b ;; na <- ldn h a ;;
         Ok (eqb (nkey nb) (nkey na) && veq (nval nb) (nval na)).
  (** nanomap.h:105-112 iterator::operator!= (pair has no operator!=, so before
      C++20 this compiles only if the third case is never instantiated; C++20
      rewrites it to !(==), which is modelled). *)
  Definition it_ne (veq : T -> T -> bool) (h : nheap) (a b : ptr) : res bool :=
    if is_end b && is_end a then Ok false
    else if is_end b || is_end a then Ok true
    else nb <- ldn h b ;; na <- ldn h a ;;
         Ok (negb (eqb (nkey nb) (nkey na) && veq (nval nb) (nval na))).

  (** The loop for (it = from; it != end(); ++it) out.push_back( *it ). *)
  Fixpoint iterate (fuel : nat) (h : nheap) (root p : ptr) : res (list (K * T)) :=
    match fuel with
    | O => UB NoReturn
    | S f =>
      if is_end p then Ok []
      else kv <- it_deref h p ;; q <- it_next h root p ;;
           l <- iterate f h root q ;; Ok (kv :: l)
    end.
  (** for (it = m.begin(); it != m.end(); ++it), nanomap.h:129-132. *)
  Definition iterate_all (h : nheap) (root : ptr) : res (list (K * T)) :=
    iterate (depth h) h root (map_begin root).
End Map.
Arguments node K T : clear implicits.
Arguments nheap K T : clear implicits.

(** Operation histories over any number of maps sharing the node heap. *)
Inductive mop (K T : Type) : Type :=
| MNew                           (* map<K,T> m; *)
| MInsert (m : nat) (k : K) (v : T)
| MAssign (m : nat) (k : K) (v : T)   (* m[k] = v *)
| MAt (m : nat) (k : K)               (* m[k] *)
| MFind (m : nat) (k : K)             (* find(k), dereferenced if not end *)
| MUpper (m : nat) (k : K)            (* upper_bound(k), dereferenced if not end *)
| MEmpty (m : nat)
| MDestroy (m : nat).
Arguments MNew {K T}. Arguments MInsert {K T}. Arguments MAssign {K T}.
Arguments MAt {K T}. Arguments MFind {K T}. Arguments MUpper {K T}.
Arguments MEmpty {K T}. Arguments MDestroy {K T}.

(** What a client sees of one operation. *)
Inductive mobs (K T : Type) : Type :=
| ONone
| OBool (b : bool)
| OVal (v : T)
| OIns (kv : K * T) (inserted : bool)
| OIt (kv : option (K * T)).
Arguments ONone {K T}. Arguments OBool {K T}. Arguments OVal {K T}.
Arguments OIns {K T}. Arguments OIt {K T}.

Section MapRun.
  Context {K T : Type}.
  Variables (eqb gtb ltb : K -> K -> bool) (dflt : T) (pri : nat -> Z).
  Notation heap := (nheap K T).

  (** Objects: [Some root] while alive, [None] after destruction. *)
  Record mworld := MWorld { mh : heap; maps : list (option ptr) }.

  (** no code counterpart: variable lookup *)
  Definition get_map (w : mworld) (m : nat) : res ptr :=
    match nth_error (maps w) m with Some (Some r) => Ok r | _ => UB NoObject end.
  (* harness: store the new root of object m *)
  Definition put_map (w : mworld) (m : nat) (r : option ptr) (h : heap) : mworld :=
    MWorld h (set_nth (maps w) m r).
  (* harness: dereference an iterator unless it is end() *)
  Definition obs_it (h : heap) (p : ptr) : res (mobs K T) :=
    match p with
    | None => Ok (OIt None)
    | Some _ => kv <- it_deref h p ;; Ok (OIt (Some kv))
    end.

  (** One client operation; calls the member functions above. *)
  Definition mstep (w : mworld) (o : mop K T) : res (mobs K T * mworld) :=
    match o with
    | MNew => Ok (ONone, MWorld (mh w) (maps w ++ [Some map_new]))
    | MInsert m k v =>
      r <- get_map w m ;;
      '(r', (it, b), h') <- map_insert eqb gtb pri (mh w) r k v ;;
      kv <- it_deref h' it ;;
      Ok (OIns kv b, put_map w m (Some r') h')
    | MAssign m k v =>
      r <- get_map w m ;;
      '(r', h') <- map_assign eqb gtb dflt pri (mh w) r k v ;;
      Ok (ONone, put_map w m (Some r') h')
    | MAt m k =>
      r <- get_map w m ;;
      '(r', v, h') <- map_at eqb gtb dflt pri (mh w) r k ;;
      Ok (OVal v, put_map w m (Some r') h')
    | MFind m k =>
      r <- get_map w m ;; p <- map_find eqb gtb (mh w) r k ;;
      o <- obs_it (mh w) p ;; Ok (o, w)
    | MUpper m k =>
      r <- get_map w m ;; p <- map_upper_bound ltb (mh w) r k ;;
      o <- obs_it (mh w) p ;; Ok (o, w)
    | MEmpty m => r <- get_map w m ;; Ok (OBool (map_empty r), w)
    | MDestroy m =>
      r <- get_map w m ;; h' <- map_destroy (mh w) r ;;
      Ok (ONone, put_map w m None h')
    end.

  (* harness: run a history and collect the observations *)
  Fixpoint mrun (w : mworld) (ops : list (mop K T)) : res (list (mobs K T) * mworld) :=
    match ops with
    | [] => Ok ([], w)
    | o :: t => '(x, w1) <- mstep w o ;; '(xs, w2) <- mrun w1 t ;; Ok (x :: xs, w2)
    end.

  (* harness: no map object yet *)
  Definition mworld0 : mworld := MWorld nempty [].
End MapRun.
Arguments mworld K T : clear implicits.
