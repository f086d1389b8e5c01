(** Model of __is_swappable and __is_nothrow_swappable (include/nanotype_traits.h 1175-1250) with the two swap templates they find (1180-1194), and of the condition on the free swap of two
    unique_ptrs (include/nanomemory.h 838-845).

    On top of IcModel: what classes can be constructed from and so on is arbitrary, and so is [own]: whether argument-dependent lookup finds for two lvalues of a type a swap that is
    chosen before the templates of the library, and whether that is noexcept.  [None] is a program that does not compile.  That such a swap is ambiguous with the templates, or
    returns __nat, is not considered. *)
From Coq Require Import List Bool.
From Verif Require Import TyModel TraitModel IcModel.
Import ListNotations.

Section Sw.
  Variable dtor : nat -> bool.
  Variable ctor : nat -> list ty -> bool.
  Variables conv pass assign : ty -> ty -> bool.
  Variable quiet_init : ty -> list ty -> bool.
  Variables quiet_pass quiet_assign : ty -> ty -> bool.
  Variable own : ty -> option bool.

  (** nanotype_traits.h:1180-1187 the condition __swap_result_t on swap(_Tp&, _Tp&); both traits are instantiated *)
  Definition generic (U : ty) : option bool := c <- is_move_constructible dtor ctor conv pass U ; Some (c && is_move_assignable assign U).
  (** nanotype_traits.h:1207-1223 __test_swap for two lvalues of type [U]: the templates are tried (their conditions are instantiated) also where the type has its own swap; the one for
      arrays (1189-1194) asks __is_swappable of the elements *)
  Fixpoint swap_lvalues (U : ty) : option bool :=
    g <- generic U ;
    a <- match U with TArr E _ => swap_lvalues E | _ => Some false end ;
    Some (match own U with Some _ => true | None => g || a end).
  (** nanotype_traits.h:1238-1242 __is_swappable: T& is written out, so it must exist *)
  Definition is_swappable (T : ty) : option bool := match lref T with Some (TLref U) => swap_lvalues U | _ => None end.

  (** nanotype_traits.h:1013-1017, 1030-1035 *)
  Definition is_nothrow_move_constructible (U : ty) : option bool := is_nothrow_constructible dtor ctor conv pass quiet_init quiet_pass U [add_rvalue_reference U].
  Definition is_nothrow_move_assignable (U : ty) : bool := is_nothrow_assignable assign quiet_assign (add_lvalue_reference U) (add_rvalue_reference U).
  (** nanotype_traits.h:1225-1236 __nothrow_swappable_with for two lvalues of type [U]: the noexcept of the swap chosen (1186-1187, 1194) *)
  Fixpoint nothrow_lvalues (U : ty) : option bool :=
    b <- swap_lvalues U ;
    if b then
      match own U with
      | Some q => Some q
      | None => match U with TArr E _ => nothrow_lvalues E | _ => c <- is_nothrow_move_constructible U ; Some (c && is_nothrow_move_assignable U) end
      end
    else Some false.
  (** nanotype_traits.h:1244-1248 __is_nothrow_swappable *)
  Definition is_nothrow_swappable (T : ty) : option bool := match lref T with Some (TLref U) => nothrow_lvalues U | _ => None end.

  (** nanomemory.h:838-845 is swap(unique_ptr<T, D>&, unique_ptr<T, D>&) there *)
  Definition unique_ptr_swap (D : ty) : option bool := is_swappable D.
End Sw.
