(** swap() of tables whose allocators may be unequal: swiss_table::swap (swiss_table.hpp
    1140-1146) with swap_buffers (1531-1536) and swap_data (584-592, 719-726), and
    dense_table::swap (dense_table.hpp 460-478) with swap_buffers (892-900).

    The tables are those of BufferModel.v (allocators, buffers, sizes).  [pocs]:
    propagate_on_container_swap of the allocator.  [checked]: the assertions count (in debug
    builds they trap, in release builds TPP_ASSERT is TPP_ASSUME, utility.hpp 164, and a
    violation is undefined); [checked = false] ignores them. *)
From Coq Require Import ZArith List Bool Lia.
From Verif Require Import Base BufferModel.
Import ListNotations.
Open Scope Z_scope.

(** Statements: those of BufferModel.v, and swaps that the allocator requirements allow. *)
Inductive pstmt : Type := PStmt (c : tstmt) | PSwap (i j : nat).

Section Swap.
Variables (pocs checked : bool).

(** swiss_table::swap calls swap_buffers, not the swap of the buffer class (593-600, 727-732):
    capacity and pointers are exchanged, the allocators are not, whatever [pocs] is. *)
Definition swiss_swap (t u : stab) : res (stab * stab) :=
  let* _ := guard (negb checked || (sb_a (st_b t) =? sb_a (st_b u))) AssertFailed in
  let take (a : Z) (b : sbuf) := mksb a (sb_meta b) (sb_nodes b) (sb_cap b) in
  Ok (mkst (take (sb_a (st_b t)) (st_b u)) (st_size u), mkst (take (sb_a (st_b u)) (st_b t)) (st_size t)).
(** dense_table::swap: the allocators are exchanged at 468-471, the assertions are after that. *)
Definition dense_swap (t u : dtab) : res (dtab * dtab) :=
  let '(a, b) := if pocs then (dt_a u, dt_a t) else (dt_a t, dt_a u) in
  let* _ := guard (negb checked || (a =? b)) AssertFailed in
  let take (a : Z) (s : dtab) := mkdt a (dt_elems s) (dt_ecap s) (dt_bucks s) (dt_bcap s) (dt_size s) in
  Ok (take a u, take b t).

(** The program calls swap only if the allocators are equal or propagate: other swaps are
    skipped. *)
Definition may_swap (a b : Z) : bool := pocs || (a =? b).

Section Sparse.
Variables (wd sz : Z) (combined pocca pocma : bool).
Definition swiss_pexec (v : tenv) (w : tworld stab) (c : pstmt) : res (tworld stab) :=
  match c with
  | PStmt c => let* x := swiss_exec false wd sz combined pocca pocma v w c in Ok (fst x)
  | PSwap i j =>
    match tw_t w i, tw_t w j with
    | Some t, Some u =>
      if may_swap (sb_a (st_b t)) (sb_a (st_b u)) then
        let* x := swiss_swap t u in Ok (mktw (tw_l w) (putt (putt (tw_t w) i (Some (fst x))) j (Some (snd x))))
      else Ok w
    | _, _ => Ok w
    end
  end.
Fixpoint swiss_prun (w : tworld stab) (h : list (tenv * pstmt)) : res (tworld stab) :=
  match h with [] => Ok w | (v, c) :: r => let* w1 := swiss_pexec v w c in swiss_prun w1 r end.
End Sparse.

Section Dense.
Variables (pocca pocma : bool).
Definition dense_pexec (v : tenv) (w : tworld dtab) (c : pstmt) : res (tworld dtab) :=
  match c with
  | PStmt c => let* x := dense_exec false pocca pocma v w c in Ok (fst x)
  | PSwap i j =>
    match tw_t w i, tw_t w j with
    | Some t, Some u =>
      if may_swap (dt_a t) (dt_a u) then
        let* x := dense_swap t u in Ok (mktw (tw_l w) (putt (putt (tw_t w) i (Some (fst x))) j (Some (snd x))))
      else Ok w
    | _, _ => Ok w
    end
  end.
Fixpoint dense_prun (w : tworld dtab) (h : list (tenv * pstmt)) : res (tworld dtab) :=
  match h with [] => Ok w | (v, c) :: r => let* w1 := dense_pexec v w c in dense_prun w1 r end.
End Dense.
End Swap.

(** Programs in which nothing fails that must not (as in BufferModel.v). *)
Definition swiss_pfine (vc : tenv * pstmt) : Prop := match snd vc with PStmt c => swiss_fine (fst vc, c) | PSwap _ _ => True end.
Definition dense_pfine (vc : tenv * pstmt) : Prop := match snd vc with PStmt c => dense_fine (fst vc, c) | PSwap _ _ => True end.
(** The statement is a swap of tables with unequal allocators (that propagate). *)
Definition swiss_uneq (pocs : bool) (w : tworld stab) (c : pstmt) : Prop :=
  exists i j t u, c = PSwap i j /\ pocs = true /\ tw_t w i = Some t /\ tw_t w j = Some u /\ sb_a (st_b t) <> sb_a (st_b u).
Definition dense_uneq (pocs : bool) (w : tworld dtab) (c : pstmt) : Prop :=
  exists i j t u, c = PSwap i j /\ pocs = true /\ tw_t w i = Some t /\ tw_t w j = Some u /\ dt_a t <> dt_a u.
(** When no table is left, no block is outstanding. *)
Definition settled {T} (w : tworld T) : Prop := (forall i, tw_t w i = None) -> forall p, l_live (tw_l w) p = None.
