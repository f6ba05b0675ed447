(** swap() with allocators that propagate on swap (C73). *)
From Coq Require Import ZArith List Bool Lia.
From Verif Require Import Base BufferModel SwapModel SwapProofs.
Import ListNotations.
Open Scope Z_scope.

(** C73: in every program with any number of allocators, whatever propagates, blocks are
    returned only with the right allocator and count and nothing is left when the tables are
    gone, until the program swaps two tables with unequal allocators: then the assertion in
    swap fails.  Missing: what happens then (below). *)
Theorem C73_sparse_partial : forall pocs wd sz combined pocca pocma h, (combined = true -> pocca = false) -> (combined = true -> pocma = false) -> Forall swiss_pfine h ->
  (exists w, swiss_prun pocs true wd sz combined pocca pocma nothing h = Ok w /\ settled w) \/
  swiss_prun pocs true wd sz combined pocca pocma nothing h = Err AssertFailed /\
  exists h1 v c h2 w1, h = h1 ++ (v, c) :: h2 /\ swiss_prun pocs true wd sz combined pocca pocma nothing h1 = Ok w1 /\ settled w1 /\ swiss_uneq pocs w1 c.
Proof. exact (fun pocs wd sz combined pocca pocma h Hc Hm F => sparse_all pocs wd sz combined pocca pocma Hc Hm h F). Qed.
Print Assumptions C73_sparse_partial.
Theorem C73_dense_partial : forall pocs pocca pocma h, Forall dense_pfine h ->
  (exists w, dense_prun pocs true pocca pocma nothing h = Ok w /\ settled w) \/
  dense_prun pocs true pocca pocma nothing h = Err AssertFailed /\
  exists h1 v c h2 w1, h = h1 ++ (v, c) :: h2 /\ dense_prun pocs true pocca pocma nothing h1 = Ok w1 /\ settled w1 /\ dense_uneq pocs w1 c.
Proof. exact (fun pocs pocca pocma h F => dense_all pocs pocca pocma h F). Qed.
Print Assumptions C73_dense_partial.

(** Dense tables: only the assertions are wrong.  Ignoring them, all programs keep the books and
    swap exchanges the tables with their allocators. *)
Theorem C73_dense_free : forall pocs pocca pocma h, Forall dense_pfine h -> exists w, dense_prun pocs false pocca pocma nothing h = Ok w /\ settled w /\
  forall i j t u v, pocs = true -> i <> j -> tw_t w i = Some t -> tw_t w j = Some u ->
  exists w', dense_pexec pocs false pocca pocma v w (PSwap i j) = Ok w' /\ tw_t w' i = Some u /\ tw_t w' j = Some t.
Proof. exact (fun pocs pocca pocma h F => dense_free pocs pocca pocma h F). Qed.
Print Assumptions C73_dense_free.

(** Every swap of dense tables with unequal allocators that propagate violates an assertion. *)
Theorem C73_dense_refuted : forall pocca pocma v w i j t u, tw_t w i = Some t -> tw_t w j = Some u -> dt_a t <> dt_a u ->
  dense_pexec true true pocca pocma v w (PSwap i j) = Err AssertFailed.
Proof. exact (fun pocca pocma v w i j t u Hi Hj Hn => dense_uneq_checked true pocca pocma v w (PSwap i j) (ex_intro _ i (ex_intro _ j (ex_intro _ t (ex_intro _ u (conj eq_refl (conj eq_refl (conj Hi (conj Hj Hn))))))))). Qed.
Print Assumptions C73_dense_refuted.
(** For sparse tables too; and ignoring the assertion, the destructor then returns the buffer to
    the wrong allocator. *)
Theorem C73_sparse_refuted : forall wd sz combined pocca pocma h w i j t u, (combined = true -> pocca = false) -> (combined = true -> pocma = false) -> Forall swiss_pfine h ->
  swiss_prun true true wd sz combined pocca pocma nothing h = Ok w -> i <> j ->
  tw_t w i = Some t -> tw_t w j = Some u -> sb_a (st_b t) <> sb_a (st_b u) -> sb_cap (st_b u) <> 0 ->
  forall v, swiss_pexec true true wd sz combined pocca pocma v w (PSwap i j) = Err AssertFailed /\
  exists w', swiss_pexec true false wd sz combined pocca pocma v w (PSwap i j) = Ok w' /\
  forall v', swiss_pexec true false wd sz combined pocca pocma v' w' (PStmt (TDestroy i)) = Err BadFree.
Proof.
  exact (fun wd sz combined pocca pocma h w i j t u Hc Hm F R Hij Hi Hj Hn Hz =>
    sparse_wrong_reach true wd sz combined pocca pocma Hc Hm h w i j t u F R eq_refl Hij Hi Hj Hn Hz).
Qed.
Print Assumptions C73_sparse_refuted.

Definition fine : tenv := mktenv [] true.
Definition prog (l : list pstmt) : list (tenv * pstmt) := map (fun c => (fine, c)) l.
Definition outstanding {T} (x : res (tworld T)) : res (list Z) :=
  match x with Ok w => Ok (filter (fun p => match l_live (tw_l w) p with Some _ => true | None => false end) (zrange (l_next (tw_l w)))) | Err e => Err e end.
(** Two tables with elements, allocators 7 and 9, and a third with allocator 7. *)
Definition three : list pstmt :=
  map PStmt [TNew 0 7; TResize 0 3; TCount 0 2; TBuckets 0 8; TNew 1 9; TResize 1 7; TBuckets 1 16; TCount 1 5; TSized 2 7 15].
Definition ends : list pstmt := map PStmt [TDestroy 0; TDestroy 1; TDestroy 2].
(** Swaps of equal allocators, also a table with itself, and (without propagation) a swap that
    the program must not do. *)
Example C73_equal_case : Forall swiss_pfine (prog (three ++ [PSwap 0 2; PSwap 1 1] ++ ends)) /\ forall pocs combined,
  outstanding (swiss_prun pocs true 16 24 combined false false nothing (prog (three ++ [PSwap 0 2; PSwap 1 1]))) <> Ok [] /\
  outstanding (swiss_prun pocs true 16 24 combined false false nothing (prog (three ++ [PSwap 0 2; PSwap 1 1] ++ ends))) = Ok [] /\
  outstanding (dense_prun pocs true false false nothing (prog (three ++ [PSwap 0 2; PSwap 1 1] ++ ends))) = Ok [] /\
  outstanding (dense_prun false true false false nothing (prog (three ++ [PSwap 0 1] ++ ends))) = Ok [].
Proof. split; [repeat constructor; cbn; try easy|]. intros [] []; vm_compute; repeat split; discriminate. Qed.
(** Unequal allocators. *)
Example C73_unequal_case : forall combined,
  swiss_prun true true 16 24 combined false false nothing (prog (three ++ [PSwap 0 1])) = Err AssertFailed /\
  dense_prun true true false false nothing (prog (three ++ [PSwap 0 1])) = Err AssertFailed /\
  outstanding (swiss_prun true false 16 24 combined false false nothing (prog (three ++ [PSwap 0 1]))) <> Ok [] /\
  swiss_prun true false 16 24 combined false false nothing (prog (three ++ [PSwap 0 1] ++ ends)) = Err BadFree /\
  swiss_prun true false 16 24 combined false false nothing (prog (three ++ [PSwap 0 1; PStmt (TResize 0 15)])) = Err BadFree /\
  outstanding (dense_prun true false false false nothing (prog (three ++ [PSwap 0 1; PStmt (TResize 0 31); PStmt (TBuckets 0 64)] ++ ends))) = Ok [].
Proof. intros []; vm_compute; repeat split; discriminate. Qed.
