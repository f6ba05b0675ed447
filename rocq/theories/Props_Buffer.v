(** Table buffers and allocations (C26, C27). *)
From Coq Require Import ZArith List Bool Lia.
From Verif Require Import Base BufferModel BufferProofs.
Import ListNotations.
Open Scope Z_scope.

(** C26: in the combined buffer the metadata bytes come before the slots, the slots end where
    the allocation ends, are aligned if the allocation is, and less than one slot is unused. *)
Theorem C26_layout : forall wd sz n, 0 < wd -> 0 < sz -> 0 <= n -> forall base, let slot i := base + sz * (nodes_start wd sz n + i) in
  (forall j, 0 <= j < n + wd -> base <= base + j < slot 0) /\
  (forall k, 0 <= k < n -> slot 0 <= slot k /\ slot k + sz <= base + sz * buffer_size wd sz n /\ forall al, (al | sz) -> (al | base) -> (al | slot k)) /\
  slot n = base + sz * buffer_size wd sz n /\ slot 0 < base + (n + wd) + sz.
Proof. exact layout. Qed.
Print Assumptions C26_layout.
Example C26_case : nodes_start 16 24 7 = 1 /\ buffer_size 16 24 7 = 8 /\ nodes_start 16 24 15 = 2 /\ nodes_start 16 1 7 = 23 /\ nodes_start 8 48 1023 = 22 /\ buffer_size 8 48 1023 = 1045.
Proof. repeat split; reflexivity. Qed.

(** C27: every program over sparse tables (any number of allocators, both propagation traits)
    returns blocks only with the right allocator and count, and when no table is left nothing
    is outstanding; also if allocations of reserve, rehash and insertions fail.
    Missing: tables constructed for 0 buckets, other failures, the combined buffer with
    propagating allocators, and null pointers passed to deallocate (all refuted below). *)
Theorem C27_sparse_partial : forall wd sz combined pocca pocma h, (combined = true -> pocca = false /\ pocma = false) -> Forall swiss_fine h ->
  exists w, swiss_allocs false wd sz combined pocca pocma nothing h = Ok w /\ ((forall i, tw_t w i = None) -> forall p, l_live (tw_l w) p = None).
Proof. exact swiss_ledger. Qed.
Print Assumptions C27_sparse_partial.
(** The same for dense tables; also if allocations of the element array fail. *)
Theorem C27_dense_partial : forall pocca pocma h, Forall dense_fine h ->
  exists w, dense_allocs false pocca pocma nothing h = Ok w /\ ((forall i, tw_t w i = None) -> forall p, l_live (tw_l w) p = None).
Proof. exact dense_ledger. Qed.
Print Assumptions C27_dense_partial.

Definition fine : tenv := mktenv [] true.
Definition prog (l : list tstmt) : list (tenv * tstmt) := map (fun c => (fine, c)) l.
Definition outstanding {T} (x : res (tworld T)) : res (list Z) :=
  match x with Ok w => Ok (filter (fun p => match l_live (tw_l w) p with Some _ => true | None => false end) (zrange (l_next (tw_l w)))) | Err e => Err e end.
Definition usual : list tstmt :=
  [TNew 0 7; TResize 0 3; TCount 0 2; TBuckets 0 8; TSized 1 7 15; TCopy 1 0; TCopyNew 2 1 9; TMove 0 2; TResize 2 31; TBuckets 2 40; TMoveNew 3 2 7; TSwap 0 1; TCount 3 20; TMove 1 3].
Definition ends : list tstmt := [TDestroy 0; TDestroy 1; TDestroy 2; TDestroy 3].
Example C27_sparse_case : Forall swiss_fine (prog (usual ++ ends)) /\ forall a b,
  outstanding (swiss_allocs false 16 24 false a b nothing (prog usual)) <> Ok [] /\ outstanding (swiss_allocs false 16 24 false a b nothing (prog (usual ++ ends))) = Ok [] /\
  outstanding (swiss_allocs false 16 24 true false false nothing (prog (usual ++ ends))) = Ok [].
Proof.
  split; [repeat constructor; cbn; try easy|]. intros [] []; vm_compute; repeat split; discriminate.
Qed.
Example C27_dense_case : Forall dense_fine (prog (usual ++ ends)) /\ forall a b,
  outstanding (dense_allocs false a b nothing (prog usual)) <> Ok [] /\ outstanding (dense_allocs false a b nothing (prog (usual ++ ends))) = Ok [].
Proof.
  split; [repeat constructor; cbn; try easy|]. intros [] []; vm_compute; repeat split; discriminate.
Qed.

(** Assigning a table with elements to one that was constructed for 0 buckets (for example from
    an empty range) leaks the metadata and node blocks of the latter. *)
Theorem C27_leak_refuted : forall pocma,
  outstanding (swiss_allocs false 16 24 false false pocma nothing (prog [TSized 0 7 0; TNew 1 7; TResize 1 3; TCount 1 2; TCopy 0 1; TDestroy 0; TDestroy 1])) = Ok [1; 2] /\
  outstanding (swiss_allocs false 16 24 true false pocma nothing (prog [TSized 0 7 0; TNew 1 7; TResize 1 3; TCount 1 2; TCopy 0 1; TDestroy 0; TDestroy 1])) = Ok [1].
Proof. intros []; vm_compute; split; reflexivity. Qed.
Print Assumptions C27_leak_refuted.

(** The combined buffer with a propagating allocator (for move assignment: std::allocator): every
    assignment to a table with a buffer deallocates with a wrong count. *)
Theorem C27_combined_refuted : (forall wd sz L t b, 0 < wd -> 0 < sz -> 0 <= sb_cap t -> sb_nodes t <> 0 ->
    l_live L (sb_nodes t) = Some (com_block wd sz (sb_a t) (sb_cap t)) -> com_assign false true L t b = Err BadFree) /\
  swiss_allocs false 16 24 true false true nothing (prog [TNew 0 7; TResize 0 3; TNew 1 7; TMove 0 1]) = Err BadFree.
Proof. exact (conj combined_wrong eq_refl). Qed.
Print Assumptions C27_combined_refuted.

(** Failing allocations: the constructors leak the first of the two blocks; copy assignment keeps
    pointers to the deallocated blocks, and the destructor deallocates them again.  The same for
    dense tables, and there also in rehash. *)
Definition failing (l : list bool) : tenv := mktenv l true.
Theorem C27_failure_refuted :
  outstanding (swiss_allocs false 16 24 false false true nothing [(failing [true; false], TSized 0 7 3)]) = Ok [1] /\
  swiss_allocs false 16 24 false false true nothing (prog [TNew 0 7; TResize 0 3; TNew 1 7; TResize 1 7; TCount 1 4] ++ [(failing [false], TCopy 0 1); (fine, TDestroy 0)]) = Err BadFree /\
  outstanding (dense_allocs false false true nothing [(failing [true; false], TSized 0 7 3)]) = Ok [1] /\
  dense_allocs false false true nothing (prog [TSized 0 7 8] ++ [(failing [false], TBuckets 0 16); (fine, TDestroy 0)]) = Err BadFree.
Proof. vm_compute. repeat split; reflexivity. Qed.
Print Assumptions C27_failure_refuted.
(** A throwing element copy in a copy constructor leaks both blocks. *)
Theorem C27_throw_refuted :
  outstanding (swiss_allocs false 16 24 false false true nothing (prog [TNew 0 7; TResize 0 3; TCount 0 1] ++ [(mktenv [] false, TCopyNew 1 0 7); (fine, TDestroy 0)])) = Ok [3; 4] /\
  outstanding (dense_allocs false false true nothing (prog [TSized 0 7 8; TCount 0 1] ++ [(mktenv [] false, TCopyNew 1 0 7); (fine, TDestroy 0)])) = Ok [3; 4].
Proof. vm_compute. split; reflexivity. Qed.
Print Assumptions C27_throw_refuted.

(** Null pointers are passed to deallocate: by the destructor of an empty sparse table, by its
    first insertion, by the move assignment of empty dense tables. *)
Theorem C27_null_refuted : forall combined,
  swiss_allocs true 16 24 combined false false nothing (prog [TNew 0 7; TDestroy 0]) = Err BadFree /\
  swiss_allocs true 16 24 combined false false nothing (prog [TNew 0 7; TResize 0 3]) = Err BadFree /\
  dense_allocs true false true nothing (prog [TNew 0 7; TNew 1 7; TMove 0 1]) = Err BadFree.
Proof. intros []; vm_compute; repeat split; reflexivity. Qed.
Print Assumptions C27_null_refuted.
