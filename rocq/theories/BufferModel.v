(** The table buffers and their allocations: swiss_table_buffer (separate and combined),
    realloc_buffer, and the buffers of dense_table; what the table classes do with them.
    Sources: tpp/detail/swiss_table.hpp 443-742, 836-889, 1377-1394, 1448-1545,
    tpp/detail/dense_table.hpp 215-309, 460-478, 765-930, tpp/detail/utility.hpp 233-250.

    Only allocations are modelled here: a table is its allocator, its buffer pointers with
    their counts and its number of elements.  Contents are modelled in SwissModel.v and
    DenseModel.v. *)
From Coq Require Import ZArith List Bool Lia.
From Verif Require Import Base.
Import ListNotations.
Open Scope Z_scope.

(** What an allocator instance was asked for: the instance (equal instances have equal
    numbers), the object type and the number of objects. *)
Inductive kind : Type := KMeta | KNode | KBucket | KElem.
Record block : Type := mkb { b_alloc : Z; b_kind : kind; b_count : Z }.
(** Allocations are numbered 1, 2, ..; the number stands for the pointer, 0 for null.  Numbers
    are not used twice, so that a second deallocation is an error even if the address is in
    use again. *)
Record ledger : Type := mkl { l_next : Z; l_live : Z -> option block }.
Definition no_blocks : ledger := mkl 1 (fun _ => None).

Definition kind_eqb (a b : kind) : bool :=
  match a, b with KMeta, KMeta | KNode, KNode | KBucket, KBucket | KElem, KElem => true | _, _ => false end.
Definition block_eqb (a b : block) : bool :=
  (b_alloc a =? b_alloc b) && kind_eqb (b_kind a) (b_kind b) && (b_count a =? b_count b).

(** std::allocator_traits::allocate; a zero count also gives a pointer that is not null (as
    operator new does).  [o] tells which of the coming allocations succeed (all that it does
    not mention do). *)
Definition obtain (L : ledger) (o : list bool) (b : block) : ledger * list bool * option Z :=
  match o with
  | false :: o' => (L, o', None)
  | _ => (mkl (l_next L + 1) (upd (l_live L) (l_next L) (Some b)), tl o, Some (l_next L))
  end.

Section Buffers.
(** [strict]: is deallocate(nullptr, n) an error (the allocator requirements do not allow it,
    std::allocator ignores it)?  [wd]: sizeof(meta_block).  [sz]: sizeof(Node). *)
Variables (strict : bool) (wd sz : Z).

(** std::allocator_traits::deallocate: the pointer must come from an equal allocator, with the
    same count. *)
Definition give_back (L : ledger) (p : Z) (b : block) : res ledger :=
  if p =? 0 then (if strict then Err BadFree else Ok L)
  else match l_live L p with
       | Some b' => if block_eqb b b' then Ok (mkl (l_next L) (upd (l_live L) p None)) else Err BadFree
       | None => Err BadFree
       end.

(** swiss_table_buffer: allocator, m_metadata, m_nodes, capacity (454-611); in the combined
    buffer (613-742) [sb_nodes] is m_data and [sb_meta] is not used. *)
Record sbuf : Type := mksb { sb_a : Z; sb_meta : Z; sb_nodes : Z; sb_cap : Z }.
Definition null_sbuf (a : Z) : sbuf := mksb a 0 0 0.
Definition meta_block (a n : Z) : block := mkb a KMeta (n + wd).
Definition node_block (a n : Z) : block := mkb a KNode n.

(** nodes_start, buffer_size: lines 620-630. *)
Definition nodes_start (n : Z) : Z :=
  let meta_bytes := n + wd in meta_bytes / sz + (if meta_bytes mod sz =? 0 then 0 else 1).
Definition buffer_size (n : Z) : Z := nodes_start n + n.

(** The outcome of a function: ledger, remaining allocation results, new object, and whether it
    returned (true) or threw (false). *)
Definition done (T : Type) : Type := res (ledger * list bool * T * bool).

(** resize, separate: lines 522-550 (the test at 544 is on the new capacity). *)
Definition sep_resize (L : ledger) (o : list bool) (t : sbuf) (n : Z) : done sbuf :=
  let a := sb_a t in
  match obtain L o (meta_block a n) with
  | (L1, o1, None) => Ok (L1, o1, t, false)
  | (L1, o1, Some m) =>
    match obtain L1 o1 (node_block a n) with
    | (L2, o2, None) => let* L3 := give_back L2 m (meta_block a n) in Ok (L3, o2, t, false)
    | (L2, o2, Some q) =>
      let* L3 := (if n =? 0 then Ok L2 else
        let* L3 := give_back L2 (sb_meta t) (meta_block a (sb_cap t)) in
        give_back L3 (sb_nodes t) (node_block a (sb_cap t))) in
      Ok (L3, o2, mksb a m q n, true)
    end
  end.
(** allocate, separate: lines 552-557. *)
Definition sep_allocate (L : ledger) (o : list bool) (t : sbuf) (n : Z) : done sbuf :=
  let a := sb_a t in
  match obtain L o (meta_block a n) with
  | (L1, o1, None) => Ok (L1, o1, t, false)
  | (L1, o1, Some m) =>
    match obtain L1 o1 (node_block a n) with
    | (L2, o2, None) => Ok (L2, o2, mksb a m (sb_nodes t) (sb_cap t), false)
    | (L2, o2, Some q) => Ok (L2, o2, mksb a m q n, true)
    end
  end.
(** reallocate, separate: lines 558-571. *)
Definition sep_reallocate (L : ledger) (o : list bool) (t : sbuf) (n : Z) : done sbuf :=
  let a := sb_a t in
  if sb_cap t <? n then
    let* L1 := (if sb_cap t =? 0 then Ok L else
      let* L1 := give_back L (sb_meta t) (meta_block a (sb_cap t)) in
      give_back L1 (sb_nodes t) (node_block a (sb_cap t))) in
    sep_allocate L1 o t n
  else Ok (L, o, t, true).
(** deallocate, separate: lines 572-579. *)
Definition sep_deallocate (L : ledger) (t : sbuf) : res ledger :=
  let* L1 := give_back L (sb_meta t) (meta_block (sb_a t) (sb_cap t)) in
  give_back L1 (sb_nodes t) (node_block (sb_a t) (sb_cap t)).
(** Copy and move assignment, separate: lines 476-507; [prop]: the propagation trait (the same
    for the two rebound allocators), [b]: the allocator of the other buffer. *)
Definition sep_assign (prop : bool) (L : ledger) (t : sbuf) (b : Z) : res (ledger * sbuf) :=
  if prop then let* L1 := sep_deallocate L t in Ok (L1, null_sbuf b) else Ok (L, t).

(** The combined buffer: resize 680-693, allocate 695-699, reallocate 700-708, deallocate
    709-714, assignments 644-665 (the count there is the capacity, not the buffer size). *)
Definition com_block (a n : Z) : block := node_block a (buffer_size n).
Definition com_resize (L : ledger) (o : list bool) (t : sbuf) (n : Z) : done sbuf :=
  let a := sb_a t in
  match obtain L o (com_block a n) with
  | (L1, o1, None) => Ok (L1, o1, t, false)
  | (L1, o1, Some p) =>
    let* L2 := give_back L1 (sb_nodes t) (com_block a (sb_cap t)) in Ok (L2, o1, mksb a 0 p n, true)
  end.
Definition com_allocate (L : ledger) (o : list bool) (t : sbuf) (n : Z) : done sbuf :=
  match obtain L o (com_block (sb_a t) n) with
  | (L1, o1, None) => Ok (L1, o1, t, false)
  | (L1, o1, Some p) => Ok (L1, o1, mksb (sb_a t) 0 p n, true)
  end.
Definition com_reallocate (L : ledger) (o : list bool) (t : sbuf) (n : Z) : done sbuf :=
  if sb_cap t <? n then
    let* L1 := (if sb_cap t =? 0 then Ok L else give_back L (sb_nodes t) (com_block (sb_a t) (sb_cap t))) in
    com_allocate L1 o t n
  else Ok (L, o, t, true).
Definition com_deallocate (L : ledger) (t : sbuf) : res ledger := give_back L (sb_nodes t) (com_block (sb_a t) (sb_cap t)).
Definition com_assign (prop : bool) (L : ledger) (t : sbuf) (b : Z) : res (ledger * sbuf) :=
  if prop then let* L1 := give_back L (sb_nodes t) (node_block (sb_a t) (sb_cap t)) in Ok (L1, null_sbuf b) else Ok (L, t).

(** Statements of a program over tables t0, t1, .. (as far as they concern buffers). *)
Inductive tstmt : Type :=
| TNew (i : nat) (a : Z)           (* ti constructed empty with allocator a *)
| TSized (i : nat) (a n : Z)       (* ti constructed with n buckets *)
| TCopyNew (i j : nat) (a : Z)     (* ti copy constructed from tj with allocator a *)
| TMoveNew (i j : nat) (a : Z)     (* ti move constructed from tj with allocator a *)
| TCopy (i j : nat)                (* ti = tj *)
| TMove (i j : nat)                (* ti = move(tj) *)
| TResize (i : nat) (n : Z)        (* ti gets a node (element) array for n: reserve, rehash, insertions *)
| TBuckets (i : nat) (n : Z)       (* dense: ti is rehashed to n buckets *)
| TCount (i : nat) (n : Z)         (* insertions and erasures in ti that need no allocation *)
| TSwap (i j : nat)                (* ti.swap(tj) *)
| TDestroy (i : nat).
(** Which allocations and whether the element constructors in the statement succeed. *)
Record tenv : Type := mktenv { te_alloc : list bool; te_ctor : bool }.

(** A program state: tables that are not alive are [None]. *)
Record tworld (T : Type) : Type := mktw { tw_l : ledger; tw_t : nat -> option T }.
Arguments mktw {T}. Arguments tw_l {T}. Arguments tw_t {T}.
Definition putt {T} (t : nat -> option T) (i : nat) (x : option T) : nat -> option T := fun j => if Nat.eqb j i then x else t j.

Section Swiss.
(** [combined]: builds with the combined buffer; [pocca], [pocma]: propagation traits. *)
Variables (combined pocca pocma : bool).
Record stab : Type := mkst { st_b : sbuf; st_size : Z }.

(** copy_data: lines 1448-1485.  Elements are constructed after the buffers; the size is set
    at the end (1474).  move_data (1486-1521) is the same for the buffers. *)
Definition swiss_copy_data (v : tenv) (L : ledger) (t other : stab) : done stab :=
  if st_size other =? 0 then Ok (L, te_alloc v, mkst (st_b t) 0, true)
  else let* x := (if combined then com_reallocate else sep_reallocate) L (te_alloc v) (st_b t) (sb_cap (st_b other)) in
       let '(L1, o1, b, ok) := x in
       Ok (L1, o1, mkst b (if ok && te_ctor v then st_size other else 0), ok && te_ctor v).
(** The moved-from table after move_data: lines 1517-1520. *)
Definition emptied (t : stab) : stab := mkst (st_b t) 0.

(** Statements that are not possible (a table that is not alive, construction of a table that
    is) or not allowed (swap of tables with unequal allocators, bucket counts that the
    assertion at 841 rejects, too small a node array) are skipped.
    838-842, 848-889, 1140-1146, 1377-1394; move_from: 1537-1543, swap_data: 584-592,
    719-726 (the exchanged buffers have equal allocators). *)
Definition swiss_exec (v : tenv) (w : tworld stab) (c : tstmt) : res (tworld stab * bool) :=
  let L := tw_l w in
  let put := fun L i x => mktw L (putt (tw_t w) i x) in
  match c with
  | TNew i a => match tw_t w i with Some _ => Ok (w, true) | None => Ok (put L i (Some (mkst (null_sbuf a) 0)), true) end
  | TSized i a n =>
    match tw_t w i with Some _ => Ok (w, true) | None =>
    if negb ((0 <=? n) && (Z.land (n + 1) n =? 0)) then Ok (w, true) else
    let* x := (if combined then com_allocate else sep_allocate) L (te_alloc v) (null_sbuf a) n in
    let '(L1, _, b, ok) := x in Ok (put L1 i (if ok then Some (mkst b 0) else None), ok)
    end
  | TCopyNew i j a =>
    match tw_t w i, tw_t w j with
    | None, Some u =>
      let* x := swiss_copy_data v L (mkst (null_sbuf a) 0) u in
      let '(L1, _, t', ok) := x in Ok (put L1 i (if ok then Some t' else None), ok)
    | _, _ => Ok (w, true)
    end
  | TMoveNew i j a =>
    match tw_t w i, tw_t w j with
    | None, Some u =>
      if a =? sb_a (st_b u) then
        Ok (mktw L (putt (putt (tw_t w) i (Some u)) j (Some (mkst (null_sbuf a) 0))), true)
      else
        let* x := swiss_copy_data v L (mkst (null_sbuf a) 0) u in
        let '(L1, _, t', ok) := x in
        Ok (mktw L1 (putt (putt (tw_t w) i (if ok then Some t' else None)) j (Some (if ok then emptied u else u))), ok)
    | _, _ => Ok (w, true)
    end
  | TCopy i j =>
    match tw_t w i, tw_t w j with
    | Some t, Some u =>
      if Nat.eqb i j then Ok (w, true) else
      let* x := (if combined then com_assign else sep_assign) pocca L (st_b t) (sb_a (st_b u)) in
      let '(L1, b) := x in
      let* y := swiss_copy_data v L1 (mkst b 0) u in
      let '(L2, _, t', ok) := y in Ok (put L2 i (Some t'), ok)
    | _, _ => Ok (w, true)
    end
  | TMove i j =>
    match tw_t w i, tw_t w j with
    | Some t, Some u =>
      if Nat.eqb i j then Ok (w, true) else
      let* x := (if combined then com_assign else sep_assign) pocma L (st_b t) (sb_a (st_b u)) in
      let '(L1, b) := x in
      if sb_a b =? sb_a (st_b u) then
        Ok (mktw L1 (putt (putt (tw_t w) i (Some u)) j (Some (mkst b 0))), true)
      else
        let* y := swiss_copy_data v L1 (mkst b 0) u in
        let '(L2, _, t', ok) := y in
        Ok (mktw L2 (putt (putt (tw_t w) i (Some t')) j (Some (if ok then emptied u else u))), ok)
    | _, _ => Ok (w, true)
    end
  | TResize i n =>
    match tw_t w i with
    | Some t =>
      if (n <=? 0) || (n <? st_size t) then Ok (w, true) else
      let* x := (if combined then com_resize else sep_resize) L (te_alloc v) (st_b t) n in
      let '(L1, _, b, ok) := x in Ok (put L1 i (Some (mkst b (st_size t))), ok)
    | None => Ok (w, true)
    end
  | TBuckets _ _ => Ok (w, true)
  | TCount i n =>
    match tw_t w i with
    | Some t => if (0 <=? n) && (n <=? sb_cap (st_b t)) then Ok (put L i (Some (mkst (st_b t) n)), true) else Ok (w, true)
    | None => Ok (w, true)
    end
  | TSwap i j =>
    match tw_t w i, tw_t w j with
    | Some t, Some u =>
      if sb_a (st_b t) =? sb_a (st_b u) then Ok (mktw L (putt (putt (tw_t w) i (Some u)) j (Some t)), true) else Ok (w, true)
    | _, _ => Ok (w, true)
    end
  | TDestroy i =>
    match tw_t w i with
    | Some t => let* L1 := (if combined then com_deallocate else sep_deallocate) L (st_b t) in Ok (put L1 i None, true)
    | None => Ok (w, true)
    end
  end.
Fixpoint swiss_allocs (w : tworld stab) (h : list (tenv * tstmt)) : res (tworld stab) :=
  match h with
  | [] => Ok w
  | (v, c) :: r => let* x := swiss_exec v w c in swiss_allocs (fst x) r
  end.
End Swiss.

Section Dense.
Variables (pocca pocma : bool).
(** The two arrays of a dense table: m_dense with m_dense_capacity, m_sparse with
    m_sparse_size; m_dense_size (dense_table.hpp 918-925). *)
Record dtab : Type := mkdt { dt_a : Z; dt_elems : Z; dt_ecap : Z; dt_bucks : Z; dt_bcap : Z; dt_size : Z }.
Definition null_dtab (a : Z) : dtab := mkdt a 0 0 0 0 0.
Definition elem_block (a n : Z) : block := mkb a KElem n.
Definition buck_block (a n : Z) : block := mkb a KBucket n.
Definition set_dsize (t : dtab) (n : Z) : dtab := mkdt (dt_a t) (dt_elems t) (dt_ecap t) (dt_bucks t) (dt_bcap t) n.
Definition set_elems (t : dtab) (p n : Z) : dtab := mkdt (dt_a t) p n (dt_bucks t) (dt_bcap t) (dt_size t).
Definition set_bucks (t : dtab) (p n : Z) : dtab := mkdt (dt_a t) (dt_elems t) (dt_ecap t) p n (dt_size t).

(** realloc_buffer: utility.hpp 233-250; the members are assigned after it returns. *)
Definition realloc_buffer (k : kind) (a : Z) (L : ledger) (o : list bool) (p n m : Z) : done (Z * Z) :=
  if n <? m then
    let* L1 := (if p =? 0 then Ok L else give_back L p (mkb a k n)) in
    match obtain L1 o (mkb a k m) with
    | (L2, o2, None) => Ok (L2, o2, (p, n), false)
    | (L2, o2, Some q) => Ok (L2, o2, (q, m), true)
    end
  else Ok (L, o, (p, n), true).
Definition realloc_bucks (L : ledger) (o : list bool) (t : dtab) (n : Z) : done dtab :=
  let* x := realloc_buffer KBucket (dt_a t) L o (dt_bucks t) (dt_bcap t) n in
  let '(L1, o1, (p, m), ok) := x in Ok (L1, o1, set_bucks t p m, ok).
Definition realloc_elems (L : ledger) (o : list bool) (t : dtab) (n : Z) : done dtab :=
  let* x := realloc_buffer KElem (dt_a t) L o (dt_elems t) (dt_ecap t) n in
  let '(L1, o1, (p, m), ok) := x in Ok (L1, o1, set_elems t p m, ok).
(** resize_data: lines 783-801. *)
Definition resize_data (L : ledger) (o : list bool) (t : dtab) (n : Z) : done dtab :=
  match obtain L o (elem_block (dt_a t) n) with
  | (L1, o1, None) => Ok (L1, o1, t, false)
  | (L1, o1, Some p) =>
    let* L2 := (if dt_elems t =? 0 then Ok L1 else give_back L1 (dt_elems t) (elem_block (dt_a t) (dt_ecap t))) in
    Ok (L2, o1, set_elems t p n, true)
  end.
(** copy_data, move_data: lines 824-886.  A throwing element constructor leaves the elements
    constructed so far. *)
Definition dense_copy_data (v : tenv) (L : ledger) (t other : dtab) : done dtab :=
  if dt_size other =? 0 then Ok (L, te_alloc v, set_dsize t 0, true)
  else let* x := realloc_bucks L (te_alloc v) t (dt_bcap other) in
       let '(L1, o1, t1, ok) := x in
       if ok then
         let* y := realloc_elems L1 o1 t1 (dt_size other) in
         let '(L2, o2, t2, ok) := y in
         Ok (L2, o2, set_dsize t2 (if ok && te_ctor v then dt_size other else 0), ok && te_ctor v)
       else Ok (L1, o1, t1, false).
(** Assignment with a propagating allocator: lines 261-270, 287-296. *)
Definition dense_assign (prop : bool) (L : ledger) (t : dtab) (b : Z) : res (ledger * dtab) :=
  if prop then
    let* L1 := give_back L (dt_bucks t) (buck_block (dt_a t) (dt_bcap t)) in
    let* L2 := give_back L1 (dt_elems t) (elem_block (dt_a t) (dt_ecap t)) in
    Ok (L2, null_dtab b)
  else Ok (L, set_dsize t 0).
(** Constructor with a bucket count (217-225), destructor (304-309), and the statements as for
    the sparse table: 229-302, 460-478, 765-774, 906-914. *)
Definition dense_exec (v : tenv) (w : tworld dtab) (c : tstmt) : res (tworld dtab * bool) :=
  let L := tw_l w in
  let put := fun L i x => mktw L (putt (tw_t w) i x) in
  match c with
  | TNew i a => match tw_t w i with Some _ => Ok (w, true) | None => Ok (put L i (Some (null_dtab a)), true) end
  | TSized i a n =>
    match tw_t w i with Some _ => Ok (w, true) | None =>
    if n <? 0 then Ok (w, true) else
    if n =? 0 then Ok (put L i (Some (null_dtab a)), true) else
    match obtain L (te_alloc v) (elem_block a n) with
    | (L1, o1, None) => Ok (put L1 i None, false)
    | (L1, o1, Some p) =>
      match obtain L1 o1 (buck_block a n) with
      | (L2, _, None) => Ok (put L2 i None, false)
      | (L2, _, Some q) => Ok (put L2 i (Some (mkdt a p n q n 0)), true)
      end
    end
    end
  | TCopyNew i j a =>
    match tw_t w i, tw_t w j with
    | None, Some u =>
      let* x := dense_copy_data v L (null_dtab a) u in
      let '(L1, _, t', ok) := x in Ok (put L1 i (if ok then Some t' else None), ok)
    | _, _ => Ok (w, true)
    end
  | TMoveNew i j a =>
    match tw_t w i, tw_t w j with
    | None, Some u =>
      if a =? dt_a u then Ok (mktw L (putt (putt (tw_t w) i (Some u)) j (Some (null_dtab a))), true)
      else
        let* x := dense_copy_data v L (null_dtab a) u in
        let '(L1, _, t', ok) := x in
        Ok (mktw L1 (putt (putt (tw_t w) i (if ok then Some t' else None)) j (Some (if ok then set_dsize u 0 else u))), ok)
    | _, _ => Ok (w, true)
    end
  | TCopy i j =>
    match tw_t w i, tw_t w j with
    | Some t, Some u =>
      if Nat.eqb i j then Ok (w, true) else
      let* x := dense_assign pocca L t (dt_a u) in
      let '(L1, b) := x in
      let* y := dense_copy_data v L1 b u in
      let '(L2, _, t', ok) := y in Ok (put L2 i (Some t'), ok)
    | _, _ => Ok (w, true)
    end
  | TMove i j =>
    match tw_t w i, tw_t w j with
    | Some t, Some u =>
      if Nat.eqb i j then Ok (w, true) else
      let* x := dense_assign pocma L t (dt_a u) in
      let '(L1, b) := x in
      if dt_a b =? dt_a u then Ok (mktw L1 (putt (putt (tw_t w) i (Some u)) j (Some b)), true)
      else
        let* y := dense_copy_data v L1 b u in
        let '(L2, _, t', ok) := y in
        Ok (mktw L2 (putt (putt (tw_t w) i (Some t')) j (Some (if ok then set_dsize u 0 else u))), ok)
    | _, _ => Ok (w, true)
    end
  | TResize i n =>
    match tw_t w i with
    | Some t =>
      if (n <=? 0) || (n <? dt_size t) then Ok (w, true) else
      let* x := resize_data L (te_alloc v) t n in
      let '(L1, _, t', ok) := x in Ok (put L1 i (Some t'), ok)
    | None => Ok (w, true)
    end
  | TBuckets i n =>
    match tw_t w i with
    | Some t =>
      let* x := realloc_bucks L (te_alloc v) t n in
      let '(L1, _, t', ok) := x in Ok (put L1 i (Some t'), ok)
    | None => Ok (w, true)
    end
  | TCount i n =>
    match tw_t w i with
    | Some t => if (0 <=? n) && (n <=? dt_ecap t) then Ok (put L i (Some (set_dsize t n)), true) else Ok (w, true)
    | None => Ok (w, true)
    end
  | TSwap i j =>
    match tw_t w i, tw_t w j with
    | Some t, Some u =>
      if dt_a t =? dt_a u then Ok (mktw L (putt (putt (tw_t w) i (Some u)) j (Some t)), true) else Ok (w, true)
    | _, _ => Ok (w, true)
    end
  | TDestroy i =>
    match tw_t w i with
    | Some t =>
      let* L1 := (if dt_elems t =? 0 then Ok L else give_back L (dt_elems t) (elem_block (dt_a t) (dt_ecap t))) in
      let* L2 := (if dt_bucks t =? 0 then Ok L1 else give_back L1 (dt_bucks t) (buck_block (dt_a t) (dt_bcap t))) in
      Ok (put L2 i None, true)
    | None => Ok (w, true)
    end
  end.
Fixpoint dense_allocs (w : tworld dtab) (h : list (tenv * tstmt)) : res (tworld dtab) :=
  match h with
  | [] => Ok w
  | (v, c) :: r => let* x := dense_exec v w c in dense_allocs (fst x) r
  end.
End Dense.
End Buffers.
Arguments mktw {T}. Arguments tw_l {T}. Arguments tw_t {T}.

(** * Programs for which the allocations are accounted for *)
(** No table, no block. *)
Definition nothing {T} : tworld T := mktw no_blocks (fun _ => None).
(** No allocation fails. *)
Definition quiet (o : list bool) : Prop := forall b, In b o -> b = true.
(** Sparse tables: nothing fails other than allocations in resize; no table is constructed with
    a buffer for 0 buckets. *)
Definition swiss_fine (vc : tenv * tstmt) : Prop :=
  match snd vc with
  | TResize _ _ => True
  | TSized _ _ n => n <> 0 /\ quiet (te_alloc (fst vc))
  | _ => quiet (te_alloc (fst vc)) /\ te_ctor (fst vc) = true
  end.
(** Dense tables: nothing fails other than allocations of the element array. *)
Definition dense_fine (vc : tenv * tstmt) : Prop :=
  match snd vc with TResize _ _ => True | _ => quiet (te_alloc (fst vc)) /\ te_ctor (fst vc) = true end.
