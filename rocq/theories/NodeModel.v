(** The heap objects of stable containers: stable_node, its extracted_type (node handles) and
    what the table does with them.
    Sources: tpp/detail/table_common.hpp 307-502, tpp/detail/swiss_table.hpp 848-1131,
    1209-1374, 1448-1543.

    Only the objects are modelled here: a table is its allocator and the m_ptr of its occupied
    nodes, in no particular order.  Slots, probing and rehashing are in SwissModel.v, where it
    is proved that they neither lose nor duplicate a node (C01, C14). *)
From Coq Require Import ZArith List Bool Lia.
From Verif Require Import Base.
Import ListNotations.
Open Scope Z_scope.

Section Nodes.
Context {K V : Type}.
Variable keq : K -> K -> bool.
(** propagate_on_container_copy_assignment, .._move_assignment. *)
Variables pocca pocma : bool.
(** The number of a default constructed allocator; equal allocators have equal numbers. *)
Variable dflt : Z.

(** ** Memory. *)
(** A block of the size of one element: the allocator that supplied it, and the object in it,
    if one was constructed.  The mapped value of an object may have been destroyed separately
    ([None]; see [replace]). *)
Inductive cell : Type := Raw (a : Z) | Obj (a : Z) (k : K) (v : option V).
(** Blocks are numbered 1, 2, ..; numbers are not used twice; 0 is the null pointer. *)
Record mem : Type := mkm { m_next : Z; m_cell : Z -> option cell }.

(** What happens in a call: does the table get the memory if it has to grow, does the
    allocator supply a block, does the constructor of the element return. *)
Record nenv : Type := mkne { e_grow : bool; e_alloc : bool; e_ctor : bool }.
Definition calm : nenv := mkne true true true.

(** Reading an object through its pointer. *)
Definition read (m : mem) (p : Z) : res (K * option V) :=
  if p =? 0 then Err NullDeref
  else match m_cell m p with
       | None => Err UseAfterFree
       | Some (Raw _) => Err DeadObject
       | Some (Obj _ k v) => Ok (k, v)
       end.
(** allocator_traits::destroy. *)
Definition end_obj (m : mem) (p : Z) : res mem :=
  if p =? 0 then Err NullDeref
  else match m_cell m p with
       | None => Err UseAfterFree
       | Some (Obj a _ (Some _)) => Ok (mkm (m_next m) (upd (m_cell m) p (Some (Raw a))))
       | Some _ => Err DeadObject
       end.
(** allocator_traits::deallocate of one block by the allocator [a]. *)
Definition release (m : mem) (a p : Z) : res mem :=
  match m_cell m p with
  | Some (Raw b) => if a =? b then Ok (mkm (m_next m) (upd (m_cell m) p None)) else Err BadFree
  | _ => Err BadFree
  end.

(** ** stable_node. *)
(** construct(alloc, args...) -- table_common.hpp 445-450: allocates, then constructs; nothing
    gives the block back when the constructor throws.  The result is the new m_ptr, or [None]
    when an exception left the function. *)
Definition construct (v : nenv) (m : mem) (a : Z) (k : K) (x : V) : mem * option Z :=
  if e_alloc v then
    let p := m_next m in
    if e_ctor v then (mkm (p + 1) (upd (m_cell m) p (Some (Obj a k (Some x)))), Some p)
    else (mkm (p + 1) (upd (m_cell m) p (Some (Raw a))), None)
  else (m, None).
(** destroy -- lines 463-471. *)
Definition destroy (m : mem) (a p : Z) : res mem :=
  if p =? 0 then Ok m else let* m1 := end_obj m p in release m1 a p.
(** replace -- lines 451-462: the mapped value is destroyed and constructed anew; [false] when
    the constructor throws. *)
Definition replace (v : nenv) (m : mem) (p : Z) (x : V) : res (mem * bool) :=
  if p =? 0 then Err NullDeref
  else match m_cell m p with
       | Some (Obj a k (Some _)) => Ok (mkm (m_next m) (upd (m_cell m) p (Some (Obj a k (if e_ctor v then Some x else None)))), e_ctor v)
       | Some _ => Err DeadObject
       | None => Err UseAfterFree
       end.

(** ** Node handles: extracted_type -- lines 321-388. *)
Record handle : Type := mkh { h_alloc : Z; h_ptr : Z }.
Definition no_handle : handle := mkh dflt 0.
(** do_destroy -- lines 378-385: m_ptr keeps its value. *)
Definition h_destroy (m : mem) (h : handle) : res mem := destroy m (h_alloc h) (h_ptr h).
(** Move constructor -- line 330: the new handle and what remains of the old one. *)
Definition h_moved (h : handle) : handle * handle := (h, mkh (h_alloc h) 0).
(** Move assignment -- lines 333-346 (of two different handles). *)
Definition h_assign (m : mem) (d s : handle) : res (mem * handle * handle) :=
  let* m1 := h_destroy m d in
  let a := if pocma then h_alloc s else h_alloc d in
  let* _ := guard (a =? h_alloc s) AssertFailed in
  Ok (m1, mkh a (h_ptr s), mkh (h_alloc s) 0).
(** swap -- lines 359-367.  Exchanging the allocators first does not change the outcome of the
    assertion, and equal allocators need not be exchanged. *)
Definition h_swap (a b : handle) : res (handle * handle) :=
  let* _ := guard (h_alloc a =? h_alloc b) AssertFailed in
  Ok (mkh (h_alloc a) (h_ptr b), mkh (h_alloc b) (h_ptr a)).
(** stable_node::construct(alloc, extracted_type &&) -- lines 424-434.  With an unequal
    allocator the element is moved to a block of its own and the old object is destroyed by
    do_destroy, but m_ptr of the handle is not reset. *)
Definition construct_from (v : nenv) (m : mem) (a : Z) (h : handle) : res (mem * handle * option Z) :=
  if a =? h_alloc h then Ok (m, mkh (h_alloc h) 0, Some (h_ptr h))
  else
    let* x := read m (h_ptr h) in
    match snd x with
    | None => Err DeadObject
    | Some y =>
      let '(m1, o) := construct v m a (fst x) y in
      match o with
      | None => Ok (m1, h, None)
      | Some p => let* m2 := h_destroy m1 h in Ok (m2, h, Some p)
      end
    end.

(** ** The table. *)
Record tbl : Type := mkt { t_alloc : Z; t_nodes : list Z }.
Definition add (t : tbl) (p : Z) : tbl := mkt (t_alloc t) (t_nodes t ++ [p]).

(** find_node -- swiss_table.hpp 1209-1234: the nodes before and after the one found.  The
    code only looks at the keys of nodes with the right hash bits. *)
Fixpoint split_at (m : mem) (l : list Z) (k : K) : res (option (list Z * Z * list Z)) :=
  match l with
  | [] => Ok None
  | p :: r =>
    let* x := read m p in
    if keq (fst x) k then Ok (Some ([], p, r))
    else
      let* o := split_at m r k in
      Ok (match o with None => None | Some (a, q, b) => Some (p :: a, q, b) end)
  end.

(** do_insert and do_try_emplace -- lines 1330-1347, with emplace_node -- lines 1264-1298. *)
Definition do_insert (v : nenv) (m : mem) (t : tbl) (k : K) (x : V) : res (mem * tbl * bool) :=
  let* o := split_at m (t_nodes t) k in
  match o with
  | Some _ => Ok (m, t, true)
  | None =>
    if e_grow v then
      match construct v m (t_alloc t) k x with
      | (m1, Some p) => Ok (m1, add t p, true)
      | (m1, None) => Ok (m1, t, false)
      end
    else Ok (m, t, false)
  end.
(** do_emplace -- lines 1318-1329: [tmp] has no destructor that would destroy its object when
    do_insert throws. *)
Definition do_emplace (v : nenv) (m : mem) (t : tbl) (k : K) (x : V) : res (mem * tbl * bool) :=
  match construct v m (t_alloc t) k x with
  | (m1, None) => Ok (m1, t, false)
  | (m1, Some p) =>
    let* y := read m1 p in
    let* o := split_at m1 (t_nodes t) (fst y) in
    match o with
    | Some _ => let* m2 := destroy m1 (t_alloc t) p in Ok (m2, t, true)
    | None => if e_grow v then let* m2 := destroy m1 (t_alloc t) 0 in Ok (m2, add t p, true) else Ok (m1, t, false)
    end
  end.
(** do_insert_or_assign -- lines 1348-1360. *)
Definition do_assign (v : nenv) (m : mem) (t : tbl) (k : K) (x : V) : res (mem * tbl * bool) :=
  let* o := split_at m (t_nodes t) k in
  match o with
  | Some (_, p, _) => let* y := replace v m p x in let '(m1, b) := y in Ok (m1, t, b)
  | None => do_insert v m t k x
  end.
(** erase(key) -- lines 1052-1059, 1361-1368. *)
Definition erase (m : mem) (t : tbl) (k : K) : res (mem * tbl) :=
  let* o := split_at m (t_nodes t) k in
  match o with
  | Some (a, p, b) => let* m1 := destroy m (t_alloc t) p in Ok (m1, mkt (t_alloc t) (a ++ b))
  | None => Ok (m, t)
  end.
(** erase_nodes -- lines 1522-1530; clear -- lines 916-929. *)
Definition erase_nodes (m : mem) (t : tbl) : res (mem * tbl) :=
  let* m1 := foldM (fun m p => destroy m (t_alloc t) p) (t_nodes t) m in Ok (m1, mkt (t_alloc t) []).
(** extract(key) -- lines 1077-1084, 1369-1374: the handle returned. *)
Definition extract (m : mem) (t : tbl) (k : K) : res (tbl * handle) :=
  let* o := split_at m (t_nodes t) k in
  Ok (match o with
      | Some (a, p, b) => (mkt (t_alloc t) (a ++ b), mkh (t_alloc t) p)
      | None => (t, no_handle)
      end).
(** insert_node(node &&) -- lines 962-970: the handle passed, the handle in the result.  An
    exception leaves before there is a result. *)
Definition insert_node (v : nenv) (m : mem) (t : tbl) (h : handle) : res (mem * tbl * handle * handle * bool) :=
  let* x := read m (h_ptr h) in
  let* o := split_at m (t_nodes t) (fst x) in
  match o with
  | Some _ => let '(n, h1) := h_moved h in Ok (m, t, h1, n, true)
  | None =>
    if e_grow v then
      let* y := construct_from v m (t_alloc t) h in
      let '(m1, h1, q) := y in
      Ok (match q with
          | Some p => (m1, add t p, h1, no_handle, true)
          | None => (m1, t, h1, no_handle, false)
          end)
    else Ok (m, t, h, no_handle, false)
  end.
(** insert_or_assign_node(node &&) -- lines 994-1008.  When construct throws, the node stays in
    the table with the null pointer left by destroy. *)
Definition assign_node (v : nenv) (m : mem) (t : tbl) (h : handle) : res (mem * tbl * handle * bool) :=
  let* x := read m (h_ptr h) in
  let* o := split_at m (t_nodes t) (fst x) in
  match o with
  | Some (a, p, b) =>
    let* m1 := destroy m (t_alloc t) p in
    let* y := construct_from v m1 (t_alloc t) h in
    let '(m2, h1, q) := y in
    Ok (m2, mkt (t_alloc t) (a ++ match q with Some p => p | None => 0 end :: b), h1, match q with Some _ => true | None => false end)
  | None =>
    let* z := insert_node v m t h in
    let '(m1, t1, h1, _, b) := z in Ok (m1, t1, h1, b)
  end.
(** merge -- lines 1096-1114 (unordered; the ordered one is C13).  The temporary handle is
    destroyed after emplace_node; the lambda is noexcept, an exception inside terminates the
    program. *)
Fixpoint transfer (v : nenv) (m : mem) (t : tbl) (b : Z) (l : list Z) : res (mem * tbl * list Z) :=
  match l with
  | [] => Ok (m, t, [])
  | p :: r =>
    let* x := read m p in
    let* o := split_at m (t_nodes t) (fst x) in
    match o with
    | Some _ => let* y := transfer v m t b r in let '(m1, t1, l1) := y in Ok (m1, t1, p :: l1)
    | None =>
      let* y := construct_from v m (t_alloc t) (mkh b p) in
      let '(m1, h1, q) := y in
      match q with
      | None => Err Terminated
      | Some p' => let* m2 := h_destroy m1 h1 in transfer v m2 (add t p') b r
      end
    end
  end.
Definition merge (v : nenv) (m : mem) (t o : tbl) : res (mem * tbl * tbl * bool) :=
  if e_grow v then
    let* y := transfer v m t (t_alloc o) (t_nodes o) in
    let '(m1, t1, l1) := y in Ok (m1, t1, mkt (t_alloc o) l1, true)
  else Ok (m, t, o, false).
(** copy_data -- lines 1448-1485, construct(alloc, const stable_node &) -- table_common.hpp
    417-422.  Copies are taken to succeed here (a copy that throws is C27). *)
Definition copy_step (a : Z) (ml : mem * list Z) (p : Z) : res (mem * list Z) :=
  let '(m, l) := ml in
  let* x := read m p in
  match snd x with
  | None => Err DeadObject
  | Some y => match construct calm m a (fst x) y with (m1, Some q) => Ok (m1, l ++ [q]) | (m1, None) => Ok (m1, l) end
  end.
Definition copy_data (m : mem) (t o : tbl) : res (mem * tbl) :=
  let* _ := guard (match t_nodes t with [] => true | _ => false end) AssertFailed in
  let* y := foldM (copy_step (t_alloc t)) (t_nodes o) (m, []) in
  Ok (fst y, mkt (t_alloc t) (snd y)).
(** move_from -- lines 1537-1543: equal allocators exchange the buffers, otherwise move_data --
    lines 1486-1521 -- relocates every node; relocate (table_common.hpp 442-443) moves the
    pointer and ignores the allocators. *)
Definition move_from (t o : tbl) : res (tbl * tbl) :=
  if t_alloc t =? t_alloc o then Ok (mkt (t_alloc t) (t_nodes o), mkt (t_alloc o) (t_nodes t))
  else
    let* _ := guard (match t_nodes t with [] => true | _ => false end) AssertFailed in
    Ok (mkt (t_alloc t) (t_nodes o), mkt (t_alloc o) []).

(** ** Programs over containers c_0, c_1, .. and handle variables h_0, h_1, .. *)
Record nworld : Type := mkw { w_m : mem; w_c : nat -> tbl; w_h : nat -> handle }.
Inductive ncall : Type :=
| NInsert (i : nat) (k : K) (x : V)        (* insert, try_emplace *)
| NEmplace (i : nat) (k : K) (x : V)
| NAssign (i : nat) (k : K) (x : V)        (* insert_or_assign, emplace_or_replace *)
| NErase (i : nat) (k : K)
| NClear (i : nat)
| NNew (i : nat) (a : Z)                   (* c_i is destroyed; a new c_i with allocator a *)
| NExtract (i : nat) (k : K) (j : nat)     (* h_j = c_i.extract(k); *)
| NExtractNew (i : nat) (k : K) (j : nat)  (* h_j is destroyed; auto h_j = c_i.extract(k); *)
| NInsertNode (i j : nat)                  (* c_i.insert(std::move(h_j)); *)
| NInsertBack (i j : nat)                  (* h_j = std::move(c_i.insert(std::move(h_j)).node); *)
| NAssignNode (i j : nat)                  (* c_i.insert_or_assign(std::move(h_j)); *)
| NHandleMove (j k : nat)                  (* h_j = std::move(h_k); *)
| NHandleNew (j k : nat)                   (* h_j is destroyed; auto h_j = std::move(h_k); j <> k *)
| NHandleDrop (j : nat)                    (* h_j is destroyed; a new empty h_j *)
| NHandleSwap (j k : nat)
| NMerge (i j : nat)                       (* c_i.merge(c_j), i <> j *)
| NCopyNew (i j : nat)                     (* c_i is destroyed; auto c_i = c_j, i <> j *)
| NCopyNewIn (i j : nat) (a : Z)           (* the same with an allocator *)
| NCopy (i j : nat)                        (* c_i = c_j *)
| NMoveNew (i j : nat)                     (* c_i is destroyed; auto c_i = std::move(c_j), i <> j *)
| NMoveNewIn (i j : nat) (a : Z)
| NMove (i j : nat)                        (* c_i = std::move(c_j) *)
| NSwap (i j : nat).

Definition setn {A} (f : nat -> A) (i : nat) (x : A) : nat -> A := fun j => if Nat.eqb j i then x else f j.
Definition with_t (w : nworld) (m : mem) (i : nat) (t : tbl) : nworld := mkw m (setn (w_c w) i t) (w_h w).
Definition with_h (w : nworld) (m : mem) (j : nat) (h : handle) : nworld := mkw m (w_c w) (setn (w_h w) j h).

(** One statement: the new state, and whether the statement ended normally. *)
Definition on_table (w : nworld) (i : nat) (x : res (mem * tbl * bool)) : res (nworld * bool) :=
  let* y := x in let '(m, t, b) := y in Ok (with_t w m i t, b).
Definition nexec (v : nenv) (w : nworld) (c : ncall) : res (nworld * bool) :=
  let m := w_m w in
  match c with
  | NInsert i k x => on_table w i (do_insert v m (w_c w i) k x)
  | NEmplace i k x => on_table w i (do_emplace v m (w_c w i) k x)
  | NAssign i k x => on_table w i (do_assign v m (w_c w i) k x)
  | NErase i k => let* y := erase m (w_c w i) k in Ok (with_t w (fst y) i (snd y), true)
  | NClear i => let* y := erase_nodes m (w_c w i) in Ok (with_t w (fst y) i (snd y), true)
  | NNew i a => let* y := erase_nodes m (w_c w i) in Ok (with_t w (fst y) i (mkt a []), true)
  | NExtract i k j =>
    let* y := extract m (w_c w i) k in
    let '(t1, n) := y in
    let* z := h_assign m (w_h w j) n in
    let '(m1, h1, n1) := z in
    let* m2 := h_destroy m1 n1 in
    Ok (mkw m2 (setn (w_c w) i t1) (setn (w_h w) j h1), true)
  | NExtractNew i k j =>
    let* m1 := h_destroy m (w_h w j) in
    let* y := extract m1 (w_c w i) k in
    Ok (mkw m1 (setn (w_c w) i (fst y)) (setn (w_h w) j (snd y)), true)
  | NInsertNode i j =>
    let* y := insert_node v m (w_c w i) (w_h w j) in
    let '(m1, t1, h1, n, b) := y in
    let* m2 := h_destroy m1 n in
    Ok (mkw m2 (setn (w_c w) i t1) (setn (w_h w) j h1), b)
  | NInsertBack i j =>
    let* y := insert_node v m (w_c w i) (w_h w j) in
    let '(m1, t1, h1, n, b) := y in
    if b then
      let* z := h_assign m1 h1 n in
      let '(m2, h2, n2) := z in
      let* m3 := h_destroy m2 n2 in
      Ok (mkw m3 (setn (w_c w) i t1) (setn (w_h w) j h2), true)
    else Ok (mkw m1 (setn (w_c w) i t1) (setn (w_h w) j h1), false)
  | NAssignNode i j =>
    let* y := assign_node v m (w_c w i) (w_h w j) in
    let '(m1, t1, h1, b) := y in Ok (mkw m1 (setn (w_c w) i t1) (setn (w_h w) j h1), b)
  | NHandleMove j k =>
    if Nat.eqb j k then Ok (w, true)
    else
      let* z := h_assign m (w_h w j) (w_h w k) in
      let '(m1, h1, h2) := z in Ok (mkw m1 (w_c w) (setn (setn (w_h w) j h1) k h2), true)
  | NHandleNew j k =>
    if Nat.eqb j k then Ok (w, true)
    else
      let* m1 := h_destroy m (w_h w j) in
      let '(h1, h2) := h_moved (w_h w k) in Ok (mkw m1 (w_c w) (setn (setn (w_h w) j h1) k h2), true)
  | NHandleDrop j => let* m1 := h_destroy m (w_h w j) in Ok (with_h w m1 j no_handle, true)
  | NHandleSwap j k =>
    let* y := h_swap (w_h w j) (w_h w k) in Ok (mkw m (w_c w) (setn (setn (w_h w) j (fst y)) k (snd y)), true)
  | NMerge i j =>
    if Nat.eqb i j then Ok (w, true)
    else
      let* y := merge v m (w_c w i) (w_c w j) in
      let '(m1, t1, o1, b) := y in Ok (mkw m1 (setn (setn (w_c w) i t1) j o1) (w_h w), b)
  | NCopyNew i j =>
    if Nat.eqb i j then Ok (w, true)
    else
      let* y := erase_nodes m (w_c w i) in
      let* z := copy_data (fst y) (mkt (t_alloc (w_c w j)) []) (w_c w j) in Ok (with_t w (fst z) i (snd z), true)
  | NCopyNewIn i j a =>
    if Nat.eqb i j then Ok (w, true)
    else
      let* y := erase_nodes m (w_c w i) in
      let* z := copy_data (fst y) (mkt a []) (w_c w j) in Ok (with_t w (fst z) i (snd z), true)
  | NCopy i j =>
    if Nat.eqb i j then Ok (w, true)
    else
      let* y := erase_nodes m (w_c w i) in
      let a := if pocca then t_alloc (w_c w j) else t_alloc (w_c w i) in
      let* z := copy_data (fst y) (mkt a (t_nodes (snd y))) (w_c w j) in Ok (with_t w (fst z) i (snd z), true)
  | NMoveNew i j =>
    if Nat.eqb i j then Ok (w, true)
    else
      let* y := erase_nodes m (w_c w i) in
      let* z := move_from (mkt (t_alloc (w_c w j)) []) (w_c w j) in
      Ok (mkw (fst y) (setn (setn (w_c w) i (fst z)) j (snd z)) (w_h w), true)
  | NMoveNewIn i j a =>
    if Nat.eqb i j then Ok (w, true)
    else
      let* y := erase_nodes m (w_c w i) in
      let* z := move_from (mkt a []) (w_c w j) in
      Ok (mkw (fst y) (setn (setn (w_c w) i (fst z)) j (snd z)) (w_h w), true)
  | NMove i j =>
    if Nat.eqb i j then Ok (w, true)
    else
      let* y := erase_nodes m (w_c w i) in
      let a := if pocma then t_alloc (w_c w j) else t_alloc (w_c w i) in
      let* z := move_from (mkt a (t_nodes (snd y))) (w_c w j) in
      Ok (mkw (fst y) (setn (setn (w_c w) i (fst z)) j (snd z)) (w_h w), true)
  | NSwap i j =>
    if Nat.eqb i j then Ok (w, true)
    else
      let t := w_c w i in let o := w_c w j in
      let* _ := guard (t_alloc t =? t_alloc o) AssertFailed in
      Ok (mkw m (setn (setn (w_c w) i (mkt (t_alloc t) (t_nodes o))) j (mkt (t_alloc o) (t_nodes t))) (w_h w), true)
  end.
Fixpoint nrun (w : nworld) (h : list (nenv * ncall)) : res (nworld * list bool) :=
  match h with
  | [] => Ok (w, [])
  | (v, c) :: r =>
    let* x := nexec v w c in
    let '(w1, b) := x in
    let* y := nrun w1 r in
    let '(w2, bs) := y in Ok (w2, b :: bs)
  end.
(** No blocks, empty containers with the allocators [al], empty handles. *)
Definition nstart (al : nat -> Z) : nworld := mkw (mkm 1 (fun _ => None)) (fun i => mkt (al i) []) (fun _ => no_handle).
End Nodes.
Arguments cell : clear implicits. Arguments mem : clear implicits. Arguments nworld : clear implicits. Arguments ncall : clear implicits.
