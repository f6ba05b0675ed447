(** Comparison of containers, element access of maps, and arguments that refer to elements of
    the container they are inserted into. *)
From Coq Require Import ZArith List Bool.
From Verif Require Import Base Bits MapSpec SwissModel SwissRun DenseSpec LinkModel OrderedSpec SwissOrderedSpec.
From Verif Require DenseModel DenseRun OrderedDense OrderedRun SwissOrdered SwissOrderedRun.
Import ListNotations.
Open Scope Z_scope.

(** ** std::is_permutation(first1, last1, first2, last2) as in libstdc++ (bits/stl_algo.h
    __is_permutation): used by operator== of every container (sparse_set.hpp 269, 588;
    sparse_map.hpp 543, 1138; stable_set.hpp 302, 653; stable_map.hpp 590, 1232;
    dense_set.hpp 316, 677; dense_map.hpp 598, 1248; dense_multiset.hpp 315;
    dense_multimap.hpp 432).  The sequences are given as lists. *)
Section Permutation.
Context {E : Type}.
Variable veq : E -> E -> bool.
(** The common prefix is skipped. *)
Fixpoint mismatch (l m : list E) : list E * list E :=
  match l, m with
  | a :: l', b :: m' => if veq a b then mismatch l' m' else (l, m)
  | _, _ => (l, m)
  end.
Definition count (x : E) (l : list E) : nat := length (filter (veq x) l).
(** The loop over the first sequence: [seen] stands before, [scan] from the current element. *)
Fixpoint count_loop (seen scan m : list E) : bool :=
  match scan with
  | [] => true
  | x :: r =>
    if existsb (veq x) seen then count_loop (seen ++ [x]) r m
    else if Nat.eqb (count x m) 0 || negb (Nat.eqb (count x scan) (count x m)) then false
    else count_loop (seen ++ [x]) r m
  end.
Definition is_permutation (l m : list E) : bool :=
  let '(l', m') := mismatch l m in
  if negb (Nat.eqb (length l') (length m')) then false else count_loop [] l' m'.
End Permutation.

(** ** operator== of the four kinds of containers. *)
(** sparse_set.hpp 269-272, sparse_map.hpp 543-546, stable_set.hpp 302, stable_map.hpp 590. *)
Definition s_equal {E} (f : simd) (veq : E -> E -> bool) (s o : @swiss E) : res bool :=
  let* l := iterate f s in
  let* m := iterate f o in
  Ok (is_permutation veq (map snd l) (map snd m)).
(** dense_set.hpp 316, dense_map.hpp 598, dense_multiset.hpp 315, dense_multimap.hpp 432. *)
Definition d_equal {E} (veq : E -> E -> bool) (s o : DenseModel.dense E) : res bool :=
  let* l := DenseModel.iterate s in
  let* m := DenseModel.iterate o in
  Ok (is_permutation veq l m).
(** dense_set.hpp 677, dense_map.hpp 1248 (ordered). *)
Definition o_equal {E} (sz : Z) (veq : E -> E -> bool) (h : heap) (s o : OrderedDense.odense E) : res bool :=
  let* l := OrderedDense.o_iterate sz h s in
  let* m := OrderedDense.o_iterate sz h o in
  Ok (is_permutation veq l m).
(** sparse_set.hpp 588, sparse_map.hpp 1138, stable_set.hpp 653, stable_map.hpp 1232 (ordered). *)
Definition z_equal {E} (sz : Z) (veq : E -> E -> bool) (h : heap) (s o : SwissOrdered.oswiss E) : res bool :=
  let* l := SwissOrdered.s_iterate sz h s in
  let* m := SwissOrdered.s_iterate sz h o in
  Ok (is_permutation veq l m).

Section Access.
Context {E K V : Type}.
Variable mapped : E -> V.
(** guard_at -- sparse_map.hpp 557-564, dense_map.hpp 611-618: throws for end(), otherwise the
    mapped value. *)
Definition guard_at (o : option E) : option V := option_map mapped o.

Section Sparse.
Variable f : simd.
Variable key_of : E -> K.
Variable hash : K -> Z.
Variable keq : K -> K -> bool.
(** at -- sparse_map.hpp 501-510, stable_map.hpp. *)
Definition s_at (s : @swiss E) (k : K) : res (option V) :=
  let* o := find f key_of hash keq s k in Ok (guard_at o).
(** operator[] -- sparse_map.hpp 515-524: try_emplace without arguments for the mapped value;
    [fresh k] is the element with key [k] and a default mapped value.  do_try_emplace
    (swiss_table.hpp 1330-1338) passes std::forward_as_tuple(key): the key is copied, the
    caller's key object is not touched. *)
Definition s_index (fresh : K -> E) (v : env) (s : @swiss E) (k : K) : res (@swiss E * option V) :=
  let* x := do_insert f key_of hash keq (ev_lim v) (ev_ctor v) s (fresh k) in
  let* y := give_inserted f x in
  match snd y with
  | RInserted e _ => Ok (fst y, Some (mapped e))
  | _ => Ok (fst y, None)
  end.

(** ** try_emplace(k, m.at(k')): the argument refers to the element in slot [i]; [build k e] is
    the element with key [k] whose mapped value is made from [e].  emplace_node (swiss_table.hpp
    1264-1300) makes room first and reads the argument at line 1291.  do_rehash always changes
    the capacity and frees the array the reference points into; rehash_deleted keeps the array
    and moves elements about.  The new element is then placed as by emplace_node from the
    state before, which takes the same steps. *)
Definition emplace_aliased (lim : Z) (s : @swiss E) (h : Z) (k : K) (i : Z) (build : K -> E -> E) : res (@swiss E * option (Z * list ev)) :=
  let* r := make_room f lim s h in
  match snd r with
  | None => Ok (fst r, None)
  | Some _ =>
    let* e := (if s_cap (fst r) =? s_cap s then let* n := get_node (fst r) i in Ok (fst n) else Err UseAfterFree) in
    emplace_node f lim true s h (build k e)
  end.
(** do_try_emplace -- swiss_table.hpp 1330-1338. *)
Definition try_emplace_aliased (lim : Z) (s : @swiss E) (k : K) (i : Z) (build : K -> E -> E) : res (@swiss E * ins_result) :=
  let* p := find_node f key_of keq s k (hash k) in
  if p =? s_cap s then
    let* r := emplace_aliased lim s (hash k) k i build in
    Ok (fst r, match snd r with None => None | Some (q, tr) => Some (q, true, tr) end)
  else Ok (s, Some (p, false, [])).
(** The same for stable nodes (table_common.hpp, stable_node): the array holds pointers to the
    elements, and the argument refers to the element at address [a], wherever its pointer is. *)
Definition object_at {A} (addr : E -> A) (aeq : A -> A -> bool) (s : @swiss E) (a : A) : res E :=
  match List.find (fun i => match s_nodes s i with Some n => aeq (addr (fst n)) a | None => false end) (zrange (s_cap s)) with
  | Some i => let* n := get_node s i in Ok (fst n)
  | None => Err DeadObject
  end.
Definition try_emplace_aliased_stable {A} (addr : E -> A) (aeq : A -> A -> bool) (lim : Z) (s : @swiss E) (k : K) (a : A) (build : K -> E -> E)
  : res (@swiss E * ins_result) :=
  let* p := find_node f key_of keq s k (hash k) in
  if p =? s_cap s then
    let* r := make_room f lim s (hash k) in
    match snd r with
    | None => Ok (fst r, None)
    | Some _ =>
      let* e := object_at addr aeq (fst r) a in
      let* x := emplace_node f lim true s (hash k) (build k e) in
      Ok (fst x, match snd x with None => None | Some (q, tr) => Some (q, true, tr) end)
    end
  else Ok (s, Some (p, false, [])).
End Sparse.

Section Dense.
Variable nk : nat.
Variable key_of : nat -> E -> K.
Variable hash : K -> Z.
Variable keq : K -> K -> bool.
(** at -- dense_map.hpp 532-541. *)
Definition d_at (s : DenseModel.dense E) (k : K) : res (option V) :=
  let* o := DenseModel.find key_of hash keq s 0 k in Ok (guard_at o).
(** operator[] -- dense_map.hpp 546-555.  The overload for lvalues passes
    std::forward<key_type>(key), an rvalue, on to do_try_emplace (dense_table.hpp 648-666), which
    moves the key into the new element: [moved k] is what a key object holds after a move.
    The third component is the caller's key object afterwards. *)
Definition d_index (moved : K -> K) (fresh : K -> E) (v : DenseRun.denv) (s : DenseModel.dense E) (k : K) : res (DenseModel.dense E * option V * K) :=
  let* x := DenseModel.do_insert nk key_of hash keq (DenseRun.dv_dlim v) (DenseRun.dv_slim v) true s (fresh k) in
  let* y := DenseRun.give_inserted x in
  match snd y with
  | QInserted e b => Ok (fst y, Some (mapped e), if b then moved k else k)
  | _ => Ok (fst y, None, k)
  end.
(** try_emplace with an argument that refers to the element at position [i]: maybe_resize
    (dense_table.hpp 802-821) replaces the element array when it is full, before the argument
    is read (lines 651-665).  Containers with one key. *)
Definition d_try_emplace_aliased (v : DenseRun.denv) (s : DenseModel.dense E) (k : K) (i : Z) (build : K -> E -> E) : res (DenseModel.dense E * DenseModel.ins_result) :=
  let* r := DenseModel.make_room nk (DenseRun.dv_dlim v) (DenseRun.dv_slim v) s in
  match snd r with
  | None => Ok (fst r, None)
  | Some _ =>
    let* x := DenseModel.find_node key_of keq (fst r) 0 k (hash k) in
    let* c := DenseModel.first_clash (fst r) [(0%nat, x)] in
    match c with
    | Some j => Ok (fst r, Some (j, false))
    | None =>
      let* e := (if DenseModel.d_cap (fst r) =? DenseModel.d_cap s then let* n := DenseModel.get_node (fst r) i in Ok (DenseModel.n_val n) else Err UseAfterFree) in
      DenseModel.do_insert nk key_of hash keq (DenseRun.dv_dlim v) (DenseRun.dv_slim v) true s (build k e)
    end
  end.
End Dense.

(** at and operator[] of the ordered containers -- dense_map.hpp 1182-1205, sparse_map.hpp
    1096-1119, stable_map.hpp 1190-1213: as above, on the ordered tables.  (The key moved by
    operator[] of the dense map is left out here.) *)
Section Ordered.
Variable sz : Z.
Variable nk : nat.
Variable key_of : nat -> E -> K.
Variable hash : K -> Z.
Variable keq : K -> K -> bool.
Variable rep : E -> E -> E.
Definition o_map_at (v : OrderedDense.oenv) (hs : heap * OrderedDense.odense E) (k : K) : res (option V) :=
  let* x := OrderedRun.oexec sz nk key_of hash keq rep v hs (OFind 0 k) in
  match snd x with QFound o => Ok (guard_at o) | _ => Ok None end.
Definition o_index (fresh : K -> E) (v : OrderedDense.oenv) (hs : heap * OrderedDense.odense E) (k : K) : res (heap * OrderedDense.odense E * option V) :=
  let* x := OrderedRun.oexec sz nk key_of hash keq rep v hs (OInsert (fresh k)) in
  match snd x with QInserted e _ => Ok (fst x, Some (mapped e)) | _ => Ok (fst x, None) end.
End Ordered.
Section SparseOrdered.
Variable f : simd.
Variable sz : Z.
Variable key_of : E -> K.
Variable hash : K -> Z.
Variable keq : K -> K -> bool.
Variable rep : E -> E -> E.
Definition z_at (v : SwissOrdered.senv) (hs : heap * SwissOrdered.oswiss E) (k : K) : res (option V) :=
  let* x := SwissOrderedRun.zexec f sz key_of hash keq rep v hs (ZFind k) in
  match snd x with RFound o => Ok (guard_at o) | _ => Ok None end.
Definition z_index (fresh : K -> E) (v : SwissOrdered.senv) (hs : heap * SwissOrdered.oswiss E) (k : K) : res (heap * SwissOrdered.oswiss E * option V) :=
  let* x := SwissOrderedRun.zexec f sz key_of hash keq rep v hs (ZInsert (fresh k)) in
  match snd x with RInserted e _ => Ok (fst x, Some (mapped e)) | _ => Ok (fst x, None) end.
End SparseOrdered.
End Access.
