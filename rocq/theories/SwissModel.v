(** Model of the open-addressing table swiss_table, /repo/tpp/detail/swiss_table.hpp
    lines 372-441 (iterator), 454-612 (separate buffer, table-level view) and
    744-1548 (table).  Line numbers below refer to that file unless stated.

    Simplifications that hold for the whole file:
    - the metadata and node arrays are functions from index to content; every access
      checks the bounds [0, cap + W) resp. [0, cap);
    - a slot holds [Some (e, h)] (value and stored hash) or [None] (no live object);
    - constructing a node on top of a live one is an error;
    - the allocator either supplies the memory or throws: an operation takes the
      largest capacity [lim] the allocator can supply during the call;
    - link maintenance of ordered tables is not done here; the operations return the
      node movements (src, dst) which SwissOrdered.v interprets. *)
From Coq Require Import ZArith List Bool.
From Verif Require Import Base Bits.
Import ListNotations.
Open Scope Z_scope.

(** ** Capacity arithmetic and probing (independent of the element type). *)
Section Arith.
Variable f : simd.

(** sizeof(meta_block). *)
Definition W : Z := width f.

(** int64_t view of a size_type (cast in line 825/827). *)
Definition to_s64 (n : Z) : Z := if n <? 2 ^ 63 then n else n - two64.

(** decompose_hash -- lines 808-811. *)
Definition h1_of (h : Z) : Z := Z.shiftr h 7.
Definition h2_of (h : Z) : Z := Z.land h 127.

(** capacity_to_max_size -- lines 814-820. *)
Definition capacity_to_max_size (n : Z) : Z :=
  if W =? 8 then (if n =? 7 then 6 else n - n / 8) else n - n / 8.

(** size_to_min_capacity -- lines 822-828 (signed division truncates). *)
Definition size_to_min_capacity (n : Z) : Z :=
  let d := Z.quot (to_s64 n - 1) 7 mod two64 in
  if W =? 8 then (if n =? 7 then 8 else add64 n d) else add64 n d.

(** align_capacity -- lines 830-833, with the GNU clz. *)
Definition align_capacity (n : Z) : res Z :=
  if n =? 0 then Ok 1 else let* c := clz GNU n in Ok (shr64 (two64 - 1) c).

(** bucket_probe -- lines 775-793: (idx, pos); the capacity is passed separately. *)
Definition probe_start (cap h : Z) : Z * Z := (0, Z.land (h1_of h) cap).
Definition probe_next (cap : Z) (p : Z * Z) : Z * Z :=
  let '(idx, pos) := p in
  let idx' := add64 idx W in (idx', Z.land (add64 pos idx') cap).
Definition probe_off (cap : Z) (p : Z * Z) (n : Z) : Z := Z.land (add64 (snd p) n) cap.

End Arith.

(** State of the buffer pointers: never allocated (null), allocated, or freed while
    the pointers and the capacity are still in place. *)
Inductive bufst := Null | Live | Dangling.

(** Node movements performed by a rehash (for ordered tables). *)
Inductive ev :=
| EvRehash (c : Z) (mv : list (Z * Z)) (* do_rehash: nodes moved from old to new buffer *)
| EvMove (src dst : Z)                 (* rehash_deleted line 1431 *)
| EvSwap (a b : Z).                    (* rehash_deleted line 1438 *)

Section Swiss.
Context {E K : Type}.
Variable f : simd.
Variable key_of : E -> K.           (* ValueTraits::get_key *)
Variable hash : K -> Z.             (* hasher *)
Variable keq : K -> K -> bool.      (* key_equal *)

Local Notation W := (W f).

(** Members m_buffer, m_size, m_num_empty -- lines 602-611, 1545-1547. *)
Record swiss := mk {
  s_buf : bufst;
  s_cap : Z;
  s_meta : Z -> Z;
  s_nodes : Z -> option (E * Z);
  s_size : Z;
  s_nempty : Z
}.

(** Default construction -- line 836, 470-471. *)
Definition empty_swiss : swiss := mk Null 0 (fun _ => 0) (fun _ => None) 0 0.

(** Access to m_buffer.meta() / nodes(): null and freed buffers are errors. *)
Definition check_buf (s : swiss) : res unit :=
  match s_buf s with Null => Err NullDeref | Live => Ok tt | Dangling => Err UseAfterFree end.

Definition get_meta (s : swiss) (i : Z) : res Z :=
  let* _ := check_buf s in
  let* _ := guard ((0 <=? i) && (i <? s_cap s + W)) OutOfBounds in
  Ok (s_meta s i).
Definition put_meta (s : swiss) (i v : Z) : res swiss :=
  let* _ := check_buf s in
  let* _ := guard ((0 <=? i) && (i <? s_cap s + W)) OutOfBounds in
  Ok (mk (s_buf s) (s_cap s) (upd (s_meta s) i v) (s_nodes s) (s_size s) (s_nempty s)).

(** meta_block(metadata + p) -- lines 201-205. *)
Definition load_block (s : swiss) (p : Z) : res (list Z) :=
  let* _ := check_buf s in
  let* _ := guard ((0 <=? p) && (p <=? s_cap s)) OutOfBounds in
  Ok (map (fun i => s_meta s (p + i)) (zrange W)).

(** nodes[i] holding a live object. *)
Definition get_node (s : swiss) (i : Z) : res (E * Z) :=
  let* _ := check_buf s in
  let* _ := guard ((0 <=? i) && (i <? s_cap s)) OutOfBounds in
  match s_nodes s i with Some n => Ok n | None => Err DeadObject end.
(** construct / relocate target -- table_common.hpp 224-246, 262-272, 417-450. *)
Definition put_node (s : swiss) (i : Z) (n : E * Z) : res swiss :=
  let* _ := check_buf s in
  let* _ := guard ((0 <=? i) && (i <? s_cap s)) OutOfBounds in
  match s_nodes s i with
  | Some _ => Err Overwrite
  | None => Ok (mk (s_buf s) (s_cap s) (s_meta s) (upd (s_nodes s) i (Some n)) (s_size s) (s_nempty s))
  end.
(** destroy / moved-from -- table_common.hpp 259, 463-471. *)
Definition kill_node (s : swiss) (i : Z) : res swiss :=
  let* _ := get_node s i in
  Ok (mk (s_buf s) (s_cap s) (s_meta s) (upd (s_nodes s) i None) (s_size s) (s_nempty s)).

Definition set_size (s : swiss) (n : Z) : swiss :=
  mk (s_buf s) (s_cap s) (s_meta s) (s_nodes s) n (s_nempty s).
Definition set_nempty (s : swiss) (n : Z) : swiss :=
  mk (s_buf s) (s_cap s) (s_meta s) (s_nodes s) (s_size s) n.

(** fill_empty -- lines 464-468, as the resulting metadata content. *)
Definition fill_empty_meta (cap : Z) : Z -> Z := fun i => if i =? cap then m_sentinel else m_empty.
Definition fill_empty (s : swiss) : res swiss :=
  let* _ := check_buf s in
  Ok (mk (s_buf s) (s_cap s) (fill_empty_meta (s_cap s)) (s_nodes s) (s_size s) (s_nempty s)).

(** set_metadata -- lines 1248-1254. *)
Definition set_metadata (s : swiss) (pos v : Z) : res swiss :=
  let tail := W - 1 in
  let* s1 := put_meta s (Z.land (sub64 pos tail) (s_cap s) + Z.land tail (s_cap s)) v in
  put_meta s1 pos v.

(** assert_probe -- lines 1204-1207. *)
Definition assert_probe (s : swiss) (idx : Z) : res unit := guard (idx <? s_cap s) AssertFailed.

(** Inner loop of find_node, lines 1221-1226: compare the key of each matched lane. *)
Fixpoint scan_lanes (s : swiss) (k : K) (p : Z * Z) (lanes : list Z) : res (option Z) :=
  match lanes with
  | [] => Ok None
  | l :: r =>
    let off := probe_off (s_cap s) p l in
    let* n := get_node s off in
    if keq (key_of (fst n)) k then Ok (Some off) else scan_lanes s k p r
  end.

Definition probe_fuel (s : swiss) : nat := Z.to_nat (s_cap s / W + 2).

(** find_node -- lines 1209-1234; the result cap means "not found". *)
Fixpoint find_loop (fuel : nat) (s : swiss) (k : K) (h : Z) (p : Z * Z) : res Z :=
  match fuel with
  | O => Err Diverges
  | S fu =>
    let* blk := load_block s (snd p) in
    let* lanes := eq_lanes f blk (h2_of h) in
    let* hit := scan_lanes s k p lanes in
    match hit with
    | Some off => Ok off
    | None =>
      if negb (mask_is_empty (match_empty f blk)) then Ok (s_cap s)
      else let* _ := assert_probe s (fst p) in
           find_loop fu s k h (probe_next f (s_cap s) p)
    end
  end.
Definition find_node (s : swiss) (k : K) (h : Z) : res Z :=
  if s_size s =? 0 then Ok (s_cap s)
  else find_loop (probe_fuel s) s k h (probe_start (s_cap s) h).

(** find_available -- lines 1235-1246. *)
Fixpoint avail_loop (fuel : nat) (s : swiss) (p : Z * Z) : res Z :=
  match fuel with
  | O => Err Diverges
  | S fu =>
    let* blk := load_block s (snd p) in
    let m := match_available f blk in
    if negb (mask_is_empty m) then
      let* l := mask_lsb (mask_shift f) m in Ok (probe_off (s_cap s) p l)
    else let* _ := assert_probe s (fst p) in avail_loop fu s (probe_next f (s_cap s) p)
  end.
Definition find_available (s : swiss) (h : Z) : res Z :=
  avail_loop (probe_fuel s) s (probe_start (s_cap s) h).

(** ** Rehashing. *)

(** Loop body of do_rehash, lines 1382-1390; [s] is the old table. *)
Definition rehash_step (s : swiss) (acc : swiss * list (Z * Z)) (i : Z) : res (swiss * list (Z * Z)) :=
  let '(t, mv) := acc in
  let* b := get_meta s i in
  if is_occupied b then
    let* n := get_node s i in
    let* p := find_available t (snd n) in
    let* t1 := put_node t p n in
    let* t2 := set_metadata t1 p (h2_of (snd n)) in
    Ok (t2, mv ++ [(i, p)])
  else Ok acc.

(** do_rehash -- lines 1376-1393 with buffer resize, lines 523-550.  [None]: the
    allocation threw and the table is untouched (lines 537-542). *)
Definition do_rehash (lim : Z) (s : swiss) (c : Z) : res (swiss * option (list ev)) :=
  if lim <? c then Ok (s, None)
  else
    let fresh := mk Live c (fill_empty_meta c) (fun _ => None) (s_size s) (s_nempty s) in
    let* tm := (if c =? 0 then Ok (fresh, []) else foldM (rehash_step s) (zrange (s_cap s)) (fresh, [])) in
    let '(t, mv) := tm in
    Ok (set_nempty t (sub64 (capacity_to_max_size f c) (s_size s)), Some [EvRehash c mv]).

(** rehash_deleted, lines 1400-1405: one block. *)
Definition write_block (s : swiss) (p : Z) (l : list Z) : res swiss :=
  foldM (fun t i => put_meta t (p + i) (nth (Z.to_nat i) l 0)) (zrange (Z.of_nat (length l))) s.
Definition reset_block (s : swiss) (b : Z) : res swiss :=
  let* blk := load_block s (b * W) in
  write_block s (b * W) (reset_occupied f blk).

(** rehash_deleted, line 1406: copy of the first W-1 bytes to the tail. *)
Definition copy_tail (s : swiss) : res swiss :=
  foldM (fun t j => let* v := get_meta t j in put_meta t (s_cap s + 1 + j) v) (zrange (W - 1)) s.

(** block_idx -- line 1420. *)
Definition block_idx (cap h pos : Z) : Z :=
  Z.land (sub64 pos (Z.land (h1_of h) cap)) cap / W.

(** The code from label process_node, lines 1415-1441, with the goto as recursion. *)
Fixpoint process_node (fuel : nat) (s : swiss) (i : Z) (tr : list ev) : res (swiss * list ev) :=
  match fuel with
  | O => Err Diverges
  | S fu =>
    let* n := get_node s i in
    let h := snd n in
    let* target := find_available s h in
    if block_idx (s_cap s) h target =? block_idx (s_cap s) h i then
      let* s1 := set_metadata s i (h2_of h) in Ok (s1, tr)
    else
      let* tm := get_meta s target in
      if tm =? m_empty then
        let* s1 := put_node s target n in
        let* s2 := kill_node s1 i in
        let* s3 := set_metadata s2 i m_empty in
        let* s4 := set_metadata s3 target (h2_of h) in
        Ok (s4, tr ++ [EvMove i target])
      else
        let* n2 := get_node s target in
        let s1 := mk (s_buf s) (s_cap s) (s_meta s)
                     (upd (upd (s_nodes s) i (Some n2)) target (Some n)) (s_size s) (s_nempty s) in
        let* s2 := set_metadata s1 target (h2_of h) in
        process_node fu s2 i (tr ++ [EvSwap i target])
  end.

Definition relocate_step (acc : swiss * list ev) (i : Z) : res (swiss * list ev) :=
  let '(s, tr) := acc in
  let* b := get_meta s i in
  if b =? m_deleted then process_node (S (Z.to_nat (s_cap s))) s i tr else Ok acc.

(** rehash_deleted -- lines 1394-1446. *)
Definition rehash_deleted (s : swiss) : res (swiss * list ev) :=
  let* s1 := foldM reset_block (zrange ((s_cap s + W - 1) / W)) s in
  let* s2 := copy_tail s1 in
  let* s3 := put_meta s2 (s_cap s) m_sentinel in
  let* st := foldM relocate_step (zrange (s_cap s)) (s3, []) in
  let '(s4, tr) := st in
  Ok (set_nempty s4 (sub64 (capacity_to_max_size f (s_cap s)) (s_size s)), tr).

(** ** Insertion. *)

(** The first half of emplace_node, lines 1267-1287: find a slot, growing or
    cleaning up if needed.  [None]: an allocation threw. *)
Definition make_room (lim : Z) (s : swiss) (h : Z) : res (swiss * option (Z * list ev)) :=
  if s_cap s =? 0 then
    let* r := do_rehash lim s 1 in
    let '(s1, o) := r in
    match o with
    | None => Ok (s1, None)
    | Some tr => let* p := find_available s1 h in Ok (s1, Some (p, tr))
    end
  else
    let* p := find_available s h in
    let* tm := get_meta s p in
    if (s_nempty s =? 0) && negb (tm =? m_deleted) then
      let* r :=
        (if (W <? s_cap s) && (mul64 (s_size s) 32 <=? mul64 (s_cap s) 25)
         then let* st := rehash_deleted s in Ok (fst st, Some (snd st))
         else do_rehash lim s (sub64 (mul64 (add64 (s_cap s) 1) 2) 1)) in
      let '(s1, o) := r in
      match o with
      | None => Ok (s1, None)
      | Some tr => let* p2 := find_available s1 h in Ok (s1, Some (p2, tr))
      end
    else Ok (s, Some (p, [])).

(** emplace_node -- lines 1264-1300.  [ctor_ok = false]: constructing the element (or,
    for stable nodes, allocating it) throws at line 1291. Result [None]: an exception left
    the call. *)
Definition emplace_node (lim : Z) (ctor_ok : bool) (s : swiss) (h : Z) (e : E)
  : res (swiss * option (Z * list ev)) :=
  let* r := make_room lim s h in
  let '(s1, o) := r in
  match o with
  | None => Ok (s1, None)
  | Some (p, tr) =>
    if negb ctor_ok then Ok (s1, None)
    else
      let* s2 := put_node s1 p (e, h) in
      let* tm := get_meta s2 p in
      let s3 := set_nempty s2 (sub64 (s_nempty s2) (if tm =? m_empty then 1 else 0)) in
      let* s4 := set_metadata s3 p (h2_of h) in
      Ok (set_size s4 (add64 (s_size s4) 1), Some (p, tr))
  end.

(** Result of an insertion: position, inserted flag, node movements. *)
Definition ins_result : Type := option (Z * bool * list ev).

(** do_insert -- lines 1339-1347; also do_emplace 1318-1329 and do_try_emplace
    1330-1338, whose element is built from the same key. *)
Definition do_insert (lim : Z) (ctor_ok : bool) (s : swiss) (e : E) : res (swiss * ins_result) :=
  let h := hash (key_of e) in
  let* p := find_node s (key_of e) h in
  if p =? s_cap s then
    let* r := emplace_node lim ctor_ok s h e in
    let '(s1, o) := r in
    Ok (s1, match o with None => None | Some (q, tr) => Some (q, true, tr) end)
  else Ok (s, Some (p, false, [])).

(** do_insert_or_assign -- lines 1348-1359.  [rep old new] is the element [old] with
    the mapped value of [new] (replace, table_common.hpp 248-258). *)
Definition do_insert_or_assign (rep : E -> E -> E) (lim : Z) (ctor_ok : bool) (s : swiss) (e : E)
  : res (swiss * ins_result) :=
  let h := hash (key_of e) in
  let* p := find_node s (key_of e) h in
  if p =? s_cap s then
    let* r := emplace_node lim ctor_ok s h e in
    let '(s1, o) := r in
    Ok (s1, match o with None => None | Some (q, tr) => Some (q, true, tr) end)
  else
    let* n := get_node s p in
    Ok (mk (s_buf s) (s_cap s) (s_meta s) (upd (s_nodes s) p (Some (rep (fst n) e, snd n)))
           (s_size s) (s_nempty s), Some (p, false, [])).

(** ** Erasure and iteration. *)

(** next_occupied -- lines 429-437 (m_meta as an index). *)
Fixpoint next_occupied (fuel : nat) (s : swiss) (p : Z) : res Z :=
  match fuel with
  | O => Err Diverges
  | S fu =>
    let* b := get_meta s p in
    if is_available b then
      let* blk := load_block s p in
      let* off := count_available f blk in
      next_occupied fu s (p + off)
    else Ok p
  end.
Definition iter_fuel (s : swiss) : nat := S (S (Z.to_nat (s_cap s))).

(** node_iterator constructor, line 399: skip to an occupied slot unless meta is null. *)
Definition to_iter (s : swiss) (p : Z) : res Z :=
  match s_buf s with Null => Ok p | _ => next_occupied (iter_fuel s) s p end.

(** begin / end -- lines 898-901, 1157-1170, 1189-1202 (unordered). *)
Definition begin_iter (s : swiss) : res Z := to_iter s 0.
Definition end_iter (s : swiss) : res Z := to_iter s (s_cap s).
(** operator++ -- lines 412-418. *)
Definition iter_next (s : swiss) (p : Z) : res Z := next_occupied (iter_fuel s) s (p + 1).

(** The loop  for (it = begin(); it != end(); ++it) visit( *it ). *)
Fixpoint walk (fuel : nat) (s : swiss) (p last : Z) : res (list (Z * E)) :=
  match fuel with
  | O => Err Diverges
  | S fu =>
    if p =? last then Ok []
    else let* n := get_node s p in
         let* q := iter_next s p in
         let* r := walk fu s q last in
         Ok ((p, fst n) :: r)
  end.
Definition iterate (s : swiss) : res (list (Z * E)) :=
  let* p := begin_iter s in
  let* l := end_iter s in
  walk (iter_fuel s) s p l.

(** erase_node -- lines 1301-1316, without the returned iterator. *)
Definition erase_node (s : swiss) (pos : Z) : res swiss :=
  let* _ := guard (pos <? s_cap s) AssertFailed in
  let* b := get_meta s pos in
  let* _ := guard (is_occupied b) AssertFailed in
  let* s1 := set_metadata s pos m_deleted in
  Ok (set_size s1 (sub64 (s_size s1) 1)).

(** do_erase -- lines 1361-1368; returns the position of the next element. *)
Definition do_erase (s : swiss) (pos : Z) : res (swiss * Z) :=
  let* s1 := erase_node s pos in
  let* nxt := to_iter s1 pos in
  let* s2 := kill_node s1 pos in
  Ok (s2, nxt).
(** do_extract -- lines 1369-1374, and the move of the value out of the node in
    extract, lines 1077-1094 (the iterator made by erase_node is discarded). *)
Definition do_extract (s : swiss) (pos : Z) : res (swiss * E) :=
  let* n := get_node s pos in
  let* s1 := erase_node s pos in
  let* _ := to_iter s1 pos in
  let* s2 := kill_node s1 pos in
  Ok (s2, fst n).

(** erase(key) -- lines 1052-1059: new table, position of the following element,
    whether an element was removed. *)
Definition erase_key (s : swiss) (k : K) : res (swiss * Z * bool) :=
  let* p := find_node s k (hash k) in
  if p =? s_cap s then let* e := end_iter s in Ok (s, e, false)
  else let* r := do_erase s p in let '(s1, n) := r in Ok (s1, n, true).

(** erase(iterator) -- lines 1060-1069. *)
Definition erase_at (s : swiss) (p : Z) : res (swiss * Z) :=
  let* e := end_iter s in
  if p =? e then Ok (s, e) else do_erase s p.

(** extract(key) -- lines 1077-1084. *)
Definition extract_key (s : swiss) (k : K) : res (swiss * option E) :=
  let* p := find_node s k (hash k) in
  if p =? s_cap s then Ok (s, None)
  else let* r := do_extract s p in let '(s1, e) := r in Ok (s1, Some e).

(** find / contains -- lines 932-938. *)
Definition contains (s : swiss) (k : K) : res bool :=
  let* p := find_node s k (hash k) in Ok (negb (p =? s_cap s)).
Definition find (s : swiss) (k : K) : res (option E) :=
  let* p := find_node s k (hash k) in
  let* q := to_iter s p in
  let* l := end_iter s in
  if q =? l then Ok None else let* n := get_node s q in Ok (Some (fst n)).

(** erase_nodes -- lines 1522-1530. *)
Definition erase_nodes (s : swiss) : res swiss :=
  let* s1 := foldM (fun t i =>
      let* b := get_meta t i in if is_occupied b then kill_node t i else Ok t)
      (zrange (s_cap s)) s in
  Ok (set_size s1 0).

(** clear -- lines 916-929. *)
Definition clear (s : swiss) : res swiss :=
  if s_size s =? 0 then Ok s
  else
    let* s1 := erase_nodes s in
    let* s2 := fill_empty s1 in
    Ok (set_nempty (set_size s2 0) (capacity_to_max_size f (s_cap s2))).

(** reserve -- line 930.  [None]: the allocation threw. *)
Definition reserve (lim : Z) (s : swiss) (n : Z) : res (swiss * option (list ev)) :=
  if add64 (s_size s) (s_nempty s) <? n then
    let* c := align_capacity (size_to_min_capacity f n) in do_rehash lim s c
  else Ok (s, Some []).

(** rehash -- lines 1124-1131. *)
Definition rehash (lim : Z) (s : swiss) (n : Z) : res (swiss * option (list ev)) :=
  if (n =? 0) && (s_size s =? 0) then Ok (s, Some [])
  else
    let* c := align_capacity (Z.lor n (size_to_min_capacity f n)) in
    if (n =? 0) || (s_cap s <? c) then do_rehash lim s c else Ok (s, Some []).

(** insert(first, last) -- lines 981-987, for random access iterators ([ra]) or not.
    Stops at the first exception (result false). *)
Fixpoint insert_all (lim : Z) (s : swiss) (l : list E) : res (swiss * bool) :=
  match l with
  | [] => Ok (s, true)
  | e :: r =>
    let* x := do_insert lim true s e in
    let '(s1, o) := x in
    match o with None => Ok (s1, false) | Some _ => insert_all lim s1 r end
  end.
Definition insert_range (ra : bool) (lim : Z) (s : swiss) (l : list E) : res (swiss * bool) :=
  let* x := (if ra then reserve lim s (add64 (s_size s) (Z.of_nat (length l))) else Ok (s, Some [])) in
  let '(s1, o) := x in
  match o with None => Ok (s1, false) | Some _ => insert_all lim s1 l end.

(** swiss_table(n, ..) -- lines 839-843 with buffer constructor 511-516, 552-557.
    [None]: the allocation threw. *)
Definition ctor_n (lim n : Z) : res (option swiss) :=
  if lim <? n then Ok None
  else
    let* _ := guard (Z.land (add64 n 1) n =? 0) AssertFailed in
    Ok (Some (mk Live n (fill_empty_meta n) (fun _ => None) 0 (capacity_to_max_size f n))).

(** distance_or_n -- utility.hpp 200-208: the larger of distance and count for random
    access iterators, else the requested count.  Range constructor -- lines 845-846. *)
Definition distance_or_n (ra : bool) (l : list E) (n : Z) : Z :=
  if ra then Z.max (Z.of_nat (length l)) n else n.
Definition ctor_range (ra : bool) (lim : Z) (l : list E) (n : Z) : res (option (swiss * bool)) :=
  let* o := ctor_n lim (distance_or_n ra l n) in
  match o with
  | None => Ok None
  | Some s => let* r := insert_range ra lim s l in Ok (Some r)
  end.

(** ** erase_if -- sparse_map.hpp 574-589 (same text in the other sparse and stable
    wrappers). *)
Fixpoint erase_if_loop (fuel : nat) (pred : E -> bool) (s : swiss) (p last cnt : Z) : res (swiss * Z) :=
  match fuel with
  | O => Err Diverges
  | S fu =>
    if p =? last then Ok (s, cnt)
    else
      let* n := get_node s p in
      if pred (fst n) then
        let* r := erase_at s p in
        let '(s1, q) := r in erase_if_loop fu pred s1 q last (cnt + 1)
      else
        let* q := iter_next s p in erase_if_loop fu pred s q last cnt
  end.
Definition erase_if (pred : E -> bool) (s : swiss) : res (swiss * Z) :=
  let* p := begin_iter s in
  let* l := end_iter s in
  erase_if_loop (iter_fuel s) pred s p l 0.

(** ** Node handles (stable tables). *)
(** insert_node -- lines 962-970.  The handle is [Some e] or empty; node.key() of an
    empty handle dereferences a null pointer (table_common.hpp 354-355).  The result
    gives the handle handed back. *)
Definition insert_handle (lim : Z) (s : swiss) (hd : option E)
  : res (swiss * option (Z * bool * option E * list ev)) :=
  match hd with
  | None => Err NullDeref
  | Some e =>
    let h := hash (key_of e) in
    let* p := find_node s (key_of e) h in
    if p =? s_cap s then
      let* r := emplace_node lim true s h e in
      let '(s1, o) := r in
      Ok (s1, match o with None => None | Some (q, tr) => Some (q, true, None, tr) end)
    else Ok (s, Some (p, false, Some e, []))
  end.

(** insert_or_assign_node -- lines 994-1024.  If the key is found, the element of the slot
    is destroyed and the handle's element takes its place, key included
    (table_common.hpp 424-434: the stored hash and the links are left alone). *)
Definition assign_handle (lim : Z) (s : swiss) (hd : option E)
  : res (swiss * option (Z * bool * list ev)) :=
  match hd with
  | None => Err NullDeref
  | Some e =>
    let h := hash (key_of e) in
    let* p := find_node s (key_of e) h in
    if p =? s_cap s then
      let* r := emplace_node lim true s h e in
      let '(s1, o) := r in
      Ok (s1, match o with None => None | Some (q, tr) => Some (q, true, tr) end)
    else
      let* n := get_node s p in
      Ok (mk (s_buf s) (s_cap s) (s_meta s) (upd (s_nodes s) p (Some (e, snd n)))
             (s_size s) (s_nempty s), Some (p, false, []))
  end.

(** merge -- lines 1096-1113 (unordered).  Walks the source from begin() to end();
    the ++ after an extraction starts from the (now deleted) slot.  The transfer is a
    noexcept lambda (line 1103): an allocation that throws in it ends the program.  The
    bool is false if the allocation in reserve (line 1099) threw. *)
Fixpoint merge_loop (fuel : nat) (lim : Z) (s o : swiss) (p last : Z) : res (swiss * swiss * bool) :=
  match fuel with
  | O => Err Diverges
  | S fu =>
    if p =? last then Ok (s, o, true)
    else
      let* n := get_node o p in
      let k := key_of (fst n) in
      let h := hash k in
      let* q := find_node s k h in
      if q =? s_cap s then
        let* x := do_extract o p in
        let '(o1, e) := x in
        let* r := emplace_node lim true s h e in
        let '(s1, oo) := r in
        match oo with
        | None => Err Terminated
        | Some _ => let* p' := iter_next o1 p in merge_loop fu lim s1 o1 p' last
        end
      else let* p' := iter_next o p in merge_loop fu lim s o p' last
  end.
Definition merge (lim : Z) (s o : swiss) : res (swiss * swiss * bool) :=
  let* x := reserve lim s (add64 (s_size s) (s_size o)) in
  let '(s1, r) := x in
  match r with
  | None => Ok (s1, o, false)
  | Some _ =>
    let* p := begin_iter o in
    let* l := end_iter o in
    merge_loop (iter_fuel o) lim s1 o p l
  end.

(** ** Copy and move. *)

(** buffer reallocate -- lines 558-571.  Frees first; if the allocation throws the
    freed pointers and the old capacity stay in place. *)
Definition reallocate (lim : Z) (s : swiss) (n : Z) : res (swiss * bool) :=
  if s_cap s <? n then
    if lim <? n then
      Ok (mk (if s_cap s =? 0 then s_buf s else Dangling) (s_cap s) (s_meta s) (s_nodes s)
             (s_size s) (s_nempty s), false)
    else Ok (mk Live n (fun _ => 0) (fun _ => None) (s_size s) (s_nempty s), true)
  else Ok (s, true).

(** copy_data -- lines 1448-1476.  [clone] is the copy of an element (identity for
    packed nodes; a new object for stable nodes). *)
Definition copy_step (clone : E -> E) (o : swiss) (s : swiss) (i : Z) : res swiss :=
  let* b := get_meta o i in
  if is_occupied b then
    let* n := get_node o i in
    let* s1 := put_node s i (clone (fst n), snd n) in
    set_metadata s1 i b
  else Ok s.
Definition copy_data (clone : E -> E) (lim : Z) (s o : swiss) : res (swiss * bool) :=
  let* _ := guard (s_size s =? 0) AssertFailed in
  if s_size o =? 0 then
    Ok (set_nempty s (if s_cap s =? 0 then 0 else capacity_to_max_size f (s_cap s)), true)
  else
    let* x := reallocate lim s (s_cap o) in
    let '(s1, okb) := x in
    if negb okb then Ok (s1, false)
    else
      let* s2 := fill_empty s1 in
      let* s3 := foldM (copy_step clone o) (zrange (s_cap o)) s2 in
      Ok (set_nempty (set_size s3 (s_size o)) (sub64 (capacity_to_max_size f (s_cap s3)) (s_size o)), true).

(** Copy construction -- lines 848-849. *)
Definition copy_ctor (clone : E -> E) (lim : Z) (o : swiss) : res (swiss * bool) :=
  copy_data clone lim empty_swiss o.

(** The buffer part of copy/move assignment -- lines 476-507: with a propagating
    allocator the buffers are released and the capacity set to 0. *)
Definition buffer_assign (propagate : bool) (s : swiss) : swiss :=
  if propagate then mk Null 0 (fun _ => 0) (fun _ => None) (s_size s) (s_nempty s) else s.

(** Copy assignment (this != &other) -- lines 856-869. *)
Definition copy_assign (clone : E -> E) (pocca : bool) (lim : Z) (s o : swiss) : res (swiss * bool) :=
  let* s1 := erase_nodes s in
  copy_data clone lim (buffer_assign pocca s1) o.

(** move_data -- lines 1486-1521. *)
Definition move_step (acc : swiss * swiss) (i : Z) : res (swiss * swiss) :=
  let '(s, o) := acc in
  let* b := get_meta o i in
  if is_occupied b then
    let* n := get_node o i in
    let* s1 := put_node s i n in
    let* o1 := kill_node o i in
    let* s2 := set_metadata s1 i b in
    Ok (s2, o1)
  else Ok acc.
Definition move_data (lim : Z) (s o : swiss) : res (swiss * swiss * bool) :=
  let* _ := guard (s_size s =? 0) AssertFailed in
  if s_size o =? 0 then
    Ok (set_nempty (set_size s 0) (if s_cap s =? 0 then 0 else capacity_to_max_size f (s_cap s)), o, true)
  else
    let* x := reallocate lim s (s_cap o) in
    let '(s1, okb) := x in
    if negb okb then Ok (s1, o, false)
    else
      let* s2 := fill_empty s1 in
      let* so := foldM move_step (zrange (s_cap o)) (s2, o) in
      let '(s3, o1) := so in
      let s4 := set_nempty (set_size s3 (s_size o)) (sub64 (capacity_to_max_size f (s_cap s3)) (s_size o)) in
      let* o2 := fill_empty (set_nempty (set_size o1 0) (capacity_to_max_size f (s_cap o1))) in
      Ok (s4, o2, true).

(** move_from -- lines 1537-1543 with swap_buffers 1531-1536; [alloc_eq] is can_swap. *)
Definition move_from (alloc_eq : bool) (lim : Z) (s o : swiss) : res (swiss * swiss * bool) :=
  if alloc_eq then Ok (o, s, true) else move_data lim s o.

(** Move construction -- lines 851-854. *)
Definition move_ctor (alloc_eq : bool) (lim : Z) (o : swiss) : res (swiss * swiss * bool) :=
  move_from alloc_eq lim empty_swiss o.
(** Move assignment (this != &other) -- lines 870-883. *)
Definition move_assign (pocma alloc_eq : bool) (lim : Z) (s o : swiss) : res (swiss * swiss * bool) :=
  let* s1 := erase_nodes s in
  move_from alloc_eq lim (buffer_assign pocma s1) o.
(** swap -- lines 1140-1146, 1531-1536 (equal allocators, line 586). *)
Definition swap (alloc_eq : bool) (s o : swiss) : res (swiss * swiss) :=
  let* _ := guard alloc_eq AssertFailed in Ok (o, s).

(** merge(&&) -- lines 1116-1122. *)
Definition merge_rvalue (pocma alloc_eq : bool) (lim : Z) (s o : swiss) : res (swiss * swiss * bool) :=
  if s_size s =? 0 then move_assign pocma alloc_eq lim s o else merge lim s o.

(** Size queries -- lines 908-914. *)
Definition size (s : swiss) : Z := s_size s.
Definition bucket_count (s : swiss) : Z := s_cap s.
Definition capacity (s : swiss) : Z := capacity_to_max_size f (s_cap s).

End Swiss.

Arguments mk {E}. Arguments empty_swiss {E}.
