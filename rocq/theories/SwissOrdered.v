(** Model of tpp/detail/swiss_table.hpp for ordered tables: the swiss table of SwissModel.v
    together with the insertion-order links.  Every node starts with a link (packed_node and
    stable_node, table_common.hpp 210-211, 307-308); the header link lies in the table object
    (line 746).  Iterators are addresses of links; end() is the address of the header (lines
    1157-1204).  The values move as in SwissModel.v, which gives the list of relocations and
    swaps of nodes in the order of the code; the links follow it here.  Line numbers refer to
    swiss_table.hpp unless another file is named. *)
From Coq Require Import ZArith List Bool.
From Verif Require Import Base Bits SwissModel SwissRun LinkModel.
Import ListNotations.
Open Scope Z_scope.

(** A table: the contents, the address of the header link, the address of the node array
    (0 for null). *)
Record oswiss (E : Type) := mkos { os_t : @swiss E; os_hdr : Z; os_base : Z }.
Arguments mkos {E}. Arguments os_t {E}. Arguments os_hdr {E}. Arguments os_base {E}.

(** The environment of a call: the allocation limit, whether element construction succeeds,
    the address at which the next node array is placed, the contents of fresh memory. *)
Record senv := mksv { sv_e : env; sv_base : Z; sv_junk : Z -> link }.

Section Ordered.
Context {E K : Type}.
Variable f : simd.
Variable sz : Z.                      (* sizeof(bucket_node) *)
Variable key_of : E -> K.
Variable hash : K -> Z.
Variable keq : K -> K -> bool.
Variable rep : E -> E -> E.
Notation oswiss := (oswiss E).
Notation swiss := (@swiss E).

Definition with_t (s : oswiss) (t : swiss) : oswiss := mkos t (os_hdr s) (os_base s).
(** m_buffer.nodes() + i. *)
Definition sslot (s : oswiss) (i : Z) : Z := os_base s + i * sz.
(** to_iter(pos) -- lines 1175-1188. *)
Definition s_iter (s : oswiss) (i : Z) : Z := if i <? s_cap (os_t s) then sslot s i else os_hdr s.
(** The position of the node at an iterator -- line 1064. *)
Definition s_index (s : oswiss) (a : Z) : res Z :=
  match slot_ix (os_base s) sz (s_cap (os_t s)) a with Some i => Ok i | None => Err OutOfBounds end.
(** Comparison with end() and dereference. *)
Definition s_at (s : oswiss) (a : Z) : res (option E) :=
  if a =? os_hdr s then Ok None
  else let* i := s_index s a in let* n := get_node (os_t s) i in Ok (Some (fst n)).

(** The links during one movement of nodes.  A rehash (do_rehash, lines 1376-1393; resize,
    lines 523-550) allocates a new array, relocates every node with relink_from
    (table_common.hpp 235-240, 436-441) and frees the old array; in an in-place cleanup,
    relocation (line 1431) uses relink_from and swapping two nodes (line 1438) exchanges
    the distances stored in them (table_common.hpp 291-298, 491-497, 165-169). *)
Definition relink_move (nb ob : Z) (h : heap) (m : Z * Z) : res heap :=
  relink_from h (nb + snd m * sz) (ob + fst m * sz).
Definition s_event (v : senv) (st : heap * Z * Z) (e : ev) : res (heap * Z * Z) :=
  let '(h, base, cap) := st in
  match e with
  | EvRehash c mv =>
    let* h1 := place (sv_junk v) h (sv_base v) sz c in
    let* h2 := foldM (relink_move (sv_base v) base) mv h1 in
    Ok (unplace h2 base sz cap, sv_base v, c)
  | EvMove a b => let* h1 := relink_from h (base + b * sz) (base + a * sz) in Ok (h1, base, cap)
  | EvSwap a b => let* h1 := swap_raw h (base + a * sz) (base + b * sz) in Ok (h1, base, cap)
  end.
Definition s_events (v : senv) (h : heap) (s : oswiss) (tr : list ev) (t1 : swiss) : res (heap * oswiss) :=
  let* x := foldM (s_event v) tr (h, os_base s, s_cap (os_t s)) in
  let '(h1, base, _) := x in Ok (h1, mkos t1 (os_hdr s) base).

(** emplace_node -- lines 1264-1300 with insert_link, lines 1256-1263.  A hint of 0 is a null
    pointer: the new node goes behind back_node().  Result: the position of the node, or
    [None] when an exception left the call. *)
Definition s_emplace_node (v : senv) (ctor : bool) (h : heap) (s : oswiss) (hint hh : Z) (e : E)
  : res (heap * oswiss * option Z) :=
  let* r := make_room f (ev_lim (sv_e v)) (os_t s) hh in
  let '(t1, o) := r in
  match o with
  | None => Ok (h, with_t s t1, None)
  | Some (p, tr) =>
    let* x := s_events v h s tr t1 in
    let '(h1, s1) := x in
    if negb ctor then Ok (h1, s1, None)
    else
      let* t2 := put_node t1 p (e, hh) in
      let* prev := (if hint =? 0 then prev_link h1 (os_hdr s1) else Ok hint) in
      let* h2 := link_after h1 (sslot s1 p) prev in
      let* tm := get_meta f t2 p in
      let t3 := set_nempty t2 (sub64 (s_nempty t2) (if tm =? m_empty then 1 else 0)) in
      let* t4 := set_metadata f t3 p (h2_of hh) in
      Ok (h2, with_t s1 (set_size t4 (add64 (s_size t4) 1)), Some p)
  end.

(** Result of an insertion: iterator and flag, or [None] when an exception left the call. *)
Definition s_result : Type := option (Z * bool).
(** do_insert -- lines 1339-1347; also do_emplace 1318-1329 (the temporary node is not
    linked) and do_try_emplace 1330-1338. *)
Definition s_do_insert (v : senv) (h : heap) (s : oswiss) (hint : Z) (e : E) : res (heap * oswiss * s_result) :=
  let hh := hash (key_of e) in
  let* p := find_node f key_of keq (os_t s) (key_of e) hh in
  if p =? s_cap (os_t s) then
    let* r := s_emplace_node v (ev_ctor (sv_e v)) h s hint hh e in
    let '(h1, s1, o) := r in
    Ok (h1, s1, match o with None => None | Some q => Some (s_iter s1 q, true) end)
  else Ok (h, s, Some (s_iter s p, false)).
(** do_insert_or_assign -- lines 1348-1359: replace changes the mapped value in place. *)
Definition s_do_insert_or_assign (v : senv) (h : heap) (s : oswiss) (hint : Z) (e : E) : res (heap * oswiss * s_result) :=
  let hh := hash (key_of e) in
  let* p := find_node f key_of keq (os_t s) (key_of e) hh in
  if p =? s_cap (os_t s) then
    let* r := s_emplace_node v (ev_ctor (sv_e v)) h s hint hh e in
    let '(h1, s1, o) := r in
    Ok (h1, s1, match o with None => None | Some q => Some (s_iter s1 q, true) end)
  else
    let* n := get_node (os_t s) p in
    let t := os_t s in
    Ok (h, with_t s (mk (s_buf t) (s_cap t) (s_meta t) (upd (s_nodes t) p (Some (rep (fst n) e, snd n))) (s_size t) (s_nempty t)),
        Some (s_iter s p, false)).

(** erase_node -- lines 1301-1316: the iterator to the next element is taken before the node
    is unlinked. *)
Definition s_erase_node (h : heap) (s : oswiss) (pos : Z) : res (heap * oswiss * Z) :=
  let* t1 := erase_node f (os_t s) pos in
  let* next := next_link h (sslot s pos) in
  let* h1 := unlink h (sslot s pos) in
  Ok (h1, with_t s t1, next).
(** do_erase -- lines 1361-1368. *)
Definition s_do_erase (h : heap) (s : oswiss) (pos : Z) : res (heap * oswiss * Z) :=
  let* x := s_erase_node h s pos in
  let '(h1, s1, next) := x in
  let* t2 := kill_node (os_t s1) pos in
  Ok (h1, with_t s1 t2, next).
(** do_extract -- lines 1369-1374 and the move of the value into the handle, lines 1077-1094. *)
Definition s_do_extract (h : heap) (s : oswiss) (pos : Z) : res (heap * oswiss * E) :=
  let* n := get_node (os_t s) pos in
  let* x := s_erase_node h s pos in
  let '(h1, s1, _) := x in
  let* t2 := kill_node (os_t s1) pos in
  Ok (h1, with_t s1 t2, fst n).
(** erase(key) -- lines 1052-1059, with the information whether an element was erased. *)
Definition s_erase_key (h : heap) (s : oswiss) (k : K) : res (heap * oswiss * Z * bool) :=
  let* p := find_node f key_of keq (os_t s) k (hash k) in
  if p =? s_cap (os_t s) then Ok (h, s, os_hdr s, false)
  else let* x := s_do_erase h s p in Ok (x, true).
(** erase(iterator) -- lines 1060-1069. *)
Definition s_erase_at (h : heap) (s : oswiss) (a : Z) : res (heap * oswiss * Z) :=
  if a =? os_hdr s then Ok (h, s, os_hdr s)
  else let* pos := s_index s a in s_do_erase h s pos.
(** erase(first, last) -- lines 1070-1075. *)
Fixpoint s_erase_range_loop (fuel : nat) (h : heap) (s : oswiss) (first last result : Z) : res (heap * oswiss * Z) :=
  match fuel with
  | O => Err Diverges
  | S fu =>
    if last =? first then Ok (h, s, result)
    else
      let* p := prev_link h last in
      let* x := s_erase_at h s p in
      let '(h1, s1, r1) := x in s_erase_range_loop fu h1 s1 first p r1
  end.
Definition s_erase_range (h : heap) (s : oswiss) (first last : Z) : res (heap * oswiss * Z) :=
  s_erase_range_loop (iter_fuel (os_t s)) h s first last (os_hdr s).
(** extract(key) -- lines 1077-1084. *)
Definition s_extract_key (h : heap) (s : oswiss) (k : K) : res (heap * oswiss * option E) :=
  let* p := find_node f key_of keq (os_t s) k (hash k) in
  if p =? s_cap (os_t s) then Ok (h, s, None)
  else let* x := s_do_extract h s p in let '(h1, s1, e) := x in Ok (h1, s1, Some e).
(** extract(iterator) -- lines 1085-1094. *)
Definition s_extract_at (h : heap) (s : oswiss) (a : Z) : res (heap * oswiss * option E) :=
  if a =? os_hdr s then Ok (h, s, None)
  else let* p := s_index s a in let* x := s_do_extract h s p in let '(h1, s1, e) := x in Ok (h1, s1, Some e).

(** clear -- lines 916-929: the header is reset only if there are elements. *)
Definition s_clear (h : heap) (s : oswiss) : res (heap * oswiss) :=
  let* h1 := (if s_size (os_t s) =? 0 then Ok h else reset_link h (os_hdr s)) in
  let* t1 := clear f (os_t s) in Ok (h1, with_t s t1).
(** reserve, rehash -- lines 930, 1124-1131. *)
Definition s_resized (v : senv) (h : heap) (s : oswiss) (x : swiss * option (list ev)) : res (heap * oswiss * option unit) :=
  let '(t1, o) := x in
  match o with
  | None => Ok (h, with_t s t1, None)
  | Some tr => let* y := s_events v h s tr t1 in Ok (y, Some tt)
  end.
Definition s_reserve (v : senv) (h : heap) (s : oswiss) (n : Z) : res (heap * oswiss * option unit) :=
  let* x := reserve f (ev_lim (sv_e v)) (os_t s) n in s_resized v h s x.
Definition s_rehash (v : senv) (h : heap) (s : oswiss) (n : Z) : res (heap * oswiss * option unit) :=
  let* x := rehash f (ev_lim (sv_e v)) (os_t s) n in s_resized v h s x.

(** Iteration from begin() to end() and back -- lines 897-900, 1157-1173. *)
Fixpoint s_deref_all (s : oswiss) (l : list Z) : res (list E) :=
  match l with
  | [] => Ok []
  | a :: r =>
    let* i := s_index s a in
    let* n := get_node (os_t s) i in
    let* xs := s_deref_all s r in Ok (fst n :: xs)
  end.
Definition s_iterate (h : heap) (s : oswiss) : res (list E) :=
  let* a := next_link h (os_hdr s) in
  let* l := walk (iter_fuel (os_t s)) h a (os_hdr s) in s_deref_all s l.
Definition s_backwards (h : heap) (s : oswiss) : res (list E) :=
  let* a := prev_link h (os_hdr s) in
  let* l := walk_back (iter_fuel (os_t s)) h a (os_hdr s) in s_deref_all s l.
(** begin() advanced [n] times. *)
Fixpoint s_advance (n : nat) (h : heap) (a : Z) : res Z :=
  match n with O => Ok a | S n' => let* b := next_link h a in s_advance n' h b end.
Definition s_nth (h : heap) (s : oswiss) (n : Z) : res Z :=
  let* a := next_link h (os_hdr s) in s_advance (Z.to_nat n) h a.
(** front(), back() -- lines 902-905: the reference is taken without a test, so that on an
    empty container it refers to the header, which holds no element. *)
Definition s_value (s : oswiss) (a : Z) : res E :=
  let* i := s_index s a in let* n := get_node (os_t s) i in Ok (fst n).
Definition s_front (h : heap) (s : oswiss) : res E := let* a := next_link h (os_hdr s) in s_value s a.
Definition s_back (h : heap) (s : oswiss) : res E := let* a := prev_link h (os_hdr s) in s_value s a.

(** erase_if -- sparse_map.hpp 1170-1184, sparse_set.hpp 608-622, stable_map.hpp 1264-1278,
    stable_set.hpp 676-690. *)
Fixpoint s_erase_if_loop (fuel : nat) (pred : E -> bool) (h : heap) (s : oswiss) (i cnt : Z) : res (heap * oswiss * Z) :=
  match fuel with
  | O => Err Diverges
  | S fu =>
    if i =? os_hdr s then Ok (h, s, cnt)
    else
      let* p := s_index s i in
      let* n := get_node (os_t s) p in
      if pred (fst n) then
        let* x := s_erase_at h s i in
        let '(h1, s1, r) := x in s_erase_if_loop fu pred h1 s1 r (cnt + 1)
      else let* i' := next_link h i in s_erase_if_loop fu pred h s i' cnt
  end.
Definition s_erase_if (pred : E -> bool) (h : heap) (s : oswiss) : res (heap * oswiss * Z) :=
  let* b := next_link h (os_hdr s) in
  s_erase_if_loop (iter_fuel (os_t s)) pred h s b 0.

(** ** Node handles (stable tables). *)
(** insert_node -- lines 962-970. *)
Definition s_insert_node (v : senv) (h : heap) (s : oswiss) (hd : option E) : res (heap * oswiss * option (Z * bool * option E)) :=
  match hd with
  | None => Err NullDeref
  | Some e =>
    let hh := hash (key_of e) in
    let* p := find_node f key_of keq (os_t s) (key_of e) hh in
    if p =? s_cap (os_t s) then
      let* r := s_emplace_node v true h s 0 hh e in
      let '(h1, s1, o) := r in
      Ok (h1, s1, match o with None => None | Some q => Some (s_iter s1 q, true, None) end)
    else Ok (h, s, Some (s_iter s p, false, Some e))
  end.
(** insert_or_assign_node -- lines 994-1024.  An element found is replaced in its slot, which
    keeps its links (table_common.hpp 424-434). *)
Definition s_assign_node (v : senv) (h : heap) (s : oswiss) (hd : option E) : res (heap * oswiss * option (Z * bool)) :=
  match hd with
  | None => Err NullDeref
  | Some e =>
    let hh := hash (key_of e) in
    let* p := find_node f key_of keq (os_t s) (key_of e) hh in
    if p =? s_cap (os_t s) then
      let* r := s_emplace_node v true h s 0 hh e in
      let '(h1, s1, o) := r in
      Ok (h1, s1, match o with None => None | Some q => Some (s_iter s1 q, true) end)
    else
      let* n := get_node (os_t s) p in
      let t := os_t s in
      Ok (h, with_t s (mk (s_buf t) (s_cap t) (s_meta t) (upd (s_nodes t) p (Some (e, snd n))) (s_size t) (s_nempty t)), Some (s_iter s p, false))
  end.
(** merge -- lines 1096-1113 (ordered): walks the source from end() backwards and stops when
    it reaches the first element.  An exception in the transfer (noexcept, line 1103) ends
    the program. *)
Fixpoint s_merge_loop (fuel : nat) (v : senv) (h : heap) (s o : oswiss) (pos last : Z) : res (heap * oswiss * oswiss * bool) :=
  match fuel with
  | O => Err Diverges
  | S fu =>
    let* p := prev_link h pos in
    if p =? last then Ok (h, s, o, true)
    else
      let* e := s_value o p in
      let k := key_of e in
      let hh := hash k in
      let* q := find_node f key_of keq (os_t s) k hh in
      if q =? s_cap (os_t s) then
        let* x := s_extract_at h o p in
        let '(h1, o1, oe) := x in
        match oe with
        | None => Err NullDeref
        | Some e1 =>
          let* r := s_emplace_node v true h1 s 0 hh e1 in
          let '(h2, s2, oo) := r in
          match oo with
          | None => Err Terminated
          | Some _ => s_merge_loop fu v h2 s2 o1 p last
          end
        end
      else s_merge_loop fu v h s o p last
  end.
Definition s_merge (v : senv) (h : heap) (s o : oswiss) : res (heap * oswiss * oswiss * bool) :=
  let* x := s_reserve v h s (add64 (s_size (os_t s)) (s_size (os_t o))) in
  let '(h1, s1, r) := x in
  match r with
  | None => Ok (h1, s1, o, false)
  | Some _ =>
    let* last := next_link h1 (os_hdr o) in
    s_merge_loop (iter_fuel (os_t o)) v h1 s1 o (os_hdr o) last
  end.

(** ** Copy, move, swap. *)
(** The storage of the node array after reallocate (lines 558-571), which frees the old
    arrays first; [failed]: the allocation threw after that. *)
Definition s_realloc (v : senv) (h : heap) (s : oswiss) (n : Z) (failed : bool) : res (heap * Z) :=
  if s_cap (os_t s) <? n then
    let h1 := unplace h (os_base s) sz (s_cap (os_t s)) in
    if failed then Ok (h1, os_base s)
    else let* h2 := place (sv_junk v) h1 (sv_base v) sz n in Ok (h2, sv_base v)
  else Ok (h, os_base s).
(** copy_data -- lines 1448-1485: the distances are copied with the nodes (table_common.hpp
    229-234, 417-422), then the header is linked to the copies of the first and last node. *)
Definition copy_link_occ (t : swiss) (nb ob : Z) (h : heap) (i : Z) : res heap :=
  let* b := get_meta f t i in
  if is_occupied b then copy_link h (nb + i * sz) (ob + i * sz) else Ok h.
Definition s_copy_data (clone : E -> E) (v : senv) (h : heap) (s o : oswiss) : res (heap * oswiss * bool) :=
  let* x := copy_data f clone (ev_lim (sv_e v)) (os_t s) (os_t o) in
  let '(t1, okb) := x in
  if s_size (os_t o) =? 0 then Ok (h, with_t s t1, okb)
  else
    let* y := s_realloc v h s (s_cap (os_t o)) (negb okb) in
    let '(h1, nb) := y in
    if negb okb then Ok (h1, with_t s t1, false)
    else
      let* h2 := foldM (copy_link_occ (os_t o) nb (os_base o)) (zrange (s_cap (os_t o))) h1 in
      let* front := next_link h2 (os_hdr o) in
      let* back := prev_link h2 (os_hdr o) in
      let* h3 := link2 h2 (os_hdr s) (nb + (front - os_base o)) (nb + (back - os_base o)) in
      Ok (h3, mkos t1 (os_hdr s) nb, true).
(** Copy construction at [hdr], where the new object starts with an unlinked header -- lines
    848-849. *)
Definition s_copy_ctor (clone : E -> E) (v : senv) (h : heap) (hdr : Z) (o : oswiss) : res (heap * oswiss * bool) :=
  s_copy_data clone v h (mkos empty_swiss hdr 0) o.
(** The buffer part of assignments with propagating allocators -- lines 476-507. *)
Definition s_release (propagate : bool) (h : heap) (s : oswiss) : heap * oswiss :=
  if propagate then (unplace h (os_base s) sz (s_cap (os_t s)), mkos (buffer_assign true (os_t s)) (os_hdr s) 0) else (h, s).
(** Copy assignment (this != &other) -- lines 856-869. *)
Definition s_copy_assign (clone : E -> E) (pocca : bool) (v : senv) (h : heap) (s o : oswiss) : res (heap * oswiss * bool) :=
  let* h1 := copy_link h (os_hdr s) (os_hdr o) in
  let* t1 := erase_nodes f (os_t s) in
  let '(h2, s2) := s_release pocca h1 (with_t s t1) in
  s_copy_data clone v h2 s2 o.
(** move_from with allocators that compare equal -- lines 1531-1543. *)
Definition s_move_from (h : heap) (s o : oswiss) : heap * oswiss * oswiss :=
  (h, mkos (os_t o) (os_hdr s) (os_base o), mkos (os_t s) (os_hdr o) (os_base s)).
(** Move construction at [hdr] -- lines 851-852. *)
Definition s_move_ctor (h : heap) (hdr : Z) (o : oswiss) : res (heap * oswiss * oswiss) :=
  let* h1 := relink_from h hdr (os_hdr o) in
  Ok (s_move_from h1 (mkos empty_swiss hdr 0) o).
(** Move assignment (this != &other) -- lines 870-883. *)
Definition s_move_assign (pocma : bool) (h : heap) (s o : oswiss) : res (heap * oswiss * oswiss) :=
  let* h1 := relink_from h (os_hdr s) (os_hdr o) in
  let* t1 := erase_nodes f (os_t s) in
  let '(h2, s2) := s_release pocma h1 (with_t s t1) in
  Ok (s_move_from h2 s2 o).
(** swap (equal allocators) -- lines 1140-1146, 1531-1536. *)
Definition s_swap (h : heap) (s o : oswiss) : res (heap * oswiss * oswiss) :=
  let* h1 := swap_links h (os_hdr s) (os_hdr o) in
  Ok (h1, mkos (os_t o) (os_hdr s) (os_base o), mkos (os_t s) (os_hdr o) (os_base s)).
(** merge(&&) -- lines 1116-1122. *)
Definition s_merge_rvalue (pocma : bool) (v : senv) (h : heap) (s o : oswiss) : res (heap * oswiss * oswiss * bool) :=
  if s_size (os_t s) =? 0 then let* x := s_move_assign pocma h s o in Ok (x, true) else s_merge v h s o.
End Ordered.
