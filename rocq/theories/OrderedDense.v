(** Model of tpp/detail/dense_table.hpp for ordered tables: the dense table of DenseModel.v
    together with the insertion-order links.  Every node starts with a link
    (packed_node, table_common.hpp 210-211); the header link lies in the table object
    (line 69).  Iterators are addresses of links; end() is the address of the header
    (lines 496-517).  Relocation of values and of links, which the code interleaves, is done
    in two passes here, as they concern disjoint memory.  Line numbers refer to
    dense_table.hpp unless another file is named. *)
From Coq Require Import ZArith List Bool.
From Verif Require Import Base Float32 DenseModel DenseRun LinkModel.
Import ListNotations.
Open Scope Z_scope.

(** A table: the contents, the address of the header link, the address of the element array
    (0 for null). *)
Record odense (E : Type) := mko { o_d : dense E; o_hdr : Z; o_base : Z }.
Arguments mko {E}. Arguments o_d {E}. Arguments o_hdr {E}. Arguments o_base {E}.

(** The environment of a call: allocation limits, the address at which the next element array
    is placed, and the contents of fresh memory. *)
Record oenv := mkov { ov_d : denv; ov_base : Z; ov_junk : Z -> link }.

Section Ordered.
Context {E K : Type}.
Variable sz : Z.                      (* sizeof(bucket_node) *)
Variable nk : nat.
Variable key_of : nat -> E -> K.
Variable hash : K -> Z.
Variable keq : K -> K -> bool.
Variable rep : E -> E -> E.
Notation odense := (odense E).

Definition with_d (s : odense) (d : dense E) : odense := mko d (o_hdr s) (o_base s).
(** m_dense + i. *)
Definition slot (s : odense) (i : Z) : Z := o_base s + i * sz.
(** to_iter of the node found at position [i]; position size() stands for end_node() --
    lines 511-520. *)
Definition iter_of (s : odense) (i : Z) : Z := if i =? d_size (o_d s) then o_hdr s else slot s i.
(** The node at an iterator. *)
Definition index_of (s : odense) (a : Z) : res Z :=
  match slot_ix (o_base s) sz (d_cap (o_d s)) a with Some i => Ok i | None => Err OutOfBounds end.
(** Comparison with end() and dereference. *)
Definition o_at (s : odense) (a : Z) : res (option E) :=
  if a =? o_hdr s then Ok None
  else let* i := index_of s a in let* n := get_node (o_d s) i in Ok (Some (n_val n)).

(** resize_data -- lines 783-801: the links move with relink_from (table_common.hpp 237). *)
Definition relink_step (nb ob : Z) (h : heap) (i : Z) : res heap := relink_from h (nb + i * sz) (ob + i * sz).
Definition o_resize_data (v : oenv) (h : heap) (s : odense) (cap : Z) : res (heap * odense * option unit) :=
  let* x := resize_data (dv_dlim (ov_d v)) (o_d s) cap in
  let '(d1, o) := x in
  match o with
  | None => Ok (h, with_d s d1, None)
  | Some _ =>
    let* h1 := place (ov_junk v) h (ov_base v) sz cap in
    let* h2 := foldM (relink_step (ov_base v) (o_base s)) (zrange (d_size (o_d s))) h1 in
    Ok (unplace h2 (o_base s) sz (d_cap (o_d s)), mko d1 (o_hdr s) (ov_base v), Some tt)
  end.
(** maybe_resize -- lines 802-821.  A hint (0: none) is shifted by the distance between the
    element arrays, whatever it points to.  Lines 809-814 compute the distance as a difference
    of pointers into different arrays, times sizeof(bucket_node), divided by sizeof(link);
    the model uses the exact distance, which is the result when the placements differ by a
    multiple of the node size and the node size is a multiple of 16. *)
Definition o_maybe_resize (v : oenv) (h : heap) (s : odense) (hint : Z) : res (heap * odense * Z * option unit) :=
  if d_cap (o_d s) =? d_size (o_d s) then
    let* x := o_resize_data v h s (if d_cap (o_d s) =? 0 then 1 else d_cap (o_d s) * 2 mod two64) in
    let '(h1, s1, o) := x in
    Ok (h1, s1, if hint =? 0 then 0 else hint + (o_base s1 - o_base s), o)
  else Ok (h, s, hint, Some tt).
(** maybe_resize then maybe_rehash -- lines 623-624, 651-652, 677-678, 705-706. *)
Definition o_make_room (v : oenv) (h : heap) (s : odense) (hint : Z) : res (heap * odense * Z * option unit) :=
  let* x := o_maybe_resize v h s hint in
  let '(h1, s1, hint1, o) := x in
  match o with
  | None => Ok (h1, s1, hint1, None)
  | Some _ =>
    let* y := maybe_rehash nk (dv_slim (ov_d v)) (o_d s1) in
    let '(d2, o2) := y in Ok (h1, with_d s1 d2, hint1, o2)
  end.

(** commit_node -- lines 578-587: the node is linked after the hint, or after back_node(). *)
Definition o_commit (h : heap) (s : odense) (hint pos : Z) (slice : list (nat * cptr)) (hs : nat -> Z) : res (heap * odense) :=
  let* p := (if hint =? 0 then prev_link h (o_hdr s) else Ok hint) in
  let* h1 := link_after h (slot s pos) p in
  let* d1 := commit_node (o_d s) pos slice hs in
  Ok (h1, with_d s d1).
(** emplace_node -- lines 588-593. *)
Definition o_emplace_node (ctor : bool) (h : heap) (s : odense) (hint : Z) (slice : list (nat * cptr)) (hs : nat -> Z) (e : E) : res (heap * odense * option Z) :=
  let* x := push_node ctor (o_d s) e in
  let '(d1, o) := x in
  match o with
  | None => Ok (h, with_d s d1, None)
  | Some pos => let* y := o_commit h (with_d s d1) hint pos slice hs in let '(h1, s1) := y in Ok (h1, s1, Some pos)
  end.

(** Result of an insertion: iterator and flag, or [None] when an exception left the call. *)
Definition o_result : Type := option (Z * bool).

(** do_insert -- lines 674-697 (and do_try_emplace -- lines 648-672). *)
Definition o_do_insert (v : oenv) (ctor : bool) (h : heap) (s : odense) (hint : Z) (e : E) : res (heap * odense * o_result) :=
  let* x := o_make_room v h s hint in
  let '(h1, s1, hint1, o) := x in
  match o with
  | None => Ok (h1, s1, None)
  | Some _ =>
    let* l := find_all key_of hash keq (o_d s1) e (js nk) in
    let* c := first_clash (o_d s1) l in
    match c with
    | Some i => Ok (h1, s1, Some (iter_of s1 i, false))
    | None =>
      let* sl := slices l in
      let* y := o_emplace_node ctor h1 s1 hint1 sl (fun j => hash (key_of j e)) e in
      let '(h2, s2, o2) := y in
      Ok (h2, s2, match o2 with None => None | Some pos => Some (slot s2 pos, true) end)
    end
  end.
(** do_emplace -- lines 620-645. *)
Definition o_do_emplace (v : oenv) (ctor : bool) (h : heap) (s : odense) (hint : Z) (e : E) : res (heap * odense * o_result) :=
  let* x := o_make_room v h s hint in
  let '(h1, s1, hint1, o) := x in
  match o with
  | None => Ok (h1, s1, None)
  | Some _ =>
    let* y := push_node ctor (o_d s1) e in
    let '(d2, o2) := y in
    match o2 with
    | None => Ok (h1, with_d s1 d2, None)
    | Some pos =>
      let* tmp := get_node d2 pos in
      let w := n_val tmp in
      let* l := find_all key_of hash keq d2 w (js nk) in
      let* c := first_clash d2 l in
      match c with
      | Some i => let* d3 := pop_node d2 in Ok (h1, with_d s1 d3, Some (slot s1 i, false))
      | None =>
        let* sl := slices l in
        let* z := o_commit h1 (with_d s1 d2) hint1 pos sl (fun j => hash (key_of j w)) in
        let '(h3, s3) := z in
        Ok (h3, s3, Some (slot s3 pos, true))
      end
    end
  end.
(** do_insert_or_assign -- lines 700-723. *)
Definition o_do_insert_or_assign (v : oenv) (ctor : bool) (h : heap) (s : odense) (hint : Z) (e : E) : res (heap * odense * o_result) :=
  let* x := o_make_room v h s hint in
  let '(h1, s1, hint1, o) := x in
  match o with
  | None => Ok (h1, s1, None)
  | Some _ =>
    let k := key_of 0 e in
    let* r := find_node key_of keq (o_d s1) 0 k (hash k) in
    let '(i, op) := r in
    let* isnew := (match op with None => Ok false | Some p => let* w := load (o_d s1) 0%nat p in Ok (w =? npos) end) in
    if isnew : bool then
      let* p := deref op in
      let* y := o_emplace_node ctor h1 s1 hint1 [(0%nat, p)] (fun j => hash (key_of j e)) e in
      let '(h2, s2, o2) := y in
      Ok (h2, s2, match o2 with None => None | Some pos => Some (slot s2 pos, true) end)
    else
      let* n := get_node (o_d s1) i in
      let* d2 := put_node (o_d s1) i (mkn (rep (n_val n) e) (n_hash n) (n_next n)) in
      Ok (h1, with_d s1 d2, Some (slot s1 i, false))
  end.

(** erase_node -- lines 594-618: the iterator to the next element is taken and the node is
    unlinked before the last node is moved into its place (move_from, table_common.hpp 241-246). *)
Definition o_erase_node (h : heap) (s : odense) (pos : Z) (slice : list (nat * cptr)) : res (heap * odense * Z) :=
  let* next := next_link h (slot s pos) in
  let* h1 := unlink h (slot s pos) in
  let end_pos := d_size (o_d s) - 1 in
  let* x := erase_node (o_d s) pos slice in
  let* h2 := (if pos =? end_pos then Ok h1 else relink_from h1 (slot s pos) (slot s end_pos)) in
  Ok (h2, with_d s (fst x), next).
(** erase(where) -- lines 430-434, do_erase -- lines 725-737. *)
Definition o_erase_at (h : heap) (s : odense) (a : Z) : res (heap * odense * Z) :=
  if a =? o_hdr s then Ok (h, s, o_hdr s)
  else
    let* pos := index_of s a in
    let* n := get_node (o_d s) pos in
    let* sl := chains_to (o_d s) n pos (js nk) in
    o_erase_node h s pos sl.
(** do_erase<J>(key) -- lines 739-762. *)
Fixpoint o_erase_loop (fuel : nat) (h : heap) (s : odense) (j : nat) (k : K) (hk : Z) (p : cptr) : res (heap * odense * Z) :=
  match fuel with
  | O => Err Diverges
  | S fu =>
    let* pos := load (o_d s) j p in
    if pos =? npos then Ok (h, s, o_hdr s)
    else
      let* n := get_node (o_d s) pos in
      if (n_hash n j =? hk) && keq k (key_of j (n_val n)) then
        let* sl := chains_to (o_d s) n pos (filter (fun i => negb (Nat.eqb i j)) (js nk)) in
        o_erase_node h s pos ((j, p) :: sl)
      else o_erase_loop fu h s j k hk (PNext pos)
  end.
Definition o_erase_key (h : heap) (s : odense) (j : nat) (k : K) : res (heap * odense * Z) :=
  let hk := hash k in
  let* p := deref (get_chain (o_d s) hk) in
  o_erase_loop (chain_fuel (o_d s)) h s j k hk p.
(** erase(first, last) -- lines 435-440. *)
Fixpoint o_erase_range_loop (fuel : nat) (h : heap) (s : odense) (first last result : Z) : res (heap * odense * Z) :=
  match fuel with
  | O => Err Diverges
  | S fu =>
    if last =? first then Ok (h, s, result)
    else
      let* p := prev_link h last in
      let* x := o_erase_at h s p in
      let '(h1, s1, r1) := x in o_erase_range_loop fu h1 s1 first p r1
  end.
Definition o_erase_range (h : heap) (s : odense) (first last : Z) : res (heap * odense * Z) :=
  o_erase_range_loop (chain_fuel (o_d s)) h s first last (o_hdr s).

(** clear -- lines 349-357. *)
Definition o_clear (h : heap) (s : odense) : res (heap * odense) :=
  let* h1 := reset_link h (o_hdr s) in
  let* d1 := clear (o_d s) in Ok (h1, with_d s d1).
(** reserve -- lines 358-362. *)
Definition o_reserve (v : oenv) (h : heap) (s : odense) (n : Z) : res (heap * odense * option unit) :=
  let* x := (if d_cap (o_d s) <? n then o_resize_data v h s n else Ok (h, s, Some tt)) in
  let '(h1, s1, o) := x in
  match o with
  | None => Ok (h1, s1, None)
  | Some _ =>
    let* m := f32_trunc (f32_div (f32_of n) (d_mlf (o_d s1))) in
    let* y := rehash nk (dv_slim (ov_d v)) (o_d s1) m in
    let '(d2, o2) := y in Ok (h1, with_d s1 d2, o2)
  end.

(** Iteration from begin() to end() and back -- lines 318-326, 499-517. *)
Fixpoint deref_all (s : odense) (l : list Z) : res (list E) :=
  match l with
  | [] => Ok []
  | a :: r =>
    let* i := index_of s a in
    let* n := get_node (o_d s) i in
    let* xs := deref_all s r in Ok (n_val n :: xs)
  end.
Definition o_iterate (h : heap) (s : odense) : res (list E) :=
  let* a := next_link h (o_hdr s) in
  let* l := walk (S (Z.to_nat (d_size (o_d s)))) h a (o_hdr s) in deref_all s l.
Definition o_backwards (h : heap) (s : odense) : res (list E) :=
  let* a := prev_link h (o_hdr s) in
  let* l := walk_back (S (Z.to_nat (d_size (o_d s)))) h a (o_hdr s) in deref_all s l.
(** begin() advanced [n] times. *)
Fixpoint o_advance (n : nat) (h : heap) (a : Z) : res Z :=
  match n with O => Ok a | S n' => let* b := next_link h a in o_advance n' h b end.
Definition o_nth (h : heap) (s : odense) (n : Z) : res Z :=
  let* a := next_link h (o_hdr s) in o_advance (Z.to_nat n) h a.

(** erase_if -- dense_set.hpp 700-714, dense_map.hpp 1280-1294. *)
Fixpoint o_erase_if_loop (fuel : nat) (pred : E -> bool) (h : heap) (s : odense) (i cnt : Z) : res (heap * odense * Z) :=
  match fuel with
  | O => Err Diverges
  | S fu =>
    if i =? o_hdr s then Ok (h, s, cnt)
    else
      let* p := index_of s i in
      let* n := get_node (o_d s) p in
      if pred (n_val n) then
        let* x := o_erase_at h s i in
        let '(h1, s1, r) := x in o_erase_if_loop fu pred h1 s1 r (cnt + 1)
      else let* i' := next_link h i in o_erase_if_loop fu pred h s i' cnt
  end.
Definition o_erase_if (pred : E -> bool) (h : heap) (s : odense) : res (heap * odense * Z) :=
  let* b := next_link h (o_hdr s) in
  o_erase_if_loop (chain_fuel (o_d s)) pred h s b 0.

(** ** Copy, move, swap. *)
(** The storage of the element array after realloc_buffer (utility.hpp 233-250), which frees
    the old array first; [failed]: the allocation threw after that. *)
Definition o_realloc (v : oenv) (h : heap) (s : odense) (n : Z) (failed : bool) : res (heap * Z) :=
  if d_cap (o_d s) <? n then
    let h1 := unplace h (o_base s) sz (d_cap (o_d s)) in
    if failed then Ok (h1, o_base s)
    else let* h2 := place (ov_junk v) h1 (ov_base v) sz n in Ok (h2, ov_base v)
  else Ok (h, o_base s).
(** copy_data -- lines 823-859. *)
Definition copy_link_step (nb ob : Z) (h : heap) (i : Z) : res heap := copy_link h (nb + i * sz) (ob + i * sz).
Definition o_copy_data (clone : E -> E) (v : oenv) (h : heap) (s o : odense) : res (heap * odense * bool) :=
  let* x := copy_data nk clone (dv_dlim (ov_d v)) (dv_slim (ov_d v)) (o_d s) (o_d o) in
  let '(d1, okb) := x in
  if d_size (o_d o) =? 0 then Ok (h, with_d s d1, okb)
  else if negb okb && d_dok d1 then Ok (h, with_d s d1, false)
  else
    let* y := o_realloc v h s (d_size (o_d o)) (negb okb) in
    let '(h1, nb) := y in
    if negb okb then Ok (h1, with_d s d1, false)
    else
      let* h2 := foldM (copy_link_step nb (o_base o)) (zrange (d_size (o_d o))) h1 in
      let* front := next_link h2 (o_hdr o) in
      let* back := prev_link h2 (o_hdr o) in
      let* h3 := link2 h2 (o_hdr s) (nb + (front - o_base o)) (nb + (back - o_base o)) in
      Ok (h3, mko d1 (o_hdr s) nb, true).
(** Copy construction at [hdr] -- lines 230-237. *)
Definition o_copy_ctor (clone : E -> E) (v : oenv) (h : heap) (hdr : Z) (o : odense) : res (heap * odense * bool) :=
  let* h1 := copy_link h hdr (o_hdr o) in
  o_copy_data clone v h1 (mko (set_mlf empty_dense (d_mlf (o_d o))) hdr 0) o.
(** Release of the buffers by propagating allocators -- lines 261-270, 287-296. *)
Definition o_release (propagate : bool) (h : heap) (s : odense) : heap * odense :=
  if propagate then (unplace h (o_base s) sz (d_cap (o_d s)), mko (release true (o_d s)) (o_hdr s) 0) else (h, s).
(** Copy assignment -- lines 250-275. *)
Definition o_copy_assign (clone : E -> E) (pocca : bool) (v : oenv) (h : heap) (s o : odense) : res (heap * odense * bool) :=
  let* h1 := copy_link h (o_hdr s) (o_hdr o) in
  let* d1 := clear_data (set_mlf (o_d s) (d_mlf (o_d o))) in
  let '(h2, s2) := o_release pocca h1 (with_d s d1) in
  o_copy_data clone v h2 s2 o.

(** move_data -- lines 860-888. *)
Definition o_move_data (v : oenv) (h : heap) (s o : odense) : res (heap * odense * odense * bool) :=
  let* x := move_data nk (dv_dlim (ov_d v)) (dv_slim (ov_d v)) (o_d s) (o_d o) in
  let '(d1, d2, okb) := x in
  if d_size (o_d o) =? 0 then Ok (h, with_d s d1, with_d o d2, okb)
  else if negb okb && d_dok d1 then Ok (h, with_d s d1, with_d o d2, false)
  else
    let* y := o_realloc v h s (d_size (o_d o)) (negb okb) in
    let '(h1, nb) := y in
    if negb okb then Ok (h1, with_d s d1, with_d o d2, false)
    else
      let* h2 := foldM (relink_step nb (o_base o)) (zrange (d_size (o_d o))) h1 in
      Ok (h2, mko d1 (o_hdr s) nb, with_d o d2, true).
(** move_from -- lines 907-913, swap_buffers -- lines 892-900. *)
Definition o_move_from (alloc_eq : bool) (v : oenv) (h : heap) (s o : odense) : res (heap * odense * odense * bool) :=
  if alloc_eq then
    let '(d1, d2) := swap_buffers (o_d s) (o_d o) in
    Ok (h, mko d1 (o_hdr s) (o_base o), mko d2 (o_hdr o) (o_base s), true)
  else o_move_data v h s o.
(** Move construction at [hdr] -- lines 239-248. *)
Definition o_move_ctor (alloc_eq : bool) (v : oenv) (h : heap) (hdr : Z) (o : odense) : res (heap * odense * odense * bool) :=
  let* h1 := relink_from h hdr (o_hdr o) in
  o_move_from alloc_eq v h1 (mko (set_mlf empty_dense (d_mlf (o_d o))) hdr 0) o.
(** Move assignment -- lines 276-302. *)
Definition o_move_assign (pocma alloc_eq : bool) (v : oenv) (h : heap) (s o : odense) : res (heap * odense * odense * bool) :=
  let* h1 := relink_from h (o_hdr s) (o_hdr o) in
  let* d1 := clear_data (set_mlf (o_d s) (d_mlf (o_d o))) in
  let '(h2, s2) := o_release pocma h1 (with_d s d1) in
  o_move_from alloc_eq v h2 s2 o.
(** swap -- lines 460-478. *)
Definition o_swap (alloc_eq : bool) (h : heap) (s o : odense) : res (heap * odense * odense) :=
  let* h1 := swap_links h (o_hdr s) (o_hdr o) in
  let* x := swap alloc_eq (o_d s) (o_d o) in
  let '(d1, d2) := x in
  Ok (h1, mko d1 (o_hdr s) (o_base o), mko d2 (o_hdr o) (o_base s)).
End Ordered.
