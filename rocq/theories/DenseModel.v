(** Model of tpp/detail/dense_table.hpp (unordered tables; the insertion-order links of the
    ordered tables are added in OrderedDense.v).  An element array holds the elements in
    slots 0 .. size-1; a bucket array holds, for every key index, the first slot of the chain
    of the elements whose hash falls into the bucket; each node holds, for every key index,
    the next slot of its chain.  Line numbers refer to dense_table.hpp unless another file is
    named. *)
From Coq Require Import ZArith List Bool.
From Verif Require Import Base Float32.
Import ListNotations.
Open Scope Z_scope.

(** npos -- line 20. *)
Definition npos : Z := 2 ^ 64 - 1.

(** bucket_node -- lines 29-61 with packed_node (table_common.hpp 210-306): value, hashes,
    next positions. *)
Record node (E : Type) := mkn { n_val : E; n_hash : nat -> Z; n_next : nat -> Z }.
Arguments mkn {E}. Arguments n_val {E}. Arguments n_hash {E}. Arguments n_next {E}.

(** The table -- lines 915-922.  m_sparse is null iff [d_bc] is 0 and m_dense null iff
    [d_cap] is 0 (lines 219-224, 263, 268, 786-792, utility.hpp 233-250).  [d_sok], [d_dok]:
    the buffer pointers do not dangle (a failed realloc_buffer leaves a freed pointer).
    Slots that hold no live node are [None]; reading their hash or next fields is an error
    in the model, though the bytes exist. *)
Record dense (E : Type) := mkd {
  d_size : Z; d_cap : Z; d_bc : Z;
  d_sok : bool; d_dok : bool;
  d_sparse : Z -> nat -> Z;
  d_nodes : Z -> option (node E);
  d_mlf : rat
}.
Arguments mkd {E}. Arguments d_size {E}. Arguments d_cap {E}. Arguments d_bc {E}. Arguments d_sok {E}.
Arguments d_dok {E}. Arguments d_sparse {E}. Arguments d_nodes {E}. Arguments d_mlf {E}.

(** A pointer into the chains of one key index: the head in a bucket, or the next field of
    a node (size_type *, lines 107, 522-547). *)
Inductive cptr : Type := PBucket (b : Z) | PNext (i : Z).

Section Dense.
Context {E K : Type}.
Variable nk : nat.                    (* key_size, line 92 *)
Variable key_of : nat -> E -> K.      (* ValueTraits::get_key<I> *)
Variable hash : K -> Z.
Variable keq : K -> K -> bool.
Variable rep : E -> E -> E.           (* replace -- table_common.hpp 247-258 *)
Notation node := (node E).
Notation dense := (dense E).

(** The key indices, std::make_index_sequence<key_size>. *)
Definition js : list nat := seq 0 nk.

(** dense_table() -- lines 214, 915-922, 94. *)
Definition empty_dense : dense := mkd 0 0 0 true true (fun _ _ => 0) (fun _ => None) (7, 8).

Definition set_size (s : dense) (n : Z) : dense :=
  mkd n (d_cap s) (d_bc s) (d_sok s) (d_dok s) (d_sparse s) (d_nodes s) (d_mlf s).
Definition set_nodes (s : dense) (m : Z -> option node) : dense :=
  mkd (d_size s) (d_cap s) (d_bc s) (d_sok s) (d_dok s) (d_sparse s) m (d_mlf s).
Definition set_sparse (s : dense) (m : Z -> nat -> Z) : dense :=
  mkd (d_size s) (d_cap s) (d_bc s) (d_sok s) (d_dok s) m (d_nodes s) (d_mlf s).

(** ** Memory access. *)
(** m_dense[i] with a live node. *)
Definition get_node (s : dense) (i : Z) : res node :=
  let* _ := guard (negb (d_cap s =? 0)) NullDeref in
  let* _ := guard (d_dok s) UseAfterFree in
  let* _ := guard ((0 <=? i) && (i <? d_cap s)) OutOfBounds in
  match d_nodes s i with Some n => Ok n | None => Err DeadObject end.
(** Construction in a free slot, change of a live node, destruction (lines 554, 560, 904). *)
Definition new_node (s : dense) (i : Z) (n : node) : res dense :=
  let* _ := guard (negb (d_cap s =? 0)) NullDeref in
  let* _ := guard (d_dok s) UseAfterFree in
  let* _ := guard ((0 <=? i) && (i <? d_cap s)) OutOfBounds in
  match d_nodes s i with Some _ => Err Overwrite | None => Ok (set_nodes s (upd (d_nodes s) i (Some n))) end.
Definition put_node (s : dense) (i : Z) (n : node) : res dense :=
  let* _ := get_node s i in Ok (set_nodes s (upd (d_nodes s) i (Some n))).
Definition kill_node (s : dense) (i : Z) : res dense :=
  let* _ := get_node s i in Ok (set_nodes s (upd (d_nodes s) i None)).

(** Change of component [j] of an array of positions. *)
Definition updj (a : nat -> Z) (j : nat) (v : Z) : nat -> Z := fun i => if Nat.eqb i j then v else a i.

Definition check_bucket (s : dense) (b : Z) : res unit :=
  let* _ := guard (negb (d_bc s =? 0)) NullDeref in
  let* _ := guard (d_sok s) UseAfterFree in
  guard ((0 <=? b) && (b <? d_bc s)) OutOfBounds.

(** *p and *p = v for a chain pointer. *)
Definition load (s : dense) (j : nat) (p : cptr) : res Z :=
  match p with
  | PBucket b => let* _ := check_bucket s b in Ok (d_sparse s b j)
  | PNext i => let* n := get_node s i in Ok (n_next n j)
  end.
Definition store (s : dense) (j : nat) (p : cptr) (v : Z) : res dense :=
  match p with
  | PBucket b =>
    let* _ := check_bucket s b in
    Ok (set_sparse s (upd (d_sparse s) b (updj (d_sparse s b) j v)))
  | PNext i => let* n := get_node s i in put_node s i (mkn (n_val n) (n_hash n) (updj (n_next n) j v))
  end.

(** ** Chains. *)
(** get_chain -- lines 522-527; [None] is the null pointer. *)
Definition get_chain (s : dense) (h : Z) : option cptr :=
  if d_bc s =? 0 then None else Some (PBucket (h mod d_bc s)).
(** Dereference of a pointer obtained from get_chain. *)
Definition deref {A} (o : option A) : res A := match o with Some a => Ok a | None => Err NullDeref end.

(** Enough for every chain without a cycle. *)
Definition chain_fuel (s : dense) : nat := S (Z.to_nat (d_size s)).

(** find_chain_ptr -- lines 528-533. *)
Fixpoint find_chain_ptr (fuel : nat) (s : dense) (j : nat) (p : cptr) (pos : Z) : res cptr :=
  match fuel with
  | O => Err Diverges
  | S fu =>
    let* v := load s j p in
    if (v =? npos) || (v =? pos) then Ok p else find_chain_ptr fu s j (PNext v) pos
  end.

(** find_node -- lines 534-547: the position of the node (the size for end_node()) and the
    pointer at which the search ended. *)
Fixpoint find_loop (fuel : nat) (s : dense) (j : nat) (k : K) (h : Z) (p : cptr) : res (Z * cptr) :=
  match fuel with
  | O => Err Diverges
  | S fu =>
    let* v := load s j p in
    if v =? npos then Ok (d_size s, p)
    else
      let* n := get_node s v in
      if (n_hash n j =? h) && keq k (key_of j (n_val n)) then Ok (v, p)
      else find_loop fu s j k h (PNext v)
  end.
Definition find_node (s : dense) (j : nat) (k : K) (h : Z) : res (Z * option cptr) :=
  match get_chain s h with
  | None => Ok (d_size s, None)
  | Some p => let* r := find_loop (chain_fuel s) s j k h p in Ok (fst r, Some (snd r))
  end.

(** push_node -- lines 549-556.  The size is incremented before the construction; [None] if
    the constructor throws.  The hashes are set by commit_node; until then they are
    indeterminate (0 here) and not read.  construct sets next to npos -- lines 31-36. *)
Definition push_node (ctor : bool) (s : dense) (e : E) : res (dense * option Z) :=
  let pos := d_size s in
  let s1 := set_size s (pos + 1) in
  if ctor then let* s2 := new_node s1 pos (mkn e (fun _ => 0) (fun _ => npos)) in Ok (s2, Some pos)
  else Ok (s1, None).
(** pop_node -- lines 557-561. *)
Definition pop_node (s : dense) : res dense :=
  let s1 := set_size s (d_size s - 1) in kill_node s1 (d_size s1).

(** insert_node -- lines 563-569. *)
Definition insert_node (pos : Z) (s : dense) (j : nat) : res dense :=
  let* n := get_node s pos in
  let* p := deref (get_chain s (n_hash n j)) in
  let* v := load s j p in
  let* s1 := put_node s pos (mkn (n_val n) (n_hash n) (updj (n_next n) j v)) in
  store s1 j p pos.
(** move_chain -- lines 570-576. *)
Definition move_chain (from to : Z) (s : dense) (j : nat) : res dense :=
  let* n := get_node s from in
  let* p0 := deref (get_chain s (n_hash n j)) in
  let* p := find_chain_ptr (chain_fuel s) s j p0 from in
  let* v := load s j p in
  let* _ := guard (negb (v =? npos)) AssertFailed in
  store s j p to.

(** commit_node -- lines 578-587 (without links). *)
Definition commit_node (s : dense) (pos : Z) (slice : list (nat * cptr)) (hs : nat -> Z) : res dense :=
  let* s1 := foldM (fun t jp => store t (fst jp) (snd jp) pos) slice s in
  let* n := get_node s1 pos in
  put_node s1 pos (mkn (n_val n) hs (n_next n)).

(** emplace_node -- lines 588-593. *)
Definition emplace_node (ctor : bool) (s : dense) (slice : list (nat * cptr)) (hs : nat -> Z) (e : E) : res (dense * option Z) :=
  let* x := push_node ctor s e in
  let '(s1, o) := x in
  match o with
  | None => Ok (s1, None)
  | Some pos => let* s2 := commit_node s1 pos slice hs in Ok (s2, Some pos)
  end.

(** erase_node -- lines 594-618 (without links): the position returned is that of the erased
    node. *)
Definition erase_node (s : dense) (pos : Z) (slice : list (nat * cptr)) : res (dense * Z) :=
  let* _ := guard (negb (pos =? d_size s)) AssertFailed in
  let* s1 := foldM (fun t jp => let* n := get_node t pos in store t (fst jp) (snd jp) (n_next n (fst jp))) slice s in
  let end_pos := d_size s1 - 1 in
  let* s2 :=
    (if pos =? end_pos then Ok s1
     else
       let* t := foldM (move_chain end_pos pos) (map fst slice) s1 in
       let* n := get_node t end_pos in
       put_node t pos n) in
  let* s3 := pop_node s2 in
  Ok (s3, pos).

(** ** Buffers. *)
(** resize_data -- lines 783-801 with relocate (utility.hpp 226-231); [None] if the allocation
    throws.  [lim] is the largest element array the allocator supplies. *)
Definition relocate_step (s : dense) (cap : Z) (m : Z -> option node) (i : Z) : res (Z -> option node) :=
  let* n := get_node s i in
  let* _ := guard (i <? cap) OutOfBounds in
  Ok (upd m i (Some n)).
Definition resize_data (lim : Z) (s : dense) (cap : Z) : res (dense * option unit) :=
  if lim <? cap then Ok (s, None)
  else
    let* m := foldM (relocate_step s cap) (zrange (d_size s)) (fun _ => None) in
    Ok (mkd (d_size s) cap (d_bc s) (d_sok s) true (d_sparse s) m (d_mlf s), Some tt).
(** maybe_resize -- lines 802-821 (without hint). *)
Definition maybe_resize (lim : Z) (s : dense) : res (dense * option unit) :=
  if d_cap s =? d_size s then resize_data lim s (if d_cap s =? 0 then 1 else d_cap s * 2 mod two64)
  else Ok (s, Some tt).

(** realloc_buffer on the bucket array -- utility.hpp 233-250: only grows; frees the old
    array before allocating the new one, so that a throwing allocation leaves the freed
    pointer in place. *)
Definition realloc_sparse (lim : Z) (s : dense) (n : Z) : dense * bool :=
  if d_bc s <? n then
    if lim <? n then
      (mkd (d_size s) (d_cap s) (d_bc s) (if d_bc s =? 0 then d_sok s else false) (d_dok s) (d_sparse s) (d_nodes s) (d_mlf s), false)
    else (mkd (d_size s) (d_cap s) n true (d_dok s) (fun _ _ => 0) (d_nodes s) (d_mlf s), true)
  else (s, true).
(** std::fill_n(m_sparse, bucket_count(), npos) -- lines 355, 769, 839. *)
Definition fill_sparse (s : dense) : res dense :=
  if d_bc s =? 0 then Ok s
  else
    let* _ := guard (d_sok s) UseAfterFree in
    Ok (set_sparse s (fun _ _ => npos)).

(** do_rehash -- lines 764-774.  [lim] is the largest bucket array the allocator supplies. *)
Definition insert_step (s : dense) (i : Z) : res dense := foldM (insert_node i) js s.
Definition do_rehash (lim : Z) (s : dense) (new_cap : Z) : res (dense * option unit) :=
  let '(s1, okb) := realloc_sparse lim s new_cap in
  if okb then
    let* s2 := fill_sparse s1 in
    let* s3 := foldM insert_step (zrange (d_size s2)) s2 in
    Ok (s3, Some tt)
  else Ok (s1, None).
(** rehash -- lines 442-451. *)
Definition rehash (lim : Z) (s : dense) (n : Z) : res (dense * option unit) :=
  if (n =? 0) && (d_size s =? 0) then Ok (s, Some tt)
  else
    let* m := f32_trunc (f32_div (f32_of (d_size s)) (d_mlf s)) in
    let new_cap := Z.max m n in
    if (n =? 0) || negb (new_cap =? d_bc s) then do_rehash lim s new_cap else Ok (s, Some tt).
(** load_factor() >= m_max_load_factor -- lines 336, 779. *)
Definition overloaded (s : dense) : bool :=
  rle (d_mlf s) (f32_div (f32_of (d_size s)) (f32_of (d_bc s))).
(** maybe_rehash -- lines 775-781. *)
Definition maybe_rehash (lim : Z) (s : dense) : res (dense * option unit) :=
  if d_bc s =? 0 then rehash lim s 8
  else if overloaded s then rehash lim s (d_bc s * 2 mod two64)
  else Ok (s, Some tt).
(** reserve -- lines 358-362; [dlim], [slim] are the limits for the two arrays. *)
Definition reserve (dlim slim : Z) (s : dense) (n : Z) : res (dense * option unit) :=
  let* x := (if d_cap s <? n then resize_data dlim s n else Ok (s, Some tt)) in
  let '(s1, o) := x in
  match o with
  | None => Ok (s1, None)
  | Some _ => let* m := f32_trunc (f32_div (f32_of n) (d_mlf s1)) in rehash slim s1 m
  end.
(** maybe_resize then maybe_rehash -- lines 623-624, 651-652, 677-678, 705-706. *)
Definition make_room (dlim slim : Z) (s : dense) : res (dense * option unit) :=
  let* x := maybe_resize dlim s in
  let '(s1, o) := x in
  match o with None => Ok (s1, None) | Some _ => maybe_rehash slim s1 end.

(** ** Insertion. *)
(** The array of find_node results -- lines 629, 656, 682. *)
Fixpoint find_all (s : dense) (e : E) (l : list nat) : res (list (nat * (Z * option cptr))) :=
  match l with
  | [] => Ok []
  | j :: r =>
    let k := key_of j e in
    let* x := find_node s j k (hash k) in
    let* xs := find_all s e r in
    Ok ((j, x) :: xs)
  end.
(** The first conflict -- lines 630-636, 657-662, 683-688: chain && *chain != npos. *)
Fixpoint first_clash (s : dense) (l : list (nat * (Z * option cptr))) : res (option Z) :=
  match l with
  | [] => Ok None
  | (j, (i, o)) :: r =>
    match o with
    | None => first_clash s r
    | Some p => let* v := load s j p in if v =? npos then first_clash s r else Ok (Some i)
    end
  end.
Fixpoint slices (l : list (nat * (Z * option cptr))) : res (list (nat * cptr)) :=
  match l with
  | [] => Ok []
  | (j, (_, o)) :: r => let* p := deref o in let* xs := slices r in Ok ((j, p) :: xs)
  end.

(** Result of an insertion: position and flag, or [None] when an exception left the call. *)
Definition ins_result : Type := option (Z * bool).

(** do_insert -- lines 674-697; do_try_emplace -- lines 648-672 is the same up to the null
    test of the chain pointers, which are never null after maybe_rehash. *)
Definition do_insert (dlim slim : Z) (ctor : bool) (s : dense) (e : E) : res (dense * ins_result) :=
  let* x := make_room dlim slim s in
  let '(s1, o) := x in
  match o with
  | None => Ok (s1, None)
  | Some _ =>
    let* l := find_all s1 e js in
    let* c := first_clash s1 l in
    match c with
    | Some i => Ok (s1, Some (i, false))
    | None =>
      let* sl := slices l in
      let* y := emplace_node ctor s1 sl (fun j => hash (key_of j e)) e in
      let '(s2, o2) := y in
      Ok (s2, match o2 with None => None | Some pos => Some (pos, true) end)
    end
  end.

(** do_emplace -- lines 620-645: the element is constructed first. *)
Definition do_emplace (dlim slim : Z) (ctor : bool) (s : dense) (e : E) : res (dense * ins_result) :=
  let* x := make_room dlim slim s in
  let '(s1, o) := x in
  match o with
  | None => Ok (s1, None)
  | Some _ =>
    let* y := push_node ctor s1 e in
    let '(s2, o2) := y in
    match o2 with
    | None => Ok (s2, None)
    | Some pos =>
      let* tmp := get_node s2 pos in
      let v := n_val tmp in
      let* l := find_all s2 v js in
      let* c := first_clash s2 l in
      match c with
      | Some i => let* s3 := pop_node s2 in Ok (s3, Some (i, false))
      | None =>
        let* sl := slices l in
        let* s3 := commit_node s2 pos sl (fun j => hash (key_of j v)) in
        Ok (s3, Some (pos, true))
      end
    end
  end.

(** do_insert_or_assign -- lines 700-723 (one key).  A throwing constructor of the mapped
    value of a present key is not modelled here. *)
Definition do_insert_or_assign (dlim slim : Z) (ctor : bool) (s : dense) (e : E) : res (dense * ins_result) :=
  let* x := make_room dlim slim s in
  let '(s1, o) := x in
  match o with
  | None => Ok (s1, None)
  | Some _ =>
    let k := key_of 0 e in
    let* r := find_node s1 0 k (hash k) in
    let '(i, op) := r in
    let* isnew := (match op with None => Ok false | Some p => let* v := load s1 0%nat p in Ok (v =? npos) end) in
    if isnew : bool then
      let* p := deref op in
      let* y := emplace_node ctor s1 [(0%nat, p)] (fun j => hash (key_of j e)) e in
      let '(s2, o2) := y in
      Ok (s2, match o2 with None => None | Some pos => Some (pos, true) end)
    else
      let* n := get_node s1 i in
      let* s2 := put_node s1 i (mkn (rep (n_val n) e) (n_hash n) (n_next n)) in
      Ok (s2, Some (i, false))
  end.

(** ** Lookup -- lines 364-370. *)
Definition contains (s : dense) (j : nat) (k : K) : res bool :=
  let* r := find_node s j k (hash k) in Ok (negb (fst r =? d_size s)).
Definition find (s : dense) (j : nat) (k : K) : res (option E) :=
  let* r := find_node s j k (hash k) in
  if fst r =? d_size s then Ok None else let* n := get_node s (fst r) in Ok (Some (n_val n)).

(** ** Erasure. *)
(** The slice of the chains that point to [pos] -- lines 731, 750.  Lines 731 and 750 write
    find_chain_ptr<Is...>, which only compiles when Is has one index (one key for
    erase(iterator), two for erase(key)); the model takes it as find_chain_ptr<Is>. *)
Definition chain_to (s : dense) (n : node) (pos : Z) (j : nat) : res cptr :=
  let* p := deref (get_chain s (n_hash n j)) in find_chain_ptr (chain_fuel s) s j p pos.
Fixpoint chains_to (s : dense) (n : node) (pos : Z) (l : list nat) : res (list (nat * cptr)) :=
  match l with
  | [] => Ok []
  | j :: r => let* p := chain_to s n pos j in let* xs := chains_to s n pos r in Ok ((j, p) :: xs)
  end.
(** do_erase(pos, node) -- lines 725-737, erase(iterator) -- lines 430-434. *)
Definition erase_at (s : dense) (pos : Z) : res (dense * Z) :=
  if pos =? d_size s then Ok (s, d_size s)
  else
    let* n := get_node s pos in
    let* sl := chains_to s n pos js in
    erase_node s pos sl.
(** do_erase<J>(key) -- lines 739-762.  The first get_chain is dereferenced without a null
    test. *)
Fixpoint erase_loop (fuel : nat) (s : dense) (j : nat) (k : K) (h : Z) (p : cptr) : res (dense * Z) :=
  match fuel with
  | O => Err Diverges
  | S fu =>
    let* pos := load s j p in
    if pos =? npos then Ok (s, d_size s)
    else
      let* n := get_node s pos in
      if (n_hash n j =? h) && keq k (key_of j (n_val n)) then
        let* sl := chains_to s n pos (filter (fun i => negb (Nat.eqb i j)) js) in
        erase_node s pos ((j, p) :: sl)
      else erase_loop fu s j k h (PNext pos)
  end.
Definition erase_key (s : dense) (j : nat) (k : K) : res (dense * Z) :=
  let h := hash k in
  let* p := deref (get_chain s h) in
  erase_loop (chain_fuel s) s j k h p.
(** erase(first, last) -- lines 435-440, over [n] elements starting at [a]. *)
Fixpoint erase_range_loop (n : nat) (s : dense) (a result : Z) : res (dense * Z) :=
  match n with
  | O => Ok (s, result)
  | S n' => let* x := erase_at s (a + Z.of_nat n') in erase_range_loop n' (fst x) a (snd x)
  end.
Definition erase_range (s : dense) (a b : Z) : res (dense * Z) :=
  erase_range_loop (Z.to_nat (b - a)) s a (d_size s).

(** clear_data -- lines 901-905; clear -- lines 349-357. *)
Definition clear_data (s : dense) : res dense :=
  foldM kill_node (zrange (d_size s)) (set_size s 0).
Definition clear (s : dense) : res dense :=
  let* s1 := fill_sparse s in clear_data s1.

(** Iteration from begin() to end() -- lines 318-321, 496-520. *)
Fixpoint iterate_from (s : dense) (l : list Z) : res (list E) :=
  match l with
  | [] => Ok []
  | i :: r => let* n := get_node s i in let* xs := iterate_from s r in Ok (n_val n :: xs)
  end.
Definition iterate (s : dense) : res (list E) := iterate_from s (zrange (d_size s)).

(** erase_if -- dense_set.hpp 339-353, dense_map.hpp 630-644 (same text in the others): the
    end iterator is taken once, before the loop.  The caller's predicate is applied to the
    element at the iterator. *)
Fixpoint erase_if_loop (fuel : nat) (pred : E -> bool) (s : dense) (i last cnt : Z) : res (dense * Z) :=
  match fuel with
  | O => Err Diverges
  | S fu =>
    if i =? last then Ok (s, cnt)
    else
      let* n := get_node s i in
      if pred (n_val n) then
        let* x := erase_at s i in erase_if_loop fu pred (fst x) (snd x) last (cnt + 1)
      else erase_if_loop fu pred s (i + 1) last cnt
  end.
Definition erase_if (pred : E -> bool) (s : dense) : res (dense * Z) :=
  erase_if_loop (2 * chain_fuel s) pred s 0 (d_size s) 0.

(** ** Construction, copy, move. *)
(** dense_table(n, ..) -- lines 217-225; [None] if an allocation throws. *)
Definition ctor_n (dlim slim n : Z) : option dense :=
  if n =? 0 then Some empty_dense
  else if (dlim <? n) || (slim <? n) then None
  else Some (mkd 0 n n true true (fun _ _ => npos) (fun _ => None) (7, 8)).
(** insert(first, last) -- lines 388-394. *)
Fixpoint insert_all (dlim slim : Z) (s : dense) (l : list E) : res (dense * bool) :=
  match l with
  | [] => Ok (s, true)
  | e :: r =>
    let* x := do_insert dlim slim true s e in
    let '(s1, o) := x in
    match o with None => Ok (s1, false) | Some _ => insert_all dlim slim s1 r end
  end.
Definition insert_range (ra : bool) (dlim slim : Z) (s : dense) (l : list E) : res (dense * bool) :=
  let* x := (if ra then reserve dlim slim s ((d_size s + Z.of_nat (length l)) mod two64) else Ok (s, Some tt)) in
  let '(s1, o) := x in
  match o with None => Ok (s1, false) | Some _ => insert_all dlim slim s1 l end.
(** Range constructor -- lines 227-228 with distance_or_n (utility.hpp 200-208). *)
Definition ctor_range (ra : bool) (dlim slim : Z) (l : list E) (n : Z) : res (option (dense * bool)) :=
  match ctor_n dlim slim (if ra then Z.max (Z.of_nat (length l)) n else n) with
  | None => Ok None
  | Some s => let* r := insert_range ra dlim slim s l in Ok (Some r)
  end.

(** realloc_buffer on the (empty) element array -- utility.hpp 233-250. *)
Definition realloc_dense (lim : Z) (s : dense) (n : Z) : dense * bool :=
  if d_cap s <? n then
    if lim <? n then
      (mkd (d_size s) (d_cap s) (d_bc s) (d_sok s) (if d_cap s =? 0 then d_dok s else false) (d_sparse s) (d_nodes s) (d_mlf s), false)
    else (mkd (d_size s) n (d_bc s) (d_sok s) true (d_sparse s) (fun _ => None) (d_mlf s), true)
  else (s, true).

(** copy_data -- lines 823-859 (without links).  [clone] copies an element. *)
Definition copy_step (clone : E -> E) (o : dense) (s : dense) (i : Z) : res dense :=
  let* n := get_node o i in
  let* s1 := new_node s i (mkn (clone (n_val n)) (n_hash n) (n_next n)) in
  let* s2 := insert_step s1 i in
  Ok (set_size s2 (d_size s2 + 1)).
Definition copy_data (clone : E -> E) (dlim slim : Z) (s o : dense) : res (dense * bool) :=
  let* _ := guard (d_size s =? 0) AssertFailed in
  if d_size o =? 0 then Ok (set_size s 0, true)
  else
    let '(s1, ok1) := realloc_sparse slim s (d_bc o) in
    if negb ok1 then Ok (s1, false)
    else
      let '(s2, ok2) := realloc_dense dlim s1 (d_size o) in
      if negb ok2 then Ok (s2, false)
      else
        let* s3 := fill_sparse s2 in
        let* s4 := foldM (copy_step clone o) (zrange (d_size o)) s3 in
        Ok (s4, true).
Definition set_mlf (s : dense) (q : rat) : dense :=
  mkd (d_size s) (d_cap s) (d_bc s) (d_sok s) (d_dok s) (d_sparse s) (d_nodes s) q.
(** Copy construction -- lines 230-237. *)
Definition copy_ctor (clone : E -> E) (dlim slim : Z) (o : dense) : res (dense * bool) :=
  copy_data clone dlim slim (set_mlf empty_dense (d_mlf o)) o.
(** Release of both buffers by propagating allocators -- lines 261-270, 287-296. *)
Definition release (propagate : bool) (s : dense) : dense :=
  if propagate then mkd (d_size s) 0 0 true true (fun _ _ => 0) (fun _ => None) (d_mlf s) else s.
(** Copy assignment (this != &other) -- lines 250-275. *)
Definition copy_assign (clone : E -> E) (pocca : bool) (dlim slim : Z) (s o : dense) : res (dense * bool) :=
  let* s1 := clear_data (set_mlf s (d_mlf o)) in
  copy_data clone dlim slim (release pocca s1) o.

(** move_data -- lines 860-888.  The source keeps its buckets, which still name the moved
    slots. *)
Definition move_step (acc : dense * dense) (i : Z) : res (dense * dense) :=
  let '(s, o) := acc in
  let* n := get_node o i in
  let* s1 := new_node s i n in
  let* o1 := kill_node o i in
  let* s2 := insert_step s1 i in
  Ok (set_size s2 (d_size s2 + 1), o1).
Definition move_data (dlim slim : Z) (s o : dense) : res (dense * dense * bool) :=
  let* _ := guard (d_size s =? 0) AssertFailed in
  if d_size o =? 0 then Ok (set_size s 0, o, true)
  else
    let '(s1, ok1) := realloc_sparse slim s (d_bc o) in
    if negb ok1 then Ok (s1, o, false)
    else
      let '(s2, ok2) := realloc_dense dlim s1 (d_size o) in
      if negb ok2 then Ok (s2, o, false)
      else
        let* s3 := fill_sparse s2 in
        let* so := foldM move_step (zrange (d_size o)) (s3, o) in
        Ok (fst so, set_size (snd so) 0, true).
(** swap_buffers -- lines 892-900: everything but the max load factor. *)
Definition swap_buffers (s o : dense) : dense * dense := (set_mlf o (d_mlf s), set_mlf s (d_mlf o)).
(** move_from -- lines 907-913. *)
Definition move_from (alloc_eq : bool) (dlim slim : Z) (s o : dense) : res (dense * dense * bool) :=
  if alloc_eq then Ok (fst (swap_buffers s o), snd (swap_buffers s o), true) else move_data dlim slim s o.
(** Move construction -- lines 239-248. *)
Definition move_ctor (alloc_eq : bool) (dlim slim : Z) (o : dense) : res (dense * dense * bool) :=
  move_from alloc_eq dlim slim (set_mlf empty_dense (d_mlf o)) o.
(** Move assignment (this != &other) -- lines 276-302. *)
Definition move_assign (pocma alloc_eq : bool) (dlim slim : Z) (s o : dense) : res (dense * dense * bool) :=
  let* s1 := clear_data (set_mlf s (d_mlf o)) in
  move_from alloc_eq dlim slim (release pocma s1) o.
(** swap -- lines 460-478. *)
Definition swap (alloc_eq : bool) (s o : dense) : res (dense * dense) :=
  let* _ := guard alloc_eq AssertFailed in Ok (o, s).

(** Size queries -- lines 333-344, 481. *)
Definition size (s : dense) : Z := d_size s.
Definition bucket_count (s : dense) : Z := d_bc s.
End Dense.
