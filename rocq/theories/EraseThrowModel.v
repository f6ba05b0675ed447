(** Erasures from dense tables whose elements may throw when they are move-assigned.  erase_node
    unlinks the erased node from its chains, lets the chains of the last node lead to the erased
    position, and only then assigns the last element over the erased one.  A throwing assignment
    is taken to leave both elements as they were (the strong guarantee for one element; anything
    weaker makes matters worse). *)
From Coq Require Import ZArith List Bool.
From Verif Require Import Base DenseSpec DenseModel DenseRun LinkModel OrderedDense.
Import ListNotations.
Open Scope Z_scope.

Section Throw.
Context {E K : Type}.
Variable nk : nat.
Variable key_of : nat -> E -> K.
Variable hash : K -> Z.
Variable keq : K -> K -> bool.
Variable rep : E -> E -> E.
Notation dense := (dense E).

(** erase_node -- dense_table.hpp 594-618 (without links), with move_from -- dense_table.hpp
    47-51 and table_common.hpp 241-246: the value is assigned first, then the hash, then the next
    positions, so nothing of the node has changed when the assignment throws; pop_node (line 616)
    is not reached.  [bad]: the move assignment throws.  [None]: the exception leaves the call. *)
Definition t_erase_node (bad : bool) (s : dense) (pos : Z) (slice : list (nat * cptr)) : res (dense * option Z) :=
  let* _ := guard (negb (pos =? d_size s)) AssertFailed in
  let* s1 := foldM (fun t jp => let* n := get_node t pos in store t (fst jp) (snd jp) (n_next n (fst jp))) slice s in
  let end_pos := d_size s1 - 1 in
  if pos =? end_pos then let* s3 := pop_node s1 in Ok (s3, Some pos)
  else
    let* t := foldM (move_chain end_pos pos) (map fst slice) s1 in
    let* n := get_node t end_pos in
    if bad then Ok (t, None)
    else
      let* s2 := put_node t pos n in
      let* s3 := pop_node s2 in Ok (s3, Some pos).

(** do_erase(pos, node) -- lines 725-737, erase(iterator) -- lines 430-434. *)
Definition t_erase_at (bad : bool) (s : dense) (pos : Z) : res (dense * option Z) :=
  if pos =? d_size s then Ok (s, Some (d_size s))
  else
    let* n := get_node s pos in
    let* sl := chains_to s n pos (js nk) in
    t_erase_node bad s pos sl.
(** do_erase<J>(key) -- lines 739-762. *)
Fixpoint t_erase_loop (bad : bool) (fuel : nat) (s : dense) (j : nat) (k : K) (h : Z) (p : cptr) : res (dense * option Z) :=
  match fuel with
  | O => Err Diverges
  | S fu =>
    let* pos := load s j p in
    if pos =? npos then Ok (s, Some (d_size s))
    else
      let* n := get_node s pos in
      if (n_hash n j =? h) && keq k (key_of j (n_val n)) then
        let* sl := chains_to s n pos (filter (fun x => negb (Nat.eqb x j)) (js nk)) in
        t_erase_node bad s pos ((j, p) :: sl)
      else t_erase_loop bad fu s j k h (PNext pos)
  end.
Definition t_erase_key (bad : bool) (s : dense) (j : nat) (k : K) : res (dense * option Z) :=
  let h := hash k in
  let* p := deref (get_chain s h) in
  t_erase_loop bad (chain_fuel s) s j k h p.

(** One public call -- lines 318-455: the erasures of one element may throw, the other calls are
    those of DenseModel (erase(first, last) and erase_if repeat erase(iterator)). *)
Definition give_erased (x : dense * option Z) : res (dense * dret E) :=
  match snd x with None => Ok (fst x, QThrow) | Some p => give_next (fst x, p) end.
Definition t_exec (bad : bool) (v : denv) (s : dense) (c : dcall E K) : res (dense * dret E) :=
  match c with
  | DErase j k => let* x := t_erase_key bad s j k in give_erased x
  | DEraseAt i => let* x := t_erase_at bad s i in give_erased x
  | _ => dexec nk key_of hash keq rep v s c
  end.

(** The call erases one element, and one that is not the last. *)
Definition displaces (s : dense) (c : dcall E K) (i : Z) : Prop :=
  0 <= i < d_size s - 1 /\
  match c with
  | DErase j k => exists n, d_nodes s i = Some n /\ keq (key_of j (n_val n)) k = true
  | DEraseAt p => p = i
  | _ => False
  end.
(** The elements in slots [i] and [i'] are in different buckets of key index [j] (bucket of a
    key: its hash modulo the number of buckets -- line 526). *)
Definition apart (s : dense) (j : nat) (i i' : Z) : Prop :=
  exists n n', d_nodes s i = Some n /\ d_nodes s i' = Some n' /\
    hash (key_of j (n_val n)) mod d_bc s <> hash (key_of j (n_val n')) mod d_bc s.
(** Going from the bucket of key [k] along the next positions (lines 534-547), one comes by the
    slots [l]. *)
Fixpoint along (s : dense) (j : nat) (p : cptr) (l : list Z) : Prop :=
  match l with
  | [] => True
  | i :: r => load s j p = Ok i /\ i <> npos /\ along s j (PNext i) r
  end.
Definition chain_of (s : dense) (j : nat) (k : K) (l : list Z) : Prop := along s j (PBucket (hash k mod d_bc s)) l.
End Throw.

(** ** Ordered dense containers. *)
Section Ordered.
Context {E : Type}.
Variable sz : Z.
Variable nk : nat.
Notation odense := (odense E).

(** erase_node -- dense_table.hpp 594-618: the node leaves the insertion order first (line 604);
    move_from assigns the links before the value (table_common.hpp 243), so the erased node stands
    in the place of the last one in the insertion order when the assignment of the value throws. *)
Definition o_t_erase_node (bad : bool) (h : heap) (s : odense) (pos : Z) (slice : list (nat * cptr)) : res (heap * odense * option Z) :=
  let* next := next_link h (slot sz s pos) in
  let* h1 := unlink h (slot sz s pos) in
  let end_pos := d_size (o_d s) - 1 in
  let* x := t_erase_node bad (o_d s) pos slice in
  let* h2 := (if pos =? end_pos then Ok h1 else relink_from h1 (slot sz s pos) (slot sz s end_pos)) in
  Ok (h2, with_d s (fst x), match snd x with None => None | Some _ => Some next end).
(** erase(where) -- lines 430-434, do_erase -- lines 725-737.  (erase(key) -- lines 739-762 --
    ends in the same erase_node.) *)
Definition o_t_erase_at (bad : bool) (h : heap) (s : odense) (a : Z) : res (heap * odense * option Z) :=
  if a =? o_hdr s then Ok (h, s, Some (o_hdr s))
  else
    let* pos := index_of sz s a in
    let* n := get_node (o_d s) pos in
    let* sl := chains_to (o_d s) n pos (js nk) in
    o_t_erase_node bad h s pos sl.
End Ordered.
