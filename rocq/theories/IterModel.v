(** Comparison and arithmetic of iterators: table_common.hpp 511-582 (ordered_iterator),
    611-633 (random_access_iterator_base), 643-697 (table_iterator), and front() and back() of
    dense tables.  [sz] is sizeof(bucket_node). *)
From Coq Require Import ZArith List Bool.
From Verif Require Import Base LinkModel DenseModel OrderedDense.
Import ListNotations.
Open Scope Z_scope.

Definition given {A} (x : res A) : option A := match x with Ok a => Some a | Err _ => None end.

(** ordered_iterator::operator< -- table_common.hpp 570-578, table_iterator::operator< -- lines
    684-692: the addresses of the links, of the nodes.  (The order of pointers into different
    objects is unspecified in C++; on the usual machines it is that of the addresses.) *)
Definition link_lt (a b : Z) : bool := a <? b.

Section Dense.
Context {E : Type}.
Variable sz : Z.
Variable base : Z.                    (* m_dense *)

(** Iterators of unordered dense tables are pointers to nodes.  begin(), end() -- dense_table.hpp
    318-321, 496-502, 511-517. *)
Definition d_begin : Z := base.
Definition d_end (s : dense E) : Z := base + size s * sz.
(** operator+, operator-, operator++ -- table_common.hpp 617-619, 664-668. *)
Definition it_plus (a n : Z) : Z := a + n * sz.
Definition it_minus (a b : Z) : Z := (a - b) / sz.
Definition it_next (a : Z) : Z := a + sz.
Fixpoint it_steps (n : nat) (a : Z) : Z := match n with O => a | S n' => it_steps n' (it_next a) end.
(** operator* -- lines 678-679. *)
Definition it_at (s : dense E) (a : Z) : res E :=
  if (a - base) mod sz =? 0 then let* n := get_node s ((a - base) / sz) in Ok (n_val n) else Err OutOfBounds.
(** operator[] -- line 621. *)
Definition it_sub (s : dense E) (a n : Z) : res E := it_at s (it_plus a n).
(** front(), back() -- dense_table.hpp 328-331, 503-510: of an empty table, the node at
    m_dense or before it. *)
Definition d_front (s : dense E) : res E := it_at s d_begin.
Definition d_back (s : dense E) : res E := it_at s (base + (size s - 1) * sz).

(** front(), back() of ordered tables -- the same lines: of an empty table, the header, which
    is no node. *)
Definition o_deref (s : odense E) (a : Z) : res E :=
  let* p := index_of sz s a in let* n := get_node (o_d s) p in Ok (n_val n).
Definition o_front (h : heap) (s : odense E) : res E := let* a := next_link h (o_hdr s) in o_deref s a.
Definition o_back (h : heap) (s : odense E) : res E := let* a := prev_link h (o_hdr s) in o_deref s a.
End Dense.
