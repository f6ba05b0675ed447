(** Moving a container into another one whose allocator compares unequal.  The elements are
    relocated one by one (move_data) instead of exchanging the buffers.  Line numbers refer to
    swiss_table.hpp and dense_table.hpp as named. *)
From Coq Require Import ZArith List Bool.
From Verif Require Import Base Bits LinkModel DenseModel OrderedDense SwissModel SwissRun SwissOrdered.
Import ListNotations.
Open Scope Z_scope.

(** A move whose [noexcept] clause holds -- dense_table.hpp 239-248, 276; swiss_table.hpp 870:
    the clauses ask whether the allocators, hasher and key_equal are moved without exceptions,
    and not whether move_data allocates.  [false] is an exception, which ends the program. *)
Definition unthrown {A B : Type} (x : res (A * B * bool)) : res (A * B) :=
  let* y := x in let '(a, b, okb) := y in if okb : bool then Ok (a, b) else Err Terminated.

Section Dense.
Context {E : Type}.
(** dense_table(dense_table &&, const allocator_type &) -- dense_table.hpp 244-248, and
    operator=(dense_table &&) -- dense_table.hpp 276-302, without propagation. *)
Definition u_dense_ctor (nk : nat) (dlim slim : Z) (o : dense E) : res (dense E * dense E) :=
  unthrown (DenseModel.move_ctor nk false dlim slim o).
Definition u_dense_assign (nk : nat) (dlim slim : Z) (s o : dense E) : res (dense E * dense E) :=
  unthrown (DenseModel.move_assign nk false false dlim slim s o).
(** The same for ordered tables. *)
Definition u_odense_ctor (sz : Z) (nk : nat) (v : oenv) (h : heap) (hdr : Z) (o : odense E) : res (heap * odense E * odense E) :=
  unthrown (o_move_ctor sz nk false v h hdr o).
Definition u_odense_assign (sz : Z) (nk : nat) (v : oenv) (h : heap) (s o : odense E) : res (heap * odense E * odense E) :=
  unthrown (o_move_assign sz nk false false v h s o).
End Dense.

Section Swiss.
Context {E : Type}.
Variable f : simd.
(** operator=(swiss_table &&) -- swiss_table.hpp 870-883, without propagation.  The
    constructor with an allocator (lines 853-854) is not [noexcept] with separate buffers,
    since the constructor of the buffer (line 510) is not. *)
Definition u_swiss_assign (lim : Z) (s o : @swiss E) : res (swiss * swiss) :=
  unthrown (SwissModel.move_assign f false false lim s o).

(** move_data of an ordered table -- swiss_table.hpp 1486-1521: relocate (table_common.hpp
    235-240, 443) moves the link of every node with relink_from; the header was moved before
    (lines 853, 874). *)
Definition relink_occ (sz : Z) (o : @swiss E) (nb ob : Z) (h : heap) (i : Z) : res heap :=
  let* m := get_meta f o i in
  if is_occupied m then relink_from h (nb + i * sz) (ob + i * sz) else Ok h.
Definition s_move_data (sz : Z) (v : senv) (h : heap) (s o : oswiss E) : res (heap * oswiss E * oswiss E * bool) :=
  let* x := SwissModel.move_data f (ev_lim (sv_e v)) (os_t s) (os_t o) in
  let '(t1, t2, okb) := x in
  if s_size (os_t o) =? 0 then Ok (h, with_t s t1, with_t o t2, okb)
  else
    let* y := s_realloc sz v h s (s_cap (os_t o)) (negb okb) in
    let '(h1, nb) := y in
    if negb okb then Ok (h1, with_t s t1, with_t o t2, false)
    else
      let* h2 := foldM (relink_occ sz (os_t o) nb (os_base o)) (zrange (s_cap (os_t o))) h1 in
      Ok (h2, mkos t1 (os_hdr s) nb, with_t o t2, true).
(** Move construction with an allocator -- swiss_table.hpp 853-854. *)
Definition u_oswiss_ctor (sz : Z) (v : senv) (h : heap) (hdr : Z) (o : oswiss E) : res (heap * oswiss E * oswiss E * bool) :=
  let* h1 := relink_from h hdr (os_hdr o) in
  s_move_data sz v h1 (mkos empty_swiss hdr 0) o.
(** Move assignment without propagation -- swiss_table.hpp 870-883. *)
Definition u_oswiss_assign (sz : Z) (v : senv) (h : heap) (s o : oswiss E) : res (heap * oswiss E * oswiss E) :=
  unthrown (
    let* h1 := relink_from h (os_hdr s) (os_hdr o) in
    let* t1 := erase_nodes f (os_t s) in
    s_move_data sz v h1 (with_t s t1) o).
End Swiss.
