(** Copy assignment of ordered open-addressing containers during which copying an element throws:
    [n] copies succeed, the next one throws.  Line numbers: swiss_table.hpp. *)
From Coq Require Import ZArith List Bool.
From Verif Require Import Base Bits SwissModel SwissRun LinkModel SwissOrdered SwissOrderedRun CopyModel.
Import ListNotations.
Open Scope Z_scope.

Section OrderedSparseCopy.
Context {E : Type}.
Variable f : simd.
Variable sz : Z.
Variable clone : E -> E.
Notation swiss := (@swiss E).
Notation oswiss := (oswiss E).

(** The links copied by the loop of copy_data -- lines 1465-1470: the links of a node are copied
    before its element (table_common.hpp 229-234, 417-422), so those of [n] + 1 nodes are. *)
Fixpoint links_until (n : nat) (t : swiss) (nb ob : Z) (l : list Z) (h : heap) {struct l} : res heap :=
  match l with
  | [] => Ok h
  | i :: r =>
    let* b := get_meta f t i in
    if is_occupied b then
      let* h1 := copy_link h (nb + i * sz) (ob + i * sz) in
      match n with O => Ok h1 | S n' => links_until n' t nb ob r h1 end
    else links_until n t nb ob r h
  end.
(** copy_data -- lines 1448-1485.  A refused allocation, and [n] that is not below the number of
    elements, are the cases of s_copy_data; otherwise the exception leaves the loop, m_size is 0
    (set at line 1471) and the header is not linked (lines 1474-1484). *)
Definition sc_copy_data (n : nat) (v : senv) (h : heap) (s o : oswiss) : res (heap * oswiss * bool) :=
  let* p := copy_data f clone (ev_lim (sv_e v)) (os_t s) (os_t o) in
  let* x := c_copy_data f clone n (ev_lim (sv_e v)) (os_t s) (os_t o) in
  if negb (snd p) || snd x then s_copy_data f sz clone v h s o
  else
    let* y := s_realloc sz v h s (s_cap (os_t o)) false in
    let* h2 := links_until n (os_t o) (snd y) (os_base o) (zrange (s_cap (os_t o))) (fst y) in
    Ok (h2, mkos (fst x) (os_hdr s) (snd y), false).
(** Copy assignment (this != &other) -- lines 856-869: the header takes over the distances of the
    other header first (line 860). *)
Definition sc_copy_assign (n : nat) (pocca : bool) (v : senv) (h : heap) (s o : oswiss) : res (heap * oswiss * bool) :=
  let* h1 := copy_link h (os_hdr s) (os_hdr o) in
  let* t1 := erase_nodes f (os_t s) in
  let '(h2, s2) := s_release sz pocca h1 (with_t s t1) in
  sc_copy_data n v h2 s2 o.
End OrderedSparseCopy.
