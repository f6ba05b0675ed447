(** Moving an ordered sparse container into one whose allocator compares unequal, during which
    moving an element throws (MoveLeftModel.v).  Line numbers: swiss_table.hpp. *)
From Coq Require Import ZArith List Bool.
From Verif Require Import Base Bits LinkModel SwissModel SwissRun SwissOrdered MoveLeftModel.
Import ListNotations.
Open Scope Z_scope.

Section Ordered.
Context {E : Type}.
Variable f : simd.
Variable sz : Z.
Notation oswiss := (oswiss E).

(** The links moved by the loop of move_data -- lines 1507-1513: those of the occupied slots up
    to the [n]-th, counted from 0, whose value's move throws (construct, table_common.hpp
    235-240, moves the link before the value). *)
Fixpoint relink_until (n : nat) (o : @swiss E) (nb ob : Z) (l : list Z) (h : heap) {struct l} : res heap :=
  match l with
  | [] => Ok h
  | i :: r =>
    let* b := get_meta f o i in
    if is_occupied b then
      let* h1 := relink_from h (nb + i * sz) (ob + i * sz) in
      match n with O => Ok h1 | S n' => relink_until n' o nb ob r h1 end
    else relink_until n o nb ob r h
  end.
(** move_data -- lines 1486-1521. *)
Definition sm_move_data (n : nat) (v : senv) (h : heap) (s o : oswiss) : res (heap * oswiss * oswiss * bool) :=
  let lim := ev_lim (sv_e v) in
  let* x := m_move_data f n lim (os_t s) (os_t o) in
  let '(t1, t2, okb) := x in
  if s_size (os_t o) =? 0 then Ok (h, with_t s t1, with_t o t2, okb)
  else
    let* a := reallocate lim (os_t s) (s_cap (os_t o)) in
    let* y := s_realloc sz v h s (s_cap (os_t o)) (negb (snd a)) in
    let '(h1, nb) := y in
    if negb (snd a) then Ok (h1, with_t s t1, with_t o t2, false)
    else
      let* h2 := relink_until n (os_t o) nb (os_base o) (zrange (s_cap (os_t o))) h1 in
      Ok (h2, mkos t1 (os_hdr s) nb, with_t o t2, okb).
(** Move construction at [hdr] with another allocator -- lines 853-854; move assignment (this !=
    &other) from a table with another allocator that does not propagate -- lines 870-883.  The
    header's link is moved first. *)
Definition sm_move_ctor (ne : bool) (n : nat) (v : senv) (h : heap) (hdr : Z) (o : oswiss) : res (heap * oswiss * oswiss * bool) :=
  leaves ne (
    let* h1 := relink_from h hdr (os_hdr o) in
    sm_move_data n v h1 (mkos empty_swiss hdr 0) o).
Definition sm_move_assign (ne : bool) (n : nat) (v : senv) (h : heap) (s o : oswiss) : res (heap * oswiss * oswiss * bool) :=
  leaves ne (
    let* h1 := relink_from h (os_hdr s) (os_hdr o) in
    let* t1 := erase_nodes f (os_t s) in
    sm_move_data n v h1 (with_t s t1) o).
End Ordered.
