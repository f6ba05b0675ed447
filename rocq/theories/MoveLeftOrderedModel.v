(** Moving an ordered dense container into one whose allocator compares unequal, during which
    moving an element throws (MoveLeftModel.v).  Line numbers: dense_table.hpp. *)
From Coq Require Import ZArith List Bool.
From Verif Require Import Base LinkModel DenseModel DenseRun OrderedDense MoveLeftModel.
Import ListNotations.
Open Scope Z_scope.

Section Ordered.
Context {E : Type}.
Variable sz : Z.
Variable nk : nat.
Notation odense := (odense E).

(** move_data -- lines 860-888.  The node's link is moved before its value (construct,
    table_common.hpp 235-240), so the link of the element whose move throws is in the target
    array already.  (If memory is refused, an old element array has been freed before.) *)
Definition om_move_data (n : nat) (v : oenv) (h : heap) (s o : odense) : res (heap * odense * odense * bool) :=
  let dlim := dv_dlim (ov_d v) in let slim := dv_slim (ov_d v) in
  let* x := dm_move_data nk n dlim slim (o_d s) (o_d o) in
  let '(d1, d2, okb) := x in
  if d_size (o_d o) =? 0 then Ok (h, with_d s d1, with_d o d2, okb)
  else
    let '(s1, ok1) := realloc_sparse slim (o_d s) (d_bc (o_d o)) in
    if negb ok1 then Ok (h, with_d s d1, with_d o d2, false)
    else
      let '(s2, ok2) := realloc_dense dlim s1 (d_size (o_d o)) in
      if negb ok2 && d_dok s2 then Ok (h, with_d s d1, with_d o d2, false)
      else
      let* y := o_realloc sz v h s (d_size (o_d o)) (negb ok2) in
      let '(h1, nb) := y in
      if negb ok2 then Ok (h1, with_d s d1, with_d o d2, false)
      else
        let* h2 := foldM (relink_step sz nb (o_base o)) (firstn (S n) (zrange (d_size (o_d o)))) h1 in
        Ok (h2, mko d1 (o_hdr s) nb, with_d o d2, okb).
(** Move construction at [hdr] with another allocator -- lines 244-248; move assignment (this !=
    &other) from a table with another allocator that does not propagate -- lines 276-302.  The
    header's link is moved first. *)
Definition om_move_ctor (ne : bool) (n : nat) (v : oenv) (h : heap) (hdr : Z) (o : odense) : res (heap * odense * odense * bool) :=
  leaves ne (
    let* h1 := relink_from h hdr (o_hdr o) in
    om_move_data n v h1 (mko (set_mlf empty_dense (d_mlf (o_d o))) hdr 0) o).
Definition om_move_assign (ne : bool) (n : nat) (v : oenv) (h : heap) (s o : odense) : res (heap * odense * odense * bool) :=
  leaves ne (
    let* h1 := relink_from h (o_hdr s) (o_hdr o) in
    let* d1 := clear_data (set_mlf (o_d s) (d_mlf (o_d o))) in
    om_move_data n v h1 (with_d s d1) o).
End Ordered.
