(** Copy assignment of ordered dense containers during which copying an element throws: [n] copies
    succeed, the next one throws. *)
From Coq Require Import ZArith List Bool.
From Verif Require Import Base DenseModel DenseRun LinkModel OrderedDense OrderedRun CopyModel.
Import ListNotations.
Open Scope Z_scope.

Section OrderedCopy.
Context {E : Type}.
Variable sz : Z.
Variable nk : nat.
Variable clone : E -> E.
Notation odense := (odense E).

(** copy_data -- dense_table.hpp 823-859.  A refused allocation is the one of o_copy_data.  The
    links of a node are copied before its element (packed_node::construct, table_common.hpp
    229-234), so those of [n] + 1 nodes are; the header is linked to the copies at line 855
    only. *)
Definition oc_copy_data (n : nat) (v : oenv) (h : heap) (s o : odense) : res (heap * odense * bool) :=
  let* p := copy_data nk clone (dv_dlim (ov_d v)) (dv_slim (ov_d v)) (o_d s) (o_d o) in
  if negb (snd p) || (d_size (o_d o) <=? Z.of_nat n) then o_copy_data sz nk clone v h s o
  else
    let* x := dc_copy_data nk clone n (dv_dlim (ov_d v)) (dv_slim (ov_d v)) (o_d s) (o_d o) in
    let* y := o_realloc sz v h s (d_size (o_d o)) false in
    let* h2 := foldM (copy_link_step sz (snd y) (o_base o)) (zrange (Z.of_nat n + 1)) (fst y) in
    Ok (h2, mko (fst x) (o_hdr s) (snd y), false).
(** Copy assignment (this != &other) -- lines 250-275: the header takes over the distances of the
    other header first (line 254). *)
Definition oc_copy_assign (n : nat) (pocca : bool) (v : oenv) (h : heap) (s o : odense) : res (heap * odense * bool) :=
  let* h1 := copy_link h (o_hdr s) (o_hdr o) in
  let* d1 := clear_data (set_mlf (o_d s) (d_mlf (o_d o))) in
  let '(h2, s2) := o_release sz pocca h1 (with_d s d1) in
  oc_copy_data n v h2 s2 o.
End OrderedCopy.
