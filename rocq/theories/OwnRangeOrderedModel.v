(** insert(first, last) and assign(first, last) of an ordered container with iterators into that
    same container.  Iterators are addresses of links; they are bidirectional iterators
    (table_common.hpp 531), so that nothing is reserved. *)
From Coq Require Import ZArith List Bool.
From Verif Require Import Base LinkModel DenseModel DenseRun OrderedDense.
From Verif Require Import Bits SwissModel SwissOrdered.
Import ListNotations.
Open Scope Z_scope.

(** ** Ordered sparse and stable tables. *)
Section Swiss.
Context {E K : Type}.
Variable f : simd.
Variable sz : Z.
Variable key_of : E -> K.
Variable hash : K -> Z.
Variable keq : K -> K -> bool.
Notation oswiss := (oswiss E).
(** The loop -- swiss_table.hpp 986.  do_rehash always changes the capacity. *)
Fixpoint s_own_loop (fuel : nat) (v : senv) (h : heap) (s : oswiss) (a last : Z) : res (heap * oswiss * bool) :=
  match fuel with
  | O => Err Diverges
  | S fu =>
    if a =? last then Ok (h, s, true)
    else
      let* i := s_index sz s a in
      let* n := SwissModel.get_node (os_t s) i in
      let* x := s_do_insert f sz key_of hash keq v h s 0 (fst n) in
      let '(h1, s1, o) := x in
      match o with
      | None => Ok (h1, s1, false)
      | Some _ =>
        let* _ := guard (s_cap (os_t s1) =? s_cap (os_t s)) UseAfterFree in
        let* b := next_link h1 a in
        s_own_loop fu v h1 s1 b last
      end
  end.
(** s.insert(first, last) -- lines 981-987. *)
Definition s_own_insert (v : senv) (h : heap) (s : oswiss) (a last : Z) : res (heap * oswiss * bool) := s_own_loop (iter_fuel (os_t s)) v h s a last.
(** s.insert(s.begin(), s.end()). *)
Definition s_own_insert_all (v : senv) (h : heap) (s : oswiss) : res (heap * oswiss * bool) :=
  let* a := next_link h (os_hdr s) in s_own_insert v h s a (os_hdr s).
(** s.assign(s.begin(), s.end()) -- lines 890-895. *)
Definition s_own_assign (v : senv) (h : heap) (s : oswiss) : res (heap * oswiss * bool) :=
  let* a := next_link h (os_hdr s) in
  let* x := s_clear f h s in
  s_own_loop (iter_fuel (os_t s)) v (fst x) (snd x) a (os_hdr s).
End Swiss.

(** ** Ordered dense tables. *)
Section Dense.
Context {E K : Type}.
Variable sz : Z.
Variable nk : nat.
Variable key_of : nat -> E -> K.
Variable hash : K -> Z.
Variable keq : K -> K -> bool.
Notation odense := (odense E).
(** insert( *first ) -- dense_table.hpp 375, 393, 674-697: the element is read after maybe_resize and
    maybe_rehash.  [c0]: the capacity of the array the iterators were made for; resize_data
    always changes the capacity.  The element is then inserted as by do_insert from the state
    before, which takes the same steps. *)
Definition o_own_step (v : oenv) (c0 : Z) (h : heap) (s : odense) (a : Z) : res (heap * odense * o_result) :=
  let* r := o_make_room sz nk v h s 0 in
  let '(h1, s1, _, o) := r in
  match o with
  | None => Ok (h1, s1, None)
  | Some _ =>
    let* _ := guard (d_cap (o_d s1) =? c0) UseAfterFree in
    let* i := index_of sz s1 a in
    let* n := DenseModel.get_node (o_d s1) i in
    o_do_insert sz nk key_of hash keq v true h s 0 (n_val n)
  end.
(** The loop -- line 393. *)
Fixpoint o_own_loop (fuel : nat) (v : oenv) (c0 : Z) (h : heap) (s : odense) (a last : Z) : res (heap * odense * bool) :=
  match fuel with
  | O => Err Diverges
  | S fu =>
    if a =? last then Ok (h, s, true)
    else
      let* x := o_own_step v c0 h s a in
      let '(h1, s1, o) := x in
      match o with
      | None => Ok (h1, s1, false)
      | Some _ => let* b := next_link h1 a in o_own_loop fu v c0 h1 s1 b last
      end
  end.
(** s.insert(first, last) -- lines 388-394. *)
Definition o_own_insert (v : oenv) (h : heap) (s : odense) (a last : Z) : res (heap * odense * bool) :=
  o_own_loop (S (Z.to_nat (d_size (o_d s)))) v (d_cap (o_d s)) h s a last.
(** s.insert(s.begin(), s.end()). *)
Definition o_own_insert_all (v : oenv) (h : heap) (s : odense) : res (heap * odense * bool) :=
  let* a := next_link h (o_hdr s) in o_own_insert v h s a (o_hdr s).
(** s.assign(s.begin(), s.end()) -- lines 311-316. *)
Definition o_own_assign (v : oenv) (h : heap) (s : odense) : res (heap * odense * bool) :=
  let* a := next_link h (o_hdr s) in
  let* x := o_clear h s in
  o_own_loop (S (Z.to_nat (d_size (o_d s)))) v (d_cap (o_d s)) (fst x) (snd x) a (o_hdr s).
End Dense.
