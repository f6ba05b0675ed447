(** insert(first, last) and assign(first, last) of a container with iterators into that same
    container.  An iterator is a position in the array it was made for; [UseAfterFree]: it is
    used after the container replaced that array.  The last result is [false] when an exception
    left the call. *)
From Coq Require Import ZArith List Bool.
From Verif Require Import Base Bits DenseModel SwissModel.
Import ListNotations.
Open Scope Z_scope.

(** ** Unordered sparse and stable tables.  Their iterators are forward iterators
    (swiss_table.hpp 396), so that nothing is reserved. *)
Section Swiss.
Context {E K : Type}.
Variable f : simd.
Variable key_of : E -> K.
Variable hash : K -> Z.
Variable keq : K -> K -> bool.
(** The loop of insert(first, last) -- swiss_table.hpp 986, with operator++ 412-418.  do_rehash
    always changes the capacity and frees the array. *)
Fixpoint own_loop (fuel : nat) (lim : Z) (s : @swiss E) (p last : Z) : res (@swiss E * bool) :=
  match fuel with
  | O => Err Diverges
  | S fu =>
    if p =? last then Ok (s, true)
    else
      let* n := SwissModel.get_node s p in
      let* x := SwissModel.do_insert f key_of hash keq lim true s (fst n) in
      match snd x with
      | None => Ok (fst x, false)
      | Some _ =>
        let* _ := guard (s_cap (fst x) =? s_cap s) UseAfterFree in
        let* q := iter_next f (fst x) p in
        own_loop fu lim (fst x) q last
      end
  end.
(** s.insert(first, last) for iterators [p], [last] of s -- lines 981-987. *)
Definition own_insert (lim : Z) (s : @swiss E) (p last : Z) : res (@swiss E * bool) := own_loop (iter_fuel s) lim s p last.
(** s.insert(s.begin(), s.end()). *)
Definition own_insert_all (lim : Z) (s : @swiss E) : res (@swiss E * bool) :=
  let* p := begin_iter f s in
  let* l := end_iter f s in
  own_insert lim s p l.
(** s.assign(s.begin(), s.end()) -- lines 890-895; clear keeps the array. *)
Definition own_assign (lim : Z) (s : @swiss E) : res (@swiss E * bool) :=
  let* p := begin_iter f s in
  let* l := end_iter f s in
  let* s1 := SwissModel.clear f s in
  own_loop (iter_fuel s) lim s1 p l.
End Swiss.

(** ** Unordered dense tables.  Their iterators are pointers into the element array
    (dense_table.hpp 114), hence random access iterators. *)
Section Dense.
Context {E K : Type}.
Variable nk : nat.
Variable key_of : nat -> E -> K.
Variable hash : K -> Z.
Variable keq : K -> K -> bool.
(** insert( *first ) -- dense_table.hpp 375, 393, 674-697.  The reference to the element is read
    after maybe_resize and maybe_rehash; [c0] is the capacity of the array the iterator was made
    for, and resize_data always changes the capacity.  The element is then inserted as by
    do_insert from the state before, which takes the same steps. *)
Definition d_own_step (dlim slim c0 : Z) (s : dense E) (i : Z) : res (dense E * DenseModel.ins_result) :=
  let* r := DenseModel.make_room nk dlim slim s in
  match snd r with
  | None => Ok (fst r, None)
  | Some _ =>
    let* _ := guard (d_cap (fst r) =? c0) UseAfterFree in
    let* n := DenseModel.get_node (fst r) i in
    DenseModel.do_insert nk key_of hash keq dlim slim true s (n_val n)
  end.
(** The loop -- line 393; [l]: the positions from first to last. *)
Fixpoint d_own_loop (dlim slim c0 : Z) (s : dense E) (l : list Z) : res (dense E * bool) :=
  match l with
  | [] => Ok (s, true)
  | i :: r =>
    let* x := d_own_step dlim slim c0 s i in
    match snd x with None => Ok (fst x, false) | Some _ => d_own_loop dlim slim c0 (fst x) r end
  end.
(** The whole function -- lines 388-394, for iterators of an array of capacity [c0]. *)
Definition d_own_range (dlim slim c0 : Z) (s : dense E) (l : list Z) : res (dense E * bool) :=
  let* x := DenseModel.reserve nk dlim slim s ((d_size s + Z.of_nat (length l)) mod two64) in
  match snd x with None => Ok (fst x, false) | Some _ => d_own_loop dlim slim c0 (fst x) l end.
(** s.insert(s.begin() + lo, s.begin() + lo + n). *)
Definition d_own_insert (dlim slim : Z) (s : dense E) (lo n : nat) : res (dense E * bool) :=
  d_own_range dlim slim (d_cap s) s (map Z.of_nat (seq lo n)).
(** s.assign(s.begin() + lo, s.begin() + lo + n) -- lines 311-316; clear keeps the array. *)
Definition d_own_assign (dlim slim : Z) (s : dense E) (lo n : nat) : res (dense E * bool) :=
  let* s1 := DenseModel.clear s in
  d_own_range dlim slim (d_cap s) s1 (map Z.of_nat (seq lo n)).
End Dense.
