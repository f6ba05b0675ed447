(** Moving a container into another one whose allocator compares unequal, during which moving
    an element throws.  The operations take the number [n] of moves that succeed; the next one
    throws.  The element whose move throws keeps its value here (its move constructor may have
    changed it).  Stable nodes are moved by exchanging pointers (table_common.hpp 435-443) and
    do not throw. *)
From Coq Require Import ZArith List Bool.
From Verif Require Import Base Bits.
From Verif Require DenseModel.
From Verif Require Import SwissModel.
Import ListNotations.
Open Scope Z_scope.

(** The [noexcept] clauses -- swiss_table.hpp 851, 853, 870; dense_table.hpp 239, 244, 276: they
    ask about allocators, hasher and key_equal only.  If the clause holds ([ne]), an exception
    (the flag [false]) ends the program; otherwise it reaches the caller. *)
Definition leaves {A B : Type} (ne : bool) (x : res (A * B * bool)) : res (A * B * bool) :=
  let* y := x in if ne && negb (snd y) then Err Terminated else Ok y.

(** ** Open-addressing tables.  Line numbers: swiss_table.hpp. *)
Section Swiss.
Context {E : Type}.
Variable f : simd.
Notation swiss := (@swiss E).

(** The loop of move_data -- lines 1507-1513.  relocate (table_common.hpp 262-272) constructs the
    element in the target, which may throw, and then destroys the one in the source; the byte
    of the source stays. *)
Fixpoint move_until (n : nat) (l : list Z) (t o : swiss) {struct l} : res (swiss * swiss * bool) :=
  match l with
  | [] => Ok (t, o, true)
  | i :: r =>
    let* b := get_meta f o i in
    if is_occupied b then
      let* x := get_node o i in
      match n with
      | O => Ok (t, o, false)
      | S n' =>
        let* t1 := put_node t i x in
        let* o1 := kill_node o i in
        let* t2 := set_metadata f t1 i b in
        move_until n' r t2 o1
      end
    else move_until n r t o
  end.
(** move_data -- lines 1486-1521.  There is no handler: an exception leaves m_size 0 in the target
    (set at line 1514) and the old m_size and bytes in the source (reset at lines 1518-1520). *)
Definition m_move_data (n : nat) (lim : Z) (s o : swiss) : res (swiss * swiss * bool) :=
  let* _ := guard (s_size s =? 0) AssertFailed in
  if s_size o =? 0 then
    Ok (set_nempty (set_size s 0) (if s_cap s =? 0 then 0 else capacity_to_max_size f (s_cap s)), o, true)
  else
    let* x := reallocate lim s (s_cap o) in
    let '(s1, okb) := x in
    if negb okb then Ok (s1, o, false)
    else
      let* s2 := fill_empty s1 in
      let* y := move_until n (zrange (s_cap o)) s2 o in
      let '(s3, o1, okm) := y in
      if negb okm then Ok (s3, o1, false)
      else
        let s4 := set_nempty (set_size s3 (s_size o)) (sub64 (capacity_to_max_size f (s_cap s3)) (s_size o)) in
        let* o2 := fill_empty (set_nempty (set_size o1 0) (capacity_to_max_size f (s_cap o1))) in
        Ok (s4, o2, true).
(** Move construction with another allocator -- lines 853-854 (its [noexcept] clause holds only if
    the constructor of the buffer from an allocator does not throw, which fails for separate
    buffers, line 510).  After an exception the table given is not destroyed. *)
Definition m_move_ctor (ne : bool) (n : nat) (lim : Z) (o : swiss) : res (swiss * swiss * bool) :=
  leaves ne (m_move_data n lim empty_swiss o).
(** Move assignment (this != &other) from a table with another allocator that does not
    propagate -- lines 870-883. *)
Definition m_move_assign (ne : bool) (n : nat) (lim : Z) (s o : swiss) : res (swiss * swiss * bool) :=
  leaves ne (let* s1 := erase_nodes f s in m_move_data n lim s1 o).
End Swiss.

(** ** Dense tables.  Line numbers: dense_table.hpp. *)
Section Dense.
Import DenseModel.
Context {E : Type}.
Variable nk : nat.
Notation dense := (DenseModel.dense E).

(** The loop of move_data -- lines 880-886: m_dense_size of the target is advanced after each
    element; the source counts its elements until the loop ends (line 887). *)
Fixpoint d_move_until (n : nat) (l : list Z) (t o : dense) {struct l} : res (dense * dense * bool) :=
  match l with
  | [] => Ok (t, o, true)
  | i :: r =>
    match n with
    | O => let* _ := DenseModel.get_node o i in Ok (t, o, false)
    | S n' => let* x := DenseModel.move_step nk (t, o) i in d_move_until n' r (fst x) (snd x)
    end
  end.
(** move_data -- lines 860-888. *)
Definition dm_move_data (n : nat) (dlim slim : Z) (s o : dense) : res (dense * dense * bool) :=
  let* _ := guard (d_size s =? 0) AssertFailed in
  if d_size o =? 0 then Ok (DenseModel.set_size s 0, o, true)
  else
    let '(s1, ok1) := realloc_sparse slim s (d_bc o) in
    if negb ok1 then Ok (s1, o, false)
    else
      let '(s2, ok2) := realloc_dense dlim s1 (d_size o) in
      if negb ok2 then Ok (s2, o, false)
      else
        let* s3 := fill_sparse s2 in
        let* y := d_move_until n (zrange (d_size o)) s3 o in
        let '(s4, o1, okm) := y in
        if negb okm then Ok (s4, o1, false) else Ok (s4, DenseModel.set_size o1 0, true).
(** Move construction with another allocator -- lines 244-248; move assignment (this != &other)
    from a table with another allocator that does not propagate -- lines 276-302. *)
Definition dm_move_ctor (ne : bool) (n : nat) (dlim slim : Z) (o : dense) : res (dense * dense * bool) :=
  leaves ne (dm_move_data n dlim slim (set_mlf empty_dense (d_mlf o)) o).
Definition dm_move_assign (ne : bool) (n : nat) (dlim slim : Z) (s o : dense) : res (dense * dense * bool) :=
  leaves ne (let* s1 := clear_data (set_mlf s (d_mlf o)) in dm_move_data n dlim slim s1 o).
End Dense.
