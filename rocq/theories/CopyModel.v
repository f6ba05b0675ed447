(** Copy construction and assignment during which copying an element throws.  The operations
    take the number [n] of copies that succeed; the next one throws.  A copy also throws if
    a stable node gets no memory for its object (table_common.hpp 446-450). *)
From Coq Require Import ZArith List Bool.
From Verif Require Import Base Bits.
From Verif Require DenseModel.
From Verif Require Import SwissModel.
Import ListNotations.
Open Scope Z_scope.

(** ** Open-addressing tables.  Line numbers: swiss_table.hpp. *)
Section Swiss.
Context {E : Type}.
Variable f : simd.
Variable clone : E -> E.
Notation swiss := (@swiss E).

(** The loop of copy_data -- lines 1465-1470: construct (line 1468) throws before the byte of the
    slot is set (line 1469).  [false]: the exception left the loop. *)
Fixpoint copy_until (n : nat) (o : swiss) (l : list Z) (t : swiss) {struct l} : res (swiss * bool) :=
  match l with
  | [] => Ok (t, true)
  | i :: r =>
    let* b := get_meta f o i in
    if is_occupied b then
      let* x := get_node o i in
      match n with
      | O => Ok (t, false)
      | S n' =>
        let* t1 := put_node t i (clone (fst x), snd x) in
        let* t2 := set_metadata f t1 i b in
        copy_until n' o r t2
      end
    else copy_until n o r t
  end.
(** copy_data -- lines 1448-1472 (without links).  There is no handler: an exception leaves the
    buffer as it is, with m_size 0 (set at line 1471). *)
Definition c_copy_data (n : nat) (lim : Z) (s o : swiss) : res (swiss * bool) :=
  let* _ := guard (s_size s =? 0) AssertFailed in
  if s_size o =? 0 then
    Ok (set_nempty s (if s_cap s =? 0 then 0 else capacity_to_max_size f (s_cap s)), true)
  else
    let* x := reallocate lim s (s_cap o) in
    let '(s1, okb) := x in
    if negb okb then Ok (s1, false)
    else
      let* s2 := fill_empty s1 in
      let* y := copy_until n o (zrange (s_cap o)) s2 in
      let '(s3, okc) := y in
      if negb okc then Ok (s3, false)
      else Ok (set_nempty (set_size s3 (s_size o)) (sub64 (capacity_to_max_size f (s_cap s3)) (s_size o)), true).
(** Copy construction -- lines 848-849.  After an exception the table given is not destroyed:
    the destructor (lines 884-888) does not run, and buffer_type has none. *)
Definition c_copy_ctor (n : nat) (lim : Z) (o : swiss) : res (swiss * bool) := c_copy_data n lim empty_swiss o.
(** Copy assignment (this != &other) -- lines 856-869. *)
Definition c_copy_assign (n : nat) (pocca : bool) (lim : Z) (s o : swiss) : res (swiss * bool) :=
  let* s1 := erase_nodes f s in
  c_copy_data n lim (buffer_assign pocca s1) o.
(** The destructor up to the release of the buffer -- lines 884-887. *)
Definition destroy (s : swiss) : res swiss := if s_size s =? 0 then Ok s else erase_nodes f s.
End Swiss.

(** ** Dense tables.  Line numbers: dense_table.hpp. *)
Section Dense.
Import DenseModel.
Context {E : Type}.
Variable nk : nat.
Variable clone : E -> E.
Notation dense := (DenseModel.dense E).

(** The loop of copy_data -- lines 841-847: m_dense_size is advanced after the element is
    constructed and put in its buckets (no user function is called for that). *)
Fixpoint d_copy_until (n : nat) (o : dense) (l : list Z) (t : dense) {struct l} : res (dense * bool) :=
  match l with
  | [] => Ok (t, true)
  | i :: r =>
    match n with
    | O => let* _ := DenseModel.get_node o i in Ok (t, false)
    | S n' => let* t1 := DenseModel.copy_step nk clone o t i in d_copy_until n' o r t1
    end
  end.
(** copy_data -- lines 823-847 (without links). *)
Definition dc_copy_data (n : nat) (dlim slim : Z) (s o : dense) : res (dense * bool) :=
  let* _ := guard (d_size s =? 0) AssertFailed in
  if d_size o =? 0 then Ok (DenseModel.set_size s 0, true)
  else
    let '(s1, ok1) := realloc_sparse slim s (d_bc o) in
    if negb ok1 then Ok (s1, false)
    else
      let '(s2, ok2) := realloc_dense dlim s1 (d_size o) in
      if negb ok2 then Ok (s2, false)
      else
        let* s3 := fill_sparse s2 in
        d_copy_until n o (zrange (d_size o)) s3.
(** Copy construction -- lines 230-237; copy assignment (this != &other) -- lines 250-275. *)
Definition dc_copy_ctor (n : nat) (dlim slim : Z) (o : dense) : res (dense * bool) :=
  dc_copy_data n dlim slim (set_mlf empty_dense (d_mlf o)) o.
Definition dc_copy_assign (n : nat) (pocca : bool) (dlim slim : Z) (s o : dense) : res (dense * bool) :=
  let* s1 := clear_data (set_mlf s (d_mlf o)) in
  dc_copy_data n dlim slim (release pocca s1) o.
End Dense.
