(** Model of ordered_link (tpp/detail/table_common.hpp 103-181): the links of the ordered
    containers.  A link holds the distances in bytes from itself to the next and to the
    previous link.  Addresses are integers; distances do not overflow, as they lie between
    addresses of one address space.  Line numbers refer to table_common.hpp. *)
From Coq Require Import ZArith List Bool.
From Verif Require Import Base LinkSpec.
Import ListNotations.
Open Scope Z_scope.

(** The fields next and prev -- lines 179-180. *)
Definition link : Type := Z * Z.
(** The links in memory by address; [None] where there is no link object. *)
Definition heap : Type := Z -> option link.

Definition get_link (h : heap) (a : Z) : res link :=
  match h a with Some x => Ok x | None => Err OutOfBounds end.
Definition set_next (h : heap) (a n : Z) : res heap :=
  let* x := get_link h a in Ok (upd h a (Some (n, snd x))).
Definition set_prev (h : heap) (a p : Z) : res heap :=
  let* x := get_link h a in Ok (upd h a (Some (fst x, p))).

(** off(next), off(prev) -- lines 111-118, 162-163; operator++ and operator-- of
    ordered_iterator -- lines 549-568. *)
Definition next_link (h : heap) (a : Z) : res Z := let* x := get_link h a in Ok (a + fst x).
Definition prev_link (h : heap) (a : Z) : res Z := let* x := get_link h a in Ok (a + snd x).

(** link(next_ptr, prev_ptr) -- lines 132-138. *)
Definition link2 (h : heap) (a next_ptr prev_ptr : Z) : res heap :=
  let* h1 := set_next h a (next_ptr - a) in
  let* h2 := set_prev h1 a (prev_ptr - a) in
  let* x := get_link h2 a in
  let* h3 := set_prev h2 next_ptr (- fst x) in
  let* y := get_link h3 a in
  set_next h3 prev_ptr (- snd y).
(** link(prev_ptr) -- line 131. *)
Definition link_after (h : heap) (a prev_ptr : Z) : res heap :=
  let* n := next_link h prev_ptr in link2 h a n prev_ptr.

(** relink_from -- lines 140-153: the link at [o] moves to [a]. *)
Definition relink_from (h : heap) (a o : Z) : res heap :=
  let* h1 := set_next h a 0 in
  let* h2 := set_prev h1 a 0 in
  let* x := get_link h2 o in
  let* h3 :=
    (if fst x =? 0 then Ok h2
     else
       let n := o + fst x in
       let* t := set_next h2 o 0 in
       let* t1 := set_next t a (n - a) in
       set_prev t1 n (- (n - a))) in
  let* y := get_link h3 o in
  if snd y =? 0 then Ok h3
  else
    let p := o + snd y in
    let* t := set_prev h3 o 0 in
    let* t1 := set_prev t a (p - a) in
    set_next t1 p (- (p - a)).

(** unlink -- lines 154-160. *)
Definition unlink (h : heap) (a : Z) : res heap :=
  let* n := next_link h a in
  let* p := prev_link h a in
  let* h1 := set_prev h n (p - n) in
  set_next h1 p (n - p).

(** The copy operations -- lines 121-122: the distances are copied. *)
Definition copy_link (h : heap) (a o : Z) : res heap :=
  let* x := get_link h o in
  let* _ := get_link h a in
  Ok (upd h a (Some x)).
(** *header_link() = bucket_link{} -- lines 124-128, dense_table.hpp 352. *)
Definition reset_link (h : heap) (a : Z) : res heap :=
  let* _ := get_link h a in Ok (upd h a (Some (0, 0))).

(** swap -- lines 170-176 (the friend, called by the containers through empty_base::swap,
    lines 73-77). *)
Definition swap_links (h : heap) (a b : Z) : res heap :=
  let* a_next := next_link h a in
  let* b_next := next_link h b in
  let* a_prev := prev_link h a in
  let* b_prev := prev_link h b in
  let* h1 := link2 h a b_next b_prev in
  link2 h1 b a_next a_prev.
(** The member swap -- lines 165-169, called by swap of two nodes (line 295). *)
Definition swap_raw (h : heap) (a b : Z) : res heap :=
  let* x := get_link h a in
  let* y := get_link h b in
  Ok (upd (upd h a (Some y)) b (Some x)).

(** Traversal with operator++ (operator--) from [a] up to [b]; the addresses passed. *)
Fixpoint walk (fuel : nat) (h : heap) (a b : Z) : res (list Z) :=
  match fuel with
  | O => Err Diverges
  | S fu =>
    if a =? b then Ok []
    else let* n := next_link h a in let* r := walk fu h n b in Ok (a :: r)
  end.
Fixpoint walk_back (fuel : nat) (h : heap) (a b : Z) : res (list Z) :=
  match fuel with
  | O => Err Diverges
  | S fu =>
    if a =? b then Ok []
    else let* p := prev_link h a in let* r := walk_back fu h p b in Ok (a :: r)
  end.

(** Arrays of nodes of [sz] bytes starting at [base]: the slot at an address. *)
Definition slot_ix (base sz cap a : Z) : option Z :=
  if ((a - base) mod sz =? 0) && (0 <=? (a - base) / sz) && ((a - base) / sz <? cap) then Some ((a - base) / sz) else None.
(** Allocation of an array: the links in it have arbitrary values.  An allocator never
    returns memory that is in use: a placement that violates this is [BadPlacement]. *)
Definition place (junk : Z -> link) (h : heap) (base sz cap : Z) : res heap :=
  let* _ := guard (forallb (fun i => match h (base + i * sz) with Some _ => false | None => true end) (zrange cap)) BadPlacement in
  Ok (fun a => match slot_ix base sz cap a with Some _ => Some (junk a) | None => h a end).
(** Deallocation. *)
Definition unplace (h : heap) (base sz cap : Z) : heap :=
  fun a => match slot_ix base sz cap a with Some _ => None | None => h a end.

(** Sequences of link operations: link(prev_ptr) -- line 131, unlink -- lines 154-160, and
    relink_from -- lines 140-153 -- as used when a linked object is relocated. *)
Definition lexec (h : heap) (c : lcall) : res heap :=
  match c with
  | LAfter a p => link_after h a p
  | LUnlink a => unlink h a
  | LMove to from => relink_from h to from
  end.
Definition lrun (h : heap) (cs : list lcall) : res heap := foldM lexec cs h.
