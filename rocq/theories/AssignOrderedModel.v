(** insert_or_assign on ordered maps, with the steps of replace (AssignModel.v). *)
From Coq Require Import ZArith List Bool.
From Verif Require Import Base Bits LinkModel SwissModel SwissRun SwissOrdered AssignSpec AssignModel.
From Verif Require DenseModel OrderedDense.
Import ListNotations.
Open Scope Z_scope.

Section Sparse.
Context {K V : Type}.
Variable f : simd.
Variable sz : Z.
Variable hash : K -> Z.
Variable keq : K -> K -> bool.
Local Notation elt := (K * option V)%type.
(** do_insert_or_assign without a hint -- swiss_table.hpp 1348-1359.  As [s_assign]; the links are
    touched only when a new element is placed, by emplace_node 1264-1300, or moved by do_rehash. *)
Definition z_assign (triv : bool) (v : senv) (h : heap) (s : oswiss elt) (k : K) (a : argument V) : res (heap * oswiss elt * s_result) :=
  let t := os_t s in
  let* p := find_node f fst keq t k (hash k) in
  if p =? s_cap t then
    let* r := make_room f (ev_lim (sv_e v)) t (hash k) in
    match snd r with
    | None => Ok (h, with_t s (fst r), None)
    | Some _ =>
      let* x := (match a with Outside x => Ok x | Slot _ => if s_cap (fst r) =? s_cap t then AssignModel.s_value (fst r) a else Err UseAfterFree end) in
      let* y := s_emplace_node f sz v (ev_ctor (sv_e v)) h s 0 (hash k) (k, Some x) in
      let '(h1, s1, o) := y in
      Ok (h1, s1, match o with None => None | Some q => Some (s_iter sz s1 q, true) end)
    end
  else
    let* y := s_replace triv (ev_ctor (sv_e v)) t p a in
    Ok (h, with_t s (fst y), if snd y then Some (s_iter sz s p, false) else None).
End Sparse.

(** ** Ordered dense maps. *)
Section Dense.
Context {K V : Type}.
Variable sz : Z.
Variable hash : K -> Z.
Variable keq : K -> K -> bool.
Local Notation elt := (K * option V)%type.
(** do_insert_or_assign without a hint -- dense_table.hpp 700-723.  As [d_assign]; the links are
    touched when the array is replaced and when a new element is placed, lines 578-593. *)
Definition o_assign (triv ctor : bool) (v : OrderedDense.oenv) (h : heap) (s : OrderedDense.odense elt) (k : K) (a : argument V)
  : res (heap * OrderedDense.odense elt * OrderedDense.o_result) :=
  let* r := OrderedDense.o_make_room sz 1 v h s 0 in
  let '(h1, s1, hint1, o) := r in
  match o with
  | None => Ok (h1, s1, None)
  | Some _ =>
    let d1 := OrderedDense.o_d s1 in
    let freed := match a with Outside _ => false | Slot _ => negb (DenseModel.d_cap d1 =? DenseModel.d_cap (OrderedDense.o_d s)) end in
    let* c := DenseModel.find_node key0 keq d1 0 k (hash k) in
    let* isnew := (match snd c with None => Ok false | Some p => let* x := DenseModel.load d1 0%nat p in Ok (x =? DenseModel.npos) end) in
    if isnew : bool then
      let* p := DenseModel.deref (snd c) in
      let* x := (if freed then Err UseAfterFree else d_value d1 a) in
      let* y := OrderedDense.o_emplace_node sz ctor h1 s1 hint1 [(0%nat, p)] (fun _ => hash k) (k, Some x) in
      let '(h2, s2, o2) := y in
      Ok (h2, s2, match o2 with None => None | Some pos => Some (OrderedDense.slot sz s2 pos, true) end)
    else
      let* y := d_replace triv ctor freed d1 (fst c) a in
      Ok (h1, OrderedDense.with_d s1 (fst y), if snd y then Some (OrderedDense.slot sz s1 (fst c), false) else None)
  end.
End Dense.
