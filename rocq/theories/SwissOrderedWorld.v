(** Running programs that use several ordered sparse or stable containers on the model.  All
    containers share one memory. *)
From Coq Require Import ZArith List Bool Arith.
From Verif Require Import Base Bits MapSpec WorldSpec World SwissModel SwissRun LinkModel SwissOrderedSpec SwissOrderedWorldSpec SwissOrdered SwissOrderedRun.
Import ListNotations.
Open Scope Z_scope.

(** Admissible statements. *)
Definition xcall_ok {E K} (c : xcall E K) : Prop :=
  match c with
  | XOn _ c => zcall_ok c
  | XCopyNew i j | XMoveNew i j | XSwap i j | XMerge i j => i <> j
  | _ => True
  end.
Definition xhistory_ok {E K} (h : list (senv * xcall E K)) : Prop :=
  Forall (fun vc => env_ok (sv_e (fst vc)) /\ xcall_ok (snd vc)) h.

Section World.
Context {E K : Type}.
Variable f : simd.
Variable sz : Z.
Variable key_of : E -> K.
Variable hash : K -> Z.
Variable keq : K -> K -> bool.
Variable rep : E -> E -> E.
Variable clone : E -> E.
(** propagate_on_container_copy_assignment and propagate_on_container_move_assignment of
    the allocator (false and true for std::allocator). *)
Variables pocca pocma : bool.

(** The memory, the containers and the node handles. *)
Record xworld : Type := mkxw { xw_m : heap; xw_c : nat -> oswiss E; xw_h : nat -> option E }.

(** The destructor -- swiss_table.hpp 885-889, then a new object at the same address whose
    link is in the initial state -- table_common.hpp 120, 179-180. *)
Definition x_destroy (h : heap) (s : oswiss E) : heap :=
  upd (unplace h (os_base s) sz (s_cap (os_t s))) (os_hdr s) (Some (0, 0)).

(** One statement.  All allocators compare equal, as std::allocator does.  Assignment to
    itself is skipped (swiss_table.hpp 858, 872).  Node handles: lines 962-980, 1077-1094;
    merge: lines 1096-1113. *)
Definition xexec (v : senv) (w : xworld) (c : xcall E K) : res (xworld * xret E) :=
  let h := xw_m w in let ct := xw_c w in let hd := xw_h w in
  match c with
  | XOn i c =>
    let* x := zexec f sz key_of hash keq rep v (h, ct i) c in
    let '(h1, s, r) := x in Ok (mkxw h1 (setn ct i s) hd, XRet r)
  | XNew i => Ok (mkxw (x_destroy h (ct i)) (setn ct i (s_new (os_hdr (ct i)))) hd, XDone)
  | XCopyNew i j =>
    let* x := s_copy_ctor f sz clone v (x_destroy h (ct i)) (os_hdr (ct i)) (ct j) in
    let '(h1, s, b) := x in
    if b : bool then Ok (mkxw h1 (setn ct i s) hd, XDone)
    else Ok (mkxw (upd h1 (os_hdr (ct i)) (Some (0, 0))) (setn ct i (s_new (os_hdr (ct i)))) hd, XThrow)
  | XCopy i j =>
    if Nat.eqb i j then Ok (w, XDone)
    else
      let* x := s_copy_assign f sz clone pocca v h (ct i) (ct j) in
      let '(h1, s, b) := x in Ok (mkxw h1 (setn ct i s) hd, if b : bool then XDone else XThrow)
  | XMoveNew i j =>
    let* x := s_move_ctor (x_destroy h (ct i)) (os_hdr (ct i)) (ct j) in
    let '(h1, s, o) := x in Ok (mkxw h1 (setn (setn ct i s) j o) hd, XDone)
  | XMove i j =>
    if Nat.eqb i j then Ok (w, XDone)
    else
      let* x := s_move_assign f sz pocma h (ct i) (ct j) in
      let '(h1, s, o) := x in Ok (mkxw h1 (setn (setn ct i s) j o) hd, XDone)
  | XSwap i j =>
    let* x := s_swap h (ct i) (ct j) in
    let '(h1, s, o) := x in Ok (mkxw h1 (setn (setn ct i s) j o) hd, XDone)
  | XExtract i k j =>
    let* x := s_extract_key f sz key_of hash keq h (ct i) k in
    let '(h1, s, o) := x in Ok (mkxw h1 (setn ct i s) (setn hd j o), XNode o)
  | XInsertNode i j =>
    match hd j with
    | None => Ok (w, XDone)
    | Some e =>
      let* x := s_insert_node f sz key_of hash keq v h (ct i) (Some e) in
      let '(h1, s, o) := x in
      match o with
      | None => Ok (mkxw h1 (setn ct i s) hd, XThrow)
      | Some (a, b, hn) => let* y := s_value sz s a in Ok (mkxw h1 (setn ct i s) (setn hd j hn), XNodeIn y b)
      end
    end
  | XAssignNode i j =>
    match hd j with
    | None => Ok (w, XDone)
    | Some e =>
      let* x := s_assign_node f sz key_of hash keq v h (ct i) (Some e) in
      let '(h1, s, o) := x in
      match o with
      | None => Ok (mkxw h1 (setn ct i s) hd, XThrow)
      | Some (a, b) => let* y := s_value sz s a in Ok (mkxw h1 (setn ct i s) (setn hd j None), XNodeIn y b)
      end
    end
  | XMerge i j =>
    let* x := s_merge f sz key_of hash keq v h (ct i) (ct j) in
    let '(h1, s, o, b) := x in
    Ok (mkxw h1 (setn (setn ct i s) j o) hd, if b : bool then XDone else XThrow)
  end.

Fixpoint xrun (w : xworld) (h : list (senv * xcall E K)) : res (xworld * list (xret E)) :=
  match h with
  | [] => Ok (w, [])
  | (v, c) :: r =>
    let* x := xexec v w c in
    let '(w1, o) := x in
    let* y := xrun w1 r in
    let '(w2, os) := y in Ok (w2, o :: os)
  end.

(** The statement completes, but [ci] does not find the key of an element of [cj]. *)
Definition xloses (v : senv) (w : xworld) (c : xcall E K) (i j : nat) : Prop :=
  exists w' l x, xexec v w c = Ok (w', XDone) /\ s_iterate sz (xw_m w) (xw_c w j) = Ok l /\ In x l /\
    contains f key_of hash keq (os_t (xw_c w' i)) (key_of x) <> Ok true.

(** Statements that are not covered: those of [zblocked]; a placement over links in use;
    copies that lose elements (C07); assigning to a container with more slots, or an empty
    container to one that has or had elements, unless the allocator propagates (C08, C09); a
    copy assignment left by an exception; moving into a container that has elements,
    unless the allocator propagates; swap with an empty container (C18); inserting a node
    when nodes are swapped; merging from a container whose first element is to move (C13), or
    into a moved-from container. *)
Definition xblocked (v : senv) (w : xworld) (c : xcall E K) : Prop :=
  let t i := os_t (xw_c w i) in
  xexec v w c = Err BadPlacement \/
  match c with
  | XOn i c => zblocked f sz key_of hash keq rep v (xw_m w, xw_c w i) c
  | XCopyNew i j => xloses v w c i j
  | XCopy i j =>
    (pocca = false /\ s_size (t j) <> 0 /\ s_cap (t j) < s_cap (t i)) \/
    (pocca = false /\ s_size (t j) = 0 /\ exists k, 0 <= k < s_cap (t i) /\ s_meta (t i) k <> m_empty) \/
    (exists w', xexec v w c = Ok (w', XThrow)) \/ xloses v w c i j
  | XMove i j => pocma = false /\ s_size (t i) <> 0
  | XSwap i j => s_size (t i) = 0 \/ s_size (t j) = 0
  | XInsertNode i j | XAssignNode i j => exists e, xw_h w j = Some e /\ zswaps f key_of hash keq v (xw_c w i) e
  | XMerge i j =>
    (exists x, s_front sz (xw_m w) (xw_c w j) = Ok x /\ contains f key_of hash keq (t i) (key_of x) = Ok false) \/
    (s_cap (t i) = 0 /\ s_nempty (t i) <> 0)
  | _ => False
  end.

(** Default constructed containers with headers at [addr 0], [addr 1], .., empty handles. *)
Definition xinit (addr : nat -> Z) (h0 : heap) : xworld := mkxw h0 (fun i => s_new (addr i)) (fun _ => None).
Definition xinit_ok (addr : nat -> Z) (h0 : heap) : Prop :=
  (forall i j, addr i = addr j -> i = j) /\ forall i, h0 (addr i) = Some (0, 0).

(** The containers iterate, forwards and backwards, over the given lists. *)
Definition xlists (w : xworld) (l : nat -> list E) : Prop :=
  forall i, zlists sz (xw_m w, xw_c w i) (l i).

(** The program behaves as the lists say, up to the first statement that is not covered, if
    there is one. *)
Definition xrefines (w : xworld) (l : xconts) (h : list (senv * xcall E K)) : Prop :=
  (exists w' rs l', xrun w h = Ok (w', rs) /\ xspec_run key_of keq rep clone (map snd h) l l' rs /\ xlists w' (xc l') /\
     forall i, keys_distinct key_of keq (xc l' i)) \/
  (exists h1 v c h2 w1 rs1 l1, h = h1 ++ (v, c) :: h2 /\ xrun w h1 = Ok (w1, rs1) /\
     xspec_run key_of keq rep clone (map snd h1) l l1 rs1 /\ xlists w1 (xc l1) /\ xblocked v w1 c).

(** The states that occur in programs without such a statement. *)
Definition xoccurs (w : xworld) : Prop :=
  exists addr h0 h rs, xinit_ok addr h0 /\ xhistory_ok h /\ xrun (xinit addr h0) h = Ok (w, rs) /\
    forall h1 v c h2 w1 rs1, h = h1 ++ (v, c) :: h2 -> xrun (xinit addr h0) h1 = Ok (w1, rs1) -> ~ xblocked v w1 c.
End World.
Arguments xworld : clear implicits. Arguments mkxw {E}. Arguments xw_m {E}. Arguments xw_c {E}. Arguments xw_h {E}.
