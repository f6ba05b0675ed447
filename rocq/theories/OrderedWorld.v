(** Running programs that use several ordered dense containers on the model.  All containers
    share one memory. *)
From Coq Require Import ZArith List Bool Arith.
From Verif Require Import Base DenseSpec World DenseModel DenseRun LinkModel OrderedSpec OrderedWorldSpec OrderedDense OrderedRun.
Import ListNotations.
Open Scope Z_scope.

(** Admissible statements. *)
Definition ycall_ok {E K} (nk : nat) (c : ycall E K) : Prop :=
  match c with
  | YOn _ c => ocall_ok nk c
  | YCopyNew i j | YMoveNew i j | YSwap i j => i <> j
  | _ => True
  end.
Definition yhistory_ok {E K} (nk : nat) (h : list (oenv * ycall E K)) : Prop :=
  Forall (fun vc => denv_ok (ov_d (fst vc)) /\ ycall_ok nk (snd vc)) h.

Section World.
Context {E K : Type}.
Variable sz : Z.
Variable nk : nat.
Variable key_of : nat -> E -> K.
Variable hash : K -> Z.
Variable keq : K -> K -> bool.
Variable rep : E -> E -> E.
Variable clone : E -> E.
(** propagate_on_container_copy_assignment and propagate_on_container_move_assignment of
    the allocator (false and true for std::allocator). *)
Variables pocca pocma : bool.

(** The memory and the containers. *)
Definition yworld : Type := heap * (nat -> odense E).

(** The destructor -- dense_table.hpp 304-309, then a new object at the same address whose
    link is in the initial state -- table_common.hpp 120, 179-180. *)
Definition o_destroy (h : heap) (s : odense E) : heap :=
  upd (unplace h (o_base s) sz (d_cap (o_d s))) (o_hdr s) (Some (0, 0)).

(** One statement.  All allocators compare equal, as std::allocator does.  Assignment to
    itself is skipped (dense_table.hpp 252, 278). *)
Definition yexec (v : oenv) (hw : yworld) (c : ycall E K) : res (yworld * yret E) :=
  let '(h, w) := hw in
  match c with
  | YOn i c =>
    let* x := oexec sz nk key_of hash keq rep v (h, w i) c in
    let '(h1, s, r) := x in Ok (h1, setn w i s, YRet r)
  | YNew i => Ok (o_destroy h (w i), setn w i (o_new (o_hdr (w i))), YDone)
  | YCopyNew i j =>
    let* x := o_copy_ctor sz nk clone v (o_destroy h (w i)) (o_hdr (w i)) (w j) in
    let '(h1, s, b) := x in
    if b : bool then Ok (h1, setn w i s, YDone)
    else Ok (upd h1 (o_hdr (w i)) (Some (0, 0)), setn w i (o_new (o_hdr (w i))), YThrow)
  | YCopy i j =>
    if Nat.eqb i j then Ok (h, w, YDone)
    else
      let* x := o_copy_assign sz nk clone pocca v h (w i) (w j) in
      let '(h1, s, b) := x in Ok (h1, setn w i s, if b : bool then YDone else YThrow)
  | YMoveNew i j =>
    let* x := o_move_ctor sz nk true v (o_destroy h (w i)) (o_hdr (w i)) (w j) in
    let '(h1, s, o, b) := x in Ok (h1, setn (setn w i s) j o, if b : bool then YDone else YThrow)
  | YMove i j =>
    if Nat.eqb i j then Ok (h, w, YDone)
    else
      let* x := o_move_assign sz nk pocma true v h (w i) (w j) in
      let '(h1, s, o, b) := x in Ok (h1, setn (setn w i s) j o, if b : bool then YDone else YThrow)
  | YSwap i j =>
    let* x := o_swap true h (w i) (w j) in
    let '(h1, s, o) := x in Ok (h1, setn (setn w i s) j o, YDone)
  end.

Fixpoint yrun (hw : yworld) (h : list (oenv * ycall E K)) : res (yworld * list (yret E)) :=
  match h with
  | [] => Ok (hw, [])
  | (v, c) :: r =>
    let* x := yexec v hw c in
    let '(w1, o) := x in
    let* y := yrun w1 r in
    let '(w2, os) := y in Ok (w2, o :: os)
  end.

(** Statements that are not covered: those of [oblocked]; a placement over links in use;
    assigning an empty container to one that has elements, unless the allocator propagates
    (C38); a copy assignment left by an exception; moving into a container that has elements,
    unless the allocator propagates (C39); swap with an empty container (C18). *)
Definition yblocked (v : oenv) (hw : yworld) (c : ycall E K) : Prop :=
  yexec v hw c = Err BadPlacement \/
  match c with
  | YOn i c => oblocked sz nk key_of hash keq rep v (fst hw, snd hw i) c
  | YCopy i j => (pocca = false /\ d_size (o_d (snd hw j)) = 0 /\ d_size (o_d (snd hw i)) <> 0) \/ exists w', yexec v hw c = Ok (w', YThrow)
  | YMove i j => pocma = false /\ d_size (o_d (snd hw i)) <> 0
  | YSwap i j => d_size (o_d (snd hw i)) = 0 \/ d_size (o_d (snd hw j)) = 0
  | _ => False
  end.

(** Default constructed containers with headers at [addr 0], [addr 1], .. *)
Definition yinit (addr : nat -> Z) (h0 : heap) : yworld := (h0, fun i => o_new (addr i)).
Definition yinit_ok (addr : nat -> Z) (h0 : heap) : Prop :=
  (forall i j, addr i = addr j -> i = j) /\ forall i, h0 (addr i) = Some (0, 0).

(** The containers iterate, forwards and backwards, over the given lists. *)
Definition ylists (hw : yworld) (l : nat -> list E) : Prop :=
  forall i, o_iterate sz (fst hw) (snd hw i) = Ok (l i) /\ o_backwards sz (fst hw) (snd hw i) = Ok (rev (l i)).

(** The program behaves as the lists say, up to the first statement that is not covered, if
    there is one. *)
Definition yrefines (hw : yworld) (l : nat -> list E) (h : list (oenv * ycall E K)) : Prop :=
  (exists hw' rs l', yrun hw h = Ok (hw', rs) /\ yspec_run nk key_of keq rep clone (map snd h) l l' rs /\ ylists hw' l' /\
     forall i, dkeys_distinct nk key_of keq (l' i)) \/
  (exists h1 v c h2 hw1 rs1 l1, h = h1 ++ (v, c) :: h2 /\ yrun hw h1 = Ok (hw1, rs1) /\
     yspec_run nk key_of keq rep clone (map snd h1) l l1 rs1 /\ ylists hw1 l1 /\ yblocked v hw1 c).

(** The states that occur in programs without such a statement. *)
Definition yoccurs (hw : yworld) : Prop :=
  exists addr h0 h rs, yinit_ok addr h0 /\ yhistory_ok nk h /\ yrun (yinit addr h0) h = Ok (hw, rs) /\
    forall h1 v c h2 hw1 rs1, h = h1 ++ (v, c) :: h2 -> yrun (yinit addr h0) h1 = Ok (hw1, rs1) -> ~ yblocked v hw1 c.
End World.
