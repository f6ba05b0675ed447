(** Running programs that use several unordered dense containers on the model. *)
From Coq Require Import ZArith List Bool Arith.
From Verif Require Import Base DenseSpec DenseWorldSpec World DenseModel DenseRun.
Import ListNotations.
Open Scope Z_scope.

(** Admissible statements: as for single calls; lists and bucket counts of realistic size;
    move construction has two containers. *)
Definition xcall_ok {E K} (nk : nat) (c : xcall E K) : Prop :=
  match c with
  | XOn _ c => dcall_ok nk c
  | XInsertRange _ _ l => Z.of_nat (length l) < 2 ^ 58
  | XNew _ n => 0 <= n < 2 ^ 64
  | XRange _ _ l n => Z.of_nat (length l) < 2 ^ 59 /\ 0 <= n < 2 ^ 64
  | XMoveNew i j => i <> j
  | _ => True
  end.
Definition xhistory_ok {E K} (nk : nat) (h : list (denv * xcall E K)) : Prop :=
  Forall (fun vc => denv_ok (fst vc) /\ xcall_ok nk (snd vc)) h.

Section World.
Context {E K : Type}.
Variable nk : nat.
Variable key_of : nat -> E -> K.
Variable hash : K -> Z.
Variable keq : K -> K -> bool.
Variable rep : E -> E -> E.
Variable clone : E -> E.
(** propagate_on_container_copy_assignment and propagate_on_container_move_assignment of
    the allocator (false and true for std::allocator). *)
Variables pocca pocma : bool.

Definition xworld : Type := nat -> dense E.
Definition xinit : xworld := fun _ => empty_dense.

(** One statement.  All allocators compare equal, as std::allocator does.  erase_if:
    dense_set.hpp 339-353; insertion of a range, construction, copies, moves, swap:
    dense_table.hpp 217-302, 388-394, 460-478 (assignment to itself is skipped, lines 252
    and 278).  Constructing ci anew stands for a new container object. *)
Definition xexec (v : denv) (w : xworld) (c : xcall E K) : res (xworld * xret E) :=
  match c with
  | XOn i c =>
    let* x := dexec nk key_of hash keq rep v (w i) c in
    let '(s, r) := x in Ok (setn w i s, XRet r)
  | XEraseIf i pred =>
    let* x := erase_if nk pred (w i) in
    let '(s, n) := x in Ok (setn w i s, XCount n)
  | XInsertRange i ra l =>
    let* x := insert_range nk key_of hash keq ra (dv_dlim v) (dv_slim v) (w i) l in
    let '(s, b) := x in Ok (setn w i s, if b : bool then XDone else XThrow)
  | XNew i n =>
    match ctor_n (dv_dlim v) (dv_slim v) n with
    | Some s => Ok (setn w i s, XDone)
    | None => Ok (w, XThrow)
    end
  | XRange i ra l n =>
    let* x := ctor_range nk key_of hash keq ra (dv_dlim v) (dv_slim v) l n in
    match x with
    | Some (s, true) => Ok (setn w i s, XDone)
    | _ => Ok (w, XThrow)
    end
  | XCopyNew i j =>
    let* x := copy_ctor nk clone (dv_dlim v) (dv_slim v) (w j) in
    let '(s, b) := x in if b : bool then Ok (setn w i s, XDone) else Ok (w, XThrow)
  | XCopy i j =>
    if Nat.eqb i j then Ok (w, XDone)
    else
      let* x := copy_assign nk clone pocca (dv_dlim v) (dv_slim v) (w i) (w j) in
      let '(s, b) := x in Ok (setn w i s, if b : bool then XDone else XThrow)
  | XMoveNew i j =>
    let* x := move_ctor nk true (dv_dlim v) (dv_slim v) (w j) in
    let '(s, o, b) := x in Ok (setn (setn w i s) j o, if b : bool then XDone else XThrow)
  | XMove i j =>
    if Nat.eqb i j then Ok (w, XDone)
    else
      let* x := move_assign nk pocma true (dv_dlim v) (dv_slim v) (w i) (w j) in
      let '(s, o, b) := x in Ok (setn (setn w i s) j o, if b : bool then XDone else XThrow)
  | XSwap i j =>
    let* x := swap true (w i) (w j) in
    let '(s, o) := x in Ok (setn (setn w j o) i s, XDone)
  end.

Fixpoint xrun (w : xworld) (h : list (denv * xcall E K)) : res (xworld * list (xret E)) :=
  match h with
  | [] => Ok (w, [])
  | (v, c) :: r =>
    let* x := xexec v w c in
    let '(w1, o) := x in
    let* y := xrun w1 r in
    let '(w2, os) := y in Ok (w2, o :: os)
  end.

(** Statements that are not covered: those of [blocked]; erase_if that matches an element
    (C33); a range insertion left by an exception with a dangling bucket array; assigning
    an empty container to one that has elements, unless the allocator propagates (C38); an
    assignment left by an exception; moving into a container that has elements, unless the
    allocator propagates (C39). *)
Definition xblocked (v : denv) (w : xworld) (c : xcall E K) : Prop :=
  match c with
  | XOn i c => blocked nk key_of hash keq rep v (w i) c
  | XEraseIf i pred => exists x, In x (delems (w i)) /\ pred x = true
  | XInsertRange i ra l => exists w', xexec v w c = Ok (w', XThrow) /\ d_sok (w' i) = false
  | XCopy i j => (pocca = false /\ delems (w j) = [] /\ delems (w i) <> []) \/ exists w', xexec v w c = Ok (w', XThrow)
  | XMove i j => pocma = false /\ delems (w i) <> []
  | _ => False
  end.

(** Likewise for programs. *)
Definition xrefines (h : list (denv * xcall E K)) : Prop :=
  (exists w rs, xrun xinit h = Ok (w, rs) /\ xspec_run nk key_of keq rep clone (map snd h) xstart (fun i => delems (w i)) rs) \/
  (exists h1 v c h2 w1 rs1, h = h1 ++ (v, c) :: h2 /\ xrun xinit h1 = Ok (w1, rs1) /\
     xspec_run nk key_of keq rep clone (map snd h1) xstart (fun i => delems (w1 i)) rs1 /\ xblocked v w1 c).
(** The containers that occur in programs without such a statement. *)
Definition doccurs (s : dense E) : Prop :=
  exists h w rs i, xhistory_ok nk h /\ xrun xinit h = Ok (w, rs) /\ s = w i /\
    forall h1 v c h2 w1 rs1, h = h1 ++ (v, c) :: h2 -> xrun xinit h1 = Ok (w1, rs1) -> ~ xblocked v w1 c.
End World.
