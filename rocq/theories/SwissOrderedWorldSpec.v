(** Specification of programs using several ordered sparse or stable containers and node
    handles: each container is a list of elements in iteration order.  Nothing here refers to
    the model. *)
From Coq Require Import ZArith List Bool Permutation.
From Verif Require Import MapSpec WorldSpec SwissOrderedSpec.
Import ListNotations.
Open Scope Z_scope.

(** Statements of a program over containers c0, c1, .. and node handles h0, h1, ..  Where a
    container is constructed anew, the old object is destroyed first and the new one takes
    its place; if the constructor throws, an empty container is constructed instead. *)
Inductive xcall (E K : Type) : Type :=
| XOn (i : nat) (c : zcall E K)        (* a call on ci *)
| XNew (i : nat)                       (* ci is constructed anew, empty *)
| XCopyNew (i j : nat)                 (* ci is constructed anew as a copy of cj *)
| XCopy (i j : nat)                    (* ci = cj *)
| XMoveNew (i j : nat)                 (* ci is constructed anew from move(cj) *)
| XMove (i j : nat)                    (* ci = move(cj) *)
| XSwap (i j : nat)                    (* ci.swap(cj) *)
| XExtract (i : nat) (k : K) (j : nat) (* hj = ci.extract(k) *)
| XInsertNode (i j : nat)              (* if (!hj.empty()) ci.insert(move(hj)) *)
| XAssignNode (i j : nat)              (* if (!hj.empty()) ci.insert_or_assign(move(hj)) *)
| XMerge (i j : nat).                  (* ci.merge(cj) *)
Inductive xret (E : Type) : Type :=
| XRet (r : ret E)
| XNode (o : option E)
| XNodeIn (e : E) (inserted : bool)
| XDone
| XThrow.
Arguments XOn {E K}. Arguments XNew {E K}. Arguments XCopyNew {E K}. Arguments XCopy {E K}.
Arguments XMoveNew {E K}. Arguments XMove {E K}. Arguments XSwap {E K}. Arguments XExtract {E K}.
Arguments XInsertNode {E K}. Arguments XAssignNode {E K}. Arguments XMerge {E K}.
Arguments XRet {E}. Arguments XNode {E}. Arguments XNodeIn {E}. Arguments XDone {E}. Arguments XThrow {E}.

Section Spec.
Context {E K : Type}.
Variable key_of : E -> K.
Variable keq : K -> K -> bool.
Variable rep : E -> E -> E.
Variable clone : E -> E.          (* copy construction of an element *)
Notation absent := (absent key_of keq). Notation located := (located key_of keq).

(** The contents of all containers and handles. *)
Record xconts : Type := mkx { xc : nat -> list E; xh : nat -> option E }.
Definition xothers (is hs : list nat) (w w' : xconts) : Prop :=
  (forall j, ~ In j is -> xc w' j = xc w j) /\ (forall j, ~ In j hs -> xh w' j = xh w j).

Inductive xspec : xcall E K -> xconts -> xconts -> xret E -> Prop :=
| xs_on : forall i c w w' r, zspec key_of keq rep c (xc w i) (xc w' i) r -> xothers [i] [] w w' -> xspec (XOn i c) w w' (XRet r)
| xs_new : forall i w w', xc w' i = [] -> xothers [i] [] w w' -> xspec (XNew i) w w' XDone
| xs_copy_new : forall i j w w', xc w' i = map clone (xc w j) -> xothers [i] [] w w' -> xspec (XCopyNew i j) w w' XDone
| xs_copy_new_throw : forall i j w w', xc w' i = [] -> xothers [i] [] w w' -> xspec (XCopyNew i j) w w' XThrow
| xs_copy_self : forall i w w', xothers [] [] w w' -> xspec (XCopy i i) w w' XDone
| xs_copy : forall i j w w', i <> j -> xc w' i = map clone (xc w j) -> xothers [i] [] w w' -> xspec (XCopy i j) w w' XDone
| xs_move_new : forall i j w w', xc w' i = xc w j -> xc w' j = [] -> xothers [i; j] [] w w' -> xspec (XMoveNew i j) w w' XDone
| xs_move_self : forall i w w', xothers [] [] w w' -> xspec (XMove i i) w w' XDone
| xs_move : forall i j w w', i <> j -> xc w' i = xc w j -> xc w' j = [] -> xothers [i; j] [] w w' -> xspec (XMove i j) w w' XDone
| xs_swap : forall i j w w', xc w' i = xc w j -> xc w' j = xc w i -> xothers [i; j] [] w w' -> xspec (XSwap i j) w w' XDone
| xs_extract_absent : forall i k j w w', absent k (xc w i) -> xh w' j = None -> xothers [] [j] w w' -> xspec (XExtract i k j) w w' (XNode None)
| xs_extract : forall i k j w w' a x b, located k (xc w i) a x b -> xc w' i = a ++ b -> xh w' j = Some x ->
    xothers [i] [j] w w' -> xspec (XExtract i k j) w w' (XNode (Some x))
| xs_node_empty : forall i j w w', xh w j = None -> xothers [] [] w w' -> xspec (XInsertNode i j) w w' XDone
| xs_node_new : forall i j w w' e, xh w j = Some e -> absent (key_of e) (xc w i) -> xc w' i = xc w i ++ [e] -> xh w' j = None ->
    xothers [i] [j] w w' -> xspec (XInsertNode i j) w w' (XNodeIn e true)
| xs_node_old : forall i j w w' e a x b, xh w j = Some e -> located (key_of e) (xc w i) a x b ->
    xothers [] [] w w' -> xspec (XInsertNode i j) w w' (XNodeIn x false)
| xs_node_throw : forall i j w w' e, xh w j = Some e -> absent (key_of e) (xc w i) -> xothers [] [] w w' -> xspec (XInsertNode i j) w w' XThrow
| xs_assign_node_empty : forall i j w w', xh w j = None -> xothers [] [] w w' -> xspec (XAssignNode i j) w w' XDone
| xs_assign_node_new : forall i j w w' e, xh w j = Some e -> absent (key_of e) (xc w i) -> xc w' i = xc w i ++ [e] -> xh w' j = None ->
    xothers [i] [j] w w' -> xspec (XAssignNode i j) w w' (XNodeIn e true)
| xs_assign_node_old : forall i j w w' e a x b, xh w j = Some e -> located (key_of e) (xc w i) a x b -> xc w' i = a ++ e :: b -> xh w' j = None ->
    xothers [i] [j] w w' -> xspec (XAssignNode i j) w w' (XNodeIn e false)
| xs_assign_node_throw : forall i j w w' e, xh w j = Some e -> absent (key_of e) (xc w i) -> xothers [] [] w w' -> xspec (XAssignNode i j) w w' XThrow
| xs_merge : forall i j w w' m, Permutation m (filter (fun x => negb (present key_of keq (xc w i) x)) (xc w j)) -> xc w' i = xc w i ++ m ->
    xc w' j = filter (present key_of keq (xc w i)) (xc w j) -> xothers [i; j] [] w w' -> xspec (XMerge i j) w w' XDone
| xs_merge_throw : forall i j w w', xothers [] [] w w' -> xspec (XMerge i j) w w' XThrow.

Inductive xspec_run : list (xcall E K) -> xconts -> xconts -> list (xret E) -> Prop :=
| xr_nil : forall w w', xothers [] [] w w' -> xspec_run [] w w' []
| xr_cons : forall c cs w w1 w2 r rs, xspec c w w1 r -> xspec_run cs w1 w2 rs -> xspec_run (c :: cs) w w2 (r :: rs).

Definition xstart : xconts := mkx (fun _ => []) (fun _ => None).
End Spec.
