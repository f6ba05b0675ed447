(** Specification of programs using several dense containers: each container is a list of
    elements.  Nothing here refers to the model. *)
From Coq Require Import ZArith List Bool.
From Verif Require Import DenseSpec.
Import ListNotations.
Open Scope Z_scope.

(** Statements of a program over containers c0, c1, .. *)
Inductive xcall (E K : Type) : Type :=
| XOn (i : nat) (c : dcall E K)                        (* a call on ci *)
| XEraseIf (i : nat) (pred : E -> bool)                (* erase_if(ci, pred) *)
| XInsertRange (i : nat) (ra : bool) (l : list E)      (* ci.insert(l.begin(), l.end()) *)
| XNew (i : nat) (n : Z)                               (* ci is constructed anew with n buckets *)
| XRange (i : nat) (ra : bool) (l : list E) (n : Z)    (* ci is constructed anew from a range *)
| XCopyNew (i j : nat)                                 (* ci is constructed anew as a copy of cj *)
| XCopy (i j : nat)                                    (* ci = cj *)
| XMoveNew (i j : nat)                                 (* ci is constructed anew from move(cj) *)
| XMove (i j : nat)                                    (* ci = move(cj) *)
| XSwap (i j : nat).                                   (* ci.swap(cj) *)

Inductive xret (E : Type) : Type :=
| XRet (r : dret E)
| XCount (n : Z)
| XDone
| XThrow.

Arguments XOn {E K}. Arguments XEraseIf {E K}. Arguments XInsertRange {E K}. Arguments XNew {E K}. Arguments XRange {E K}.
Arguments XCopyNew {E K}. Arguments XCopy {E K}. Arguments XMoveNew {E K}. Arguments XMove {E K}. Arguments XSwap {E K}.
Arguments XRet {E}. Arguments XCount {E}. Arguments XDone {E}. Arguments XThrow {E}.

Section Spec.
Context {E K : Type}.
Variable nk : nat.
Variable key_of : nat -> E -> K.
Variable keq : K -> K -> bool.
Variable rep : E -> E -> E.
Variable clone : E -> E.          (* copy construction of an element *)

(** Insertion of a list in order: an element is appended if all its keys are new. *)
Inductive dappended : list E -> list E -> list E -> Prop :=
| da_nil : forall l, dappended l [] l
| da_new : forall l e r l', dnew nk key_of keq e l -> dappended (l ++ [e]) r l' -> dappended l (e :: r) l'
| da_old : forall l e r l', ~ dnew nk key_of keq e l -> dappended l r l' -> dappended l (e :: r) l'.

(** The contents of all containers. *)
Definition xconts : Type := nat -> list E.
(** All containers except those listed are as before. *)
Definition xothers (is : list nat) (w w' : xconts) : Prop := forall j, ~ In j is -> w' j = w j.

Inductive xspec : xcall E K -> xconts -> xconts -> xret E -> Prop :=
| xs_on : forall i c w w' r, dspec nk key_of keq rep c (w i) (w' i) r -> xothers [i] w w' -> xspec (XOn i c) w w' (XRet r)
| xs_erase_if : forall i pred w w', w' i = filter (fun x => negb (pred x)) (w i) -> xothers [i] w w' ->
    xspec (XEraseIf i pred) w w' (XCount (Z.of_nat (length (filter pred (w i)))))
| xs_insert_range : forall i ra l w w', dappended (w i) l (w' i) -> xothers [i] w w' -> xspec (XInsertRange i ra l) w w' XDone
| xs_insert_range_throw : forall i ra l1 l2 w w', dappended (w i) l1 (w' i) -> xothers [i] w w' ->
    xspec (XInsertRange i ra (l1 ++ l2)) w w' XThrow
| xs_new : forall i n w w', w' i = [] -> xothers [i] w w' -> xspec (XNew i n) w w' XDone
| xs_new_throw : forall i n w w', xothers [] w w' -> xspec (XNew i n) w w' XThrow
| xs_range : forall i ra l n w w', dappended [] l (w' i) -> xothers [i] w w' -> xspec (XRange i ra l n) w w' XDone
| xs_range_throw : forall i ra l n w w', xothers [] w w' -> xspec (XRange i ra l n) w w' XThrow
| xs_copy_new : forall i j w w', w' i = map clone (w j) -> xothers [i] w w' -> xspec (XCopyNew i j) w w' XDone
| xs_copy_new_throw : forall i j w w', xothers [] w w' -> xspec (XCopyNew i j) w w' XThrow
| xs_copy_self : forall i w w', xothers [] w w' -> xspec (XCopy i i) w w' XDone
| xs_copy : forall i j w w', i <> j -> w' i = map clone (w j) -> xothers [i] w w' -> xspec (XCopy i j) w w' XDone
| xs_move_new : forall i j w w', i <> j -> w' i = w j -> w' j = [] -> xothers [i; j] w w' -> xspec (XMoveNew i j) w w' XDone
| xs_move_self : forall i w w', xothers [] w w' -> xspec (XMove i i) w w' XDone
| xs_move : forall i j w w', i <> j -> w' i = w j -> w' j = [] -> xothers [i; j] w w' -> xspec (XMove i j) w w' XDone
| xs_swap : forall i j w w', w' i = w j -> w' j = w i -> xothers [i; j] w w' -> xspec (XSwap i j) w w' XDone.

Inductive xspec_run : list (xcall E K) -> xconts -> xconts -> list (xret E) -> Prop :=
| xr_nil : forall w, xspec_run [] w w []
| xr_cons : forall c cs w w1 w2 r rs, xspec c w w1 r -> xspec_run cs w1 w2 rs -> xspec_run (c :: cs) w w2 (r :: rs).

Definition xstart : xconts := fun _ => [].
End Spec.
