(** Specification of programs using several ordered dense containers: each container is a
    list of elements in iteration order.  Nothing here refers to the model. *)
From Coq Require Import ZArith List Bool.
From Verif Require Import DenseSpec OrderedSpec.
Import ListNotations.
Open Scope Z_scope.

(** Statements of a program over containers c0, c1, ..  Where a container is constructed
    anew, the old object is destroyed first and the new one takes its place; if the
    constructor throws, an empty container is constructed instead. *)
Inductive ycall (E K : Type) : Type :=
| YOn (i : nat) (c : ocall E K)        (* a call on ci *)
| YNew (i : nat)                       (* ci is constructed anew, empty *)
| YCopyNew (i j : nat)                 (* ci is constructed anew as a copy of cj *)
| YCopy (i j : nat)                    (* ci = cj *)
| YMoveNew (i j : nat)                 (* ci is constructed anew from move(cj) *)
| YMove (i j : nat)                    (* ci = move(cj) *)
| YSwap (i j : nat).                   (* ci.swap(cj) *)
Inductive yret (E : Type) : Type :=
| YRet (r : dret E)
| YDone
| YThrow.
Arguments YOn {E K}. Arguments YNew {E K}. Arguments YCopyNew {E K}. Arguments YCopy {E K}.
Arguments YMoveNew {E K}. Arguments YMove {E K}. Arguments YSwap {E K}.
Arguments YRet {E}. Arguments YDone {E}. Arguments YThrow {E}.

Section Spec.
Context {E K : Type}.
Variable nk : nat.
Variable key_of : nat -> E -> K.
Variable keq : K -> K -> bool.
Variable rep : E -> E -> E.
Variable clone : E -> E.          (* copy construction of an element *)

(** The contents of all containers. *)
Definition yconts : Type := nat -> list E.
Definition yothers (is : list nat) (w w' : yconts) : Prop := forall j, ~ In j is -> w' j = w j.

Inductive yspec : ycall E K -> yconts -> yconts -> yret E -> Prop :=
| ys_on : forall i c w w' r, ospec nk key_of keq rep c (w i) (w' i) r -> yothers [i] w w' -> yspec (YOn i c) w w' (YRet r)
| ys_new : forall i w w', w' i = [] -> yothers [i] w w' -> yspec (YNew i) w w' YDone
| ys_copy_new : forall i j w w', w' i = map clone (w j) -> yothers [i] w w' -> yspec (YCopyNew i j) w w' YDone
| ys_copy_new_throw : forall i j w w', w' i = [] -> yothers [i] w w' -> yspec (YCopyNew i j) w w' YThrow
| ys_copy_self : forall i w w', yothers [] w w' -> yspec (YCopy i i) w w' YDone
| ys_copy : forall i j w w', i <> j -> w' i = map clone (w j) -> yothers [i] w w' -> yspec (YCopy i j) w w' YDone
| ys_move_new : forall i j w w', w' i = w j -> w' j = [] -> yothers [i; j] w w' -> yspec (YMoveNew i j) w w' YDone
| ys_move_self : forall i w w', yothers [] w w' -> yspec (YMove i i) w w' YDone
| ys_move : forall i j w w', i <> j -> w' i = w j -> w' j = [] -> yothers [i; j] w w' -> yspec (YMove i j) w w' YDone
| ys_swap : forall i j w w', w' i = w j -> w' j = w i -> yothers [i; j] w w' -> yspec (YSwap i j) w w' YDone.

Inductive yspec_run : list (ycall E K) -> yconts -> yconts -> list (yret E) -> Prop :=
| yr_nil : forall w w', (forall i, w' i = w i) -> yspec_run [] w w' []
| yr_cons : forall c cs w w1 w2 r rs, yspec c w w1 r -> yspec_run cs w1 w2 rs -> yspec_run (c :: cs) w w2 (r :: rs).

Definition ystart : yconts := fun _ => [].
End Spec.
