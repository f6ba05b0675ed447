(** Specification of programs using several containers with unique keys that are also
    copied: a copy holds the copies of the elements in the same order.  Nothing here refers
    to the model. *)
From Coq Require Import ZArith List Bool Permutation.
From Verif Require Import MapSpec WorldSpec.
Import ListNotations.
Open Scope Z_scope.

Inductive pcall (E K : Type) : Type :=
| PDo (c : wcall E K)               (* a statement without copies *)
| PCopyNew (i j : nat)              (* ci is destroyed and constructed again as container(cj); if that throws, as container() *)
| PCopy (i j : nat).                (* ci = cj *)
Arguments PDo {E K}. Arguments PCopyNew {E K}. Arguments PCopy {E K}.

Section Spec.
Context {E K : Type}.
Variable key_of : E -> K.
Variable keq : K -> K -> bool.
Variable rep : E -> E -> E.
Variable clone : E -> E.

Local Notation wstate := (@wstate E).

Inductive pspec : pcall E K -> wstate -> wstate -> wret E -> Prop :=
| ps_do : forall c w w' r, wspec key_of keq rep c w w' r -> pspec (PDo c) w w' r
| ps_new : forall i j w w', conts w' i = map clone (conts w j) -> others [i] w w' -> other_hands [] w w' ->
    pspec (PCopyNew i j) w w' WDone
| ps_new_throw : forall i j w w', conts w' i = [] -> others [i] w w' -> other_hands [] w w' ->
    pspec (PCopyNew i j) w w' WThrow
| ps_copy_self : forall i w w', others [] w w' -> other_hands [] w w' -> pspec (PCopy i i) w w' WDone
| ps_copy : forall i j w w', i <> j -> conts w' i = map clone (conts w j) -> others [i] w w' -> other_hands [] w w' ->
    pspec (PCopy i j) w w' WDone
| ps_copy_throw : forall i j w w', i <> j -> conts w' i = [] -> others [i] w w' -> other_hands [] w w' ->
    pspec (PCopy i j) w w' WThrow.

Inductive pspec_run : list (pcall E K) -> wstate -> wstate -> list (wret E) -> Prop :=
| pr_nil : forall w, pspec_run [] w w []
| pr_cons : forall c cs w w1 w2 r rs, pspec c w w1 r -> pspec_run cs w1 w2 rs ->
    pspec_run (c :: cs) w w2 (r :: rs).
End Spec.
