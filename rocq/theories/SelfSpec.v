(** Specification of calls in which a container is its own argument: c.swap(c), c = c,
    c = std::move(c), c.merge(c), c.merge(std::move(c)).  None of them changes the contents.
    Nothing here refers to the model. *)
From Coq Require Import List.
Import ListNotations.

(** Calls; [C] are the other calls of the container. *)
Inductive lcall (C : Type) : Type :=
| LOn (c : C)
| LSwap                 (* c.swap(c), swap(c, c) *)
| LCopy                 (* c = c *)
| LMove                 (* c = std::move(c) *)
| LMerge                (* c.merge(c) *)
| LMergeMove.           (* c.merge(std::move(c)) *)
Arguments LOn {C}. Arguments LSwap {C}. Arguments LCopy {C}. Arguments LMove {C}. Arguments LMerge {C}. Arguments LMergeMove {C}.
(** Results; [R] are those of the other calls. *)
Inductive lret (R : Type) : Type := LRet (r : R) | LDone | LThrow.
Arguments LRet {R}. Arguments LDone {R}. Arguments LThrow {R}.

Section Spec.
Context {E C R : Type}.
(** The other calls; [same] tells which lists are the same contents: permutations for
    unordered containers, only the list itself for ordered ones. *)
Variable step : C -> list E -> list E -> R -> Prop.
Variable same : list E -> list E -> Prop.

Inductive lspec : lcall C -> list E -> list E -> lret R -> Prop :=
| ls_on : forall c l l' r, step c l l' r -> lspec (LOn c) l l' (LRet r)
| ls_swap : forall l, lspec LSwap l l LDone
| ls_copy : forall l, lspec LCopy l l LDone
| ls_move : forall l, lspec LMove l l LDone
| ls_merge : forall l l', same l l' -> lspec LMerge l l' LDone
| ls_merge_throw : forall l, lspec LMerge l l LThrow
| ls_merge_move : forall l l', same l l' -> lspec LMergeMove l l' LDone
| ls_merge_move_throw : forall l, lspec LMergeMove l l LThrow.

Inductive lspec_run : list (lcall C) -> list E -> list E -> list (lret R) -> Prop :=
| lr_nil : forall l, lspec_run [] l l []
| lr_cons : forall c cs l l1 l2 r rs, lspec c l l1 r -> lspec_run cs l1 l2 rs -> lspec_run (c :: cs) l l2 (r :: rs).
End Spec.
