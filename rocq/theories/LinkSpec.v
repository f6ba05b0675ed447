(** Specification of the links of ordered containers: a list of addresses whose first element
    is the header in the container.  Nothing here refers to the model of the library. *)
From Coq Require Import ZArith List.
Import ListNotations.
Open Scope Z_scope.

Inductive lcall : Type :=
| LAfter (a p : Z)      (* link the free link at [a] after the one at [p] *)
| LUnlink (a : Z)       (* take the link at [a] out *)
| LMove (to from : Z).  (* the linked object at [from] moves to the free address [to] *)

Inductive lspec : lcall -> list Z -> list Z -> Prop :=
| ls_after : forall a p l1 l2, ~ In a (l1 ++ p :: l2) -> lspec (LAfter a p) (l1 ++ p :: l2) (l1 ++ p :: a :: l2)
| ls_unlink : forall a x l1 l2, lspec (LUnlink a) (x :: l1 ++ a :: l2) (x :: l1 ++ l2)
| ls_move : forall to from l1 l2, ~ In to (l1 ++ from :: l2) -> lspec (LMove to from) (l1 ++ from :: l2) (l1 ++ to :: l2).

Inductive lspec_run : list lcall -> list Z -> list Z -> Prop :=
| lr_nil : forall l, lspec_run [] l l
| lr_cons : forall c cs l l1 l2, lspec c l l1 -> lspec_run cs l1 l2 -> lspec_run (c :: cs) l l2.

(** The addresses a call works on. *)
Definition lcall_addrs (c : lcall) : list Z :=
  match c with LAfter a p => [a; p] | LUnlink a => [a] | LMove to from => [to; from] end.
