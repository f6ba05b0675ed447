(** What calls on ordered dense containers should do when user functions throw. *)
From Coq Require Import ZArith List Bool.
From Verif Require Import DenseSpec OrderedSpec ThrowSpec.
Import ListNotations.

Section Spec.
Context {E K : Type}.
Variable nk : nat.
Variable key_of : nat -> E -> K.
Variable keq : K -> K -> bool.
Variable rep : E -> E -> E.

(** The calls that hash a key, and those that may construct an element. *)
Definition osearches (c : ocall E K) : bool :=
  match c with OInsert _ | OEmplace _ | OAssign _ | OErase _ _ | OFind _ _ | OContains _ _ => true | _ => false end.
Definition oinserts (c : ocall E K) : bool := match c with OInsert _ | OEmplace _ | OAssign _ => true | _ => false end.

(** A call whose search throws has no effect on the elements and their order.  A call whose
    constructor would throw has its usual effect if nothing has to be constructed, and none
    otherwise. *)
Inductive otspec : fault -> ocall E K -> list E -> list E -> dret E -> Prop :=
| ots_call : forall f c l l' r, f = SearchThrows -> osearches c = false -> ospec nk key_of keq rep c l l' r -> otspec f c l l' r
| ots_fine : forall f c l l' r, f <> SearchThrows -> (f = CtorThrows -> forall e, r <> QInserted e true) -> ospec nk key_of keq rep c l l' r -> otspec f c l l' r
| ots_search : forall c l, osearches c = true -> otspec SearchThrows c l l QThrow
| ots_ctor : forall c l, oinserts c = true -> otspec CtorThrows c l l QThrow.

Inductive otspec_run : list (fault * ocall E K) -> list E -> list E -> list (dret E) -> Prop :=
| otr_nil : forall l, otspec_run [] l l []
| otr_cons : forall f c cs l l1 l2 r rs, otspec f c l l1 r -> otspec_run cs l1 l2 rs -> otspec_run ((f, c) :: cs) l l2 (r :: rs).
End Spec.
