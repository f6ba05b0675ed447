(** What calls on dense containers should do when user functions throw. *)
From Coq Require Import ZArith List Bool.
From Verif Require Import DenseSpec.
Import ListNotations.

(** What throws during a call: nothing; the hash function or key_equal; the constructor of
    the new element. *)
Inductive fault := Fine | SearchThrows | CtorThrows.

Section Spec.
Context {E K : Type}.
Variable nk : nat.
Variable key_of : nat -> E -> K.
Variable keq : K -> K -> bool.
Variable rep : E -> E -> E.

(** The calls that hash a key. *)
Definition searches (c : dcall E K) : bool :=
  match c with DInsert _ | DEmplace _ | DAssign _ | DErase _ _ | DFind _ _ | DContains _ _ => true | _ => false end.

(** A call whose search throws has no effect.  A call whose constructor would throw has the
    effect of the call if nothing has to be constructed, and none otherwise. *)
Inductive tspec : fault -> dcall E K -> list E -> list E -> dret E -> Prop :=
| ts_call : forall f c l l' r, f = SearchThrows -> searches c = false -> dspec nk key_of keq rep c l l' r -> tspec f c l l' r
| ts_fine : forall f c l l' r, f <> SearchThrows -> (f = CtorThrows -> forall e, r <> QInserted e true) -> dspec nk key_of keq rep c l l' r -> tspec f c l l' r
| ts_search : forall c l, searches c = true -> tspec SearchThrows c l l QThrow
| ts_ctor : forall c l, tspec CtorThrows c l l QThrow.

Inductive tspec_run : list (fault * dcall E K) -> list E -> list E -> list (dret E) -> Prop :=
| tr_nil : forall l, tspec_run [] l l []
| tr_cons : forall f c cs l l1 l2 r rs, tspec f c l l1 r -> tspec_run cs l1 l2 rs -> tspec_run ((f, c) :: cs) l l2 (r :: rs).
End Spec.
