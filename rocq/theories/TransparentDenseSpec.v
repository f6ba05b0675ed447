(** Specification of calls on dense containers whose key arguments have another type than
    the keys of the container.  Nothing here refers to the model. *)
From Coq Require Import ZArith List Bool.
From Verif Require Import DenseSpec.
Import ListNotations.
Open Scope Z_scope.

(** Calls: [T] is the other key type, [V] the type of mapped values.  try_emplace takes one
    argument per key. *)
Inductive ucall (E K T V : Type) : Type :=
| UOn (c : dcall E K)                 (* a call with the container's own key type *)
| UFind (j : nat) (t : T)
| UContains (j : nat) (t : T)
| UErase (j : nat) (t : T)            (* erase<J>(t) *)
| UTry (ts : nat -> T) (v : V)        (* try_emplace(ts, v); operator[](t) *)
| UAssign (t : T) (v : V).            (* insert_or_assign(t, v), one key only *)
Arguments UOn {E K T V}. Arguments UFind {E K T V}. Arguments UContains {E K T V}. Arguments UErase {E K T V}.
Arguments UTry {E K T V}. Arguments UAssign {E K T V}.

(** The assumptions of [transparent_laws] for elements with [nk] keys. *)
Record utransparent_laws {E K T V : Type} (nk : nat) (key_of : nat -> E -> K) (hash : K -> Z) (keq : K -> K -> bool)
  (hasht : T -> Z) (eqt : K -> T -> bool) (make : (nat -> T) -> V -> E) : Prop := {
  ul_same : forall a b t, eqt a t = true -> eqt b t = true -> keq a b = true;
  ul_resp : forall a b t, keq a b = true -> eqt b t = true -> eqt a t = true;
  ul_hash : forall a t, eqt a t = true -> hash a = hasht t;
  ul_range : forall t, 0 <= hasht t < 2 ^ 64;
  ul_make : forall j ts v, (j < nk)%nat -> eqt (key_of j (make ts v)) (ts j) = true
}.

Section Spec.
Context {E K T V : Type}.
Variable nk : nat.
Variable key_of : nat -> E -> K.
Variable keq : K -> K -> bool.
Variable rep : E -> E -> E.
Variable eqt : K -> T -> bool.
Variable make : (nat -> T) -> V -> E.

Definition uabsent (j : nat) (t : T) (l : list E) : Prop := forall x, In x l -> eqt (key_of j x) t = false.
Definition ulocated (j : nat) (t : T) (l a : list E) (x : E) (b : list E) : Prop := l = a ++ x :: b /\ eqt (key_of j x) t = true.
(** None of the keys is present; [x] has the first key that is present. *)
Definition unew (ts : nat -> T) (l : list E) : Prop := forall j, (j < nk)%nat -> uabsent j (ts j) l.
Definition uclash (ts : nat -> T) (l : list E) (x : E) : Prop :=
  exists j, (j < nk)%nat /\ In x l /\ eqt (key_of j x) (ts j) = true /\ forall i, (i < j)%nat -> uabsent i (ts i) l.

Inductive uspec : ucall E K T V -> list E -> list E -> dret E -> Prop :=
| us_on : forall c l l' r, dspec nk key_of keq rep c l l' r -> uspec (UOn c) l l' r
| us_find_absent : forall j t l, uabsent j t l -> uspec (UFind j t) l l (QFound None)
| us_find : forall j t l a x b, ulocated j t l a x b -> uspec (UFind j t) l l (QFound (Some x))
| us_contains_absent : forall j t l, uabsent j t l -> uspec (UContains j t) l l (QBool false)
| us_contains : forall j t l a x b, ulocated j t l a x b -> uspec (UContains j t) l l (QBool true)
| us_erase_absent : forall j t l, uabsent j t l -> uspec (UErase j t) l l (QNext None)
| us_erase : forall j t l a x b, ulocated j t l a x b ->
    uspec (UErase j t) l (swap_remove a b) (QNext (nth_error (swap_remove a b) (length a)))
| us_try_new : forall ts v l, unew ts l -> uspec (UTry ts v) l (l ++ [make ts v]) (QInserted (make ts v) true)
| us_try_old : forall ts v l x, uclash ts l x -> uspec (UTry ts v) l l (QInserted x false)
| us_try_throw : forall ts v l, uspec (UTry ts v) l l QThrow
| us_assign_new : forall t v l, uabsent 0 t l -> uspec (UAssign t v) l (l ++ [make (fun _ => t) v]) (QInserted (make (fun _ => t) v) true)
| us_assign_old : forall t v l a x b, ulocated 0 t l a x b ->
    uspec (UAssign t v) l (a ++ rep x (make (fun _ => t) v) :: b) (QInserted (rep x (make (fun _ => t) v)) false)
| us_assign_throw : forall t v l, uspec (UAssign t v) l l QThrow.

Inductive uspec_run : list (ucall E K T V) -> list E -> list E -> list (dret E) -> Prop :=
| ur_nil : forall l, uspec_run [] l l []
| ur_cons : forall c cs l l1 l2 r rs, uspec c l l1 r -> uspec_run cs l1 l2 rs -> uspec_run (c :: cs) l l2 (r :: rs).
End Spec.
