(** Specification of a dense container: a list of elements in iteration order.  An element
    has [nk] keys (1 for dense_set and dense_map, more for the multikey containers).
    Nothing here refers to the model of the library. *)
From Coq Require Import ZArith List Bool.
Import ListNotations.
Open Scope Z_scope.

(** Public calls (dense_table.hpp 318-455).  Positions stand for iterators. *)
Inductive dcall (E K : Type) : Type :=
| DInsert (e : E)                 (* insert, try_emplace *)
| DEmplace (e : E)                (* emplace *)
| DAssign (e : E)                 (* insert_or_assign (one key only) *)
| DErase (j : nat) (k : K)        (* erase<J>(key) *)
| DEraseAt (i : Z)                (* erase(begin() + i) *)
| DEraseRange (a b : Z)           (* erase(begin() + a, begin() + b) *)
| DFind (j : nat) (k : K)
| DContains (j : nat) (k : K)
| DClear
| DReserve (n : Z)
| DRehash (n : Z)
| DMaxLoad (p q : Z)              (* max_load_factor(p / q) *)
| DSize
| DIterate.

(** Results: elements stand for iterators pointing to them, an absent element for end(). *)
Inductive dret (E : Type) : Type :=
| QInserted (e : E) (inserted : bool)
| QNext (o : option E)
| QFound (o : option E)
| QBool (b : bool)
| QUnit
| QNum (n : Z)
| QList (l : list E)
| QThrow.

Arguments DInsert {E K}. Arguments DEmplace {E K}. Arguments DAssign {E K}. Arguments DErase {E K}.
Arguments DEraseAt {E K}. Arguments DEraseRange {E K}. Arguments DFind {E K}. Arguments DContains {E K}.
Arguments DClear {E K}. Arguments DReserve {E K}. Arguments DRehash {E K}. Arguments DMaxLoad {E K}.
Arguments DSize {E K}. Arguments DIterate {E K}.
Arguments QInserted {E}. Arguments QNext {E}. Arguments QFound {E}. Arguments QBool {E}.
Arguments QUnit {E}. Arguments QNum {E}. Arguments QList {E}. Arguments QThrow {E}.

Section Spec.
Context {E K : Type}.
Variable nk : nat.
Variable key_of : nat -> E -> K.
Variable keq : K -> K -> bool.
Variable rep : E -> E -> E.       (* insert_or_assign: old element with the new mapped value *)

(** No element has the key [k] under index [j]. *)
Definition dabsent (j : nat) (k : K) (l : list E) : Prop := forall x, In x l -> keq (key_of j x) k = false.
(** [x], with key [k] under index [j], stands after [a] and before [b]. *)
Definition dlocated (j : nat) (k : K) (l a : list E) (x : E) (b : list E) : Prop :=
  l = a ++ x :: b /\ keq (key_of j x) k = true.
(** None of the keys of [e] is present under its index. *)
Definition dnew (e : E) (l : list E) : Prop := forall j, (j < nk)%nat -> dabsent j (key_of j e) l.
(** [x] shares the key with index [j] with [e], and no smaller index is shared with any element. *)
Definition dclash (e : E) (l : list E) (x : E) : Prop :=
  exists j, (j < nk)%nat /\ In x l /\ keq (key_of j x) (key_of j e) = true /\
    forall i, (i < j)%nat -> dabsent i (key_of i e) l.
(** The list [a ++ x :: b] after removal of [x]: the last element takes its place. *)
Definition swap_remove (a b : list E) : list E :=
  match rev b with [] => a | y :: r => a ++ y :: rev r end.
(** Removal of the elements at positions [a .. a + n - 1], last first. *)
Fixpoint remove_range (a n : nat) (l : list E) : list E :=
  match n with
  | O => l
  | S n' => remove_range a n' (swap_remove (firstn (a + n') l) (skipn (S (a + n')) l))
  end.

(** The calls that may allocate memory. *)
Definition allocating (c : dcall E K) : bool :=
  match c with DInsert _ | DEmplace _ | DAssign _ | DReserve _ | DRehash _ => true | _ => false end.

(** One call: contents before, contents after, result. *)
Inductive dspec : dcall E K -> list E -> list E -> dret E -> Prop :=
| ds_insert_new : forall e l, dnew e l -> dspec (DInsert e) l (l ++ [e]) (QInserted e true)
| ds_insert_old : forall e l x, dclash e l x -> dspec (DInsert e) l l (QInserted x false)
| ds_emplace_new : forall e l, dnew e l -> dspec (DEmplace e) l (l ++ [e]) (QInserted e true)
| ds_emplace_old : forall e l x, dclash e l x -> dspec (DEmplace e) l l (QInserted x false)
| ds_assign_new : forall e l, dabsent 0 (key_of 0 e) l -> dspec (DAssign e) l (l ++ [e]) (QInserted e true)
| ds_assign_old : forall e l a x b, dlocated 0 (key_of 0 e) l a x b ->
    dspec (DAssign e) l (a ++ rep x e :: b) (QInserted (rep x e) false)
| ds_erase_absent : forall j k l, dabsent j k l -> dspec (DErase j k) l l (QNext None)
| ds_erase : forall j k l a x b, dlocated j k l a x b ->
    dspec (DErase j k) l (swap_remove a b) (QNext (nth_error (swap_remove a b) (length a)))
| ds_erase_at : forall a x b,
    dspec (DEraseAt (Z.of_nat (length a))) (a ++ x :: b) (swap_remove a b) (QNext (nth_error (swap_remove a b) (length a)))
| ds_erase_range : forall a n l, (a + n <= length l)%nat ->
    dspec (DEraseRange (Z.of_nat a) (Z.of_nat (a + n))) l (remove_range a n l)
          (QNext (if Nat.eqb n 0 then None else nth_error (remove_range a n l) a))
| ds_find_absent : forall j k l, dabsent j k l -> dspec (DFind j k) l l (QFound None)
| ds_find : forall j k l a x b, dlocated j k l a x b -> dspec (DFind j k) l l (QFound (Some x))
| ds_contains_absent : forall j k l, dabsent j k l -> dspec (DContains j k) l l (QBool false)
| ds_contains : forall j k l a x b, dlocated j k l a x b -> dspec (DContains j k) l l (QBool true)
| ds_clear : forall l, dspec DClear l [] QUnit
| ds_reserve : forall n l, dspec (DReserve n) l l QUnit
| ds_rehash : forall n l, dspec (DRehash n) l l QUnit
| ds_max_load : forall p q l, dspec (DMaxLoad p q) l l QUnit
| ds_size : forall l, dspec DSize l l (QNum (Z.of_nat (length l)))
| ds_iterate : forall l, dspec DIterate l l (QList l)
| ds_throw : forall c l, allocating c = true -> dspec c l l QThrow.

Inductive dspec_run : list (dcall E K) -> list E -> list E -> list (dret E) -> Prop :=
| dr_nil : forall l, dspec_run [] l l []
| dr_cons : forall c cs l l1 l2 r rs, dspec c l l1 r -> dspec_run cs l1 l2 rs ->
    dspec_run (c :: cs) l l2 (r :: rs).

(** Pairwise different keys under every index. *)
Definition dkeys_distinct (l : list E) : Prop :=
  forall j, (j < nk)%nat -> ForallOrdPairs (fun a b => keq (key_of j a) (key_of j b) = false) l.
End Spec.
