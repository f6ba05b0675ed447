(** When the elements of a packed container keep their places. *)
From Coq Require Import ZArith List Bool.
From Verif Require Import MapSpec DenseSpec.
Import ListNotations.
Open Scope Z_scope.

(** The results of calls that added an element, or threw while trying to. *)
Definition adds {E} (r : ret E) : bool := match r with RInserted _ true | RThrow => true | _ => false end.
Definition additions {E} (rs : list (ret E)) : Z := Z.of_nat (length (filter adds rs)).
(** The calls by which the caller asks for another number of slots. *)
Definition steady {E K} (c : call E K) : Prop := match c with CReserve _ | CRehash _ => False | _ => True end.
(** The call removes the elements with key k. *)
Definition drops {E K} (keq : K -> K -> bool) (k : K) (c : call E K) : Prop :=
  match c with CErase k' => keq k k' = true | CClear => True | _ => False end.
(** The call may assign to the elements with key k. *)
Definition assigns {E K} (key_of : E -> K) (keq : K -> K -> bool) (k : K) (c : call E K) : Prop :=
  match c with CAssign e => keq k (key_of e) = true | _ => False end.

(** The same for dense containers. *)
Definition dsteady {E K} (c : dcall E K) : Prop := match c with DReserve _ => False | _ => True end.
Definition dinserts {E K} (c : dcall E K) : Prop := match c with DInsert _ | DEmplace _ | DAssign _ => True | _ => False end.
Definition derases {E K} (c : dcall E K) : Prop :=
  match c with DErase _ _ | DEraseAt _ | DEraseRange _ _ | DClear => True | _ => False end.
(** Every element keeps its index and its keys. *)
Definition same_index {E K} (nk : nat) (key_of : nat -> E -> K) (l l' : list E) : Prop :=
  forall i x, nth_error l i = Some x -> exists y, nth_error l' i = Some y /\ forall j, (j < nk)%nat -> key_of j y = key_of j x.
(** The call removes single elements, but not x, which has index i. *)
Definition spares {E K} (key_of : nat -> E -> K) (keq : K -> K -> bool) (c : dcall E K) (i : nat) (x : E) : Prop :=
  match c with DErase j k => keq (key_of j x) k = false | DEraseAt p => Z.of_nat i <> p | _ => False end.
