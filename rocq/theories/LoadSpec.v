(** What the load factor of a dense container is compared with. *)
From Coq Require Import ZArith List.
From Verif Require Import DenseSpec.
Import ListNotations.
Open Scope Z_scope.

(** n elements in b buckets are within the load factor p/q. *)
Definition within_load (p q n b : Z) : Prop := n * q <= p * b.
(** Within the load factor but for one element, one bucket and a relative error of 2^-21. *)
Definition near_load (p q n b : Z) : Prop := (n - 1) * q * 2 ^ 21 <= p * (b + 1) * (2 ^ 21 + 1).
(** The bucket counts of a container that grows by doubling. *)
Definition doubled (b : Z) : Prop := b = 0 \/ exists k, 0 <= k /\ b = 8 * 2 ^ k.
(** The calls that leave the max load factor alone. *)
Definition keeps_max {E K} (c : dcall E K) : Prop := match c with DMaxLoad _ _ => False | _ => True end.
(** The calls that leave max load factor and growth policy alone. *)
Definition keeps_policy {E K} (c : dcall E K) : Prop :=
  match c with DMaxLoad _ _ | DReserve _ => False | DRehash n => doubled n | _ => True end.
(** The calls that insert, with what they return when they do not throw. *)
Definition inserting {E K} (c : dcall E K) : Prop := match c with DInsert _ | DEmplace _ | DAssign _ => True | _ => False end.
