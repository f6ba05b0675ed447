(** Specification vocabulary for capacities. *)
From Coq Require Import ZArith.
Open Scope Z_scope.

(** Bucket counts of the form 2^k - 1 (swiss_table.hpp 830-833, 1264-1276). *)
Definition mersenne (c : Z) : Prop := exists k, 1 <= k /\ c = 2 ^ k - 1.
(** c is the least bucket count of that form not below m. *)
Definition least_mersenne_above (m c : Z) : Prop :=
  mersenne c /\ m <= c /\ forall d, mersenne d -> m <= d -> c <= d.
