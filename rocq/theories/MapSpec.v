(** Specification of a container with unique keys: a list of elements in iteration order.
    Nothing here refers to the model of the library. *)
From Coq Require Import ZArith List Bool Permutation.
Import ListNotations.
Open Scope Z_scope.

(** Public calls (swiss_table.hpp 904-1059, 1124-1131). *)
Inductive call (E K : Type) : Type :=
| CInsert (e : E)          (* insert, emplace, try_emplace *)
| CAssign (e : E)          (* insert_or_assign *)
| CErase (k : K)           (* erase(key) *)
| CFind (k : K)
| CContains (k : K)
| CClear
| CReserve (n : Z)
| CRehash (n : Z)
| CSize
| CIterate.                (* for (x : c) .. *)

(** What a call gives back: elements stand for the iterators pointing to them, an absent
    element for end(). *)
Inductive ret (E : Type) : Type :=
| RInserted (e : E) (inserted : bool)
| RErased (next : option E) (erased : bool)
| RFound (o : option E)
| RBool (b : bool)
| RUnit
| RNum (n : Z)
| RList (l : list E)
| RThrow.                  (* an exception left the call *)

Arguments CInsert {E K}. Arguments CAssign {E K}. Arguments CErase {E K}. Arguments CFind {E K}.
Arguments CContains {E K}. Arguments CClear {E K}. Arguments CReserve {E K}.
Arguments CRehash {E K}. Arguments CSize {E K}. Arguments CIterate {E K}.
Arguments RInserted {E}. Arguments RErased {E}. Arguments RFound {E}. Arguments RBool {E}.
Arguments RUnit {E}. Arguments RNum {E}. Arguments RList {E}. Arguments RThrow {E}.

(** What is assumed of the user's hash and key equality. *)
Record key_laws {K : Type} (hash : K -> Z) (keq : K -> K -> bool) : Prop := {
  kl_refl : forall a, keq a a = true;
  kl_sym : forall a b, keq a b = true -> keq b a = true;
  kl_trans : forall a b c, keq a b = true -> keq b c = true -> keq a c = true;
  kl_hash : forall a b, keq a b = true -> hash a = hash b;
  kl_range : forall a, 0 <= hash a < 2 ^ 64
}.

Section Spec.
Context {E K : Type}.
Variable key_of : E -> K.
Variable keq : K -> K -> bool.
Variable rep : E -> E -> E.     (* insert_or_assign: old element with the new mapped value *)

(** No element of the list has the key. *)
Definition absent (k : K) (l : list E) : Prop := forall x, In x l -> keq (key_of x) k = false.

(** The element [x] of [l] with key [k] and what stands before and after it. *)
Definition located (k : K) (l a : list E) (x : E) (b : list E) : Prop :=
  l = a ++ x :: b /\ keq (key_of x) k = true.

(** One call: contents before, contents after, result.  Where the iteration order after
    the call is left open, the contents are given up to permutation. *)
Inductive spec_step : call E K -> list E -> list E -> ret E -> Prop :=
| sp_insert_new : forall e l l', absent (key_of e) l -> Permutation l' (e :: l) ->
    spec_step (CInsert e) l l' (RInserted e true)
| sp_insert_old : forall e l a x b, located (key_of e) l a x b ->
    spec_step (CInsert e) l l (RInserted x false)
| sp_assign_new : forall e l l', absent (key_of e) l -> Permutation l' (e :: l) ->
    spec_step (CAssign e) l l' (RInserted e true)
| sp_assign_old : forall e l a x b, located (key_of e) l a x b ->
    spec_step (CAssign e) l (a ++ rep x e :: b) (RInserted (rep x e) false)
| sp_erase_absent : forall k l, absent k l -> spec_step (CErase k) l l (RErased None false)
| sp_erase : forall k l a x b, located k l a x b ->
    spec_step (CErase k) l (a ++ b) (RErased (hd_error b) true)
| sp_find_absent : forall k l, absent k l -> spec_step (CFind k) l l (RFound None)
| sp_find : forall k l a x b, located k l a x b -> spec_step (CFind k) l l (RFound (Some x))
| sp_contains_absent : forall k l, absent k l -> spec_step (CContains k) l l (RBool false)
| sp_contains : forall k l a x b, located k l a x b -> spec_step (CContains k) l l (RBool true)
| sp_clear : forall l, spec_step CClear l [] RUnit
| sp_reserve : forall n l l', Permutation l' l -> spec_step (CReserve n) l l' RUnit
| sp_rehash : forall n l l', Permutation l' l -> spec_step (CRehash n) l l' RUnit
| sp_size : forall l, spec_step CSize l l (RNum (Z.of_nat (length l)))
| sp_iterate : forall l, spec_step CIterate l l (RList l)
| sp_throw_insert : forall e l l', absent (key_of e) l -> Permutation l' l ->
    spec_step (CInsert e) l l' RThrow
| sp_throw_assign : forall e l l', absent (key_of e) l -> Permutation l' l ->
    spec_step (CAssign e) l l' RThrow
| sp_throw_reserve : forall n l l', Permutation l' l -> spec_step (CReserve n) l l' RThrow
| sp_throw_rehash : forall n l l', Permutation l' l -> spec_step (CRehash n) l l' RThrow.

(** A sequence of calls. *)
Inductive spec_run : list (call E K) -> list E -> list E -> list (ret E) -> Prop :=
| sr_nil : forall l, spec_run [] l l []
| sr_cons : forall c cs l l1 l2 r rs, spec_step c l l1 r -> spec_run cs l1 l2 rs ->
    spec_run (c :: cs) l l2 (r :: rs).

(** Pairwise different keys. *)
Definition keys_distinct (l : list E) : Prop :=
  ForallOrdPairs (fun a b => keq (key_of a) (key_of b) = false) l.
End Spec.
