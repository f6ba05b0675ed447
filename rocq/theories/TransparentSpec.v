(** Specification of calls whose key argument has another type than the keys of the
    container (transparent hash and key_equal).  Nothing here refers to the model. *)
From Coq Require Import ZArith List Bool Permutation.
From Verif Require Import MapSpec.
Import ListNotations.
Open Scope Z_scope.

(** Calls: [T] is the other key type, [V] the type of mapped values. *)
Inductive tcall (E K T V : Type) : Type :=
| TOn (c : call E K)            (* a call with the container's own key type *)
| TFind (t : T)
| TContains (t : T)
| TErase (t : T)                (* erase(t) *)
| TTry (t : T) (v : V)          (* try_emplace(t, v); operator[](t) *)
| TAssign (t : T) (v : V).      (* insert_or_assign(t, v) *)
Arguments TOn {E K T V}. Arguments TFind {E K T V}. Arguments TContains {E K T V}. Arguments TErase {E K T V}.
Arguments TTry {E K T V}. Arguments TAssign {E K T V}.

(** What is assumed of the functors and of the conversion: keys equal to the same [t] are
    equal; a key equal to one that equals [t] equals [t]; equality implies equal hashes;
    the element made from [t] equals [t].  Nothing relates two values of type [T]. *)
Record transparent_laws {E K T V : Type} (key_of : E -> K) (hash : K -> Z) (keq : K -> K -> bool)
  (hasht : T -> Z) (eqt : K -> T -> bool) (make : T -> V -> E) : Prop := {
  tl_same : forall a b t, eqt a t = true -> eqt b t = true -> keq a b = true;
  tl_resp : forall a b t, keq a b = true -> eqt b t = true -> eqt a t = true;
  tl_hash : forall a t, eqt a t = true -> hash a = hasht t;
  tl_range : forall t, 0 <= hasht t < 2 ^ 64;
  tl_make : forall t v, eqt (key_of (make t v)) t = true
}.

Section Spec.
Context {E K T V : Type}.
Variable key_of : E -> K.
Variable keq : K -> K -> bool.
Variable rep : E -> E -> E.
Variable eqt : K -> T -> bool.
Variable make : T -> V -> E.

Definition tabsent (t : T) (l : list E) : Prop := forall x, In x l -> eqt (key_of x) t = false.
Definition tlocated (t : T) (l a : list E) (x : E) (b : list E) : Prop := l = a ++ x :: b /\ eqt (key_of x) t = true.

Inductive tspec : tcall E K T V -> list E -> list E -> ret E -> Prop :=
| ts_on : forall c l l' r, spec_step key_of keq rep c l l' r -> tspec (TOn c) l l' r
| ts_find_absent : forall t l, tabsent t l -> tspec (TFind t) l l (RFound None)
| ts_find : forall t l a x b, tlocated t l a x b -> tspec (TFind t) l l (RFound (Some x))
| ts_contains_absent : forall t l, tabsent t l -> tspec (TContains t) l l (RBool false)
| ts_contains : forall t l a x b, tlocated t l a x b -> tspec (TContains t) l l (RBool true)
| ts_erase_absent : forall t l, tabsent t l -> tspec (TErase t) l l (RErased None false)
| ts_erase : forall t l a x b, tlocated t l a x b -> tspec (TErase t) l (a ++ b) (RErased (hd_error b) true)
| ts_try_new : forall t v l l', tabsent t l -> Permutation l' (make t v :: l) -> tspec (TTry t v) l l' (RInserted (make t v) true)
| ts_try_old : forall t v l a x b, tlocated t l a x b -> tspec (TTry t v) l l (RInserted x false)
| ts_try_throw : forall t v l l', tabsent t l -> Permutation l' l -> tspec (TTry t v) l l' RThrow
| ts_assign_new : forall t v l l', tabsent t l -> Permutation l' (make t v :: l) -> tspec (TAssign t v) l l' (RInserted (make t v) true)
| ts_assign_old : forall t v l a x b, tlocated t l a x b ->
    tspec (TAssign t v) l (a ++ rep x (make t v) :: b) (RInserted (rep x (make t v)) false)
| ts_assign_throw : forall t v l l', tabsent t l -> Permutation l' l -> tspec (TAssign t v) l l' RThrow.

Inductive tspec_run : list (tcall E K T V) -> list E -> list E -> list (ret E) -> Prop :=
| tr_nil : forall l, tspec_run [] l l []
| tr_cons : forall c cs l l1 l2 r rs, tspec c l l1 r -> tspec_run cs l1 l2 rs -> tspec_run (c :: cs) l l2 (r :: rs).
End Spec.
