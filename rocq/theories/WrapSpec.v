(** Specification of equality of containers and of the element access of maps.  Nothing here
    refers to the model of the library. *)
From Coq Require Import List Bool Permutation.
Import ListNotations.

(** What is assumed of == on elements. *)
Record eq_laws {E : Type} (veq : E -> E -> bool) : Prop := {
  el_refl : forall a, veq a a = true;
  el_sym : forall a b, veq a b = true -> veq b a = true;
  el_trans : forall a b c, veq a b = true -> veq b c = true -> veq a c = true
}.

(** Both lists have the same elements, with the same multiplicities, in any order. *)
Definition same_elements {E : Type} (veq : E -> E -> bool) (l m : list E) : Prop :=
  exists p, Permutation l p /\ Forall2 (fun a b => veq a b = true) p m.

Section Access.
Context {E K V : Type}.
Variable key_of : E -> K.
Variable mapped : E -> V.
Variable keq : K -> K -> bool.
(** at(k) on the contents [l]: [None] stands for std::out_of_range. *)
Definition at_spec (l : list E) (k : K) (r : option V) : Prop :=
  match r with
  | Some x => exists e, In e l /\ keq (key_of e) k = true /\ x = mapped e
  | None => forall e, In e l -> keq (key_of e) k = false
  end.
(** m[k] on the contents [l], with [d] the element that has key [k] and a default mapped value;
    [None]: an exception left the call. *)
Definition index_spec (l : list E) (k : K) (d : E) (l' : list E) (r : option V) : Prop :=
  ((exists e, In e l /\ keq (key_of e) k = true /\ r = Some (mapped e)) /\ Permutation l' l) \/
  ((forall e, In e l -> keq (key_of e) k = false) /\ r = Some (mapped d) /\ Permutation l' (d :: l)) \/
  (r = None /\ Permutation l' l).
End Access.
