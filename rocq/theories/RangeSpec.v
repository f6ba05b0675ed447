(** Specification of inserting a sequence of elements.  Nothing here refers to the model of
    the library. *)
From Coq Require Import List Bool.
Import ListNotations.

Section Spec.
Context {E K : Type}.
Variable keq : K -> K -> bool.
(** Some element of [l] has the key of [e]. *)
Definition has_key (key_of : E -> K) (l : list E) (e : E) : bool := existsb (fun x => keq (key_of x) (key_of e)) l.
(** The same for elements with [nk] keys: one of them is taken. *)
Definition has_keys (nk : nat) (key_of : nat -> E -> K) (l : list E) (e : E) : bool :=
  existsb (fun j => has_key (key_of j) l e) (seq 0 nk).
(** The contents after inserting the elements [xs] one after the other: those whose key is
    taken are dropped, the others go to the end. *)
Fixpoint added (taken : list E -> E -> bool) (l xs : list E) : list E :=
  match xs with
  | [] => l
  | e :: r => added taken (if taken l e then l else l ++ [e]) r
  end.
End Spec.
