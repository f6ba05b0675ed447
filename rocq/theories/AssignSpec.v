(** Elements of maps whose mapped value may have been destroyed: the vocabulary of property C83.
    The contents before and after a call are related by [spec_step] (MapSpec.v) and [dspec]
    (DenseSpec.v). *)
From Coq Require Import ZArith List.
Import ListNotations.

(** A key and its mapped value, [None] when the mapped value is destroyed. *)
Notation elt K V := (K * option V)%type.
(** insert_or_assign: the element keeps its key and takes the new mapped value. *)
Definition takes {K V} (x e : elt K V) : elt K V := (fst x, snd e).
(** Every mapped value is alive. *)
Definition whole {K V} (l : list (elt K V)) : Prop := forall e, In e l -> snd e <> None.
(** The argument of insert_or_assign: a value of the caller's, or a reference to the mapped
    value of the element in a slot of the array of the container. *)
Inductive argument (V : Type) : Type := Outside (x : V) | Slot (i : Z).
Arguments Outside {V}. Arguments Slot {V}.
