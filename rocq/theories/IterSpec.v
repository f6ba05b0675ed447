(** When comparing iterators tells which element comes first. *)
From Coq Require Import ZArith List Bool.
Import ListNotations.
Open Scope Z_scope.

(** [it i] is the iterator begin() advanced i times, if that is defined; [less] is operator<.
    Iterators are in order when [less] compares positions. *)
Definition in_order {I} (less : I -> I -> bool) (it : Z -> option I) (n : Z) : Prop :=
  forall i j, 0 <= i < n -> 0 <= j < n -> exists a b, it i = Some a /\ it j = Some b /\ less a b = (i <? j).
(** First and last element. *)
Definition first_of {E} (l : list E) : option E := nth_error l 0.
Definition last_of {E} (l : list E) : option E := nth_error l (length l - 1).
