(** Byte order: the number that the bytes at consecutive addresses stand for. *)
From Coq Require Import ZArith List.
Import ListNotations.
Open Scope Z_scope.

Inductive order := Little | Big.
(** Least significant byte first. *)
Fixpoint digits (l : list Z) : Z := match l with [] => 0 | b :: r => b + 256 * digits r end.
(** An unsigned integer in memory, lowest address first. *)
Definition stored (o : order) (l : list Z) : Z := match o with Little => digits l | Big => digits (rev l) end.
(** An unsigned byte. *)
Definition is_byte (b : Z) : Prop := 0 <= b < 256.
