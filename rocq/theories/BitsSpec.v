(** Byte-wise specification of groups and bit counts, independent of the model. *)
From Coq Require Import ZArith List.
Import ListNotations.
Open Scope Z_scope.

(** Metadata bytes as the source documents them (swiss_table.hpp 38-43): -128 never
    used, -2 erased, -1 end of table, 0..127 tag of an element. *)
Definition byte_ok (v : Z) : Prop := v = -128 \/ v = -2 \/ v = -1 \/ 0 <= v <= 127.
(** A group of w bytes (swiss_table.hpp 196-218). *)
Definition group_ok (w : Z) (g : list Z) : Prop := Z.of_nat (length g) = w /\ Forall byte_ok g.
(** The i-th byte of a group. *)
Definition byte_at (g : list Z) (i : Z) : Z := nth (Z.to_nat i) g 0.
(** Slots an element may be put into (swiss_table.hpp 46). *)
Definition free (v : Z) : Prop := v = -128 \/ v = -2.
(** Bytes of occupied slots (swiss_table.hpp 45). *)
Definition tagged (v : Z) : Prop := 0 <= v <= 127.

(** n is the number of leading free bytes of g. *)
Definition leading_free (g : list Z) (n : Z) : Prop :=
  0 <= n <= Z.of_nat (length g) /\
  (forall i, 0 <= i < n -> free (byte_at g i)) /\
  (n < Z.of_nat (length g) -> ~ free (byte_at g n)).

(** Number of trailing / leading zero bits of a 64-bit word, by divisibility and size. *)
Definition trailing_zeros (x c : Z) : Prop := 0 <= c /\ (2 ^ c | x) /\ ~ (2 ^ (c + 1) | x).
Definition leading_zeros (x c : Z) : Prop := 0 <= c <= 63 /\ 2 ^ (63 - c) <= x < 2 ^ (64 - c).
