(** capacity() and max_size() of dense tables. *)
From Coq Require Import ZArith Bool.
From Verif Require Import Base Float32 DenseModel.
Open Scope Z_scope.

Section Sizes.
Context {E : Type}.
(** to_load_factor -- dense_table.hpp 481: the product of two floats, cast to size_type. *)
Definition to_load_factor (s : dense E) (n : Z) : res Z := f32_trunc (f32_mul (f32_of n) (d_mlf s)).
(** max_bucket_count -- line 344; max_size, capacity -- lines 334, 335. *)
Definition d_max_buckets : Z := npos - 1.
Definition d_max_size (s : dense E) : res Z := to_load_factor s d_max_buckets.
Definition d_capacity (s : dense E) : res Z := to_load_factor s (d_bc s).
End Sizes.
