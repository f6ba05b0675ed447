(** capacity() and max_size() of dense containers (C70). *)
From Coq Require Import ZArith List Bool Lia.
From Verif Require Import Base BaseLemmas MapSpec Float32 DenseSpec DenseModel DenseRun LoadSpec Instances DenseInstances SizeModel SizeProofs SizeInstances.
Import ListNotations.
Open Scope Z_scope.

(** Containers whose max load factor and bucket count are not set by the caller (or set to 8 * 2^k
    buckets): capacity() is 7/8 of the buckets exactly and never below size().  With fewer
    elements than that (and fewer than 2^24) no inserting call changes the bucket count; with exactly that many
    it doubles.  max_size() is 7/8 of 2^64. *)
Theorem C70_default_partial : forall (E K : Type) nk (key_of : nat -> E -> K) hash keq rep,
  key_laws hash keq -> (forall x e, key_of 0%nat (rep x e) = key_of 0%nat x) ->
  forall h s rs, dhistory_ok nk h -> Forall (fun vc => keeps_policy (snd vc)) h ->
  (forall h1 v c h2 s1 rs1, h = h1 ++ (v, c) :: h2 -> drun nk key_of hash keq rep empty_dense h1 = Ok (s1, rs1) -> ~ blocked nk key_of hash keq rep v s1 c) ->
  drun nk key_of hash keq rep empty_dense h = Ok (s, rs) ->
  d_max_size s = Ok (7 * 2 ^ 61) /\ exists n, d_capacity s = Ok n /\ 8 * n = 7 * d_bc s /\ size s <= n /\
  forall v c t r, denv_ok v -> 0 < d_bc s -> inserting c -> dexec nk key_of hash keq rep v s c = Ok (t, r) ->
    (size s < n -> size s < 2 ^ 24 -> d_bc t = d_bc s) /\ (size s = n -> r <> QThrow -> d_bc t = 2 * d_bc s).
Proof. exact (fun E K nk key_of hash keq rep KL R => history_sizes nk key_of hash keq rep KL R). Qed.
Print Assumptions C70_default_partial.
Definition grown (n : Z) : list (denv * dcall entry Z) := dcalls (map (fun k => DInsert (k, k)) (zrange n)).
(** Size, buckets, capacity: 0 without buckets, 7 of 8, 14 of 16; a present key at capacity() doubles too. *)
Example C70_default_case :
  map sizes [grown 0; grown 1; grown 7; grown 8; grown 14; grown 15; grown 14 ++ dcalls [DInsert (3, 0)]; grown 20 ++ dcalls [DErase 0 3; DRehash 64]; grown 3 ++ dcalls [DClear]] =
  [Ok (0, 0, Ok 0); Ok (1, 8, Ok 7); Ok (7, 8, Ok 7); Ok (8, 16, Ok 14); Ok (14, 16, Ok 14); Ok (15, 32, Ok 28); Ok (14, 32, Ok 28); Ok (19, 64, Ok 56); Ok (0, 8, Ok 7)].
Proof. vm_compute. reflexivity. Qed.

(** Above 2^24 elements the size is rounded before it is compared: a container with default settings
    holds 29360127 elements, capacity() is 29360128, and the next insertion doubles its buckets. *)
Theorem C70_early_refuted : exists h s rs t r, dhistory_ok 1 h /\ Forall (fun vc => keeps_policy (snd vc)) h /\ drun 1 key1 ehash ekeq erep empty_dense h = Ok (s, rs) /\ (forall r, In r rs -> r <> QThrow) /\
  size s = 29360127 /\ d_capacity s = Ok 29360128 /\ dexec 1 key1 ehash ekeq erep dv0 s (DInsert (-1, 0)) = Ok (t, r) /\ r <> QThrow /\ d_bc t = 2 * d_bc s.
Proof. exact early. Qed.
Print Assumptions C70_early_refuted.
Example C70_early_case : map f32_of [29360126; 29360127; 29360128] = [(29360126, 1); (29360128, 1); (29360128, 1)].
Proof. vm_compute. reflexivity. Qed.

(** capacity() below size() after rehash(1) and an insertion, and below n after reserve(n). *)
Theorem C70_refuted :
  (exists h s rs, dhistory_ok 1 h /\ Forall (fun vc => keeps_max (snd vc)) h /\ drun 1 key1 ehash ekeq erep empty_dense h = Ok (s, rs) /\ size s = 1 /\ d_capacity s = Ok 0) /\
  (exists s rs, drun 1 key1 ehash ekeq erep empty_dense (dcalls [DReserve 10]) = Ok (s, rs) /\ d_capacity s = Ok 9).
Proof. exact (conj over_capacity reserved_capacity). Qed.
Print Assumptions C70_refuted.
Example C70_refuted_case :
  map sizes [dcalls [DReserve 10] ++ grown 10; dcalls [DReserve 100]; dcalls [DReserve 7]; dcalls [DRehash 3] ++ grown 3; dcalls [DMaxLoad 4 1] ++ grown 8; grown 40 ++ dcalls [DMaxLoad 1 2]] =
  [Ok (10, 11, Ok 9); Ok (0, 114, Ok 99); Ok (0, 8, Ok 7); Ok (3, 3, Ok 2); Ok (8, 8, Ok 32); Ok (40, 64, Ok 32)].
Proof. vm_compute. reflexivity. Qed.

(** max_size() for every max load factor: defined below 1 (the largest float below 1 is
    1 - 2^-24), undefined from 1 on: the product is 2^64 or more and cannot be converted. *)
Theorem C70_max_size_exact : forall (E : Type) (s : dense E) p q, d_mlf s = (p, q) -> 0 < p -> 0 < q ->
  (p * 2 ^ 24 <= (2 ^ 24 - 1) * q -> exists m, d_max_size s = Ok m /\ 0 <= m <= 2 ^ 64 - 2 ^ 40) /\
  (q <= p -> d_max_size s = Err BadCast).
Proof.
  exact (fun E s p q Hm Hp Hq => conj
    (fun H => eq_ind_r (fun x => exists m, f32_trunc (f32_mul (f32_of d_max_buckets) x) = Ok m /\ 0 <= m <= 2 ^ 64 - 2 ^ 40) (max_size_below p q Hp Hq H) Hm)
    (fun H => eq_ind_r (fun x => f32_trunc (f32_mul (f32_of d_max_buckets) x) = Err BadCast) (max_size_above p q Hq H) Hm)).
Qed.
Print Assumptions C70_max_size_exact.
Definition with_max (p q : Z) : res (res Z) := let* x := drun 1 key1 ehash ekeq erep empty_dense (dcalls [DInsert (1, 1); DMaxLoad p q]) in Ok (d_max_size (fst x)).
Example C70_max_size_case : map (fun x => with_max (fst x) (snd x)) [(7, 8); (1, 2); (2 ^ 24 - 1, 2 ^ 24); (1, 1); (4, 1)] =
  [Ok (Ok (7 * 2 ^ 61)); Ok (Ok (2 ^ 63)); Ok (Ok (2 ^ 64 - 2 ^ 40)); Ok (Err BadCast); Ok (Err BadCast)] /\
  d_max_buckets = 2 ^ 64 - 2.
Proof. vm_compute. split; reflexivity. Qed.
