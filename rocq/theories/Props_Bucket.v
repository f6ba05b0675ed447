(** The bucket interface of dense containers (C64). *)
From Coq Require Import ZArith List Bool Lia Permutation.
From Verif Require Import Base MapSpec Bits Instances DenseSpec DenseWorldSpec World DenseModel DenseRun DenseWorld DenseInstances DenseFinal.
From Verif Require Import LinkModel OrderedSpec OrderedWorldSpec OrderedDense OrderedRun OrderedWorld OrderedInstances DenseBuckets DenseBucketFinal.
Import ListNotations.
Open Scope Z_scope.

(** C64, as far as it holds: the iterators of a bucket visit the right elements and
    bucket(key) names the right bucket.  Missing: the iteration does not stop at end(n). *)
Theorem C64_partial : forall (E K : Type) nk (key_of : nat -> E -> K) hash keq rep clone pocca pocma,
  key_laws hash keq -> (forall x e, key_of 0%nat (rep x e) = key_of 0%nat x) -> (forall j e, (j < nk)%nat -> key_of j (clone e) = key_of j e) ->
  forall s : dense E, doccurs nk key_of hash keq rep clone pocca pocma s -> walks nk key_of hash s (delems s).
Proof. exact (fun E K nk key_of hash keq rep clone pocca pocma KL R C => occurs_walks nk key_of hash keq rep clone pocca pocma KL R C). Qed.
Print Assumptions C64_partial.
(** Eight buckets, one of them with two elements. *)
Definition colliding : dense entry := dmap (map (fun k => XOn 0 (DInsert (k, 10 * k))) [3; 11; 4; 8]) 0.
Example C64_case : doccurs 1 key1 ehash ekeq erep sameel false true colliding /\
  d_bc colliding = 8 /\ map (fun n => map fst (fst (bucket_walk colliding 0 n))) (zrange 8) = [[8]; []; []; [3; 11]; [4]; []; []; []] /\
  map (bucket ehash colliding) [3; 11; 4; 8; 15] = [Ok 3; Ok 3; Ok 4; Ok 0; Ok 7] /\ bucket_walk colliding 0 3 = ([(3, 30); (11, 110)], Err OutOfBounds).
Proof. split; [apply dmap_occurs; vm_compute; reflexivity|]. vm_compute. repeat split; reflexivity. Qed.

(** The same for ordered containers. *)
Theorem C64_ordered_partial : forall (E K : Type) sz nk (key_of : nat -> E -> K) hash keq rep clone pocca pocma, 0 < sz ->
  key_laws hash keq -> (forall x e, key_of 0%nat (rep x e) = key_of 0%nat x) -> (forall j e, (j < nk)%nat -> key_of j (clone e) = key_of j e) ->
  forall (hw : @yworld E) i l, yoccurs sz nk key_of hash keq rep clone pocca pocma hw -> o_iterate sz (fst hw) (snd hw i) = Ok l ->
  walks nk key_of hash (o_d (snd hw i)) l.
Proof. exact (fun E K sz nk key_of hash keq rep clone pocca pocma Hsz KL R C => ordered_walks sz nk key_of hash keq rep clone pocca pocma KL R C Hsz). Qed.
Print Assumptions C64_ordered_partial.
Example C64_ordered_case : let hw := omaps (map (fun k => YOn 0 (OInsert (k, 10 * k))) [3; 11; 4; 8]) in
  ynormal hw /\ map (fun n => map fst (fst (bucket_walk (o_d (snd hw 0%nat)) 0 n))) (zrange 8) = [[8]; []; []; [3; 11]; [4]; []; []; []].
Proof. split; [apply omaps_occur; vm_compute; reflexivity|vm_compute; reflexivity]. Qed.

(** bucket_size(n) is undefined behaviour on every container, for every n: the iterators
    never compare equal to end(n), not even in an empty bucket. *)
Theorem C64_refuted : forall (E K : Type) nk (key_of : nat -> E -> K) hash keq rep clone pocca pocma,
  key_laws hash keq -> (forall x e, key_of 0%nat (rep x e) = key_of 0%nat x) -> (forall j e, (j < nk)%nat -> key_of j (clone e) = key_of j e) ->
  forall (s : dense E) j n, doccurs nk key_of hash keq rep clone pocca pocma s -> (j < nk)%nat -> exists e, bucket_size s j n = Err e.
Proof. exact (fun E K nk key_of hash keq rep clone pocca pocma KL R C => occurs_size nk key_of hash keq rep clone pocca pocma KL R C). Qed.
Print Assumptions C64_refuted.
Theorem C64_ordered_refuted : forall (E K : Type) sz nk (key_of : nat -> E -> K) hash keq rep clone pocca pocma, 0 < sz ->
  key_laws hash keq -> (forall x e, key_of 0%nat (rep x e) = key_of 0%nat x) -> (forall j e, (j < nk)%nat -> key_of j (clone e) = key_of j e) ->
  forall (hw : @yworld E) i j n, yoccurs sz nk key_of hash keq rep clone pocca pocma hw -> (j < nk)%nat -> exists e, bucket_size (o_d (snd hw i)) j n = Err e.
Proof. exact (fun E K sz nk key_of hash keq rep clone pocca pocma Hsz KL R C => ordered_size sz nk key_of hash keq rep clone pocca pocma KL R C Hsz). Qed.
Print Assumptions C64_ordered_refuted.
Example C64_size_case : map (fun n => bucket_size colliding 0 n) [1; 3] = [Err OutOfBounds; Err OutOfBounds].
Proof. vm_compute. reflexivity. Qed.
(** A container without buckets divides by zero in bucket(key). *)
Theorem C64_empty_refuted : exists s : dense entry, doccurs 1 key1 ehash ekeq erep sameel false true s /\ bucket ehash s 1 = Err DivByZero.
Proof. exists (dmap [] 0). split; [apply dmap_occurs; vm_compute; reflexivity|vm_compute; reflexivity]. Qed.
Print Assumptions C64_empty_refuted.
