(** The load factor of dense containers (C60). *)
From Coq Require Import ZArith List Bool Lia.
From Verif Require Import Base BaseLemmas MapSpec Float32 DenseSpec DenseModel DenseRun Instances DenseInstances LoadSpec DenseLoad LoadInstances.
Import ListNotations.
Open Scope Z_scope.

(** Containers whose max load factor and bucket count are not set by the caller (or set to
    8 * 2^k buckets): the load factor never exceeds 7/8, computed exactly or in single precision. *)
Theorem C60_default_partial : forall (E K : Type) nk (key_of : nat -> E -> K) hash keq rep,
  key_laws hash keq -> (forall x e, key_of 0%nat (rep x e) = key_of 0%nat x) ->
  forall h s rs, dhistory_ok nk h -> Forall (fun vc => keeps_policy (snd vc)) h ->
  (forall h1 v c h2 s1 rs1, h = h1 ++ (v, c) :: h2 -> drun nk key_of hash keq rep empty_dense h1 = Ok (s1, rs1) -> ~ blocked nk key_of hash keq rep v s1 c) ->
  drun nk key_of hash keq rep empty_dense h = Ok (s, rs) ->
  d_mlf s = (7, 8) /\ doubled (d_bc s) /\ within_load 7 8 (size s) (d_bc s) /\ (0 < d_bc s -> rle (f32_div (f32_of (size s)) (f32_of (d_bc s))) (d_mlf s) = true).
Proof. exact (fun E K nk key_of hash keq rep KL R => history_default nk key_of hash keq rep KL R). Qed.
Print Assumptions C60_default_partial.
Definition lrun1 := drun 1 key1 ehash ekeq erep empty_dense.
Definition inserts (n : Z) : list (dcall entry Z) := map (fun k => DInsert (k, k)) (zrange n).
Definition load_of (l : list (dcall entry Z)) : res (Z * Z) := let* x := lrun1 (dcalls l) in Ok (size (fst x), d_bc (fst x)).
Example C60_default_case :
  map load_of [inserts 7; inserts 8; inserts 14; inserts 15; inserts 28 ++ [DErase 0 3; DInsert (99, 0); DInsert (98, 0)]; DRehash 32 :: inserts 28; inserts 5 ++ [DRehash 0]] =
  [Ok (7, 8); Ok (8, 16); Ok (14, 16); Ok (15, 32); Ok (29, 64); Ok (28, 32); Ok (5, 8)].
Proof. vm_compute. reflexivity. Qed.

(** Any history, any max load factors: after an insertion, and until the max load factor is set
    again, the load factor exceeds the maximum by no more than one element and one bucket (and
    2^-21 for the rounding). *)
Theorem C60_partial : forall (E K : Type) nk (key_of : nat -> E -> K) hash keq rep,
  key_laws hash keq -> (forall x e, key_of 0%nat (rep x e) = key_of 0%nat x) ->
  forall h1 v c h2 s0 s1 s r rs1 rs, dhistory_ok nk (h1 ++ (v, c) :: h2) ->
  inserting c -> r <> QThrow -> Forall (fun vc => keeps_max (snd vc)) h2 ->
  (forall h1' v' c' h2' s' rs', h1 ++ (v, c) :: h2 = h1' ++ (v', c') :: h2' -> drun nk key_of hash keq rep empty_dense h1' = Ok (s', rs') -> ~ blocked nk key_of hash keq rep v' s' c') ->
  drun nk key_of hash keq rep empty_dense h1 = Ok (s0, rs1) -> dexec nk key_of hash keq rep v s0 c = Ok (s1, r) -> drun nk key_of hash keq rep s1 h2 = Ok (s, rs) ->
  near_load (fst (d_mlf s)) (snd (d_mlf s)) (size s) (d_bc s).
Proof. exact (fun E K nk key_of hash keq rep KL R => history_near nk key_of hash keq rep KL R). Qed.
Print Assumptions C60_partial.
(** 40 elements at 7/8, then 1/2: the next insertion makes room for 40; with 4 elements per bucket
    8 buckets take 32. *)
Example C60_partial_case :
  map load_of [inserts 40 ++ [DMaxLoad 1 2]; inserts 40 ++ [DMaxLoad 1 2; DInsert (99, 0)]; DMaxLoad 4 1 :: inserts 32; DMaxLoad 4 1 :: inserts 33; inserts 40 ++ [DMaxLoad 1 4; DInsert (3, 0)]] =
  [Ok (40, 64); Ok (41, 128); Ok (32, 8); Ok (33, 16); Ok (40, 160)] /\
  near_load 1 2 41 128 /\ ~ near_load 1 2 41 64.
Proof. split; [vm_compute; reflexivity|]. split; vm_compute; [discriminate|intros H; apply H; reflexivity]. Qed.

(** The load factor exceeds the max load factor after rehash(1) and an insertion, and when the 10
    elements that were asked for by reserve(10) are in. *)
Theorem C60_refuted :
  (exists h s rs, dhistory_ok 1 h /\ Forall (fun vc => keeps_max (snd vc)) h /\ lrun1 h = Ok (s, rs) /\ ~ In QThrow rs /\ d_mlf s = (7, 8) /\ size s = 1 /\ d_bc s = 1 /\ ~ within_load 7 8 (size s) (d_bc s)) /\
  (exists h s rs, dhistory_ok 1 (dcalls [DReserve 10] ++ h) /\ Forall (fun vc => exists e, snd vc = DInsert e) h /\ lrun1 (dcalls [DReserve 10] ++ h) = Ok (s, rs) /\ ~ In QThrow rs /\
     d_mlf s = (7, 8) /\ size s = 10 /\ d_bc s = 11 /\ ~ within_load 7 8 (size s) (d_bc s)).
Proof. exact (conj load_rehash load_reserve). Qed.
Print Assumptions C60_refuted.
Example C60_refuted_case :
  map load_of [DRehash 1 :: inserts 1; DRehash 1 :: inserts 2; DReserve 10 :: inserts 10; DReserve 10 :: inserts 11; DReserve 100 :: inserts 100] =
  [Ok (1, 1); Ok (2, 2); Ok (10, 11); Ok (11, 22); Ok (100, 114)].
Proof. vm_compute. reflexivity. Qed.
