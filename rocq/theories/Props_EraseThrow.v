(** Property C84: erasures whose move assignment throws. *)
From Coq Require Import ZArith List Bool Lia.
From Verif Require Import Base MapSpec Instances DenseSpec DenseModel DenseRun DenseWorldSpec DenseWorld DenseInstances EraseThrowModel.
From Verif Require DenseFinal EraseThrowProofs.
Import ListNotations.
Open Scope Z_scope.

(** C84, dense containers: an erasure in which no move assignment throws does what the erasure of
    DenseModel does.  Erasing the last element and erasing an absent key assign nothing.
    Missing: an assignment that throws while another element is erased (refuted below). *)
Theorem C84_partial : forall (E K : Type) nk (key_of : nat -> E -> K) hash keq rep clone pocca pocma,
  key_laws hash keq -> (forall x e, key_of 0%nat (rep x e) = key_of 0%nat x) -> (forall j e, (j < nk)%nat -> key_of j (clone e) = key_of j e) ->
  forall bad v s c, doccurs nk key_of hash keq rep clone pocca pocma s -> dcall_ok nk c -> dcall_pre c (delems s) ->
  (bad = false \/ forall i, ~ displaces key_of keq s c i) ->
  t_exec nk key_of hash keq rep bad v s c = dexec nk key_of hash keq rep v s c.
Proof.
  exact (fun E K nk key_of hash keq rep clone pocca pocma KL R C bad v s c Ho =>
    EraseThrowProofs.throw_safe nk key_of hash keq rep KL bad v s c (DenseFinal.occurs_wf nk key_of hash keq rep clone pocca pocma KL R C s Ho)).
Qed.
Print Assumptions C84_partial.
(** The assignment throws: the exception reaches the caller, the number of elements and the
    elements are those of before, but by every key for which the two were in different buckets
    neither the erased element nor the last one is found any more. *)
Theorem C84_refuted : forall (E K : Type) nk (key_of : nat -> E -> K) hash keq rep clone pocca pocma,
  key_laws hash keq -> (forall x e, key_of 0%nat (rep x e) = key_of 0%nat x) -> (forall j e, (j < nk)%nat -> key_of j (clone e) = key_of j e) ->
  forall v s c i, doccurs nk key_of hash keq rep clone pocca pocma s -> dcall_ok nk c -> displaces key_of keq s c i ->
  exists t, t_exec nk key_of hash keq rep true v s c = Ok (t, QThrow) /\ d_size t = d_size s /\ delems t = delems s /\
    forall j x y, (j < nk)%nat -> apart key_of hash s j i (d_size s - 1) -> d_nodes s i = Some x -> d_nodes s (d_size s - 1) = Some y ->
      contains key_of hash keq t j (key_of j (n_val x)) = Ok false /\ contains key_of hash keq t j (key_of j (n_val y)) = Ok false.
Proof.
  exact (fun E K nk key_of hash keq rep clone pocca pocma KL R C v s c i Ho =>
    EraseThrowProofs.throw_lost nk key_of hash keq rep KL v s c i (DenseFinal.occurs_wf nk key_of hash keq rep clone pocca pocma KL R C s Ho)).
Qed.
Print Assumptions C84_refuted.
(** If in the bucket of an absent key the erased element comes before the last one, with other
    elements between them, a search for that key never ends afterwards. *)
Theorem C84_cycle_refuted : forall (E K : Type) nk (key_of : nat -> E -> K) hash keq rep clone pocca pocma,
  key_laws hash keq -> (forall x e, key_of 0%nat (rep x e) = key_of 0%nat x) -> (forall j e, (j < nk)%nat -> key_of j (clone e) = key_of j e) ->
  forall v s c i j k a m b, doccurs nk key_of hash keq rep clone pocca pocma s -> dcall_ok nk c -> displaces key_of keq s c i -> (j < nk)%nat ->
  chain_of hash s j k (a ++ i :: m :: b ++ [d_size s - 1]) -> (forall p n, d_nodes s p = Some n -> keq (key_of j (n_val n)) k = false) ->
  exists t, t_exec nk key_of hash keq rep true v s c = Ok (t, QThrow) /\
    forall fuel, find_loop key_of keq fuel t j k (hash k) (PBucket (hash k mod d_bc t)) = Err Diverges.
Proof.
  exact (fun E K nk key_of hash keq rep clone pocca pocma KL R C v s c i j k a m b Ho =>
    EraseThrowProofs.throw_cycle nk key_of hash keq rep KL v s c i j k a m b (DenseFinal.occurs_wf nk key_of hash keq rep clone pocca pocma KL R C s Ho)).
Qed.
Print Assumptions C84_cycle_refuted.

(** Maps built by insertions of (k, 10 k). *)
Definition made (l : list Z) : dense entry := dmap (map (fun k => XOn 0 (DInsert (k, 10 * k))) l) 0.
Definition looks (s : dense entry) (l : list Z) : list (res bool) := map (fun k => contains key1 ehash ekeq s 0 k) l.
Definition shown (x : res (dense entry * dret entry)) (l : list Z) : res (list entry * dret entry * list (res bool)) :=
  let* y := x in Ok (delems (fst y), snd y, looks (fst y) l).
(** Keys 3, 4 and 5: erasing 3 without a throw, 5 (the last) and 7 (absent) whatever happens. *)
Example C84_case : let s := made [3; 4; 5] in
  doccurs 1 key1 ehash ekeq erep sameel false true s /\
  shown (t_exec 1 key1 ehash ekeq erep false dv0 s (DErase 0 3)) [3; 4; 5] = Ok ([(5, 50); (4, 40)], QNext (Some (5, 50)), [Ok false; Ok true; Ok true]) /\
  shown (t_exec 1 key1 ehash ekeq erep true dv0 s (DErase 0 5)) [3; 4; 5] = Ok ([(3, 30); (4, 40)], QNext None, [Ok true; Ok true; Ok false]) /\
  shown (t_exec 1 key1 ehash ekeq erep true dv0 s (DErase 0 7)) [3; 4; 5] = Ok ([(3, 30); (4, 40); (5, 50)], QNext None, [Ok true; Ok true; Ok true]).
Proof. split; [apply dmap_occurs; vm_compute; reflexivity|]. vm_compute. repeat split. Qed.
(** Erasing 3 by key, or through its iterator, with a throw: 3 and 5 are both lost. *)
Example C84_refuted_case : let s := made [3; 4; 5] in
  doccurs 1 key1 ehash ekeq erep sameel false true s /\ displaces key1 ekeq s (DErase 0 3) 0 /\ apart key1 ehash s 0 0 2 /\
  shown (t_exec 1 key1 ehash ekeq erep true dv0 s (DErase 0 3)) [3; 4; 5] = Ok ([(3, 30); (4, 40); (5, 50)], QThrow, [Ok false; Ok true; Ok false]) /\
  shown (t_exec 1 key1 ehash ekeq erep true dv0 s (DEraseAt 0)) [3; 4; 5] = Ok ([(3, 30); (4, 40); (5, 50)], QThrow, [Ok false; Ok true; Ok false]).
Proof.
  split; [apply dmap_occurs; vm_compute; reflexivity|]. split; [split; [vm_compute; split; congruence|]; eexists; split; vm_compute; reflexivity|].
  split; [eexists _, _; split; [vm_compute; reflexivity|split; [vm_compute; reflexivity|vm_compute; discriminate]]|]. vm_compute. split; reflexivity.
Qed.
(** Keys 3, 11 and 19 in one of eight buckets: after the throw a search for 27 goes round for ever. *)
Example C84_cycle_case : let s := made [3; 11; 19] in
  doccurs 1 key1 ehash ekeq erep sameel false true s /\ d_bc s = 8 /\ displaces key1 ekeq s (DErase 0 3) 0 /\ chain_of ehash s 0 27 ([] ++ 0 :: 1 :: [] ++ [2]) /\
  contains key1 ehash ekeq s 0 27 = Ok false /\
  shown (t_exec 1 key1 ehash ekeq erep true dv0 s (DErase 0 3)) [3; 11; 19; 27] = Ok ([(3, 30); (11, 110); (19, 190)], QThrow, [Ok true; Ok true; Err Diverges; Err Diverges]).
Proof.
  split; [apply dmap_occurs; vm_compute; reflexivity|]. split; [vm_compute; reflexivity|]. split; [split; [vm_compute; split; congruence|]; eexists; split; vm_compute; reflexivity|].
  split; [vm_compute; repeat split; discriminate|]. vm_compute. split; reflexivity.
Qed.
