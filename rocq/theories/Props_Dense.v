(** Properties of the unordered dense containers (C29-C34, C38-C41, C48, C49).  Unless
    stated otherwise, dense tables are those that occur at some point of some program
    ([doccurs]), for any number [nk] of keys per element. *)
From Coq Require Import ZArith List Bool Lia Permutation.
From Verif Require Import Base MapSpec Bits SwissModel SwissRun SwissFinal Instances Float32 DenseSpec DenseWorldSpec World DenseModel DenseRun DenseMono DenseReserve DenseWorld DenseInstances DenseFinal.
Import ListNotations.
Open Scope Z_scope.

Definition ins (l : list Z) : list (xcall entry Z) := map (fun k => XOn 0 (DInsert (k, 10 * k))) l.
Definition seven : dense entry := dmap (ins [1; 2; 3; 4; 5; 6; 7]) 0.

(** C29, as far as it holds: the elements of the container are the same after a call that
    threw, and all later calls behave as before, unless the failed allocation was that of a
    larger bucket array for a table that already had one.  Missing: that case (next
    theorem). *)
Theorem C29_partial : forall (E K : Type) nk (key_of : nat -> E -> K) hash keq rep clone pocca pocma,
  key_laws hash keq -> (forall x e, key_of 0%nat (rep x e) = key_of 0%nat x) -> (forall j e, (j < nk)%nat -> key_of j (clone e) = key_of j e) ->
  forall (s s' : dense E) v c, doccurs nk key_of hash keq rep clone pocca pocma s -> denv_ok v -> dcall_ok nk c -> dcall_pre c (delems s) ->
  dexec nk key_of hash keq rep v s c = Ok (s', QThrow) ->
  delems s' = delems s /\
  (d_sok s' = true -> forall h, dhistory_ok nk h -> drefines nk key_of hash keq rep s' (delems s) h) /\
  (d_sok s' = false -> 0 < d_bc s).
Proof. exact (fun E K nk key_of hash keq rep clone pocca pocma KL R C => throw_contents nk key_of hash keq rep clone pocca pocma KL R C). Qed.
Print Assumptions C29_partial.

Example C29_case :
  match dexec 1 key1 ehash ekeq erep (mkdv 2 8) (dmap (ins [1; 2]) 0) (DInsert (3, 30)) with
  | Ok (s', r) => r = QThrow /\ d_sok s' = true /\ delems s' = [(1, 10); (2, 20)] /\
      dexec 1 key1 ehash ekeq erep dv0 s' (DFind 0 2) = Ok (s', QFound (Some (2, 20)))
  | Err _ => False
  end.
Proof. vm_compute. repeat split; reflexivity. Qed.

(** An insertion that fails to allocate a larger bucket array leaves a freed bucket array
    behind: the next lookup reads freed memory. *)
Theorem C29_refuted : exists (s s' : dense entry) v, dnormal s /\ denv_ok v /\ dexec 1 key1 ehash ekeq erep v s (DInsert (8, 80)) = Ok (s', QThrow) /\
  dexec 1 key1 ehash ekeq erep dv0 s' (DFind 0 1) = Err UseAfterFree.
Proof.
  exists seven. eexists. exists (mkdv (2 ^ 40) 8). split; [apply dmap_occurs; vm_compute; reflexivity|].
  split; [split; reflexivity|]. split; vm_compute; reflexivity.
Qed.
Print Assumptions C29_refuted.

(** C30, C31: every history of calls, on a container with any number of keys per element,
    has the results of the list model and keeps the keys pairwise different, until a call
    that is not covered: an invalid iterator argument, erase(key) on a table without buckets
    (never the case after an insertion; C32), or a failed allocation of a larger bucket
    array (C29).  Missing: what follows such an allocation (C30_refuted; with enough memory
    there is none: C55_dense_history). *)
Theorem C30_partial : forall (E K : Type) nk (key_of : nat -> E -> K) hash keq rep,
  key_laws hash keq -> (forall x e, key_of 0%nat (rep x e) = key_of 0%nat x) ->
  forall h, dhistory_ok nk h -> drefines nk key_of hash keq rep empty_dense [] h.
Proof. exact (fun E K nk key_of hash keq rep KL R => histories nk key_of hash keq rep KL R). Qed.
Print Assumptions C30_partial.

Example C30_case :
  let h := dcalls [DInsert (1, 10); DEmplace (9, 90); DInsert (17, 170); DInsert (1, 11); DAssign (9, 91); DFind 0 17; DErase 0 1; DIterate; DReserve 20;
                   DFind 0 9; DContains 0 1; DEraseAt 0; DIterate; DClear; DSize] in
  dhistory_ok 1 h /\
  results (drun 1 key1 ehash ekeq erep empty_dense h) =
    Ok [QInserted (1, 10) true; QInserted (9, 90) true; QInserted (17, 170) true; QInserted (1, 10) false; QInserted (9, 91) false; QFound (Some (17, 170));
        QNext (Some (17, 170)); QList [(17, 170); (9, 91)]; QUnit; QFound (Some (9, 91)); QBool false; QNext (Some (9, 91)); QList [(9, 91)]; QUnit; QNum 0].
Proof. split; [apply dcalls_ok; vm_compute; reflexivity|vm_compute; reflexivity]. Qed.

(** All elements in one chain. *)
Example C30_collisions_case :
  results (drun 1 key1 chash ekeq erep empty_dense (dcalls [DInsert (1, 10); DInsert (2, 20); DInsert (3, 30); DErase 0 2; DInsert (4, 40); DErase 0 1; DIterate; DFind 0 3; DFind 0 2])) =
    Ok [QInserted (1, 10) true; QInserted (2, 20) true; QInserted (3, 30) true; QNext (Some (3, 30)); QInserted (4, 40) true; QNext (Some (4, 40));
        QList [(4, 40); (3, 30)]; QFound (Some (3, 30)); QFound None].
Proof. vm_compute. reflexivity. Qed.

(** Without the last exclusion C30 fails: the eighth insertion cannot get 16 buckets and
    throws, and the lookup of the first element reads the freed array. *)
Theorem C30_refuted : exists h : list (denv * dcall entry Z), dhistory_ok 1 h /\ map snd h = map (fun k => DInsert (k, 10 * k)) [1; 2; 3; 4; 5; 6; 7; 8] ++ [DFind 0 1] /\
  drun 1 key1 ehash ekeq erep empty_dense h = Err UseAfterFree /\
  exists s, drun 1 key1 ehash ekeq erep empty_dense (firstn 8 h) = Ok (s, map (fun k => QInserted (k, 10 * k) true) [1; 2; 3; 4; 5; 6; 7] ++ [QThrow]).
Proof.
  exists (map (fun k => (mkdv (2 ^ 40) 8, DInsert (k, 10 * k))) [1; 2; 3; 4; 5; 6; 7; 8] ++ [(dv0, DFind 0 1)]).
  split; [repeat (constructor; [split; [split; reflexivity|cbn; auto]|]); constructor|]. split; [reflexivity|]. split; [vm_compute; reflexivity|eexists; vm_compute; reflexivity].
Qed.
Print Assumptions C30_refuted.

(** C31: an element is inserted iff none of its keys is taken under the same index (unless
    memory is refused), ... *)
Theorem C31_insert : forall (E K : Type) nk (key_of : nat -> E -> K) hash keq rep clone pocca pocma,
  key_laws hash keq -> (forall x e, key_of 0%nat (rep x e) = key_of 0%nat x) -> (forall j e, (j < nk)%nat -> key_of j (clone e) = key_of j e) ->
  forall (s : dense E) e v, doccurs nk key_of hash keq rep clone pocca pocma s -> denv_ok v ->
  exists s' r, dexec nk key_of hash keq rep v s (DInsert e) = Ok (s', r) /\ delems s' = delems s ++ (match r with QInserted _ true => [e] | _ => [] end) /\
    (r = QThrow \/ (r = QInserted e true /\ dnew nk key_of keq e (delems s)) \/ exists x, r = QInserted x false /\ dclash nk key_of keq e (delems s) x).
Proof. exact (fun E K nk key_of hash keq rep clone pocca pocma KL R C => inserted_iff nk key_of hash keq rep clone pocca pocma KL R C). Qed.
Print Assumptions C31_insert.

(** ... every element is found under each of its keys, ... *)
Theorem C31_found : forall (E K : Type) nk (key_of : nat -> E -> K) hash keq rep clone pocca pocma,
  key_laws hash keq -> (forall x e, key_of 0%nat (rep x e) = key_of 0%nat x) -> (forall j e, (j < nk)%nat -> key_of j (clone e) = key_of j e) ->
  forall (s : dense E) x j v, doccurs nk key_of hash keq rep clone pocca pocma s -> In x (delems s) -> (j < nk)%nat ->
  dexec nk key_of hash keq rep v s (DFind j (key_of j x)) = Ok (s, QFound (Some x)).
Proof. exact (fun E K nk key_of hash keq rep clone pocca pocma KL R C => found_all nk key_of hash keq rep clone pocca pocma KL R C). Qed.
Print Assumptions C31_found.

(** ... and an element erased by one of its keys under none of them. *)
Theorem C31_erased : forall (E K : Type) nk (key_of : nat -> E -> K) hash keq rep clone pocca pocma,
  key_laws hash keq -> (forall x e, key_of 0%nat (rep x e) = key_of 0%nat x) -> (forall j e, (j < nk)%nat -> key_of j (clone e) = key_of j e) ->
  forall (s s' : dense E) x j v r, doccurs nk key_of hash keq rep clone pocca pocma s -> In x (delems s) -> (j < nk)%nat ->
  dexec nk key_of hash keq rep v s (DErase j (key_of j x)) = Ok (s', r) ->
  forall j' v', (j' < nk)%nat -> dexec nk key_of hash keq rep v' s' (DFind j' (key_of j' x)) = Ok (s', QFound None).
Proof. exact (fun E K nk key_of hash keq rep clone pocca pocma KL R C => erased_all nk key_of hash keq rep clone pocca pocma KL R C). Qed.
Print Assumptions C31_erased.

(** Two keys: an element is refused if either key is taken; erase<1>(200) removes (2, 200)
    under both keys. *)
Example C31_case :
  results (drun 2 key2 ehash ekeq erep empty_dense
    (dcalls [DInsert (1, 100); DInsert (2, 200); DInsert (3, 100); DInsert (2, 300); DInsert (3, 300); DFind 1 300; DErase 1 200; DFind 0 2; DFind 1 200; DFind 0 3; DIterate])) =
    Ok [QInserted (1, 100) true; QInserted (2, 200) true; QInserted (1, 100) false; QInserted (2, 200) false; QInserted (3, 300) true; QFound (Some (3, 300));
        QNext (Some (3, 300)); QFound None; QFound None; QFound (Some (3, 300)); QList [(1, 100); (3, 300)]].
Proof. vm_compute. reflexivity. Qed.
Example C31_occurs_case : doccurs 2 key2 ehash ekeq erep sameel false true (dset2 (ins [1; 2; 3]) 0) /\ delems (dset2 (ins [1; 2; 3]) 0) = [(1, 10); (2, 20); (3, 30)].
Proof. split; [apply dset2_occurs; vm_compute; reflexivity|vm_compute; reflexivity]. Qed.

(** C32: erase(key) with an absent key on a container with buckets.  Missing: containers
    without buckets, where the call dereferences a null pointer (second half, and the
    witness below). *)
Theorem C32_partial : forall (E K : Type) nk (key_of : nat -> E -> K) hash keq rep clone pocca pocma,
  key_laws hash keq -> (forall x e, key_of 0%nat (rep x e) = key_of 0%nat x) -> (forall j e, (j < nk)%nat -> key_of j (clone e) = key_of j e) ->
  forall (s : dense E) v j k, doccurs nk key_of hash keq rep clone pocca pocma s -> (j < nk)%nat -> dabsent key_of keq j k (delems s) ->
  (0 < d_bc s -> dexec nk key_of hash keq rep v s (DErase j k) = Ok (s, QNext None)) /\
  (d_bc s = 0 -> dexec nk key_of hash keq rep v s (DErase j k) = Err NullDeref).
Proof. exact (fun E K nk key_of hash keq rep clone pocca pocma KL R C => erase_absent nk key_of hash keq rep clone pocca pocma KL R C). Qed.
Print Assumptions C32_partial.

Example C32_case : dexec 1 key1 ehash ekeq erep dv0 seven (DErase 0 9) = Ok (seven, QNext None).
Proof.
  unfold seven. apply (C32_partial entry Z 1 key1 ehash ekeq erep sameel false true elaws key1_rep (sameel_key 1 key1)).
  - apply dmap_occurs. vm_compute. reflexivity.
  - lia.
  - intros x Hx. vm_compute in Hx. repeat (destruct Hx as [<-|Hx]; [reflexivity|]). destruct Hx.
  - vm_compute. reflexivity.
Qed.
Theorem C32_refuted : exists s : dense entry, dnormal s /\ delems s = [] /\ dexec 1 key1 ehash ekeq erep dv0 s (DErase 0 1) = Err NullDeref.
Proof. exists (dmap [] 0). split; [apply dmap_occurs; reflexivity|]. split; reflexivity. Qed.
Print Assumptions C32_refuted.

(** C33: erase_if with a predicate that matches no element returns 0 and changes nothing.
    Missing: every other predicate: the loop keeps the end iterator from before the first
    erasure, so the predicate is applied to a dead element whenever something was erased
    (second half). *)
Theorem C33_partial : forall (E K : Type) nk (key_of : nat -> E -> K) hash keq rep clone pocca pocma,
  key_laws hash keq -> (forall x e, key_of 0%nat (rep x e) = key_of 0%nat x) -> (forall j e, (j < nk)%nat -> key_of j (clone e) = key_of j e) ->
  forall (s : dense E) pred, doccurs nk key_of hash keq rep clone pocca pocma s ->
  ((forall x, In x (delems s) -> pred x = false) -> erase_if nk pred s = Ok (s, 0)) /\
  ((exists x, In x (delems s) /\ pred x = true) -> erase_if nk pred s = Err DeadObject).
Proof. exact (fun E K nk key_of hash keq rep clone pocca pocma KL R C => erase_if_final nk key_of hash keq rep clone pocca pocma KL R C). Qed.
Print Assumptions C33_partial.

Example C33_case : erase_if 1 (fun e : entry => fst e =? 9) seven = Ok (seven, 0).
Proof.
  unfold seven. apply (C33_partial entry Z 1 key1 ehash ekeq erep sameel false true elaws key1_rep (sameel_key 1 key1)).
  - apply dmap_occurs. vm_compute. reflexivity.
  - intros x Hx. vm_compute in Hx. repeat (destruct Hx as [<-|Hx]; [reflexivity|]). destruct Hx.
Qed.
Theorem C33_refuted : exists s : dense entry, dnormal s /\ erase_if 1 (fun e => fst e =? 1) s = Err DeadObject.
Proof. exists (dmap (ins [1; 2]) 0). split; [apply dmap_occurs; vm_compute; reflexivity|vm_compute; reflexivity]. Qed.
Print Assumptions C33_refuted.

(** C34: erase(begin() + a, begin() + a + n).  (An empty range yields end(), not the
    iterator passed: last part.) *)
Theorem C34_range : forall (E K : Type) nk (key_of : nat -> E -> K) hash keq rep clone pocca pocma,
  key_laws hash keq -> (forall x e, key_of 0%nat (rep x e) = key_of 0%nat x) -> (forall j e, (j < nk)%nat -> key_of j (clone e) = key_of j e) ->
  forall (s : dense E) v a n, doccurs nk key_of hash keq rep clone pocca pocma s -> (a + n <= length (delems s))%nat ->
  exists s' r, dexec nk key_of hash keq rep v s (DEraseRange (Z.of_nat a) (Z.of_nat (a + n))) = Ok (s', QNext r) /\
    Permutation (delems s') (firstn a (delems s) ++ skipn (a + n) (delems s)) /\
    (forall h, dhistory_ok nk h -> drefines nk key_of hash keq rep s' (delems s') h) /\
    (forall x j v', In x (delems s') -> (j < nk)%nat -> dexec nk key_of hash keq rep v' s' (DFind j (key_of j x)) = Ok (s', QFound (Some x))) /\
    (n = O -> r = None).
Proof. exact (fun E K nk key_of hash keq rep clone pocca pocma KL R C => erase_range_final nk key_of hash keq rep clone pocca pocma KL R C). Qed.
Print Assumptions C34_range.

Example C34_case :
  match dexec 1 key1 ehash ekeq erep dv0 seven (DEraseRange 1 4) with
  | Ok (s', r) => r = QNext (Some (5, 50)) /\ delems s' = [(1, 10); (5, 50); (6, 60); (7, 70)] /\
      dexec 1 key1 ehash ekeq erep dv0 s' (DFind 0 6) = Ok (s', QFound (Some (6, 60)))
  | Err _ => False
  end.
Proof. vm_compute. repeat split; reflexivity. Qed.

(** C38: copy construction, ... *)
Theorem C38_construct : forall (E K : Type) nk (key_of : nat -> E -> K) hash keq rep clone pocca pocma,
  key_laws hash keq -> (forall x e, key_of 0%nat (rep x e) = key_of 0%nat x) -> (forall j e, (j < nk)%nat -> key_of j (clone e) = key_of j e) ->
  forall (o : dense E) v, doccurs nk key_of hash keq rep clone pocca pocma o -> denv_ok v ->
  exists s b, copy_ctor nk clone (dv_dlim v) (dv_slim v) o = Ok (s, b) /\
    (b = true -> delems s = map clone (delems o) /\ forall h, dhistory_ok nk h -> drefines nk key_of hash keq rep s (map clone (delems o)) h).
Proof. exact (fun E K nk key_of hash keq rep clone pocca pocma KL R C => copy_ctor_final nk key_of hash keq rep clone pocca pocma KL R C). Qed.
Print Assumptions C38_construct.

(** ... and copy assignment, unless the source is empty, the target is not, and the
    allocator does not propagate.  Missing: that case (next theorem). *)
Theorem C38_assign_partial : forall (E K : Type) nk (key_of : nat -> E -> K) hash keq rep clone pocca pocma,
  key_laws hash keq -> (forall x e, key_of 0%nat (rep x e) = key_of 0%nat x) -> (forall j e, (j < nk)%nat -> key_of j (clone e) = key_of j e) ->
  forall (s o : dense E) v, doccurs nk key_of hash keq rep clone pocca pocma s -> doccurs nk key_of hash keq rep clone pocca pocma o -> denv_ok v ->
  pocca = true \/ delems o <> [] \/ delems s = [] ->
  exists s' b, copy_assign nk clone pocca (dv_dlim v) (dv_slim v) s o = Ok (s', b) /\
    (b = true -> delems s' = map clone (delems o) /\ forall h, dhistory_ok nk h -> drefines nk key_of hash keq rep s' (map clone (delems o)) h).
Proof. exact (fun E K nk key_of hash keq rep clone pocca pocma KL R C => copy_assign_final nk key_of hash keq rep clone pocca pocma KL R C). Qed.
Print Assumptions C38_assign_partial.

Example C38_case :
  match copy_assign 1 sameel false (2 ^ 40) (2 ^ 40) seven (dmap (ins [9; 17]) 0) with
  | Ok (s', b) => b = true /\ delems s' = [(9, 90); (17, 170)] /\
      results (drun 1 key1 ehash ekeq erep s' (dcalls [DFind 0 17; DFind 0 1; DErase 0 9; DIterate])) = Ok [QFound (Some (17, 170)); QFound None; QNext (Some (17, 170)); QList [(17, 170)]]
  | Err _ => False
  end.
Proof. vm_compute. repeat split; reflexivity. Qed.

(** With std::allocator: assigning an empty container keeps the chains of the old elements;
    looking up one of the old keys reads a destroyed element. *)
Theorem C38_refuted : exists s o s' : dense entry, dnormal s /\ dnormal o /\ delems o = [] /\
  copy_assign 1 sameel false (2 ^ 40) (2 ^ 40) s o = Ok (s', true) /\ dexec 1 key1 ehash ekeq erep dv0 s' (DFind 0 1) = Err DeadObject.
Proof.
  exists (dmap (ins [1]) 0), (dmap [] 0). eexists. split; [apply dmap_occurs; vm_compute; reflexivity|]. split; [apply dmap_occurs; reflexivity|].
  split; [reflexivity|]. split; vm_compute; reflexivity.
Qed.
Print Assumptions C38_refuted.

(** C39 for allocators that compare equal: move construction, ... *)
Theorem C39_construct : forall (E K : Type) nk (key_of : nat -> E -> K) hash keq rep clone pocca pocma,
  key_laws hash keq -> (forall x e, key_of 0%nat (rep x e) = key_of 0%nat x) -> (forall j e, (j < nk)%nat -> key_of j (clone e) = key_of j e) ->
  forall (o : dense E) v, doccurs nk key_of hash keq rep clone pocca pocma o ->
  exists s o', move_ctor nk true (dv_dlim v) (dv_slim v) o = Ok (s, o', true) /\ delems s = delems o /\ delems o' = [] /\
    (forall h, dhistory_ok nk h -> drefines nk key_of hash keq rep s (delems o) h) /\ (forall h, dhistory_ok nk h -> drefines nk key_of hash keq rep o' [] h).
Proof. exact (fun E K nk key_of hash keq rep clone pocca pocma KL R C => move_ctor_final nk key_of hash keq rep clone pocca pocma KL R C). Qed.
Print Assumptions C39_construct.

(** ... swap, ... *)
Theorem C39_swap : forall (E K : Type) nk (key_of : nat -> E -> K) hash keq rep clone pocca pocma,
  key_laws hash keq -> (forall x e, key_of 0%nat (rep x e) = key_of 0%nat x) -> (forall j e, (j < nk)%nat -> key_of j (clone e) = key_of j e) ->
  forall (s o : dense E), doccurs nk key_of hash keq rep clone pocca pocma s -> doccurs nk key_of hash keq rep clone pocca pocma o ->
  exists s' o', swap true s o = Ok (s', o') /\ delems s' = delems o /\ delems o' = delems s /\
    (forall h, dhistory_ok nk h -> drefines nk key_of hash keq rep s' (delems o) h) /\ (forall h, dhistory_ok nk h -> drefines nk key_of hash keq rep o' (delems s) h).
Proof. exact (fun E K nk key_of hash keq rep clone pocca pocma KL R C => swap_final nk key_of hash keq rep clone pocca pocma KL R C). Qed.
Print Assumptions C39_swap.

(** ... and move assignment, if the allocator propagates on move assignment (std::allocator
    does) or the target is empty.  Missing: other allocators (next theorem). *)
Theorem C39_assign_partial : forall (E K : Type) nk (key_of : nat -> E -> K) hash keq rep clone pocca pocma,
  key_laws hash keq -> (forall x e, key_of 0%nat (rep x e) = key_of 0%nat x) -> (forall j e, (j < nk)%nat -> key_of j (clone e) = key_of j e) ->
  forall (s o : dense E) v, doccurs nk key_of hash keq rep clone pocca pocma s -> doccurs nk key_of hash keq rep clone pocca pocma o ->
  pocma = true \/ delems s = [] ->
  exists s' o', move_assign nk pocma true (dv_dlim v) (dv_slim v) s o = Ok (s', o', true) /\ delems s' = delems o /\ delems o' = [] /\
    (forall h, dhistory_ok nk h -> drefines nk key_of hash keq rep s' (delems o) h) /\ (forall h, dhistory_ok nk h -> drefines nk key_of hash keq rep o' [] h).
Proof. exact (fun E K nk key_of hash keq rep clone pocca pocma KL R C => move_assign_final nk key_of hash keq rep clone pocca pocma KL R C). Qed.
Print Assumptions C39_assign_partial.

Example C39_case :
  match move_assign 1 true true (2 ^ 40) (2 ^ 40) (dmap (ins [9; 17]) 0) seven with
  | Ok (s', o', b) => b = true /\ delems s' = delems seven /\
      results (drun 1 key1 ehash ekeq erep o' (dcalls [DSize; DFind 0 1; DInsert (1, 11); DIterate])) = Ok [QNum 0; QFound None; QInserted (1, 11) true; QList [(1, 11)]]
  | Err _ => False
  end.
Proof. vm_compute. repeat split; reflexivity. Qed.

(** Without propagation the arrays are swapped, and the moved-from container keeps the
    chains of elements that were destroyed. *)
Theorem C39_refuted : exists s o s' o' : dense entry,
  doccurs 1 key1 ehash ekeq erep sameel false false s /\ doccurs 1 key1 ehash ekeq erep sameel false false o /\
  move_assign 1 false true (2 ^ 40) (2 ^ 40) s o = Ok (s', o', true) /\ delems o' = [] /\
  dexec 1 key1 ehash ekeq erep dv0 o' (DFind 0 1) = Err DeadObject.
Proof.
  exists (xstate 1 key1 ehash ekeq erep sameel false false (prog (ins [1])) 0), (xstate 1 key1 ehash ekeq erep sameel false false (prog (ins [2])) 0).
  eexists. eexists. split; [apply xclear_occurs; [apply prog_ok|]; vm_compute; reflexivity|]. split; [apply xclear_occurs; [apply prog_ok|]; vm_compute; reflexivity|].
  split; [vm_compute; reflexivity|]. split; vm_compute; reflexivity.
Qed.
Print Assumptions C39_refuted.

(** C40 for n < 14680064 = 7/8 * 2^24.  Missing: larger n, where it fails for some n because
    load factors are computed in single precision (next theorem). *)
Theorem C40_partial : forall (E K : Type) nk (key_of : nat -> E -> K) hash keq rep clone pocca pocma,
  key_laws hash keq -> (forall x e, key_of 0%nat (rep x e) = key_of 0%nat x) -> (forall j e, (j < nk)%nat -> key_of j (clone e) = key_of j e) ->
  forall v0 v n (s s1 : dense E) es, doccurs nk key_of hash keq rep clone pocca pocma s -> d_mlf s = (7, 8) -> denv_ok v0 -> 0 <= n < 14680064 ->
  dexec nk key_of hash keq rep v0 s (DReserve n) = Ok (s1, QUnit) -> Z.of_nat (length (delems s1)) + Z.of_nat (length es) <= n ->
  exists s2 rs, drun nk key_of hash keq rep s1 (inserts v es) = Ok (s2, rs) /\ d_bc s2 = d_bc s1 /\ d_cap s2 = d_cap s1 /\ ~ In QThrow rs.
Proof. exact (fun E K nk key_of hash keq rep clone pocca pocma KL R C => reserve_final nk key_of hash keq rep clone pocca pocma KL R C). Qed.
Print Assumptions C40_partial.

Example C40_case :
  match dexec 1 key1 ehash ekeq erep dv0 (dmap (ins [1; 2]) 0) (DReserve 30) with
  | Ok (s1, r) => r = QUnit /\
      match drun 1 key1 ehash ekeq erep s1 (inserts dv0 (map (fun k => (k, k)) (map (Z.add 3) (zrange 28)))) with
      | Ok (s2, rs) => d_bc s2 = d_bc s1 /\ d_cap s2 = d_cap s1 /\ d_size s2 = 30
      | Err _ => False
      end
  | Err _ => False
  end.
Proof. vm_compute. repeat split; reflexivity. Qed.

Theorem C40_refuted : exists (s s1 s2 : dense entry) n es rs, dnormal s /\ 0 <= n < 2 ^ 24 /\
  dexec 1 key1 ehash ekeq erep dv0 s (DReserve n) = Ok (s1, QUnit) /\ d_mlf s1 = (7, 8) /\
  Z.of_nat (length (delems s1)) + Z.of_nat (length es) <= n /\ ForallOrdPairs (fun a b => fst a <> fst b) es /\
  drun 1 key1 ehash ekeq erep s1 (inserts dv0 es) = Ok (s2, rs) /\ d_bc s1 < d_bc s2.
Proof.
  destruct reserve_gap as (s1 & s2 & es & rs & H). exists (dmap [] 0), s1, s2, 14680070, es, rs.
  split; [apply dmap_occurs; reflexivity|]. split; [split; [discriminate|reflexivity]|exact H].
Qed.
Print Assumptions C40_refuted.

(** C41 on dense containers: inserting an element one of whose keys is present changes
    nothing if the element array has room and the load factor is below its maximum.
    Missing: the other states, where the arrays are reallocated before the key is looked
    up (next theorem). *)
Theorem C41_dense_partial : forall (E K : Type) nk (key_of : nat -> E -> K) hash keq rep clone pocca pocma,
  key_laws hash keq -> (forall x e, key_of 0%nat (rep x e) = key_of 0%nat x) -> (forall j e, (j < nk)%nat -> key_of j (clone e) = key_of j e) ->
  forall v (s : dense E) e, doccurs nk key_of hash keq rep clone pocca pocma s ->
  (exists j x, (j < nk)%nat /\ In x (delems s) /\ keq (key_of j x) (key_of j e) = true) -> d_size s < d_cap s -> overloaded s = false ->
  exists x, dexec nk key_of hash keq rep v s (DInsert e) = Ok (s, QInserted x false).
Proof. exact (fun E K nk key_of hash keq rep clone pocca pocma KL R C => insert_present_quiet nk key_of hash keq rep clone pocca pocma KL R C). Qed.
Print Assumptions C41_dense_partial.

Example C41_dense_case : exists x, dexec 1 key1 ehash ekeq erep (mkdv 0 0) (dmap (ins [1; 2; 3]) 0) (DInsert (2, 21)) = Ok (dmap (ins [1; 2; 3]) 0, QInserted x false).
Proof.
  apply (C41_dense_partial entry Z 1 key1 ehash ekeq erep sameel false true elaws key1_rep (sameel_key 1 key1)).
  - apply dmap_occurs. vm_compute. reflexivity.
  - exists 0%nat, (2, 20). split; [lia|]. split; [vm_compute; auto|reflexivity].
  - vm_compute. reflexivity.
  - vm_compute. reflexivity.
Qed.

(** A full element array is reallocated (all elements move), and the bucket array grows. *)
Theorem C41_refuted : exists s s' t t' : dense entry, dnormal s /\ dnormal t /\
  dexec 1 key1 ehash ekeq erep dv0 s (DInsert (1, 11)) = Ok (s', QInserted (1, 10) false) /\ d_cap s < d_cap s' /\
  dexec 1 key1 ehash ekeq erep dv0 t (DInsert (1, 11)) = Ok (t', QInserted (1, 10) false) /\ d_bc t < d_bc t'.
Proof.
  exists (dmap (ins [1; 2]) 0). eexists. exists seven. eexists. split; [apply dmap_occurs; vm_compute; reflexivity|]. split; [apply dmap_occurs; vm_compute; reflexivity|].
  split; [vm_compute; reflexivity|]. split; [vm_compute; reflexivity|]. split; vm_compute; reflexivity.
Qed.
Print Assumptions C41_refuted.

(** C48: programs over several dense containers: every statement has the effect and the
    result of the list specification, until a statement that is not covered ([xblocked]:
    those of C30 and the cases of C33, C38, C39, and assignments left by an exception). *)
Theorem C48_programs : forall (E K : Type) nk (key_of : nat -> E -> K) hash keq rep clone pocca pocma,
  key_laws hash keq -> (forall x e, key_of 0%nat (rep x e) = key_of 0%nat x) -> (forall j e, (j < nk)%nat -> key_of j (clone e) = key_of j e) ->
  forall h, xhistory_ok nk h -> xrefines nk key_of hash keq rep clone pocca pocma h.
Proof. exact (fun E K nk key_of hash keq rep clone pocca pocma KL R C => programs nk key_of hash keq rep clone pocca pocma KL R C). Qed.
Print Assumptions C48_programs.

Definition C48_program : list (xcall entry Z) :=
  [XRange 0 true [(1, 10); (2, 20); (1, 99)] 0; XNew 1 4; XInsertRange 1 true [(3, 30); (4, 40)]; XCopyNew 2 0; XSwap 0 1; XOn 0 (DErase 0 3);
   XMove 3 1; XOn 1 (DInsert (7, 70)); XCopy 0 2; XEraseIf 2 (fun e => fst e =? 5); XOn 0 DIterate; XOn 1 DIterate; XOn 2 DIterate; XOn 3 DIterate;
   XMoveNew 4 3; XOn 3 DIterate; XOn 4 (DFind 0 2)].
Example C48_case : xclear 1 key1 ehash ekeq erep sameel false true xinit (prog C48_program) = true /\
  results (xrun 1 key1 ehash ekeq erep sameel false true xinit (prog C48_program)) =
    Ok [XDone; XDone; XDone; XDone; XDone; XRet (QNext (Some (4, 40))); XDone; XRet (QInserted (7, 70) true); XDone; XCount 0;
        XRet (QList [(1, 10); (2, 20)]); XRet (QList [(7, 70)]); XRet (QList [(1, 10); (2, 20)]); XRet (QList [(1, 10); (2, 20)]);
        XDone; XRet (QList []); XRet (QFound (Some (2, 20)))].
Proof. vm_compute. split; reflexivity. Qed.

(** C49: no call ever lowers the bucket count, whatever the state of the table. *)
Theorem C49_never_shrinks : forall (E K : Type) nk (key_of : nat -> E -> K) hash keq rep h (s t : dense E) rs,
  drun nk key_of hash keq rep s h = Ok (t, rs) -> bucket_count s <= bucket_count t.
Proof. exact (fun E K nk key_of hash keq rep => drun_bc nk key_of hash keq rep). Qed.
Print Assumptions C49_never_shrinks.

Example C49_case :
  match drun 1 key1 ehash ekeq erep seven (dcalls [DInsert (8, 80); DClear; DRehash 3]) with Ok (t, _) => bucket_count seven = 8 /\ bucket_count t = 16 | Err _ => False end.
Proof. vm_compute. split; reflexivity. Qed.
