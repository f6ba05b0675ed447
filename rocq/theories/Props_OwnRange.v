(** Ranges that point into the container itself (C87): s.insert(first, last) and
    s.assign(first, last) with iterators of s. *)
From Coq Require Import ZArith List Bool Lia.
From Verif Require Import Base MapSpec Instances DenseSpec DenseModel DenseRun DenseWorldSpec DenseWorld DenseInstances OwnRangeModel OwnRangeDense.
From Verif Require Import Bits World SwissModel SwissInv SwissRun PlaceInstances OwnRangeSwiss.
Import ListNotations.
Open Scope Z_scope.

(** ** Unordered sparse and stable containers. *)
(** Inserting a range of the container's own iterators does what walking over it does, and leaves
    the container exactly as it was.  (The walk itself can fail on narrow targets, C22.) *)
Theorem C87_sparse : forall (E K : Type) f (key_of : E -> K) hash keq rep,
  key_laws hash keq -> (forall a b, keq (key_of a) (key_of b) = true -> key_of (rep a b) = key_of a) ->
  forall lim s p last, occurs f key_of hash keq rep s ->
  own_insert f key_of hash keq lim s p last = let* _ := walk f (iter_fuel s) s p last in Ok (s, true).
Proof. exact (fun E K f key_of hash keq rep KL R => own_part f key_of hash keq rep KL R). Qed.
Print Assumptions C87_sparse.
Theorem C87_sparse_all : forall (E K : Type) f (key_of : E -> K) hash keq rep,
  key_laws hash keq -> (forall a b, keq (key_of a) (key_of b) = true -> key_of (rep a b) = key_of a) ->
  forall lim s, occurs f key_of hash keq rep s ->
  own_insert_all f key_of hash keq lim s = let* _ := SwissModel.iterate f s in Ok (s, true).
Proof. exact (fun E K f key_of hash keq rep KL R => own_all f key_of hash keq rep KL R). Qed.
Print Assumptions C87_sparse_all.
(** s.assign(s.begin(), s.end()) reads a destroyed element unless s is empty. *)
Theorem C87_sparse_assign_refuted : forall (E K : Type) f (key_of : E -> K) hash keq rep,
  key_laws hash keq -> (forall a b, keq (key_of a) (key_of b) = true -> key_of (rep a b) = key_of a) ->
  forall lim s, occurs f key_of hash keq rep s ->
  own_assign f key_of hash keq lim s =
    let* _ := begin_iter f s in
    if s_size s =? 0 then let* _ := SwissModel.iterate f s in Ok (s, true) else Err DeadObject.
Proof. exact (fun E K f key_of hash keq rep KL R => OwnRangeSwiss.own_assign_dead f key_of hash keq rep KL R). Qed.
Print Assumptions C87_sparse_assign_refuted.

Definition own_table : @swiss entry := state (erun SSE2 [CInsert (1, 10); CInsert (2, 20); CInsert (17, 170); CInsert (5, 50); CErase 2]) empty_swiss.
Example C87_sparse_case : occurs SSE2 ekey ehash ekeq erep own_table /\
  match own_insert_all SSE2 ekey ehash ekeq (2 ^ 40) own_table with Ok (s, b) => b = true /\ length (elems s) = 3%nat /\ elems s = elems own_table | Err _ => False end /\
  match begin_iter SSE2 own_table with Ok p => match iter_next SSE2 own_table p with Ok q => match own_insert SSE2 ekey ehash ekeq (2 ^ 40) own_table p q with Ok (s, b) => b = true /\ elems s = elems own_table | Err _ => False end | Err _ => False end | Err _ => False end /\
  (forall x, own_assign SSE2 ekey ehash ekeq (2 ^ 40) own_table <> Ok x).
Proof.
  split; [apply WorldProofs.reachable_occurs; unfold own_table; apply erun_reachable; [vm_compute; reflexivity|]; eexists; vm_compute; reflexivity|].
  split; [vm_compute; auto|]. split; [vm_compute; auto|]. intros x H. vm_compute in H. discriminate.
Qed.

(** ** Unordered dense containers, for any number [nk] of keys per element. *)
(** The first [n] of the elements from index [lo] are inserted once more.  With room for [n]
    further elements the contents stay as they are.  [d_sok] false: the allocation of a larger
    bucket array threw (C44). *)
Theorem C87_dense_partial : forall (E K : Type) nk (key_of : nat -> E -> K) hash keq rep clone pocca pocma,
  key_laws hash keq -> (forall x e, key_of 0%nat (rep x e) = key_of 0%nat x) -> (forall j e, (j < nk)%nat -> key_of j (clone e) = key_of j e) -> (0 < nk)%nat ->
  forall dlim slim s lo n, slim < 2 ^ 60 -> doccurs nk key_of hash keq rep clone pocca pocma s ->
  Z.of_nat (lo + n) <= d_size s -> d_size s + Z.of_nat n <= d_cap s ->
  exists s' b, d_own_insert nk key_of hash keq dlim slim s lo n = Ok (s', b) /\ delems s' = delems s /\
    if b then forall hist, dhistory_ok nk hist -> drefines nk key_of hash keq rep s' (delems s) hist
    else d_sok s' = false \/ forall hist, dhistory_ok nk hist -> drefines nk key_of hash keq rep s' (delems s) hist.
Proof. exact (fun E K nk key_of hash keq rep clone pocca pocma KL R C Hnk dlim slim s lo n Hs => own_room nk key_of hash keq rep clone pocca pocma KL R C Hnk dlim slim Hs s lo n). Qed.
Print Assumptions C87_dense_partial.
(** Without that room the call reserves it first, and the iterators point into a freed array,
    unless an allocation throws. *)
Theorem C87_dense_growth_refuted : forall (E K : Type) nk (key_of : nat -> E -> K) hash keq rep clone pocca pocma,
  key_laws hash keq -> (forall x e, key_of 0%nat (rep x e) = key_of 0%nat x) -> (forall j e, (j < nk)%nat -> key_of j (clone e) = key_of j e) ->
  forall dlim slim s lo n, dlim < 2 ^ 59 -> slim < 2 ^ 60 -> doccurs nk key_of hash keq rep clone pocca pocma s ->
  (0 < n)%nat -> Z.of_nat (lo + n) <= d_size s -> d_cap s < d_size s + Z.of_nat n ->
  d_own_insert nk key_of hash keq dlim slim s lo n = Err UseAfterFree \/
  exists s', d_own_insert nk key_of hash keq dlim slim s lo n = Ok (s', false) /\ delems s' = delems s /\
    (d_sok s' = false \/ forall hist, dhistory_ok nk hist -> drefines nk key_of hash keq rep s' (delems s) hist).
Proof. exact (fun E K nk key_of hash keq rep clone pocca pocma KL R C dlim slim s lo n Hd Hs => own_freed nk key_of hash keq rep clone pocca pocma KL R C dlim slim Hd Hs s lo n). Qed.
Print Assumptions C87_dense_growth_refuted.
Theorem C87_dense_assign_refuted : forall (E K : Type) nk (key_of : nat -> E -> K) hash keq rep clone pocca pocma,
  key_laws hash keq -> (forall x e, key_of 0%nat (rep x e) = key_of 0%nat x) -> (forall j e, (j < nk)%nat -> key_of j (clone e) = key_of j e) ->
  forall dlim slim s lo n, slim < 2 ^ 60 -> doccurs nk key_of hash keq rep clone pocca pocma s ->
  (0 < n)%nat -> Z.of_nat (lo + n) <= d_size s ->
  d_own_assign nk key_of hash keq dlim slim s lo n = Err DeadObject \/
  exists s', d_own_assign nk key_of hash keq dlim slim s lo n = Ok (s', false) /\ delems s' = [].
Proof. exact (fun E K nk key_of hash keq rep clone pocca pocma KL R C dlim slim s lo n Hs => OwnRangeDense.own_assign_dead nk key_of hash keq rep clone pocca pocma KL R C dlim slim Hs s lo n). Qed.
Print Assumptions C87_dense_assign_refuted.

Definition own_dense (r : Z) : dense entry := dmap (DenseWorldSpec.XOn 0 (DReserve r) :: map (fun k => DenseWorldSpec.XOn 0 (DInsert (k, 10 * k))) [1; 9; 17]) 0.
Example C87_dense_case :
  (forall r, In r [0; 3; 4; 6] -> doccurs 1 key1 ehash ekeq erep sameel false true (own_dense r)) /\
  match d_own_insert 1 key1 ehash ekeq (2 ^ 40) (2 ^ 40) (own_dense 6) 0 3 with Ok (s, b) => b = true /\ delems s = [(1, 10); (9, 90); (17, 170)] | Err _ => False end /\
  match d_own_insert 1 key1 ehash ekeq (2 ^ 40) (2 ^ 40) (own_dense 4) 2 1 with Ok (s, b) => b = true /\ delems s = [(1, 10); (9, 90); (17, 170)] | Err _ => False end /\
  match d_own_insert 1 key1 ehash ekeq 5 (2 ^ 40) (own_dense 3) 0 3 with Ok (s, b) => b = false /\ delems s = [(1, 10); (9, 90); (17, 170)] | Err _ => False end.
Proof.
  split; [intros r Hr; repeat (destruct Hr as [<-|Hr]; [apply dmap_occurs; vm_compute; reflexivity|]); destruct Hr|]. vm_compute. auto 8.
Qed.
(** s.insert(s.begin(), s.end()) on a container with three elements. *)
Theorem C87_refuted : exists s, doccurs 1 key1 ehash ekeq erep sameel false true s /\ delems s = [(1, 10); (9, 90); (17, 170)] /\
  d_own_insert 1 key1 ehash ekeq (2 ^ 40) (2 ^ 40) s 0 3 = Err UseAfterFree /\
  d_own_assign 1 key1 ehash ekeq (2 ^ 40) (2 ^ 40) s 0 3 = Err DeadObject.
Proof. exists (own_dense 3). split; [apply dmap_occurs; vm_compute; reflexivity|]. vm_compute. auto. Qed.
Print Assumptions C87_refuted.
