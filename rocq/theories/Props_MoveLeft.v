(** Containers moved between unequal allocators after moving an element threw (C86). *)
From Coq Require Import ZArith List Bool Lia.
From Verif Require Import Float32 DenseSpec DenseWorldSpec DenseModel DenseRun DenseWorld DenseInstances.
From Verif Require Import Base Bits MapSpec SwissModel SwissInv SwissIter SwissRun World WorldProofs Instances PlaceInstances.
From Verif Require Import MoveFinal CopyModel MoveLeftModel MoveLeftSwiss.
From Verif Require DenseFinal MoveLeftDense.
Import ListNotations.
Open Scope Z_scope.

(** Sparse containers: if no move throws before the last element is moved, the calls are those of
    C68; if the first one throws, the source is as it was, and the target, if there is one, is
    empty. *)
Theorem C86_partial : forall (E K : Type) f (key_of : E -> K) hash keq rep,
  key_laws hash keq -> (forall a b, keq (key_of a) (key_of b) = true -> key_of (rep a b) = key_of a) ->
  forall lim o, occurs f key_of hash keq rep o ->
  (forall n, (length (elems o) <= n)%nat ->
     m_move_ctor f false n lim o = move_ctor f false lim o /\
     forall s, occurs f key_of hash keq rep s -> bucket_count s <= bucket_count o -> m_move_assign f false n lim s o = move_assign f false false lim s o) /\
  (elems o <> [] -> bucket_count o <= lim ->
     (exists t, m_move_ctor f false 0 lim o = Ok (t, o, false)) /\
     forall s, occurs f key_of hash keq rep s -> bucket_count s <= bucket_count o ->
       exists t, m_move_assign f false 0 lim s o = Ok (t, o, false) /\ size t = 0 /\ elems t = [] /\ forall k, contains f key_of hash keq t k = Ok false).
Proof. exact (fun E K f key_of hash keq rep KL R => left_first f key_of hash keq KL rep R). Qed.
Print Assumptions C86_partial.
Definition ml_src : @swiss entry := later empty_swiss (map (fun k => CInsert (k, 10 * k)) [3; 11; 4; 8; 19]).
Definition ml_dst : @swiss entry := later empty_swiss [CInsert (1, 1); CInsert (4, 4)].
Example C86_case : occurs SSE2 ekey ehash ekeq erep ml_src /\ occurs SSE2 ekey ehash ekeq erep ml_dst /\ bucket_count ml_dst <= bucket_count ml_src /\
  match m_move_assign SSE2 false 5 100 ml_dst ml_src with Ok (t, o, true) => size t = 5 /\ elems t = elems ml_src /\ size o = 0 /\ elems o = [] | _ => False end /\
  match m_move_assign SSE2 false 0 100 ml_dst ml_src with Ok (t, o, false) => elems t = [] /\ elems o = elems ml_src | _ => False end.
Proof.
  split; [apply later_occurs; [vm_compute; reflexivity|eexists; vm_compute; reflexivity]|]. split; [apply later_occurs; [vm_compute; reflexivity|eexists; vm_compute; reflexivity]|].
  split; [vm_compute; discriminate|]. vm_compute. repeat split.
Qed.

(** Sparse containers: whenever a later move throws, the program is ended if the [noexcept]
    clause holds; otherwise the source still counts the elements that were moved out and
    destroyed: destroying, clearing or iterating it, and searching for any of these elements,
    touches destroyed objects.  The target of an assignment counts none of the elements it
    holds; the elements and buffer of a construction are lost. *)
Theorem C86_refuted : forall (E K : Type) f (key_of : E -> K) hash keq rep,
  key_laws hash keq -> (forall a b, keq (key_of a) (key_of b) = true -> key_of (rep a b) = key_of a) ->
  forall n lim o, occurs f key_of hash keq rep o -> (0 < n < length (elems o))%nat -> bucket_count o <= lim ->
  let broken o1 := size o1 = size o /\ elems o1 = skipn n (elems o) /\
    destroy f o1 = Err DeadObject /\ clear f o1 = Err DeadObject /\
    (forall e, In e (firstn n (elems o)) -> contains f key_of hash keq o1 (key_of e) = Err DeadObject) /\
    (iterate f o1 = Err DeadObject \/ ((f = NEON \/ f = WORD) /\ iterate f o1 = Err BitScanZero)) in
  m_move_ctor f true n lim o = Err Terminated /\
  (exists t o1, m_move_ctor f false n lim o = Ok (t, o1, false) /\ broken o1 /\ elems t = firstn n (elems o) /\ s_buf t = Live /\ bucket_count t = bucket_count o) /\
  forall s, occurs f key_of hash keq rep s -> bucket_count s <= bucket_count o ->
    m_move_assign f true n lim s o = Err Terminated /\
    exists t o1, m_move_assign f false n lim s o = Ok (t, o1, false) /\ broken o1 /\
      size t = 0 /\ elems t = firstn n (elems o) /\ (forall k, contains f key_of hash keq t k = Ok false) /\ clear f t = Ok t /\ destroy f t = Ok t.
Proof. exact (fun E K f key_of hash keq rep KL R => left_later f key_of hash keq KL rep R). Qed.
Print Assumptions C86_refuted.
(** The third of five moves throws. *)
Example C86_refuted_case : (0 < 2 < length (elems ml_src))%nat /\ bucket_count ml_src <= 100 /\
  match m_move_ctor SSE2 false 2 100 ml_src with
  | Ok (t, o, false) => elems t = [(8, 80); (3, 30)] /\ size o = 5 /\ elems o = [(11, 110); (4, 40); (19, 190)] /\
      contains SSE2 ekey ehash ekeq o 3 = Err DeadObject /\ contains SSE2 ekey ehash ekeq o 4 = Ok true /\ iterate SSE2 o = Err DeadObject /\ destroy SSE2 o = Err DeadObject
  | _ => False
  end.
Proof. vm_compute. repeat split; lia || discriminate. Qed.

(** Dense containers: with enough moves the calls are those of C68.  Whenever a move throws
    that the caller sees (or memory is refused as in C68), the target holds the elements moved
    before and behaves as a container with these elements; after a throwing first move the
    source is as it was. *)
Theorem C86_dense_partial : forall (E K : Type) nk (key_of : nat -> E -> K) hash keq rep clone pocca pocma,
  key_laws hash keq -> (forall x e, key_of 0%nat (rep x e) = key_of 0%nat x) -> (forall j e, (j < nk)%nat -> key_of j (clone e) = key_of j e) ->
  let occ := doccurs nk key_of hash keq rep clone pocca pocma in
  forall s o v n, occ s -> occ o -> denv_ok v ->
  ((length (delems o) <= n)%nat -> dm_move_assign nk false n (dv_dlim v) (dv_slim v) s o = DenseModel.move_assign nk false false (dv_dlim v) (dv_slim v) s o /\
     dm_move_ctor nk false n (dv_dlim v) (dv_slim v) o = DenseModel.move_ctor nk false (dv_dlim v) (dv_slim v) o) /\
  ((n < length (delems o))%nat ->
     (exists t, DenseModel.move_assign nk false false (dv_dlim v) (dv_slim v) s o = Ok (t, o, false) /\ dm_move_assign nk false n (dv_dlim v) (dv_slim v) s o = Ok (t, o, false)) \/
     exists t o1, dm_move_assign nk false n (dv_dlim v) (dv_slim v) s o = Ok (t, o1, false) /\ delems t = firstn n (delems o) /\
       (forall h, dhistory_ok nk h -> drefines nk key_of hash keq rep t (delems t) h) /\ (n = 0%nat -> o1 = o)).
Proof. exact (fun E K nk key_of hash keq rep clone pocca pocma KL R C => MoveLeftDense.dense_partial nk key_of hash keq rep clone pocca pocma KL R C). Qed.
Print Assumptions C86_dense_partial.
Definition mld_src : dense entry := dmap (map (fun k => XOn 0 (DInsert (k, 10 * k))) [3; 11; 4; 8; 19]) 0.
Definition mld_dst : dense entry := dmap [XOn 0 (DInsert (1, 1)); XOn 0 (DInsert (4, 4))] 0.
Example C86_dense_case : doccurs 1 key1 ehash ekeq erep sameel false true mld_src /\ doccurs 1 key1 ehash ekeq erep sameel false true mld_dst /\
  match dm_move_assign 1 false 2 100 100 mld_dst mld_src with
  | Ok (t, _, false) => delems t = [(3, 30); (11, 110)] /\
      match drun 1 key1 ehash ekeq erep t (dcalls [DSize; DContains 0 11; DContains 0 4; DInsert (4, 5); DIterate]) with
      | Ok (_, rs) => rs = [QNum 2; QBool true; QBool false; QInserted (4, 5) true; QList [(3, 30); (11, 110); (4, 5)]] | Err _ => False end
  | _ => False
  end.
Proof. split; [apply dmap_occurs; vm_compute; reflexivity|]. split; [apply dmap_occurs; vm_compute; reflexivity|]. vm_compute. repeat split. Qed.

(** Dense containers: whenever a move other than the first throws, the program is ended if the
    [noexcept] clause holds; otherwise (memory not being refused) the source is left as above. *)
Theorem C86_dense_refuted : forall (E K : Type) nk (key_of : nat -> E -> K) hash keq rep clone pocca pocma,
  key_laws hash keq -> (forall x e, key_of 0%nat (rep x e) = key_of 0%nat x) -> (forall j e, (j < nk)%nat -> key_of j (clone e) = key_of j e) ->
  let occ := doccurs nk key_of hash keq rep clone pocca pocma in
  forall s o v n, occ s -> occ o -> denv_ok v -> (0 < n < length (delems o))%nat ->
  let broken o1 := DenseModel.size o1 = DenseModel.size o /\ delems o1 = skipn n (delems o) /\
    clear_data o1 = Err DeadObject /\ DenseModel.clear o1 = Err DeadObject /\ DenseModel.iterate o1 = Err DeadObject /\
    (forall j e, (j < nk)%nat -> In e (firstn n (delems o)) -> DenseModel.contains key_of hash keq o1 j (key_of j e) = Err DeadObject) in
  dm_move_assign nk true n (dv_dlim v) (dv_slim v) s o = Err Terminated /\
  dm_move_ctor nk true n (dv_dlim v) (dv_slim v) o = Err Terminated /\
  ((exists t, DenseModel.move_assign nk false false (dv_dlim v) (dv_slim v) s o = Ok (t, o, false)) \/
   exists t o1, dm_move_assign nk false n (dv_dlim v) (dv_slim v) s o = Ok (t, o1, false) /\ broken o1) /\
  ((exists t, DenseModel.move_ctor nk false (dv_dlim v) (dv_slim v) o = Ok (t, o, false)) \/
   exists t o1, dm_move_ctor nk false n (dv_dlim v) (dv_slim v) o = Ok (t, o1, false) /\ broken o1 /\ delems t = firstn n (delems o)).
Proof. exact (fun E K nk key_of hash keq rep clone pocca pocma KL R C => MoveLeftDense.dense_later nk key_of hash keq rep clone pocca pocma KL R C). Qed.
Print Assumptions C86_dense_refuted.
Example C86_dense_refuted_case : (0 < 2 < length (delems mld_src))%nat /\
  match dm_move_assign 1 false 2 100 100 mld_dst mld_src with
  | Ok (_, o, false) => DenseModel.size o = 5 /\ delems o = [(4, 40); (8, 80); (19, 190)] /\
      DenseModel.contains key1 ehash ekeq o 0 11 = Err DeadObject /\ DenseModel.iterate o = Err DeadObject /\ clear_data o = Err DeadObject
  | _ => False
  end.
Proof. vm_compute. repeat split; lia. Qed.

(** A move between unequal allocators that no exception leaves gives what C68 says, whether or not
    the [noexcept] clause holds. *)
Theorem C86_quiet : forall (E K : Type) f (key_of : E -> K) hash keq rep,
  key_laws hash keq -> (forall a b, keq (key_of a) (key_of b) = true -> key_of (rep a b) = key_of a) ->
  forall ne n lim o, occurs f key_of hash keq rep o -> (length (elems o) <= n)%nat ->
  (forall t o1, move_ctor f false lim o = Ok (t, o1, true) -> m_move_ctor f ne n lim o = Ok (t, o1, true)) /\
  forall s t o1, occurs f key_of hash keq rep s -> bucket_count s <= bucket_count o -> move_assign f false false lim s o = Ok (t, o1, true) -> m_move_assign f ne n lim s o = Ok (t, o1, true).
Proof. exact (fun E K f key_of hash keq rep KL R => quiet f key_of hash keq KL rep R). Qed.
Print Assumptions C86_quiet.
Theorem C86_dense_quiet : forall (E K : Type) nk (key_of : nat -> E -> K) hash keq rep clone pocca pocma,
  key_laws hash keq -> (forall x e, key_of 0%nat (rep x e) = key_of 0%nat x) -> (forall j e, (j < nk)%nat -> key_of j (clone e) = key_of j e) ->
  let occ := doccurs nk key_of hash keq rep clone pocca pocma in
  forall s o v ne n, occ s -> occ o -> denv_ok v -> (length (delems o) <= n)%nat ->
  (forall t o1, DenseModel.move_assign nk false false (dv_dlim v) (dv_slim v) s o = Ok (t, o1, true) -> dm_move_assign nk ne n (dv_dlim v) (dv_slim v) s o = Ok (t, o1, true)) /\
  (forall t o1, DenseModel.move_ctor nk false (dv_dlim v) (dv_slim v) o = Ok (t, o1, true) -> dm_move_ctor nk ne n (dv_dlim v) (dv_slim v) o = Ok (t, o1, true)).
Proof. exact (fun E K nk key_of hash keq rep clone pocca pocma KL R C => MoveLeftDense.dense_quiet nk key_of hash keq rep clone pocca pocma KL R C). Qed.
Print Assumptions C86_dense_quiet.
Example C86_quiet_case :
  match m_move_ctor SSE2 true 5 100 ml_src with Ok (t, o, true) => elems t = elems ml_src /\ elems o = [] | _ => False end /\
  match m_move_assign SSE2 true 9 100 ml_dst ml_src with Ok (t, o, true) => elems t = elems ml_src /\ size o = 0 | _ => False end /\
  match dm_move_assign 1 true 5 100 100 mld_dst mld_src with Ok (t, o, true) => delems t = delems mld_src /\ delems o = [] | _ => False end /\
  match dm_move_ctor 1 true 5 100 100 mld_src with Ok (t, o, true) => delems t = delems mld_src /\ delems o = [] | _ => False end.
Proof. vm_compute. repeat split. Qed.
