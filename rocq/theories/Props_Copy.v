(** Containers after copying an element threw (C67). *)
From Coq Require Import ZArith List Bool Lia.
From Verif Require Import Float32 DenseSpec DenseWorldSpec DenseModel DenseRun DenseWorld DenseInstances.
From Verif Require Import Base Bits MapSpec SwissModel SwissInv SwissIter SwissRun World WorldProofs Instances PlaceInstances.
From Verif Require Import MoveFinal CopyModel CopyProofs.
From Verif Require DenseFinal CopyDense.
Import ListNotations.
Open Scope Z_scope.

(** Dense containers, assignment: the copy of an element throws (or the buffers cannot be
    allocated, as without throwing copies).  The target holds the copies made before, and
    behaves as a container with these elements afterwards. *)
Theorem C67_dense : forall (E K : Type) nk (key_of : nat -> E -> K) hash keq rep clone pocca pocma,
  key_laws hash keq -> (forall x e, key_of 0%nat (rep x e) = key_of 0%nat x) -> (forall j e, (j < nk)%nat -> key_of j (clone e) = key_of j e) ->
  let occ := doccurs nk key_of hash keq rep clone pocca pocma in
  forall s o v n, occ s -> occ o -> denv_ok v -> (n < length (delems o))%nat ->
  (exists t, DenseModel.copy_assign nk clone pocca (dv_dlim v) (dv_slim v) s o = Ok (t, false) /\ dc_copy_assign nk clone n pocca (dv_dlim v) (dv_slim v) s o = Ok (t, false)) \/
  exists t, dc_copy_assign nk clone n pocca (dv_dlim v) (dv_slim v) s o = Ok (t, false) /\ delems t = map clone (firstn n (delems o)) /\
    forall h, dhistory_ok nk h -> drefines nk key_of hash keq rep t (delems t) h.
Proof. exact (fun E K nk key_of hash keq rep clone pocca pocma KL R C => CopyDense.dense_copy_throws nk key_of hash keq rep clone pocca pocma KL R C). Qed.
Print Assumptions C67_dense.
Definition cp_src : dense entry := dmap (map (fun k => XOn 0 (DInsert (k, 10 * k))) [3; 11; 4; 8; 19]) 0.
Definition cp_dst : dense entry := dmap [XOn 0 (DInsert (1, 1)); XOn 0 (DInsert (4, 4))] 0.
(** The third of five copies throws; the target can be used. *)
Example C67_dense_case : doccurs 1 key1 ehash ekeq erep sameel false true cp_src /\ doccurs 1 key1 ehash ekeq erep sameel false true cp_dst /\
  match dc_copy_assign 1 sameel 2 false 100 100 cp_dst cp_src with
  | Ok (t, false) => delems t = [(3, 30); (11, 110)] /\
      match drun 1 key1 ehash ekeq erep t (dcalls [DSize; DContains 0 11; DContains 0 4; DInsert (4, 5); DIterate]) with
      | Ok (_, rs) => rs = [QNum 2; QBool true; QBool false; QInserted (4, 5) true; QList [(3, 30); (11, 110); (4, 5)]] | Err _ => False end
  | _ => False
  end.
Proof. split; [apply dmap_occurs; vm_compute; reflexivity|]. split; [apply dmap_occurs; vm_compute; reflexivity|]. vm_compute. repeat split. Qed.

(** Copies that do not throw before the last element is copied: the calls of C07, C08, C38. *)
Theorem C67_partial : forall (E K : Type) f (key_of : E -> K) hash keq rep clone,
  key_laws hash keq -> (forall a b, keq (key_of a) (key_of b) = true -> key_of (rep a b) = key_of a) ->
  forall n lim o, occurs f key_of hash keq rep o -> (length (elems o) <= n)%nat ->
  c_copy_ctor f clone n lim o = copy_ctor f clone lim o /\
  forall pocca s, occurs f key_of hash keq rep s -> pocca = true \/ bucket_count s <= bucket_count o ->
    c_copy_assign f clone n pocca lim s o = copy_assign f clone pocca lim s o.
Proof.
  exact (fun E K f key_of hash keq rep clone KL R n lim o Ho Hn =>
    let '(conj H1 H2) := copy_same f key_of hash keq clone n lim o (occurs_wf f key_of hash keq KL rep R o Ho) Hn in
    conj H1 (fun pocca s Hs => H2 pocca s (occurs_wf f key_of hash keq KL rep R s Hs))).
Qed.
Print Assumptions C67_partial.
Definition cs_src : @swiss entry := later empty_swiss (map (fun k => CInsert (k, 10 * k)) [3; 11; 4; 8; 19]).
Definition cs_dst : @swiss entry := later empty_swiss [CInsert (1, 1); CInsert (4, 4)].
Example C67_case : occurs SSE2 ekey ehash ekeq erep cs_src /\ occurs SSE2 ekey ehash ekeq erep cs_dst /\ bucket_count cs_dst <= bucket_count cs_src /\
  match c_copy_assign SSE2 (fun e => e) 5 false 100 cs_dst cs_src with Ok (t, true) => size t = 5 /\ elems t = elems cs_src | _ => False end.
Proof.
  split; [apply later_occurs; [vm_compute; reflexivity|eexists; vm_compute; reflexivity]|]. split; [apply later_occurs; [vm_compute; reflexivity|eexists; vm_compute; reflexivity]|].
  split; [vm_compute; discriminate|]. vm_compute. repeat split.
Qed.

(** Sparse containers, assignment: whenever the copy of an element throws, the target holds
    the copies made before, iterates over them, and counts and finds none of them; clear and
    the destructor leave them alive. *)
Theorem C67_refuted : forall (E K : Type) f (key_of : E -> K) hash keq rep clone,
  key_laws hash keq -> (forall a b, keq (key_of a) (key_of b) = true -> key_of (rep a b) = key_of a) -> (forall e, key_of (clone e) = key_of e) ->
  forall n pocca lim s o, occurs f key_of hash keq rep s -> occurs f key_of hash keq rep o -> (n < length (elems o))%nat ->
  pocca = true \/ bucket_count s <= bucket_count o -> bucket_count o <= lim ->
  exists t, c_copy_assign f clone n pocca lim s o = Ok (t, false) /\
    size t = 0 /\ elems t = map clone (firstn n (elems o)) /\
    (forall k, contains f key_of hash keq t k = Ok false) /\ clear f t = Ok t /\ destroy f t = Ok t /\
    ((exists l, iterate f t = Ok l /\ map snd l = map clone (firstn n (elems o))) \/ ((f = NEON \/ f = WORD) /\ iterate f t = Err BitScanZero)).
Proof.
  exact (fun E K f key_of hash keq rep clone KL R C n pocca lim s o Hs Ho =>
    copy_assign_throws f key_of hash keq clone C n pocca lim s o (occurs_wf f key_of hash keq KL rep R s Hs) (occurs_wf f key_of hash keq KL rep R o Ho)).
Qed.
Print Assumptions C67_refuted.
(** The third copy throws.  An insertion makes the size 1 and the two copies reappear. *)
Example C67_refuted_case : (2 < length (elems cs_src))%nat /\
  match c_copy_assign SSE2 (fun e => e) 2 false 100 cs_dst cs_src with
  | Ok (t, false) => size t = 0 /\ elems t = [(8, 80); (3, 30)] /\ contains SSE2 ekey ehash ekeq t 3 = Ok false /\
      match run SSE2 ekey ehash ekeq erep t (calls [CInsert (7, 70); CSize; CIterate; CContains 3]) with
      | Ok (_, rs) => rs = [RInserted (7, 70) true; RNum 1; RList [(8, 80); (7, 70); (3, 30)]; RBool true] | Err _ => False end
  | _ => False
  end.
Proof. vm_compute. repeat split; lia. Qed.

(** Construction: whenever the copy of an element throws, no destructor runs for the copies made
    before and for the buffers. *)
Theorem C67_ctor_refuted : forall (E K : Type) f (key_of : E -> K) hash keq rep clone,
  key_laws hash keq -> (forall a b, keq (key_of a) (key_of b) = true -> key_of (rep a b) = key_of a) -> (forall e, key_of (clone e) = key_of e) ->
  forall n lim o, occurs f key_of hash keq rep o -> (n < length (elems o))%nat -> bucket_count o <= lim ->
  exists t, c_copy_ctor f clone n lim o = Ok (t, false) /\ elems t = map clone (firstn n (elems o)) /\ s_buf t = Live /\ bucket_count t = bucket_count o.
Proof.
  exact (fun E K f key_of hash keq rep clone KL R C n lim o Ho =>
    copy_ctor_throws f key_of hash keq clone C n lim o (occurs_wf f key_of hash keq KL rep R o Ho)).
Qed.
Print Assumptions C67_ctor_refuted.
Theorem C67_dense_ctor_refuted : forall (E K : Type) nk (key_of : nat -> E -> K) hash keq rep clone pocca pocma,
  key_laws hash keq -> (forall x e, key_of 0%nat (rep x e) = key_of 0%nat x) -> (forall j e, (j < nk)%nat -> key_of j (clone e) = key_of j e) ->
  forall o v n, doccurs nk key_of hash keq rep clone pocca pocma o -> denv_ok v -> (n < length (delems o))%nat ->
  (exists t, DenseModel.copy_ctor nk clone (dv_dlim v) (dv_slim v) o = Ok (t, false)) \/
  exists t, dc_copy_ctor nk clone n (dv_dlim v) (dv_slim v) o = Ok (t, false) /\ delems t = map clone (firstn n (delems o)).
Proof. exact (fun E K nk key_of hash keq rep clone pocca pocma KL R C => CopyDense.dense_ctor_throws nk key_of hash keq rep clone pocca pocma KL R C). Qed.
Print Assumptions C67_dense_ctor_refuted.
Example C67_ctor_case :
  match c_copy_ctor SSE2 (fun e => e) 3 100 cs_src with Ok (t, false) => elems t = [(8, 80); (3, 30); (11, 110)] | _ => False end /\
  match dc_copy_ctor 1 sameel 3 100 100 cp_src with Ok (t, false) => delems t = [(3, 30); (11, 110); (4, 40)] | _ => False end.
Proof. vm_compute. repeat split. Qed.
