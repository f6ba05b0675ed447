(** Whether elements stay where they are while a container holds no more elements than were
    reserved (C61). *)
From Coq Require Import ZArith List Bool Lia.
From Verif Require Import Float32 DenseSpec DenseWorldSpec DenseModel DenseRun DenseWorld DenseInstances DensePlace.
From Verif Require Import Base Bits MapSpec SwissModel SwissRun World WorldProofs Instances BoundsSpec PlaceSpec SwissPlace PlaceInstances.
From Verif Require DenseFinal.
Import ListNotations.
Open Scope Z_scope.

(** Sparse containers: after reserve(n), as long as the calls that added an element or threw
    number no more than n - size, every element that is not erased stays in its slot.
    Missing: histories that erase elements and insert others, more than n - size in all (see
    C61_refuted). *)
Theorem C61_partial : forall (E K : Type) f (key_of : E -> K) hash keq rep, key_laws hash keq ->
  (forall a b, keq (key_of a) (key_of b) = true -> key_of (rep a b) = key_of a) ->
  forall lim s s0 n tr h s' rs, occurs f key_of hash keq rep s -> lim < 2 ^ 59 -> 0 <= n < 2 ^ 64 ->
  reserve f lim s n = Ok (s0, Some tr) -> bucket_count s0 <> 0 ->
  history_ok h -> Forall (fun vc => steady (snd vc)) h -> run f key_of hash keq rep s0 h = Ok (s', rs) -> size s + additions rs <= n ->
  bucket_count s' = bucket_count s0 /\
  forall p e, holds s0 p e -> Forall (fun vc => ~ drops keq (key_of e) (snd vc)) h ->
    exists e', holds s' p e' /\ key_of e' = key_of e /\ (Forall (fun vc => ~ assigns key_of keq (key_of e) (snd vc)) h -> e' = e).
Proof.
  exact (fun E K f key_of hash keq rep KL R lim s s0 n tr h s' rs Ho =>
    reserved_place f key_of hash keq KL rep R lim s s0 n tr h s' rs (occurs_wf f key_of hash keq KL rep R s Ho)).
Qed.
Print Assumptions C61_partial.
(** Seven elements, reserve(40), then 33 more, with lookups and erasures between: key 96 stays where it is. *)
Definition slot_of (s : @swiss entry) (k : Z) : list Z :=
  filter (fun i => match s_nodes s i with Some (e, _) => fst e =? k | None => false end) (zrange (s_cap s)).
Definition seven : @swiss entry := later empty_swiss (map (fun k => CInsert (32 * k, k)) (zrange 7)).
Definition grown : list (call entry Z) := flat_map (fun k => [CInsert (100 + 32 * k, k); CFind 5; CErase (100 + 32 * k)]) (zrange 33) ++ [CAssign (96, 1)].
Example C61_case : exists s0 tr s' rs, reserve SSE2 (2 ^ 40) seven 40 = Ok (s0, Some tr) /\ run SSE2 ekey ehash ekeq erep s0 (calls grown) = Ok (s', rs) /\
  size seven + additions rs = 40 /\ slot_of seven 96 = [3] /\ slot_of s0 96 = [33] /\ slot_of s' 96 = [33] /\ bucket_count s' = 63.
Proof. do 4 eexists. split; [vm_compute; reflexivity|]. split; [vm_compute; reflexivity|]. vm_compute. repeat split. Qed.

(** A call that adds nothing and does not throw (lookups, erasures, insertion of a present
    key) moves no other element, in any state. *)
Theorem C61_call : forall (E K : Type) f (key_of : E -> K) hash keq rep, key_laws hash keq ->
  (forall a b, keq (key_of a) (key_of b) = true -> key_of (rep a b) = key_of a) ->
  forall v s c s' r, occurs f key_of hash keq rep s -> env_ok v -> call_ok c -> exec f key_of hash keq rep v s c = Ok (s', r) -> steady c -> adds r = false ->
  bucket_count s' = bucket_count s /\
  forall p e, holds s p e -> ~ drops keq (key_of e) c ->
    exists e', holds s' p e' /\ key_of e' = key_of e /\ (~ assigns key_of keq (key_of e) c -> e' = e).
Proof.
  exact (fun E K f key_of hash keq rep KL R v s c s' r Ho =>
    call_place f key_of hash keq KL rep R v s c s' r (occurs_wf f key_of hash keq KL rep R s Ho)).
Qed.
Print Assumptions C61_call.
(** A table without empty slots: a present key, an assignment and an erasure leave key 512 in slot 16;
    a new key moves it. *)
Definition full : @swiss entry := later (reserved 20) (crowd ++ churn 17 11).
Example C61_call_case : s_nempty full = 0 /\
  map (fun c => slot_of (later full [c]) 512) [CInsert (32, 0); CAssign (64, 0); CErase 96; CIterate; CInsert (28, 0)] = [[16]; [16]; [16]; [16]; [0]].
Proof. vm_compute. repeat split. Qed.

(** reserve(n) followed by insertions and erasures with never more than n elements.  An element
    that is never erased is moved by an insertion that leaves the bucket count alone (first
    history), and the bucket count grows (second history). *)
Theorem C61_refuted :
  (exists s0 tr l s' rs p e, reserve SSE2 (2 ^ 40) (@empty_swiss entry) 20 = Ok (s0, Some tr) /\ Forall steady l /\ within SSE2 ekey ehash ekeq erep 20 s0 (calls l) /\
     run SSE2 ekey ehash ekeq erep s0 (calls l) = Ok (s', rs) /\ holds s' p e /\ Forall (fun c => ~ drops ekeq (ekey e) c) l /\ bucket_count s' = bucket_count s0 /\
     exists l1 l2 t rs1 q, l = l1 ++ l2 /\ run SSE2 ekey ehash ekeq erep s0 (calls l1) = Ok (t, rs1) /\ holds t q e /\ q <> p) /\
  (exists s0 tr l s' rs, reserve SSE2 (2 ^ 40) (@empty_swiss entry) 28 = Ok (s0, Some tr) /\ Forall steady l /\ within SSE2 ekey ehash ekeq erep 28 s0 (calls l) /\
     run SSE2 ekey ehash ekeq erep s0 (calls l) = Ok (s', rs) /\ bucket_count s0 < bucket_count s').
Proof. exact (conj moved_within grown_within). Qed.
Print Assumptions C61_refuted.

(** Dense containers: after reserve(n), while every insertion starts with fewer than n elements, the
    element array stays, and while nothing is erased all elements keep their index in it.
    Missing: an insertion that starts with n elements, even of a present key (see
    C61_dense_refuted). *)
Theorem C61_dense_partial : forall (E K : Type) nk (key_of : nat -> E -> K) hash keq rep clone pocca pocma,
  key_laws hash keq -> (forall x e, key_of 0%nat (rep x e) = key_of 0%nat x) -> (forall j e, (j < nk)%nat -> key_of j (clone e) = key_of j e) ->
  forall v0 n s s1 s2 h rs, doccurs nk key_of hash keq rep clone pocca pocma s -> denv_ok v0 -> 0 <= n < 2 ^ 59 ->
  dexec nk key_of hash keq rep v0 s (DReserve n) = Ok (s1, QUnit) -> dhistory_ok nk h -> Forall (fun vc => dsteady (snd vc)) h ->
  (forall h1 v c h2 t rs1, h = h1 ++ (v, c) :: h2 -> drun nk key_of hash keq rep s1 h1 = Ok (t, rs1) ->
     ~ blocked nk key_of hash keq rep v t c /\ (dinserts c -> DenseModel.size t < n)) ->
  drun nk key_of hash keq rep s1 h = Ok (s2, rs) ->
  d_cap s2 = d_cap s1 /\ (Forall (fun vc => ~ derases (snd vc)) h -> same_index nk key_of (delems s1) (delems s2)).
Proof.
  exact (fun E K nk key_of hash keq rep clone pocca pocma KL R C v0 n s s1 s2 h rs Ho =>
    reserved_array nk key_of hash keq rep KL R v0 n s s1 s2 h rs (DenseFinal.occurs_wf nk key_of hash keq rep clone pocca pocma KL R C s Ho)).
Qed.
Print Assumptions C61_dense_partial.

(** Erasing one element moves at most the last one. *)
Theorem C61_dense_erase : forall (E K : Type) nk (key_of : nat -> E -> K) hash keq rep clone pocca pocma,
  key_laws hash keq -> (forall x e, key_of 0%nat (rep x e) = key_of 0%nat x) -> (forall j e, (j < nk)%nat -> key_of j (clone e) = key_of j e) ->
  forall v s t c r, doccurs nk key_of hash keq rep clone pocca pocma s -> denv_ok v -> dcall_ok nk c -> ~ blocked nk key_of hash keq rep v s c ->
  dexec nk key_of hash keq rep v s c = Ok (t, r) ->
  forall i x, nth_error (delems s) i = Some x -> (S i < length (delems s))%nat -> spares key_of keq c i x ->
  d_cap t = d_cap s /\ nth_error (delems t) i = Some x.
Proof.
  exact (fun E K nk key_of hash keq rep clone pocca pocma KL R C v s t c r Ho =>
    erase_array nk key_of hash keq rep KL R v s t c r (DenseFinal.occurs_wf nk key_of hash keq rep clone pocca pocma KL R C s Ho)).
Qed.
Print Assumptions C61_dense_erase.

(** Three elements in an array reserved for 3: inserting a present key replaces the array. *)
Definition three : dense entry := dmap (map (XOn 0) [DReserve 3; DInsert (1, 10); DInsert (2, 20); DInsert (3, 30)]) 0.
Example C61_dense_case : d_cap three = 3 /\ delems three = [(1, 10); (2, 20); (3, 30)] /\
  match dexec 1 key1 ehash ekeq erep dv0 three (DErase 0 1) with Ok (t, _) => d_cap t = 3 /\ delems t = [(3, 30); (2, 20)] | Err _ => False end /\
  match drun 1 key1 ehash ekeq erep three (dcalls [DErase 0 3; DAssign (1, 11); DInsert (4, 40); DRehash 100]) with Ok (t, _) => d_cap t = 3 /\ delems t = [(1, 11); (2, 20); (4, 40)] | Err _ => False end.
Proof. vm_compute. repeat split. Qed.
Theorem C61_dense_refuted : exists (s s1 s2 t : dense entry) n rs, doccurs 1 key1 ehash ekeq erep sameel false true s /\
  dexec 1 key1 ehash ekeq erep dv0 s (DReserve n) = Ok (s1, QUnit) /\
  drun 1 key1 ehash ekeq erep s1 (dcalls [DInsert (1, 10); DInsert (2, 20); DInsert (3, 30)]) = Ok (s2, rs) /\ DenseModel.size s2 = n /\
  dexec 1 key1 ehash ekeq erep dv0 s2 (DInsert (2, 21)) = Ok (t, QInserted (2, 20) false) /\ DenseModel.size t = n /\ d_cap s2 < d_cap t.
Proof. exact present_moves. Qed.
Print Assumptions C61_dense_refuted.
