(** Containers after moving an element threw (C65). *)
From Coq Require Import ZArith List Bool Lia Permutation.
From Verif Require Import Float32 DenseSpec DenseWorldSpec DenseModel DenseRun DenseWorld DenseInstances.
From Verif Require Import Base Bits MapSpec SwissModel SwissRun World WorldProofs Instances BoundsSpec PlaceSpec PlaceInstances CostSpec.
From Verif Require Import MoveModel MoveProofs MoveReclaim MoveFinal.
From Verif Require DenseFinal.
Import ListNotations.
Open Scope Z_scope.

(** Sparse containers, as far as it holds: a call that makes no more than the [m] moves that
    succeed is not affected; lookups, erasures and insertions that find a free slot make
    none.  Missing: the call whose next move throws (see C65_refuted and C65_any_refuted). *)
Theorem C65_partial : forall (E K : Type) f (key_of : E -> K) hash keq rep m v s s' c r,
  exec f key_of hash keq rep v s c = Ok (s', r) -> steps_in f key_of hash keq v s c <= Z.of_nat m ->
  m_exec f key_of hash keq rep m v s c = Ok (s', r).
Proof. exact (fun E K f key_of hash keq rep => m_exec_same f key_of hash keq rep). Qed.
Print Assumptions C65_partial.
(** Seven elements fill a table; the eighth moves all seven; an insertion into the larger table moves none. *)
Definition seven : @swiss entry := later empty_swiss (map (fun k => CInsert (32 * k, k)) (zrange 7)).
Definition eight : @swiss entry := later seven [CInsert (7, 7)].
Example C65_case : steps_in SSE2 ekey ehash ekeq v0 seven (CInsert (7, 7)) = 7 /\ steps_in SSE2 ekey ehash ekeq v0 eight (CInsert (9, 9)) = 0 /\
  size (state (m_exec SSE2 ekey ehash ekeq erep 7 v0 seven (CInsert (7, 7))) empty_swiss) = 8 /\
  size (state (m_exec SSE2 ekey ehash ekeq erep 0 v0 eight (CInsert (9, 9))) empty_swiss) = 9.
Proof. vm_compute. repeat split. Qed.

(** Every insertion, reserve or rehash that replaces the buffers of a sparse container, when the move
    of any of its elements throws: the exception leaves the container with the elements moved
    so far, under the old size; the others are gone. *)
Theorem C65_refuted : forall (E K : Type) f (key_of : E -> K) hash keq rep, key_laws hash keq ->
  (forall a b, keq (key_of a) (key_of b) = true -> key_of (rep a b) = key_of a) ->
  forall m v s s1 c r l, occurs f key_of hash keq rep s -> env_ok v -> call_ok c ->
  (exists e, c = CInsert e \/ c = CAssign e) \/ (exists n, c = CReserve n \/ c = CRehash n) ->
  exec f key_of hash keq rep v s c = Ok (s1, r) -> bucket_count s1 <> bucket_count s -> iterate f s = Ok l -> Z.of_nat m < size s ->
  exists t, m_exec f key_of hash keq rep m v s c = Ok (t, RThrow) /\ lost f key_of hash keq m (map snd l) t.
Proof.
  exact (fun E K f key_of hash keq rep KL R m v s s1 c r l Ho =>
    grow_lost_list f key_of hash keq rep KL m v s s1 c r l (occurs_wf f key_of hash keq KL rep R s Ho)).
Qed.
Print Assumptions C65_refuted.
(** The fourth move throws: three elements are left, the size is still seven. *)
Example C65_refuted_case : let x := m_exec SSE2 ekey ehash ekeq erep 3 v0 seven (CInsert (7, 7)) in let t := state x empty_swiss in
  occurs SSE2 ekey ehash ekeq erep seven /\ x = Ok (t, RThrow) /\ size t = 7 /\
  (exists l, iterate SSE2 t = Ok l /\ map (fun y => fst (snd y)) l = [0; 32; 64]) /\
  map (contains SSE2 ekey ehash ekeq t) [0; 32; 64; 96; 128; 160; 192; 7] = map Ok [true; true; true; false; false; false; false; false].
Proof.
  split; [apply later_occurs; [vm_compute; reflexivity|eexists; vm_compute; reflexivity]|]. split; [apply thrown_state; vm_compute; reflexivity|].
  split; [vm_compute; reflexivity|]. split; [eexists; split; vm_compute; reflexivity|vm_compute; reflexivity].
Qed.

(** Every call of which a move throws, be it that the buffers are replaced or that the slots of
    erased elements are reclaimed (elements not yet looked at are then marked as erased): the
    call throws, the size is the old one, and at least one element can no longer be found. *)
Theorem C65_any_refuted : forall (E K : Type) f (key_of : E -> K) hash keq rep, key_laws hash keq ->
  (forall a b, keq (key_of a) (key_of b) = true -> key_of (rep a b) = key_of a) ->
  forall m v s s1 c r l, occurs f key_of hash keq rep s -> env_ok v -> call_ok c ->
  exec f key_of hash keq rep v s c = Ok (s1, r) -> iterate f s = Ok l -> Z.of_nat m < steps_in f key_of hash keq v s c ->
  exists t, m_exec f key_of hash keq rep m v s c = Ok (t, RThrow) /\ mislaid f key_of hash keq (map snd l) t.
Proof.
  exact (fun E K f key_of hash keq rep KL R m v s s1 c r l Ho =>
    exec_mislaid_list f key_of hash keq rep KL m v s s1 c r l (occurs_wf f key_of hash keq KL rep R s Ho)).
Qed.
Print Assumptions C65_any_refuted.
(** Sixteen elements and twelve erased ones leave no slot empty; an insertion reclaims the slots
    of the erased ones and moves four elements to the group of their hash.  Whichever of the
    moves throws, the elements after it are out of reach. *)
Example C65_any_refuted_case : let x := fun m => m_exec SSE2 ekey ehash ekeq erep m v0 filled (CInsert (28, 0)) in let t := fun m => state (x m) empty_swiss in
  let left := fun m => match iterate SSE2 (t m) with Ok l => Z.of_nat (length l) | Err _ => -1 end in
  occurs SSE2 ekey ehash ekeq erep filled /\ bucket_count (state (exec SSE2 ekey ehash ekeq erep v0 filled (CInsert (28, 0))) empty_swiss) = bucket_count filled /\
  steps_in SSE2 ekey ehash ekeq v0 filled (CInsert (28, 0)) = 4 /\
  x 0%nat = Ok (t 0%nat, RThrow) /\ x 3%nat = Ok (t 3%nat, RThrow) /\
  map (fun m => size (t m)) [0; 1; 2; 3; 4]%nat = [16; 16; 16; 16; 17] /\ map left [0; 1; 2; 3; 4]%nat = [12; 13; 14; 15; 17] /\
  contains SSE2 ekey ehash ekeq filled 608 = Ok true /\ map (fun m => contains SSE2 ekey ehash ekeq (t m) 608) [0; 1; 2; 3; 4]%nat = map Ok [false; false; false; false; true].
Proof.
  split; [apply later_occurs; [vm_compute; reflexivity|eexists; vm_compute; reflexivity]|]. split; [vm_compute; reflexivity|]. split; [vm_compute; reflexivity|].
  split; [apply thrown_state; vm_compute; reflexivity|]. split; [apply thrown_state; vm_compute; reflexivity|]. vm_compute. repeat split.
Qed.

(** Dense containers, as far as it holds: the first move of an array throws, and the container
    is unchanged; or no move throws. *)
Theorem C65_dense_partial : forall (E K : Type) nk (key_of : nat -> E -> K) hash keq rep clone pocca pocma,
  key_laws hash keq -> (forall x e, key_of 0%nat (rep x e) = key_of 0%nat x) -> (forall j e, (j < nk)%nat -> key_of j (clone e) = key_of j e) ->
  forall v s c, doccurs nk key_of hash keq rep clone pocca pocma s -> denv_ok v ->
  (0 < DenseModel.size s -> replaces v s c -> md_exec nk key_of hash keq rep 0 v s c = Ok (s, QThrow)) /\
  forall m, DenseModel.size s <= Z.of_nat m -> md_exec nk key_of hash keq rep m v s c = dexec nk key_of hash keq rep v s c.
Proof.
  exact (fun E K nk key_of hash keq rep clone pocca pocma KL R C v s c Ho =>
    dense_safe nk key_of hash keq rep v s c (DenseFinal.occurs_wf nk key_of hash keq rep clone pocca pocma KL R C s Ho)).
Qed.
Print Assumptions C65_dense_partial.
(** Four elements fill the array. *)
Definition four : dense entry := dmap (map (fun k => XOn 0 (DInsert (k, 10 * k))) [3; 11; 4; 8]) 0.
Example C65_dense_case : doccurs 1 key1 ehash ekeq erep sameel false true four /\ replaces (K := Z) dv0 four (DInsert (5, 50)) /\ replaces (K := Z) dv0 four (DReserve 9) /\ ~ replaces (K := Z) dv0 four (DReserve 4) /\
  md_exec 1 key1 ehash ekeq erep 0 dv0 four (DInsert (5, 50)) = Ok (four, QThrow) /\
  match md_exec 1 key1 ehash ekeq erep 4 dv0 four (DInsert (5, 50)) with Ok (_, QInserted e b) => e = (5, 50) /\ b = true | _ => False end.
Proof.
  split; [apply dmap_occurs; vm_compute; reflexivity|]. split; [left; split; [exists (5, 50); auto|split; [reflexivity|vm_compute; discriminate]]|].
  split; [right; exists 9; split; [reflexivity|split; [reflexivity|vm_compute; discriminate]]|].
  split; [intros [((e & [X|[X|X]]) & _)|(n & X & Hn & _)]; try discriminate X; injection X as <-; vm_compute in Hn; discriminate|]. vm_compute. repeat split.
Qed.

(** A later move throws: the elements moved before are gone, but still counted; going through
    the elements or destroying them is undefined behaviour. *)
Theorem C65_dense_refuted : forall (E K : Type) nk (key_of : nat -> E -> K) hash keq rep clone pocca pocma,
  key_laws hash keq -> (forall x e, key_of 0%nat (rep x e) = key_of 0%nat x) -> (forall j e, (j < nk)%nat -> key_of j (clone e) = key_of j e) ->
  forall m v s c, doccurs nk key_of hash keq rep clone pocca pocma s -> denv_ok v -> replaces v s c -> (0 < m)%nat -> Z.of_nat m < DenseModel.size s ->
  exists t, md_exec nk key_of hash keq rep m v s c = Ok (t, QThrow) /\ DenseModel.size t = DenseModel.size s /\
    DenseModel.iterate t = Err DeadObject /\ DenseModel.clear t = Err DeadObject.
Proof.
  exact (fun E K nk key_of hash keq rep clone pocca pocma KL R C m v s c Ho =>
    dense_lost nk key_of hash keq rep m v s c (DenseFinal.occurs_wf nk key_of hash keq rep clone pocca pocma KL R C s Ho)).
Qed.
Print Assumptions C65_dense_refuted.
(** The second move throws: the first element, that of key 3, is dead. *)
Example C65_dense_refuted_case :
  match md_exec 1 key1 ehash ekeq erep 1 dv0 four (DInsert (5, 50)) with
  | Ok (t, QThrow) => DenseModel.size t = 4 /\ DenseModel.iterate t = Err DeadObject /\ DenseModel.contains key1 ehash ekeq t 0 3 = Err DeadObject /\
      DenseModel.contains key1 ehash ekeq t 0 4 = Ok true
  | _ => False
  end.
Proof. vm_compute. repeat split. Qed.
