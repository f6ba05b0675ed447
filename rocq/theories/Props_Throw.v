(** Throwing user functions on dense containers (C59). *)
From Coq Require Import ZArith List Bool Lia.
From Verif Require Import Base MapSpec Float32 DenseSpec DenseModel DenseRun Instances DenseInstances ThrowSpec ThrowModel ThrowProofs.
Import ListNotations.
Open Scope Z_scope.

(** Histories in which the hash function, key_equal or the constructor of a new element throws
    in any call: a call that throws has no effect, later calls work as before, up to the first
    call that is not covered (an uncovered call of C30; a throwing constructor that has to be
    called; a search that throws in emplace). *)
Theorem C59_partial : forall (E K : Type) nk (key_of : nat -> E -> K) hash keq rep,
  key_laws hash keq -> (forall x e, key_of 0%nat (rep x e) = key_of 0%nat x) ->
  forall h, thistory_ok nk h -> trefines nk key_of hash keq rep empty_dense [] h.
Proof. exact (fun E K nk key_of hash keq rep KL R => thistories nk key_of hash keq rep KL R). Qed.
Print Assumptions C59_partial.
Definition tcall (f : fault) (c : dcall entry Z) : fault * denv * dcall entry Z := (f, dv0, c).
Definition trun1 := trun 1 key1 ehash ekeq erep empty_dense.
Example C59_case :
  let h := [tcall Fine (DInsert (1, 10)); tcall SearchThrows (DInsert (9, 90)); tcall CtorThrows (DInsert (1, 11)); tcall SearchThrows (DErase 0 1); tcall SearchThrows (DFind 0 1);
            tcall CtorThrows (DAssign (1, 12)); tcall Fine (DEmplace (9, 91)); tcall SearchThrows (DAssign (9, 92)); tcall Fine DIterate] in
  thistory_ok 1 h /\
  results (trun1 h) = Ok [QInserted (1, 10) true; QThrow; QInserted (1, 10) false; QThrow; QThrow; QInserted (1, 12) false; QInserted (9, 91) true; QThrow; QList [(1, 12); (9, 91)]].
Proof. split; [repeat (constructor; [split; [split; reflexivity|cbn; auto]|]); constructor|vm_compute; reflexivity]. Qed.

(** A constructor that throws leaves a container that counts one element too many; to iterate
    over it or to destroy it accesses an object that was never constructed. *)
Theorem C59_ctor_refuted : forall (E K : Type) nk (key_of : nat -> E -> K) hash keq rep,
  key_laws hash keq -> (forall x e, key_of 0%nat (rep x e) = key_of 0%nat x) ->
  forall s v e, treachable nk key_of hash keq rep s -> denv_ok v -> has_room nk v s ->
  (dnew nk key_of keq e (delems s) -> exists s', texec nk key_of hash keq rep CtorThrows v s (DInsert e) = Ok (s', QThrow) /\ ghostly s s') /\
  (dnew nk key_of keq e (delems s) -> nk = 1%nat -> exists s', texec nk key_of hash keq rep CtorThrows v s (DAssign e) = Ok (s', QThrow) /\ ghostly s s') /\
  exists s', texec nk key_of hash keq rep CtorThrows v s (DEmplace e) = Ok (s', QThrow) /\ ghostly s s'.
Proof. exact (fun E K nk key_of hash keq rep KL R s v e T => ctor_throws nk key_of hash keq rep KL R v s e (treachable_wf nk key_of hash keq rep KL R s T)). Qed.
Print Assumptions C59_ctor_refuted.
Example C59_ctor_case :
  map (fun c => results (trun1 [tcall Fine (DInsert (1, 10)); tcall CtorThrows c; tcall Fine DSize]))
    [DInsert (2, 20); DEmplace (1, 20); DAssign (2, 20); DInsert (1, 20)] =
  [Ok [QInserted (1, 10) true; QThrow; QNum 2]; Ok [QInserted (1, 10) true; QThrow; QNum 2]; Ok [QInserted (1, 10) true; QThrow; QNum 2]; Ok [QInserted (1, 10) true; QInserted (1, 10) false; QNum 1]] /\
  results (trun1 [tcall Fine (DInsert (1, 10)); tcall CtorThrows (DInsert (2, 20)); tcall Fine DIterate]) = Err DeadObject.
Proof. split; vm_compute; reflexivity. Qed.

(** A hash function or key_equal that throws in emplace leaves the new element in the array:
    it is counted and iterated over, lookups do not see it. *)
Theorem C59_search_refuted : forall (E K : Type) nk (key_of : nat -> E -> K) hash keq rep,
  key_laws hash keq -> (forall x e, key_of 0%nat (rep x e) = key_of 0%nat x) ->
  forall s v e, treachable nk key_of hash keq rep s -> denv_ok v -> has_room nk v s ->
  exists s', texec nk key_of hash keq rep SearchThrows v s (DEmplace e) = Ok (s', QThrow) /\ size s' = size s + 1 /\ iterate s' = Ok (delems s ++ [e]) /\
    forall v' j k, (j < nk)%nat -> exists o, texec nk key_of hash keq rep Fine v' s (DFind j k) = Ok (s, QFound o) /\ texec nk key_of hash keq rep Fine v' s' (DFind j k) = Ok (s', QFound o).
Proof. exact (fun E K nk key_of hash keq rep KL R s v e T => emplace_search nk key_of hash keq rep KL R v s e (treachable_wf nk key_of hash keq rep KL R s T)). Qed.
Print Assumptions C59_search_refuted.
(** The key 1 twice; the key 2, which erase does not find. *)
Example C59_search_case :
  results (trun1 [tcall Fine (DInsert (1, 10)); tcall SearchThrows (DEmplace (1, 20)); tcall Fine DIterate]) = Ok [QInserted (1, 10) true; QThrow; QList [(1, 10); (1, 20)]] /\
  results (trun1 [tcall Fine (DInsert (1, 10)); tcall SearchThrows (DEmplace (2, 20)); tcall Fine (DErase 0 2); tcall Fine DIterate]) =
    Ok [QInserted (1, 10) true; QThrow; QNext None; QList [(1, 10); (2, 20)]].
Proof. split; vm_compute; reflexivity. Qed.
