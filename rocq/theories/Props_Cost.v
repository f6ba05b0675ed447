(** How many elements insertions move in total (C62). *)
From Coq Require Import ZArith List Bool Lia.
From Verif Require Import Float32 DenseSpec DenseWorldSpec DenseModel DenseRun DenseWorld DenseInstances DenseCost.
From Verif Require Import Base Bits MapSpec SwissModel SwissRun World WorldProofs Instances BoundsSpec PlaceSpec PlaceInstances CostSpec SwissCost.
From Verif Require DenseFinal.
Import ListNotations.
Open Scope Z_scope.

(** Sparse containers: a history without reserve and rehash moves at most 20 elements per
    added element, plus 31, whatever is looked up and erased between. *)
Theorem C62 : forall (E K : Type) f (key_of : E -> K) hash keq rep, key_laws hash keq ->
  (forall a b, keq (key_of a) (key_of b) = true -> key_of (rep a b) = key_of a) ->
  forall h s rs, history_ok h -> Forall (fun vc => steady (snd vc)) h -> run f key_of hash keq rep empty_swiss h = Ok (s, rs) ->
  moved_by f key_of hash keq rep empty_swiss h <= 20 * additions rs + 31.
Proof. exact (fun E K f key_of hash keq rep KL R => total_cost f key_of hash keq KL rep R). Qed.
Print Assumptions C62.

(** From any state that occurs: 17 per added element, plus the slots before (times 16) and
    after. *)
Theorem C62_occurs : forall (E K : Type) f (key_of : E -> K) hash keq rep, key_laws hash keq ->
  (forall a b, keq (key_of a) (key_of b) = true -> key_of (rep a b) = key_of a) ->
  forall h s s' rs, occurs f key_of hash keq rep s -> history_ok h -> Forall (fun vc => steady (snd vc)) h -> run f key_of hash keq rep s h = Ok (s', rs) ->
  moved_by f key_of hash keq rep s h <= 17 * additions rs + 16 * bucket_count s + bucket_count s'.
Proof.
  exact (fun E K f key_of hash keq rep KL R h s s' rs Ho =>
    run_cost f key_of hash keq KL rep R h s s' rs (occurs_wf f key_of hash keq KL rep R s Ho)).
Qed.
Print Assumptions C62_occurs.
(** 200 insertions of new keys move 221 elements in all; insertions with an erasure after
    each move none; 17 keys of one hash after reserve(20), then 40 insertions and erasures,
    have the erased slots reclaimed, which moves one element. *)
Definition fill (n : Z) : list (call entry Z) := map (fun k => CInsert (k, k)) (zrange n).
Definition cost (s : @swiss entry) (l : list (call entry Z)) : Z * Z :=
  match run SSE2 ekey ehash ekeq erep s (calls l) with
  | Ok (_, rs) => (moved_by SSE2 ekey ehash ekeq erep s (calls l), additions rs)
  | Err _ => (-1, -1)
  end.
Example C62_case : map (cost empty_swiss) [fill 200; churn 0 200] = [(221, 200); (0, 200)] /\ cost (reserved 20) (crowd ++ churn 17 40) = (1, 56).
Proof. vm_compute. split; reflexivity. Qed.

(** Dense containers: insertions move fewer elements in total than the element array has
    slots in the end, which is at most two per element and added element. *)
Theorem C62_dense : forall (E K : Type) nk (key_of : nat -> E -> K) hash keq rep clone pocca pocma,
  key_laws hash keq -> (forall x e, key_of 0%nat (rep x e) = key_of 0%nat x) -> (forall j e, (j < nk)%nat -> key_of j (clone e) = key_of j e) ->
  forall h s s' rs, doccurs nk key_of hash keq rep clone pocca pocma s -> dhistory_ok nk h -> Forall (fun vc => dsteady (snd vc)) h ->
  (forall h1 v c h2 s1 rs1, h = h1 ++ (v, c) :: h2 -> drun nk key_of hash keq rep s h1 = Ok (s1, rs1) -> ~ blocked nk key_of hash keq rep v s1 c) ->
  drun nk key_of hash keq rep s h = Ok (s', rs) ->
  dmoved_by nk key_of hash keq rep s h + d_cap s <= d_cap s' /\
  d_cap s' <= Z.max (d_cap s) (Z.max 1 (2 * (d_size s + dadditions rs))).
Proof.
  exact (fun E K nk key_of hash keq rep clone pocca pocma KL R C h s s' rs Ho =>
    DenseCost.run_cost nk key_of hash keq rep KL R h s s' rs (DenseFinal.occurs_wf nk key_of hash keq rep clone pocca pocma KL R C s Ho)).
Qed.
Print Assumptions C62_dense.
(** 100 insertions move 127 elements; erasing all and inserting 100 others moves none. *)
Definition dfill (a n : Z) : list (dcall entry Z) := map (fun k => DInsert (a + k, k)) (zrange n).
Definition dcost (l : list (dcall entry Z)) : Z * Z * Z :=
  match drun 1 key1 ehash ekeq erep empty_dense (dcalls l) with
  | Ok (s, rs) => (dmoved_by 1 key1 ehash ekeq erep empty_dense (dcalls l), dadditions rs, d_cap s)
  | Err _ => (-1, -1, -1)
  end.
Example C62_dense_case : map dcost [dfill 0 100; dfill 0 100 ++ [DClear] ++ dfill 100 100] = [(127, 100, 128); (127, 200, 128)].
Proof. vm_compute. reflexivity. Qed.
