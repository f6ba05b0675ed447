(** C78: calls in which a container is its own argument. *)
From Coq Require Import ZArith List Bool Lia Permutation.
From Verif Require Import Base BaseLemmas.
From Verif Require DenseSpec DenseModel DenseRun OrderedSpec OrderedDense OrderedRun DenseInstances OrderedInstances SwissOrderedInstances.
From Verif Require Import Bits LinkModel MapSpec SwissModel SwissInv SwissRun SwissOrderedSpec SwissOrdered SwissOrderedRun Instances SelfSpec SelfModel SelfProofs.
Import ListNotations.
Open Scope Z_scope.

(** C78 for unordered sparse and stable containers on x86 builds, in full: along every program
    that mixes swap, assignment and merge of a container with itself with other calls, results
    are those of the list model, in which the former change nothing, and the container ends
    with the elements of the model. *)
Theorem C78_sparse : forall (E K : Type) f (key_of : E -> K) hash keq rep,
  f = SSE2 \/ f = SSSE3 ->
  key_laws hash keq -> (forall a b, keq (key_of a) (key_of b) = true -> key_of (rep a b) = key_of a) ->
  forall h, lhistory_ok (fun vc => call_ok (snd vc)) env_ok h ->
  exists s rs l, ulrun f key_of hash keq rep empty_swiss h = Ok (s, rs) /\
    lspec_run (spec_step key_of keq rep) (@Permutation E) (map snd h) [] l rs /\
    exists w, iterate f s = Ok w /\ map snd w = l.
Proof. exact (fun E K f key_of hash keq rep F KL R h => uself_wide f key_of hash keq KL rep R h F). Qed.
Print Assumptions C78_sparse.

(** C78 for unordered sparse and stable containers on all builds, as far as it holds.
    Missing: programs with a call that ends in the bit scan of C22 on builds with 8-slot
    blocks; merge with itself is such a call ([C78_refuted]). *)
Theorem C78_sparse_partial : forall (E K : Type) f (key_of : E -> K) hash keq rep,
  key_laws hash keq -> (forall a b, keq (key_of a) (key_of b) = true -> key_of (rep a b) = key_of a) ->
  forall h, lhistory_ok (fun vc => call_ok (snd vc)) env_ok h ->
  lrefines (exec f key_of hash keq rep) (@u_swap_self E) (u_merge_self f key_of hash keq) (fun s => s_size s =? 0)
    (spec_step key_of keq rep) (@Permutation E)
    (fun s l => (exists w, iterate f s = Ok w /\ map snd w = l) \/ ((f = NEON \/ f = WORD) /\ iterate f s = Err BitScanZero))
    (ulblocked f key_of hash keq rep) empty_swiss [] h.
Proof. exact (fun E K f key_of hash keq rep KL R h => uself_all f key_of hash keq KL rep R h). Qed.
Print Assumptions C78_sparse_partial.

(** C78 for ordered sparse and stable containers, as far as it holds; the order is part of
    the contents.  Missing: programs with a call that the theorems on ordered containers leave
    out ([zlblocked]). *)
Theorem C78_ordered_sparse_partial : forall (E K : Type) f sz (key_of : E -> K) hash keq rep,
  0 < sz -> key_laws hash keq -> (forall a b, keq (key_of a) (key_of b) = true -> key_of (rep a b) = key_of a) ->
  forall (h0 : heap) a h, h0 a = Some (0, 0) -> lhistory_ok (fun vc => zcall_ok (snd vc)) (fun v => env_ok (sv_e v)) h ->
  lrefines (zexec f sz key_of hash keq rep) (@z_swap_self E) (z_merge_self f sz key_of hash keq) (fun hs => s_size (os_t (snd hs)) =? 0)
    (zspec key_of keq rep) eq
    (fun hs l => s_iterate sz (fst hs) (snd hs) = Ok l /\ s_backwards sz (fst hs) (snd hs) = Ok (rev l))
    (zlblocked f sz key_of hash keq rep) (h0, s_new a) [] h.
Proof. exact (fun E K f sz key_of hash keq rep Hsz KL R => zself_all f sz key_of hash keq Hsz KL rep R). Qed.
Print Assumptions C78_ordered_sparse_partial.

(** C78 for unordered dense containers, which have no merge, as far as it holds: up to an
    erase(key) on a table without buckets (C32), an iterator argument that is not valid, or a
    refused larger bucket array (C29). *)
Theorem C78_dense_partial : forall (E K : Type) nk (key_of : nat -> E -> K) hash keq rep,
  key_laws hash keq -> (forall x e, key_of 0%nat (rep x e) = key_of 0%nat x) ->
  forall h, lhistory_ok (fun vc => DenseRun.dcall_ok nk (snd vc)) DenseRun.denv_ok h -> no_merge h ->
  lrefines (DenseRun.dexec nk key_of hash keq rep) (@d_swap_self E) no_function (fun s => DenseModel.d_size s =? 0)
    (DenseSpec.dspec nk key_of keq rep) eq (fun s l => DenseModel.iterate s = Ok l)
    (dlblocked nk key_of hash keq rep) DenseModel.empty_dense [] h.
Proof. exact (fun E K nk key_of hash keq rep KL R => dself_all nk key_of hash keq KL rep R). Qed.
Print Assumptions C78_dense_partial.

(** C78 for ordered dense containers, as far as it holds. *)
Theorem C78_ordered_dense_partial : forall (E K : Type) sz nk (key_of : nat -> E -> K) hash keq rep,
  0 < sz -> key_laws hash keq -> (forall x e, key_of 0%nat (rep x e) = key_of 0%nat x) ->
  forall (h0 : heap) a h, h0 a = Some (0, 0) ->
  lhistory_ok (fun vc => OrderedRun.ocall_ok nk (snd vc)) (fun v => DenseRun.denv_ok (OrderedDense.ov_d v)) h -> no_merge h ->
  lrefines (OrderedRun.oexec sz nk key_of hash keq rep) (@o_swap_self E) no_function (fun hs => DenseModel.d_size (OrderedDense.o_d (snd hs)) =? 0)
    (OrderedSpec.ospec nk key_of keq rep) eq
    (fun hs l => OrderedDense.o_iterate sz (fst hs) (snd hs) = Ok l /\ OrderedDense.o_backwards sz (fst hs) (snd hs) = Ok (rev l))
    (olblocked sz nk key_of hash keq rep) (h0, OrderedRun.o_new a) [] h.
Proof. exact (fun E K sz nk key_of hash keq rep Hsz KL R => oself_all sz nk key_of hash keq Hsz KL rep R). Qed.
Print Assumptions C78_ordered_dense_partial.

(** On builds with 8-slot blocks merge of an empty container with itself is undefined after a
    reserve: the container is well formed, and the same program runs on x86 builds. *)
Theorem C78_refuted : exists h, lhistory_ok (fun vc => call_ok (snd vc)) env_ok h /\
  ulrun WORD ekey ehash ekeq erep empty_swiss h = Err BitScanZero /\
  results (ulrun SSE2 ekey ehash ekeq erep empty_swiss h) = Ok [LRet RUnit; LDone].
Proof.
  exists [(v0, LOn (CReserve 20)); (v0, LMerge)]. split; [|split; vm_compute; reflexivity].
  repeat constructor; vm_compute; congruence.
Qed.
Print Assumptions C78_refuted.

Definition mixed : list (lcall (call entry Z)) :=
  [LMergeMove; LOn (CInsert (40, 1)); LOn (CInsert (17, 3)); LSwap; LOn (CInsert (5, 2)); LMerge; LOn (CErase 40); LCopy; LMove; LMergeMove; LOn (CFind 17); LOn (CFind 40); LOn CSize].
Example C78_case_sparse :
  results (ulrun SSE2 ekey ehash ekeq erep empty_swiss (map (fun c => (v0, c)) mixed)) =
  Ok [LDone; LRet (RInserted (40, 1) true); LRet (RInserted (17, 3) true); LDone; LRet (RInserted (5, 2) true); LDone;
      LRet (RErased (Some (17, 3)) true); LDone; LDone; LDone; LRet (RFound (Some (17, 3))); LRet (RFound None); LRet (RNum 2)].
Proof. vm_compute. reflexivity. Qed.
(** With refused memory merge throws and changes nothing. *)
Example C78_case_throw :
  results (ulrun SSE2 ekey ehash ekeq erep empty_swiss
    (map (fun c => (v0, c)) [LOn (CReserve 12); LOn (CInsert (1, 1)); LOn (CInsert (2, 2)); LOn (CInsert (3, 3)); LOn (CInsert (4, 4)); LOn (CInsert (5, 5)); LOn (CInsert (6, 6)); LOn (CInsert (7, 7)); LOn (CInsert (8, 8))] ++
     [(mkenv 0 true, LMerge); (v0, LOn CSize); (v0, LMerge); (v0, LOn (CFind 7))])) =
  Ok ([LRet RUnit] ++ map (fun i => LRet (RInserted (i, i) true)) [1; 2; 3; 4; 5; 6; 7; 8] ++ [LThrow; LRet (RNum 8); LDone; LRet (RFound (Some (7, 7)))]).
Proof. vm_compute. reflexivity. Qed.
Example C78_case_ordered_sparse :
  results (zlrun SSE2 48 ekey ehash ekeq erep (OrderedInstances.heap0, s_new (OrderedInstances.addr0 0))
    (SwissOrderedInstances.xprog [LSwap; LOn (ZInsert (40, 1)); LOn (ZInsert (17, 3)); LSwap; LOn (ZInsert (5, 2)); LMerge; LOn (ZErase 17); LMergeMove; LCopy; LOn (ZInsert (17, 4)); LMove; LOn ZIterate; LOn ZBackwards])) =
  Ok [LDone; LRet (RInserted (40, 1) true); LRet (RInserted (17, 3) true); LDone; LRet (RInserted (5, 2) true); LDone;
      LRet (RErased (Some (5, 2)) true); LDone; LDone; LRet (RInserted (17, 4) true); LDone; LRet (RList [(40, 1); (5, 2); (17, 4)]); LRet (RList [(17, 4); (5, 2); (40, 1)])].
Proof. vm_compute. reflexivity. Qed.
Example C78_case_dense :
  results (dlrun 2 DenseInstances.key2 ehash ekeq erep DenseModel.empty_dense
    (map (fun c => (DenseInstances.dv0, c)) [LSwap; LOn (DenseSpec.DInsert (40, 1)); LOn (DenseSpec.DInsert (17, 3)); LSwap; LCopy; LOn (DenseSpec.DErase 1 1); LMove; LOn (DenseSpec.DFind 1 3); LOn DenseSpec.DIterate])) =
  Ok [LDone; LRet (DenseSpec.QInserted (40, 1) true); LRet (DenseSpec.QInserted (17, 3) true); LDone; LDone; LRet (DenseSpec.QNext (Some (17, 3))); LDone;
      LRet (DenseSpec.QFound (Some (17, 3))); LRet (DenseSpec.QList [(17, 3)])].
Proof. vm_compute. reflexivity. Qed.
Example C78_case_ordered_dense :
  results (olrun 48 1 DenseInstances.key1 ehash ekeq erep (OrderedInstances.heap0, OrderedRun.o_new (OrderedInstances.addr0 0))
    (OrderedInstances.yprog [LSwap; LOn (OrderedSpec.OInsert (40, 1)); LOn (OrderedSpec.OInsert (17, 3)); LOn (OrderedSpec.OInsert (5, 2)); LSwap; LOn (OrderedSpec.OErase 0 40); LCopy; LSwap; LOn (OrderedSpec.OInsert (40, 7)); LOn OrderedSpec.OBackwards])) =
  Ok [LDone; LRet (DenseSpec.QInserted (40, 1) true); LRet (DenseSpec.QInserted (17, 3) true); LRet (DenseSpec.QInserted (5, 2) true); LDone;
      LRet DenseSpec.QUnit; LDone; LDone; LRet (DenseSpec.QInserted (40, 7) true); LRet (DenseSpec.QList [(40, 7); (5, 2); (17, 3)])].
Proof. vm_compute. reflexivity. Qed.
