(** C79: an ordered container uses the slots of an unordered one. *)
From Coq Require Import ZArith List Bool Lia.
From Verif Require Import Base BaseLemmas.
From Verif Require DenseSpec DenseModel DenseRun OrderedSpec OrderedDense OrderedRun DenseInstances OrderedInstances SwissOrderedInstances.
From Verif Require Import Bits LinkModel MapSpec SwissModel SwissRun SwissOrderedSpec SwissOrdered SwissOrderedRun Instances SlotsSpec SlotsModel SlotsProofs SlotsDenseProofs.
Import ListNotations.
Open Scope Z_scope.

(** C79 for sparse and stable containers on x86 builds, in full: whenever a program on an
    ordered container has defined behaviour, the same calls on an unordered container given
    the same memory have defined behaviour, the same results, except for the element that
    erase returns an iterator to, and end with the same table: capacity, control bytes,
    elements in their slots, and counters. *)
Theorem C79_sparse : forall (E K : Type) f sz (key_of : E -> K) hash keq rep,
  f = SSE2 \/ f = SSSE3 -> 0 < sz -> key_laws hash keq -> (forall a b, keq (key_of a) (key_of b) = true -> key_of (rep a b) = key_of a) ->
  forall (h0 : heap) a hist h s rs, h0 a = Some (0, 0) -> zhistory_ok hist -> paired hist ->
  zrun f sz key_of hash keq rep (h0, s_new a) hist = Ok ((h, s), rs) ->
  exists rs', run f key_of hash keq rep empty_swiss (unlinked hist) = Ok (os_t s, rs') /\ agree_all (map snd hist) rs rs'.
Proof. exact (fun E K f sz key_of hash keq rep F Hsz KL R => run_same_wide f sz key_of hash keq Hsz KL rep R F). Qed.
Print Assumptions C79_sparse.

(** C79 for sparse and stable containers on all builds, as far as it holds.  Missing: on builds
    with 8-slot blocks, the unordered container may end in the bit scan of C22
    ([C79_refuted]). *)
Theorem C79_sparse_partial : forall (E K : Type) f sz (key_of : E -> K) hash keq rep,
  0 < sz -> key_laws hash keq -> (forall a b, keq (key_of a) (key_of b) = true -> key_of (rep a b) = key_of a) ->
  forall (h0 : heap) a hist h s rs, h0 a = Some (0, 0) -> zhistory_ok hist -> paired hist ->
  zrun f sz key_of hash keq rep (h0, s_new a) hist = Ok ((h, s), rs) ->
  (exists rs', run f key_of hash keq rep empty_swiss (unlinked hist) = Ok (os_t s, rs') /\ agree_all (map snd hist) rs rs') \/
  ((f = NEON \/ f = WORD) /\ run f key_of hash keq rep empty_swiss (unlinked hist) = Err BitScanZero).
Proof. exact (fun E K f sz key_of hash keq rep Hsz KL R => run_same_new f sz key_of hash keq Hsz KL rep R). Qed.
Print Assumptions C79_sparse_partial.

(** C79 for dense containers, in full, with any number of keys. *)
Theorem C79_dense : forall (E K : Type) sz nk (key_of : nat -> E -> K) hash keq rep, 0 < sz ->
  forall (h0 : heap) a hist h s rs, h0 a = Some (0, 0) -> dpaired hist ->
  OrderedRun.orun sz nk key_of hash keq rep (h0, OrderedRun.o_new a) hist = Ok ((h, s), rs) ->
  exists rs', DenseRun.drun nk key_of hash keq rep DenseModel.empty_dense (dunlinked hist) = Ok (OrderedDense.o_d s, rs') /\
    dagree_all (map snd hist) rs rs'.
Proof. exact (fun E K sz nk key_of hash keq rep Hsz => drun_same_new sz nk key_of hash keq rep Hsz). Qed.
Print Assumptions C79_dense.

(** On builds with 8-slot blocks the ordered container can have defined behaviour where the
    unordered one does not: erasing the last element. *)
Theorem C79_refuted : exists hist, zhistory_ok hist /\ paired hist /\
  results (zrun WORD 48 ekey ehash ekeq erep (OrderedInstances.heap0, s_new (OrderedInstances.addr0 0)) hist) = Ok [RUnit; RInserted (5, 1) true; RErased None true] /\
  run WORD ekey ehash ekeq erep empty_swiss (unlinked hist) = Err BitScanZero.
Proof.
  exists (SwissOrderedInstances.xprog [ZReserve 20; ZInsert (5, 1); ZErase 5]). split; [apply SwissOrderedInstances.placed_calls; reflexivity|]. split; [repeat constructor; discriminate|].
  split; vm_compute; reflexivity.
Qed.
Print Assumptions C79_refuted.

(** The elements in the slots of a table. *)
Definition layout (t : @swiss entry) : list (Z * option entry) := map (fun i => (s_meta t i, option_map fst (s_nodes t i))) (zrange (s_cap t)).
Definition both : list (zcall entry Z) :=
  [ZInsert (40, 1); ZInsert (17, 3); ZInsert (5, 2); ZIterate; ZInsert (17, 9); ZErase 17; ZAssign (5, 6); ZInsert (33, 4); ZReserve 30; ZBackwards; ZErase 40; ZFind 33; ZSize].
Example C79_case_sparse :
  let z := zrun SSE2 48 ekey ehash ekeq erep (OrderedInstances.heap0, s_new (OrderedInstances.addr0 0)) (SwissOrderedInstances.xprog both) in
  let u := run SSE2 ekey ehash ekeq erep empty_swiss (unlinked (SwissOrderedInstances.xprog both)) in
  results z = Ok [RInserted (40, 1) true; RInserted (17, 3) true; RInserted (5, 2) true; RList [(40, 1); (17, 3); (5, 2)]; RInserted (17, 3) false;
    RErased (Some (5, 2)) true; RInserted (5, 6) false; RInserted (33, 4) true; RUnit; RList [(33, 4); (5, 6); (40, 1)]; RErased (Some (5, 6)) true; RFound (Some (33, 4)); RNum 2] /\
  results u = Ok [RInserted (40, 1) true; RInserted (17, 3) true; RInserted (5, 2) true; RInserted (17, 3) false;
    RErased (Some (5, 2)) true; RInserted (5, 6) false; RInserted (33, 4) true; RUnit; RErased None true; RFound (Some (33, 4)); RNum 2] /\
  layout (os_t (snd (state z (OrderedInstances.heap0, s_new 0)))) = layout (state u empty_swiss).
Proof. vm_compute. repeat split; reflexivity. Qed.
Definition dlayout (t : @DenseModel.dense entry) : list (option entry) := map (fun i => option_map (@DenseModel.n_val entry) (DenseModel.d_nodes t i)) (zrange (DenseModel.d_cap t)).
Definition dboth : list (OrderedSpec.ocall entry Z) :=
  [OrderedSpec.OInsert (40, 1); OrderedSpec.OInsert (17, 3); OrderedSpec.OInsert (5, 2); OrderedSpec.OErase 0 40; OrderedSpec.OIterate; OrderedSpec.OEmplace (40, 7); OrderedSpec.OReserve 9; OrderedSpec.OFind 0 5; OrderedSpec.OSize].
Example C79_case_dense :
  let o := OrderedRun.orun 48 1 DenseInstances.key1 ehash ekeq erep (OrderedInstances.heap0, OrderedRun.o_new (OrderedInstances.addr0 0)) (OrderedInstances.yprog dboth) in
  let d := DenseRun.drun 1 DenseInstances.key1 ehash ekeq erep DenseModel.empty_dense (dunlinked (OrderedInstances.yprog dboth)) in
  results o = Ok [DenseSpec.QInserted (40, 1) true; DenseSpec.QInserted (17, 3) true; DenseSpec.QInserted (5, 2) true; DenseSpec.QUnit; DenseSpec.QList [(17, 3); (5, 2)];
    DenseSpec.QInserted (40, 7) true; DenseSpec.QUnit; DenseSpec.QFound (Some (5, 2)); DenseSpec.QNum 3] /\
  results d = Ok [DenseSpec.QInserted (40, 1) true; DenseSpec.QInserted (17, 3) true; DenseSpec.QInserted (5, 2) true; DenseSpec.QNext (Some (5, 2));
    DenseSpec.QInserted (40, 7) true; DenseSpec.QUnit; DenseSpec.QFound (Some (5, 2)); DenseSpec.QNum 3] /\
  dlayout (state d DenseModel.empty_dense) = [Some (5, 2); Some (17, 3); Some (40, 7)] ++ repeat None 6 /\
  dlayout (OrderedDense.o_d (snd (state o (OrderedInstances.heap0, OrderedRun.o_new 0)))) = dlayout (state d DenseModel.empty_dense).
Proof. vm_compute. repeat split; reflexivity. Qed.
