(** Properties C42, C43, C45 and C54: comparison of containers, element access of maps,
    arguments that refer to elements of the container. *)
From Coq Require Import ZArith List Bool Lia Permutation.
From Verif Require Import Base Bits MapSpec WorldSpec World SwissModel SwissInv SwissRun LinkModel Instances WrapSpec WrapModel WrapProofs.
From Verif Require DenseSpec DenseModel DenseRun DenseInv DenseWorldSpec DenseWorld DenseInstances WorldProofs OrderedSpec OrderedDense OrderedRun OrderedWorldSpec OrderedWorld OrderedInstances
  SwissOrderedSpec SwissOrdered SwissOrderedRun SwissOrderedWorldSpec SwissOrderedWorld SwissOrderedInstances WrapSwiss WrapDense WrapOrdered WrapSwissOrdered.
Import ListNotations.
Open Scope Z_scope.

(** What the specification of equality says when == on elements is equality. *)
Theorem C42_meaning : forall (E : Type) (veq : E -> E -> bool), (forall a b, veq a b = true <-> a = b) ->
  forall l m, same_elements veq l m <-> Permutation l m.
Proof. exact (fun E veq H l m => same_elements_eq E veq l m H). Qed.
Print Assumptions C42_meaning.

(** C42, sparse and stable containers on SSE2 and SSSE3 builds. *)
Theorem C42_sparse_x86 : forall (E K : Type) f (key_of : E -> K) hash keq rep,
  key_laws hash keq -> (forall a b, keq (key_of a) (key_of b) = true -> key_of (rep a b) = key_of a) ->
  forall veq s o, f = SSE2 \/ f = SSSE3 -> eq_laws veq -> occurs f key_of hash keq rep s -> occurs f key_of hash keq rep o ->
  exists b, s_equal f veq s o = Ok b /\ (b = true <-> same_elements veq (elems s) (elems o)).
Proof. exact (fun E K f key_of hash keq rep KL R => WrapSwiss.equal_wide f key_of hash keq rep KL R). Qed.
Print Assumptions C42_sparse_x86.
(** The same on all builds, where the iteration may meet the undefined bit scan of C22. *)
Theorem C42_sparse_all : forall (E K : Type) f (key_of : E -> K) hash keq rep,
  key_laws hash keq -> (forall a b, keq (key_of a) (key_of b) = true -> key_of (rep a b) = key_of a) ->
  forall veq s o, eq_laws veq -> occurs f key_of hash keq rep s -> occurs f key_of hash keq rep o ->
  (exists b, s_equal f veq s o = Ok b /\ (b = true <-> same_elements veq (elems s) (elems o))) \/
  ((f = NEON \/ f = WORD) /\ s_equal f veq s o = Err BitScanZero).
Proof. exact (fun E K f key_of hash keq rep KL R => WrapSwiss.equal_final f key_of hash keq rep KL R). Qed.
Print Assumptions C42_sparse_all.

Definition entry_eq (a b : entry) : bool := (fst a =? fst b) && (snd a =? snd b).
Lemma entry_laws : eq_laws entry_eq.
Proof.
  constructor; unfold entry_eq; intros; repeat (rewrite ?andb_true_iff, ?Z.eqb_eq in *); intuition congruence.
Qed.
Definition cins (l : list Z) : list (call entry Z) := map (fun k => CInsert (k, 10 * k)) l.
Definition cdel (l : list Z) : list (call entry Z) := map (fun k => CErase k) l.
Definition table (f : simd) (l : list (call entry Z)) : @swiss entry := state (erun f l) empty_swiss.
Example C42_sparse_case : forall f, f = SSE2 \/ f = SSSE3 ->
  let s := table f (cins [1; 17; 33; 2] ++ cdel [17] ++ cins [5]) in
  let o := table f (CReserve 40 :: cins [5; 33; 2; 1]) in
  let o' := table f (cins [5; 33; 2; 1; 17]) in
  map snd (match iterate f s with Ok l => l | Err _ => [] end) <> map snd (match iterate f o with Ok l => l | Err _ => [] end) /\
  bucket_count s <> bucket_count o /\ s_equal f entry_eq s o = Ok true /\ s_equal f entry_eq s o' = Ok false /\
  s_equal f entry_eq s (table f (cins [5; 33; 2] ++ [CInsert (1, 11)])) = Ok false.
Proof. intros f [->| ->]; vm_compute; repeat split; try discriminate; reflexivity. Qed.

(** NEON and portable builds: comparing two empty maps, one of which has buckets. *)
Theorem C42_refuted : forall f, f = NEON \/ f = WORD -> exists s o, occurs f ekey ehash ekeq erep s /\ occurs f ekey ehash ekeq erep o /\ elems s = [] /\ elems o = [] /\ s_equal f entry_eq s o = Err BitScanZero.
Proof.
  intros f Hf. exists (table f [CReserve 20]), (table f []).
  split; [apply WorldProofs.reachable_occurs; apply erun_reachable; [vm_compute; reflexivity|destruct f; (eexists; vm_compute; reflexivity)]|].
  split; [apply WorldProofs.reachable_occurs; apply erun_reachable; [vm_compute; reflexivity|destruct f; (eexists; vm_compute; reflexivity)]|].
  destruct Hf as [->| ->]; vm_compute; repeat split; reflexivity.
Qed.
Print Assumptions C42_refuted.

(** C42, dense containers with any number of keys (maps, sets, multisets, multimaps). *)
Theorem C42_dense : forall (E K : Type) nk (key_of : nat -> E -> K) hash keq rep clone pocca pocma,
  key_laws hash keq -> (forall x e, key_of 0%nat (rep x e) = key_of 0%nat x) -> (forall j e, (j < nk)%nat -> key_of j (clone e) = key_of j e) ->
  forall veq s o, eq_laws veq -> DenseWorld.doccurs nk key_of hash keq rep clone pocca pocma s -> DenseWorld.doccurs nk key_of hash keq rep clone pocca pocma o ->
  exists b, d_equal veq s o = Ok b /\ (b = true <-> same_elements veq (DenseRun.delems s) (DenseRun.delems o)).
Proof. exact (fun E K nk key_of hash keq rep clone pocca pocma KL R C => WrapDense.equal_final nk key_of hash keq rep clone pocca pocma KL R C). Qed.
Print Assumptions C42_dense.

Definition dins (i : nat) (l : list Z) : list (DenseWorldSpec.xcall entry Z) := map (fun k => DenseWorldSpec.XOn i (DenseSpec.DInsert (k, 10 * k))) l.
Definition ddel (i : nat) (l : list Z) : list (DenseWorldSpec.xcall entry Z) := map (fun k => DenseWorldSpec.XOn i (DenseSpec.DErase 0 k)) l.
Definition dtable := DenseInstances.dmap.
Example C42_dense_case :
  let l := dins 0 [1; 17; 33; 2] ++ ddel 0 [17] ++ dins 1 [33; 2; 1] ++ dins 2 [33; 2; 5] in
  (forall i, DenseWorld.doccurs 1 DenseInstances.key1 ehash ekeq erep DenseInstances.sameel false true (dtable l i)) /\
  DenseRun.delems (dtable l 0) = [(1, 10); (2, 20); (33, 330)] /\ DenseRun.delems (dtable l 1) = [(33, 330); (2, 20); (1, 10)] /\
  d_equal entry_eq (dtable l 0) (dtable l 1) = Ok true /\ d_equal entry_eq (dtable l 0) (dtable l 2) = Ok false.
Proof. split; [intros i; apply DenseInstances.dmap_occurs; vm_compute; reflexivity|]. vm_compute. repeat split; reflexivity. Qed.

(** C42, ordered dense containers: the order does not matter. *)
Theorem C42_ordered_dense : forall (E K : Type) sz nk (key_of : nat -> E -> K) hash keq rep clone pocca pocma, 0 < sz ->
  key_laws hash keq -> (forall x e, key_of 0%nat (rep x e) = key_of 0%nat x) -> (forall j e, (j < nk)%nat -> key_of j (clone e) = key_of j e) ->
  forall veq hw i j, eq_laws veq -> OrderedWorld.yoccurs sz nk key_of hash keq rep clone pocca pocma hw ->
  exists li lj b, OrderedDense.o_iterate sz (fst hw) (snd hw i) = Ok li /\ OrderedDense.o_iterate sz (fst hw) (snd hw j) = Ok lj /\ o_equal sz veq (fst hw) (snd hw i) (snd hw j) = Ok b /\
    (b = true <-> same_elements veq li lj).
Proof. exact (fun E K sz nk key_of hash keq rep clone pocca pocma Hsz KL R C => WrapOrdered.equal_ordered sz nk key_of hash keq rep clone pocca pocma Hsz KL R C). Qed.
Print Assumptions C42_ordered_dense.
Definition yins (i : nat) (l : list Z) : list (OrderedWorldSpec.ycall entry Z) := map (fun k => OrderedWorldSpec.YOn i (OrderedSpec.OInsert (k, 10 * k))) l.
Example C42_ordered_dense_case : let hw := OrderedInstances.omaps (yins 0 [1; 17; 33] ++ yins 1 [33; 1; 17] ++ yins 2 [33; 1; 18]) in
  OrderedWorld.yoccurs 48 1 DenseInstances.key1 ehash ekeq erep DenseInstances.sameel false true hw /\
  o_equal 48 entry_eq (fst hw) (snd hw 0%nat) (snd hw 1%nat) = Ok true /\ o_equal 48 entry_eq (fst hw) (snd hw 0%nat) (snd hw 2%nat) = Ok false.
Proof. split; [apply OrderedInstances.omaps_occur; vm_compute; reflexivity|]. vm_compute. split; reflexivity. Qed.

(** C42, ordered sparse and stable containers. *)
Theorem C42_ordered_sparse : forall (E K : Type) f sz (key_of : E -> K) hash keq rep clone pocca pocma, 0 < sz ->
  key_laws hash keq -> (forall a b, keq (key_of a) (key_of b) = true -> key_of (rep a b) = key_of a) -> (forall e, key_of (clone e) = key_of e) ->
  forall veq w i j, eq_laws veq -> SwissOrderedWorld.xoccurs f sz key_of hash keq rep clone pocca pocma w ->
  exists li lj b, SwissOrdered.s_iterate sz (SwissOrderedWorld.xw_m w) (SwissOrderedWorld.xw_c w i) = Ok li /\ SwissOrdered.s_iterate sz (SwissOrderedWorld.xw_m w) (SwissOrderedWorld.xw_c w j) = Ok lj /\
    z_equal sz veq (SwissOrderedWorld.xw_m w) (SwissOrderedWorld.xw_c w i) (SwissOrderedWorld.xw_c w j) = Ok b /\ (b = true <-> same_elements veq li lj).
Proof. exact (fun E K f sz key_of hash keq rep clone pocca pocma Hsz KL R C => WrapSwissOrdered.equal_ordered f sz key_of hash keq rep clone pocca pocma Hsz KL R C). Qed.
Print Assumptions C42_ordered_sparse.
Definition xins (i : nat) (l : list Z) : list (SwissOrderedWorldSpec.xcall entry Z) := map (fun k => SwissOrderedWorldSpec.XOn i (SwissOrderedSpec.ZInsert (k, 10 * k))) l.
Example C42_ordered_sparse_case : forall f, let w := SwissOrderedInstances.smaps f (xins 0 [1; 17; 33] ++ xins 1 [33; 1; 17] ++ xins 2 [33; 1; 18]) in
  SwissOrderedWorld.xoccurs f 48 ekey ehash ekeq erep SwissOrderedInstances.same_entry false true w /\
  z_equal 48 entry_eq (SwissOrderedWorld.xw_m w) (SwissOrderedWorld.xw_c w 0%nat) (SwissOrderedWorld.xw_c w 1%nat) = Ok true /\
  z_equal 48 entry_eq (SwissOrderedWorld.xw_m w) (SwissOrderedWorld.xw_c w 0%nat) (SwissOrderedWorld.xw_c w 2%nat) = Ok false.
Proof. intros f. split; [apply SwissOrderedInstances.smaps_occur; destruct f; vm_compute; reflexivity|]. destruct f; vm_compute; split; reflexivity. Qed.

(** C43, sparse and stable maps: at. *)
Theorem C43_at_sparse : forall (E K V : Type) f (key_of : E -> K) hash keq rep (mapped : E -> V),
  key_laws hash keq -> (forall a b, keq (key_of a) (key_of b) = true -> key_of (rep a b) = key_of a) ->
  forall s k, occurs f key_of hash keq rep s -> exists r, s_at mapped f key_of hash keq s k = Ok r /\ at_spec key_of mapped keq (elems s) k r.
Proof. exact (fun E K V f key_of hash keq rep mapped KL R => WrapSwiss.at_final f key_of hash keq rep mapped KL R). Qed.
Print Assumptions C43_at_sparse.
(** operator[]; the table afterwards answers every further history as its contents do. *)
Theorem C43_index_sparse : forall (E K V : Type) f (key_of : E -> K) hash keq rep (mapped : E -> V),
  key_laws hash keq -> (forall a b, keq (key_of a) (key_of b) = true -> key_of (rep a b) = key_of a) ->
  forall fresh v s k, (forall k, key_of (fresh k) = k) -> occurs f key_of hash keq rep s -> env_ok v ->
  exists s' r, s_index mapped f key_of hash keq fresh v s k = Ok (s', r) /\ index_spec key_of mapped keq (elems s) k (fresh k) (elems s') r /\ behaves f key_of hash keq rep s' (elems s').
Proof. exact (fun E K V f key_of hash keq rep mapped KL R => WrapSwiss.index_final f key_of hash keq rep mapped KL R). Qed.
Print Assumptions C43_index_sparse.

Definition blank (k : Z) : entry := (k, 0).
Example C43_sparse_case : forall f, let s := table f (cins [1; 17; 33] ++ cdel [17]) in
  s_at snd f ekey ehash ekeq s 33 = Ok (Some 330) /\ s_at snd f ekey ehash ekeq s 17 = Ok None /\
  match s_index snd f ekey ehash ekeq blank v0 s 17 with Ok (s', r) => r = Some 0 /\ s_at snd f ekey ehash ekeq s' 17 = Ok (Some 0) /\ size s' = 3 | Err _ => False end /\
  match s_index snd f ekey ehash ekeq blank v0 s 33 with Ok (s', r) => r = Some 330 /\ size s' = 2 | Err _ => False end.
Proof. intros f. destruct f; vm_compute; repeat split; reflexivity. Qed.

(** C43, dense maps.  The third result of operator[] is the caller's key object (C54). *)
Theorem C43_at_dense : forall (E K V : Type) nk (key_of : nat -> E -> K) hash keq rep clone pocca pocma (mapped : E -> V),
  key_laws hash keq -> (forall x e, key_of 0%nat (rep x e) = key_of 0%nat x) -> (forall j e, (j < nk)%nat -> key_of j (clone e) = key_of j e) ->
  forall s k, (0 < nk)%nat -> DenseWorld.doccurs nk key_of hash keq rep clone pocca pocma s ->
  exists r, d_at mapped key_of hash keq s k = Ok r /\ at_spec (key_of 0%nat) mapped keq (DenseRun.delems s) k r.
Proof. exact (fun E K V nk key_of hash keq rep clone pocca pocma mapped KL R C => WrapDense.at_final nk key_of hash keq rep clone pocca pocma mapped KL R C). Qed.
Print Assumptions C43_at_dense.
Theorem C43_index_dense : forall (E K V : Type) (key_of : nat -> E -> K) hash keq rep clone pocca pocma (mapped : E -> V),
  key_laws hash keq -> (forall x e, key_of 0%nat (rep x e) = key_of 0%nat x) -> (forall j e, (j < 1)%nat -> key_of j (clone e) = key_of j e) ->
  forall moved fresh v s k, (forall k, key_of 0%nat (fresh k) = k) -> DenseWorld.doccurs 1 key_of hash keq rep clone pocca pocma s -> DenseRun.denv_ok v ->
  exists s' r k', d_index mapped 1 key_of hash keq moved fresh v s k = Ok (s', r, k') /\ index_spec (key_of 0%nat) mapped keq (DenseRun.delems s) k (fresh k) (DenseRun.delems s') r /\
    k' = (if forallb (fun e => negb (keq (key_of 0%nat e) k)) (DenseRun.delems s) then match r with Some _ => moved k | None => k end else k).
Proof. exact (fun E K V key_of hash keq rep clone pocca pocma mapped KL R C => WrapDense.index_final key_of hash keq rep clone pocca pocma mapped KL R C). Qed.
Print Assumptions C43_index_dense.
Example C43_dense_case : let s := dtable (dins 0 [1; 17; 33] ++ ddel 0 [17]) 0 in
  d_at snd DenseInstances.key1 ehash ekeq s 33 = Ok (Some 330) /\ d_at snd DenseInstances.key1 ehash ekeq s 17 = Ok None /\
  match d_index snd 1 DenseInstances.key1 ehash ekeq (fun _ => 0) blank DenseInstances.dv0 s 17 with
  | Ok (s', r, _) => r = Some 0 /\ DenseRun.delems s' = [(1, 10); (33, 330); (17, 0)] | Err _ => False end /\
  match d_index snd 1 DenseInstances.key1 ehash ekeq (fun _ => 0) blank DenseInstances.dv0 s 33 with
  | Ok (s', r, _) => r = Some 330 /\ DenseRun.delems s' = [(1, 10); (33, 330)] | Err _ => False end.
Proof. vm_compute. repeat split; reflexivity. Qed.

(** C43, ordered dense maps: a new element goes to the end.  The insertions that C17 does not
    cover are excluded by [oblocked]. *)
Theorem C43_at_ordered_dense : forall (E K V : Type) sz nk (key_of : nat -> E -> K) hash keq rep clone pocca pocma (mapped : E -> V), 0 < sz ->
  key_laws hash keq -> (forall x e, key_of 0%nat (rep x e) = key_of 0%nat x) -> (forall j e, (j < nk)%nat -> key_of j (clone e) = key_of j e) ->
  forall hw i v k, (0 < nk)%nat -> OrderedWorld.yoccurs sz nk key_of hash keq rep clone pocca pocma hw ->
  exists l r, OrderedDense.o_iterate sz (fst hw) (snd hw i) = Ok l /\ o_map_at mapped sz nk key_of hash keq rep v (fst hw, snd hw i) k = Ok r /\ at_spec (key_of 0%nat) mapped keq l k r.
Proof. exact (fun E K V sz nk key_of hash keq rep clone pocca pocma mapped Hsz KL R C => WrapOrdered.at_ordered sz nk key_of hash keq rep clone pocca pocma mapped Hsz KL R C). Qed.
Print Assumptions C43_at_ordered_dense.
Theorem C43_index_ordered_dense_partial : forall (E K V : Type) sz (key_of : nat -> E -> K) hash keq rep clone pocca pocma (mapped : E -> V), 0 < sz ->
  key_laws hash keq -> (forall x e, key_of 0%nat (rep x e) = key_of 0%nat x) -> (forall j e, (j < 1)%nat -> key_of j (clone e) = key_of j e) ->
  forall fresh hw i v k, (forall k, key_of 0%nat (fresh k) = k) -> OrderedWorld.yoccurs sz 1 key_of hash keq rep clone pocca pocma hw -> DenseRun.denv_ok (OrderedDense.ov_d v) ->
  OrderedRun.oblocked sz 1 key_of hash keq rep v (fst hw, snd hw i) (OrderedSpec.OInsert (fresh k)) \/
  exists l hs' r l', OrderedDense.o_iterate sz (fst hw) (snd hw i) = Ok l /\ o_index mapped sz 1 key_of hash keq rep fresh v (fst hw, snd hw i) k = Ok (hs', r) /\
    OrderedDense.o_iterate sz (fst hs') (snd hs') = Ok l' /\ (l' = l \/ l' = l ++ [fresh k]) /\ index_spec (key_of 0%nat) mapped keq l k (fresh k) l' r.
Proof. exact (fun E K V sz key_of hash keq rep clone pocca pocma mapped Hsz KL R C => WrapOrdered.index_ordered sz key_of hash keq rep clone pocca pocma mapped Hsz KL R C). Qed.
Print Assumptions C43_index_ordered_dense_partial.
Example C43_ordered_dense_case : let hw := OrderedInstances.omaps (yins 0 [33; 1; 17]) in let v := OrderedInstances.at_ (2 ^ 20) in
  OrderedWorld.yoccurs 48 1 DenseInstances.key1 ehash ekeq erep DenseInstances.sameel false true hw /\
  o_map_at snd 48 1 DenseInstances.key1 ehash ekeq erep v (fst hw, snd hw 0%nat) 1 = Ok (Some 10) /\ o_map_at snd 48 1 DenseInstances.key1 ehash ekeq erep v (fst hw, snd hw 0%nat) 2 = Ok None /\
  match o_index snd 48 1 DenseInstances.key1 ehash ekeq erep blank v (fst hw, snd hw 0%nat) 2 with
  | Ok (hs, r) => r = Some 0 /\ OrderedDense.o_iterate 48 (fst hs) (snd hs) = Ok [(33, 330); (1, 10); (17, 170); (2, 0)] | Err _ => False end.
Proof. split; [apply OrderedInstances.omaps_occur; vm_compute; reflexivity|]. vm_compute. repeat split; reflexivity. Qed.

(** C43, ordered sparse and stable maps. *)
Theorem C43_at_ordered_sparse : forall (E K V : Type) f sz (key_of : E -> K) hash keq rep clone pocca pocma (mapped : E -> V), 0 < sz ->
  key_laws hash keq -> (forall a b, keq (key_of a) (key_of b) = true -> key_of (rep a b) = key_of a) -> (forall e, key_of (clone e) = key_of e) ->
  forall w i v k, SwissOrderedWorld.xoccurs f sz key_of hash keq rep clone pocca pocma w ->
  exists l r, SwissOrdered.s_iterate sz (SwissOrderedWorld.xw_m w) (SwissOrderedWorld.xw_c w i) = Ok l /\
    z_at mapped f sz key_of hash keq rep v (SwissOrderedWorld.xw_m w, SwissOrderedWorld.xw_c w i) k = Ok r /\ at_spec key_of mapped keq l k r.
Proof. exact (fun E K V f sz key_of hash keq rep clone pocca pocma mapped Hsz KL R C => WrapSwissOrdered.at_ordered f sz key_of hash keq rep clone pocca pocma mapped Hsz KL R C). Qed.
Print Assumptions C43_at_ordered_sparse.
Theorem C43_index_ordered_sparse_partial : forall (E K V : Type) f sz (key_of : E -> K) hash keq rep clone pocca pocma (mapped : E -> V), 0 < sz ->
  key_laws hash keq -> (forall a b, keq (key_of a) (key_of b) = true -> key_of (rep a b) = key_of a) -> (forall e, key_of (clone e) = key_of e) ->
  forall fresh w i v k, (forall k, key_of (fresh k) = k) -> SwissOrderedWorld.xoccurs f sz key_of hash keq rep clone pocca pocma w -> env_ok (SwissOrdered.sv_e v) ->
  SwissOrderedRun.zblocked f sz key_of hash keq rep v (SwissOrderedWorld.xw_m w, SwissOrderedWorld.xw_c w i) (SwissOrderedSpec.ZInsert (fresh k)) \/
  exists l hs' r l', SwissOrdered.s_iterate sz (SwissOrderedWorld.xw_m w) (SwissOrderedWorld.xw_c w i) = Ok l /\
    z_index mapped f sz key_of hash keq rep fresh v (SwissOrderedWorld.xw_m w, SwissOrderedWorld.xw_c w i) k = Ok (hs', r) /\
    SwissOrdered.s_iterate sz (fst hs') (snd hs') = Ok l' /\ (l' = l \/ l' = l ++ [fresh k]) /\ index_spec key_of mapped keq l k (fresh k) l' r.
Proof. exact (fun E K V f sz key_of hash keq rep clone pocca pocma mapped Hsz KL R C => WrapSwissOrdered.index_ordered f sz key_of hash keq rep clone pocca pocma mapped Hsz KL R C). Qed.
Print Assumptions C43_index_ordered_sparse_partial.
Example C43_ordered_sparse_case : forall f, let w := SwissOrderedInstances.smaps f (xins 0 [33; 1; 17]) in let v := SwissOrderedInstances.sat (2 ^ 20) in
  let hs := (SwissOrderedWorld.xw_m w, SwissOrderedWorld.xw_c w 0%nat) in
  SwissOrderedWorld.xoccurs f 48 ekey ehash ekeq erep SwissOrderedInstances.same_entry false true w /\
  z_at snd f 48 ekey ehash ekeq erep v hs 1 = Ok (Some 10) /\ z_at snd f 48 ekey ehash ekeq erep v hs 2 = Ok None /\
  match z_index snd f 48 ekey ehash ekeq erep blank v hs 2 with
  | Ok (hs, r) => r = Some 0 /\ SwissOrdered.s_iterate 48 (fst hs) (snd hs) = Ok [(33, 330); (1, 10); (17, 170); (2, 0)] | Err _ => False end.
Proof. intros f. split; [apply SwissOrderedInstances.smaps_occur; destruct f; vm_compute; reflexivity|]. destruct f; vm_compute; repeat split; reflexivity. Qed.

(** The insertions that C17 excludes: operator[] with an absent key after which the map cannot
    be iterated over (the map of C17_refuted). *)
Definition worn_map : list (SwissOrderedWorldSpec.xcall entry Z) :=
  xins 0 (map (fun k => 16 + 32 * k) [0; 1; 2; 3; 4; 5; 6; 7; 8; 9; 10; 11; 12; 13; 14; 15; 16] ++ [2; 3; 4; 5; 6; 7; 8; 9; 10; 11; 12]) ++
  map (fun k => SwissOrderedWorldSpec.XOn 0 (SwissOrderedSpec.ZErase k)) [2; 3; 4; 5].
Theorem C43_refuted : let w := SwissOrderedInstances.smaps SSE2 worn_map in
  SwissOrderedWorld.xoccurs SSE2 48 ekey ehash ekeq erep SwissOrderedInstances.same_entry false true w /\
  z_at snd SSE2 48 ekey ehash ekeq erep (SwissOrderedInstances.sat (2 ^ 20)) (SwissOrderedWorld.xw_m w, SwissOrderedWorld.xw_c w 0%nat) 13 = Ok None /\
  match z_index snd SSE2 48 ekey ehash ekeq erep blank (SwissOrderedInstances.sat (2 ^ 20)) (SwissOrderedWorld.xw_m w, SwissOrderedWorld.xw_c w 0%nat) 13 with
  | Ok (hs, r) => r = Some 0 /\ SwissOrdered.s_iterate 48 (fst hs) (snd hs) = Err OutOfBounds | Err _ => False end.
Proof. split; [apply SwissOrderedInstances.smaps_occur; vm_compute; reflexivity|]. vm_compute. repeat split; reflexivity. Qed.
Print Assumptions C43_refuted.

(** C45, sparse maps: try_emplace(k, x) with x a reference to the element in slot [i]; [build k e]
    is the element with key [k] and the mapped value of [e].  With an empty slot to spare the
    value is the one the argument had.  Missing: calls that rehash (refuted below). *)
Theorem C45_partial : forall (E K : Type) f (key_of : E -> K) hash keq rep,
  key_laws hash keq -> (forall a b, keq (key_of a) (key_of b) = true -> key_of (rep a b) = key_of a) ->
  forall build, (forall k e, key_of (build k e) = k) ->
  forall lim s k i e, occurs f key_of hash keq rep s -> holds s i e -> lim < 2 ^ 59 -> 0 < s_nempty s ->
  try_emplace_aliased f key_of hash keq lim s k i build = do_insert f key_of hash keq lim true s (build k e).
Proof. exact (fun E K f key_of hash keq rep KL R => WrapSwiss.aliased_room f key_of hash keq rep KL R). Qed.
Print Assumptions C45_partial.
(** A preceding reserve for one more element is enough. *)
Theorem C45_reserved_partial : forall (E K : Type) f (key_of : E -> K) hash keq rep,
  key_laws hash keq -> (forall a b, keq (key_of a) (key_of b) = true -> key_of (rep a b) = key_of a) ->
  forall build, (forall k e, key_of (build k e) = k) ->
  forall lim lim' s s' n tr k i e, occurs f key_of hash keq rep s -> lim < 2 ^ 59 -> lim' < 2 ^ 59 -> 0 <= n < 2 ^ 64 ->
  reserve f lim s n = Ok (s', Some tr) -> size s < n -> holds s' i e ->
  try_emplace_aliased f key_of hash keq lim' s' k i build = do_insert f key_of hash keq lim' true s' (build k e).
Proof. exact (fun E K f key_of hash keq rep KL R => WrapSwiss.aliased_reserved f key_of hash keq rep KL R). Qed.
Print Assumptions C45_reserved_partial.
(** Every such call that grows the table reads freed memory. *)
Theorem C45_growth_refuted : forall (E K : Type) f (key_of : E -> K) hash keq rep,
  key_laws hash keq -> (forall a b, keq (key_of a) (key_of b) = true -> key_of (rep a b) = key_of a) ->
  forall build lim s k i, occurs f key_of hash keq rep s -> lim < 2 ^ 59 -> absent key_of keq k (elems s) ->
  (exists s' p tr, make_room f lim s (hash k) = Ok (s', Some (p, tr)) /\ s_cap s' <> s_cap s) ->
  try_emplace_aliased f key_of hash keq lim s k i build = Err UseAfterFree.
Proof. exact (fun E K f key_of hash keq rep KL R => WrapSwiss.aliased_freed f key_of hash keq rep KL R). Qed.
Print Assumptions C45_growth_refuted.
(** Stable maps: the array holds pointers, elements keep their addresses, and the call always
    stores the value of the argument. *)
Theorem C45_stable : forall (E K : Type) f (key_of : E -> K) hash keq rep,
  key_laws hash keq -> (forall a b, keq (key_of a) (key_of b) = true -> key_of (rep a b) = key_of a) ->
  forall build, (forall k e, key_of (build k e) = k) ->
  forall A (addr : E -> A) aeq lim s k e, (forall a b, aeq a b = true <-> a = b) -> occurs f key_of hash keq rep s -> NoDup (map addr (elems s)) -> In e (elems s) -> lim < 2 ^ 59 ->
  try_emplace_aliased_stable f key_of hash keq addr aeq lim s k (addr e) build = do_insert f key_of hash keq lim true s (build k e).
Proof. exact (fun E K f key_of hash keq rep KL R => WrapSwiss.aliased_stable f key_of hash keq rep KL R). Qed.
Print Assumptions C45_stable.

Definition copied (k : Z) (e : entry) : entry := (k, snd e).
Definition stored (x : res (@swiss entry * ins_result)) : res (option entry) :=
  let* y := x in Ok (match snd y with Some (p, _, _) => option_map fst (s_nodes (fst y) p) | None => None end).
(** 28 of 31 buckets (14 of 15) in use, the last four (three) elements erased again: the next
    insertion reclaims the erased slots in place. *)
Definition worn (f : simd) : list (call entry Z) :=
  match f with
  | WORD => cins [8; 24; 40; 56; 72; 88; 104; 120; 136; 2; 3; 4; 5; 6] ++ cdel [2; 3; 4]
  | _ => cins (map (fun k => 16 + 32 * k) (zrange 17) ++ [2; 3; 4; 5; 6; 7; 8; 9; 10; 11; 12]) ++ cdel [2; 3; 4; 5]
  end.
Definition worn_key (f : simd) : Z := match f with WORD => 7 | _ => 13 end.
Definition worn_slot (f : simd) : Z := match f with WORD => 9 | _ => 17 end.
Definition worn_arg (f : simd) : entry := match f with WORD => (24, 240) | _ => (48, 480) end.
Example C45_case : forall f, let s := table f (CReserve 20 :: cins [1; 2]) in
  holds s 1 (1, 10) /\ 0 < s_nempty s /\ stored (try_emplace_aliased f ekey ehash ekeq (2 ^ 40) s 3 1 copied) = Ok (Some (3, 10)).
Proof. intros f. split; [split; [destruct f; vm_compute; split; congruence|exists (ehash 1); destruct f; vm_compute; reflexivity]|]. split; destruct f; vm_compute; reflexivity. Qed.
(** The call of C45 on a table that has one bucket, and on the worn tables; the same on
    stable tables, with the key of an element as its address. *)
Theorem C45_refuted : forall f,
  (let s := table f (cins [1]) in occurs f ekey ehash ekeq erep s /\ holds s 0 (1, 10) /\
     try_emplace_aliased f ekey ehash ekeq (2 ^ 40) s 2 0 copied = Err UseAfterFree) /\
  (let s := table f (worn f) in occurs f ekey ehash ekeq erep s /\ holds s (worn_slot f) (worn_arg f) /\
     match stored (try_emplace_aliased f ekey ehash ekeq (2 ^ 40) s (worn_key f) (worn_slot f) copied) with Ok (Some e) => fst e = worn_key f /\ snd e <> snd (worn_arg f) | _ => False end).
Proof.
  intros f. split; (split; [apply WorldProofs.reachable_occurs; apply erun_reachable; [destruct f; vm_compute; reflexivity|destruct f; (eexists; vm_compute; reflexivity)]|]); (split; [split; [destruct f; vm_compute; split; congruence|destruct f; (eexists; vm_compute; reflexivity)]|]).
  - destruct f; vm_compute; reflexivity.
  - destruct f; vm_compute; (split; [reflexivity|discriminate]).
Qed.
Print Assumptions C45_refuted.
Example C45_stable_case : forall f,
  stored (try_emplace_aliased_stable f ekey ehash ekeq fst Z.eqb (2 ^ 40) (table f (cins [1])) 2 1 copied) = Ok (Some (2, 10)) /\
  stored (try_emplace_aliased_stable f ekey ehash ekeq fst Z.eqb (2 ^ 40) (table f (worn f)) (worn_key f) (fst (worn_arg f)) copied) = Ok (Some (worn_key f, snd (worn_arg f))).
Proof. intros f. destruct f; vm_compute; split; reflexivity. Qed.

(** C45, dense maps: the value is the one of the argument unless the element array is full;
    then freed memory is read (or the allocation fails). *)
Theorem C45_dense_partial : forall (E K : Type) (key_of : nat -> E -> K) hash keq rep clone pocca pocma,
  key_laws hash keq -> (forall x e, key_of 0%nat (rep x e) = key_of 0%nat x) -> (forall j e, (j < 1)%nat -> key_of j (clone e) = key_of j e) ->
  forall build, (forall k e, key_of 0%nat (build k e) = k) ->
  forall v s k i e, DenseWorld.doccurs 1 key_of hash keq rep clone pocca pocma s -> nth_error (DenseRun.delems s) i = Some e -> DenseRun.denv_ok v -> DenseModel.d_size s < DenseModel.d_cap s ->
  d_try_emplace_aliased 1 key_of hash keq v s k (Z.of_nat i) build = DenseModel.do_insert 1 key_of hash keq (DenseRun.dv_dlim v) (DenseRun.dv_slim v) true s (build k e).
Proof. exact (fun E K key_of hash keq rep clone pocca pocma KL R C => WrapDense.aliased_room key_of hash keq rep clone pocca pocma KL R C). Qed.
Print Assumptions C45_dense_partial.
Theorem C45_dense_growth_refuted : forall (E K : Type) (key_of : nat -> E -> K) hash keq rep clone pocca pocma,
  key_laws hash keq -> (forall x e, key_of 0%nat (rep x e) = key_of 0%nat x) -> (forall j e, (j < 1)%nat -> key_of j (clone e) = key_of j e) ->
  forall build, (forall k e, key_of 0%nat (build k e) = k) ->
  forall v s k i e, DenseWorld.doccurs 1 key_of hash keq rep clone pocca pocma s -> DenseRun.denv_ok v -> DenseSpec.dabsent key_of keq 0 k (DenseRun.delems s) -> DenseModel.d_size s = DenseModel.d_cap s ->
  d_try_emplace_aliased 1 key_of hash keq v s k i build = Err UseAfterFree \/
  exists s', d_try_emplace_aliased 1 key_of hash keq v s k i build = Ok (s', None) /\
    DenseModel.do_insert 1 key_of hash keq (DenseRun.dv_dlim v) (DenseRun.dv_slim v) true s (build k e) = Ok (s', None).
Proof. exact (fun E K key_of hash keq rep clone pocca pocma KL R C => WrapDense.aliased_freed key_of hash keq rep clone pocca pocma KL R C). Qed.
Print Assumptions C45_dense_growth_refuted.
Example C45_dense_case : let s := dtable [DenseWorldSpec.XOn 0 (DenseSpec.DReserve 20); DenseWorldSpec.XOn 0 (DenseSpec.DInsert (1, 10))] 0 in
  DenseModel.d_size s < DenseModel.d_cap s /\
  match d_try_emplace_aliased 1 DenseInstances.key1 ehash ekeq DenseInstances.dv0 s 2 0 copied with Ok (s', _) => DenseRun.delems s' = [(1, 10); (2, 10)] | Err _ => False end.
Proof. vm_compute. split; reflexivity. Qed.
Theorem C45_dense_refuted : exists s, DenseWorld.doccurs 1 DenseInstances.key1 ehash ekeq erep DenseInstances.sameel false true s /\ nth_error (DenseRun.delems s) 0 = Some (1, 10) /\
  d_try_emplace_aliased 1 DenseInstances.key1 ehash ekeq DenseInstances.dv0 s 9 0 copied = Err UseAfterFree.
Proof.
  exists (dtable (dins 0 [1; 2; 3; 4; 5; 6; 7; 8]) 0). split; [apply DenseInstances.dmap_occurs; vm_compute; reflexivity|]. vm_compute. split; reflexivity.
Qed.
Print Assumptions C45_dense_refuted.

(** C54: m[k] with a key variable k leaves k as it was.  Sparse and stable maps copy the key
    (no state of the caller is changed in [s_index]).  A dense map moves it out of the
    variable whenever it inserts. *)
Theorem C54_partial : forall (E K V : Type) (key_of : nat -> E -> K) hash keq rep clone pocca pocma (mapped : E -> V),
  key_laws hash keq -> (forall x e, key_of 0%nat (rep x e) = key_of 0%nat x) -> (forall j e, (j < 1)%nat -> key_of j (clone e) = key_of j e) ->
  forall moved fresh v s k, (forall k, key_of 0%nat (fresh k) = k) -> DenseWorld.doccurs 1 key_of hash keq rep clone pocca pocma s -> DenseRun.denv_ok v ->
  (exists e, In e (DenseRun.delems s) /\ keq (key_of 0%nat e) k = true) ->
  exists s' r, d_index mapped 1 key_of hash keq moved fresh v s k = Ok (s', r, k).
Proof. exact (fun E K V key_of hash keq rep clone pocca pocma mapped KL R C => WrapDense.index_keeps_key key_of hash keq rep clone pocca pocma mapped KL R C). Qed.
Print Assumptions C54_partial.
Theorem C54_refuted : forall moved, exists s', d_index snd 1 DenseInstances.key1 ehash ekeq moved blank DenseInstances.dv0 (dtable (dins 0 [1; 17]) 0) 5 = Ok (s', Some 0, moved 5).
Proof. intros moved. eexists. vm_compute. reflexivity. Qed.
Print Assumptions C54_refuted.
Example C54_case : match d_index snd 1 DenseInstances.key1 ehash ekeq (fun _ => 0) blank DenseInstances.dv0 (dtable (dins 0 [1; 17]) 0) 17 with Ok (_, r, k) => r = Some 170 /\ k = 17 | Err _ => False end.
Proof. vm_compute. split; reflexivity. Qed.
