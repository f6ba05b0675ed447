(** C06, C55, C56, C60 and C62 for programs on ordered containers. *)
From Coq Require Import ZArith List Bool Lia.
From Verif Require Import Base BaseLemmas.
From Verif Require DenseSpec DenseModel DenseRun OrderedSpec OrderedDense OrderedRun DenseInstances OrderedInstances SwissOrderedInstances.
From Verif Require Import Float32 Bits LinkModel MapSpec SwissModel SwissRun SwissOrderedSpec SwissOrdered SwissOrderedRun Instances BoundsSpec PlaceSpec CostSpec LoadSpec SlotsCost SlotsBounds SlotsDenseBounds.
Import ListNotations.
Open Scope Z_scope.

(** C06 for ordered sparse containers, on all builds: after any program from the constructor
    that has defined behaviour. *)
Theorem C06_ordered : forall (E K : Type) f sz (key_of : E -> K) hash keq rep, 0 < sz -> key_laws hash keq ->
  (forall a b, keq (key_of a) (key_of b) = true -> key_of (rep a b) = key_of a) ->
  forall (h0 : heap) a hist h s rs, h0 a = Some (0, 0) -> zhistory_ok hist -> zrun f sz key_of hash keq rep (h0, s_new a) hist = Ok ((h, s), rs) ->
  size (os_t s) <= capacity f (os_t s) <= bucket_count (os_t s) /\
  (15 <= bucket_count (os_t s) ->
   Z.of_nat (length (filter (fun i => negb (s_meta (os_t s) i =? m_empty)) (zrange (bucket_count (os_t s))))) <= capacity f (os_t s) /\
   capacity f (os_t s) < bucket_count (os_t s) /\ 8 * capacity f (os_t s) <= 7 * (bucket_count (os_t s) + 1)).
Proof.
  exact (fun E K f sz key_of hash keq rep Hsz KL R h0 a hist h s rs H0 Hh Hr =>
    wf_load f key_of hash keq (os_t s) (new_run_wf f sz key_of hash keq Hsz KL rep R h0 a hist h s rs H0 Hh Hr)).
Qed.
Print Assumptions C06_ordered.

(** C56 for ordered sparse containers: the slots in use stay within three per element that was
    ever present or asked for at once. *)
Theorem C56_ordered_sparse : forall (E K : Type) f sz (key_of : E -> K) hash keq rep, 0 < sz -> key_laws hash keq ->
  (forall a b, keq (key_of a) (key_of b) = true -> key_of (rep a b) = key_of a) ->
  forall (h0 : heap) a m hist h s rs, h0 a = Some (0, 0) -> 0 <= m -> zhistory_ok hist -> zwithin f sz key_of hash keq rep m (h0, s_new a) hist ->
  zrun f sz key_of hash keq rep (h0, s_new a) hist = Ok ((h, s), rs) -> bucket_count (os_t s) <= slots f m.
Proof. exact (fun E K f sz key_of hash keq rep Hsz KL R => new_run_caps f sz key_of hash keq Hsz KL rep R). Qed.
Print Assumptions C56_ordered_sparse.
(** C55: with that memory and constructors that do not throw, no call throws. *)
Theorem C55_ordered_sparse_history : forall (E K : Type) f sz (key_of : E -> K) hash keq rep, 0 < sz -> key_laws hash keq ->
  (forall a b, keq (key_of a) (key_of b) = true -> key_of (rep a b) = key_of a) ->
  forall (h0 : heap) a m hist h s rs, h0 a = Some (0, 0) -> 0 <= m -> zhistory_ok hist -> zwithin f sz key_of hash keq rep m (h0, s_new a) hist ->
  (forall v c, In (v, c) hist -> ev_ctor (sv_e v) = true /\ slots f m <= ev_lim (sv_e v)) ->
  zrun f sz key_of hash keq rep (h0, s_new a) hist = Ok ((h, s), rs) -> ~ In RThrow rs.
Proof. exact (fun E K f sz key_of hash keq rep Hsz KL R => new_run_no_throw f sz key_of hash keq Hsz KL rep R). Qed.
Print Assumptions C55_ordered_sparse_history.
(** C62: without reserve and rehash, a program moves at most 20 elements per element added,
    plus 31. *)
Theorem C62_ordered : forall (E K : Type) f sz (key_of : E -> K) hash keq rep, 0 < sz -> key_laws hash keq ->
  (forall a b, keq (key_of a) (key_of b) = true -> key_of (rep a b) = key_of a) ->
  forall (h0 : heap) a hist h s rs, h0 a = Some (0, 0) -> zhistory_ok hist -> Forall (fun vc => zsteady (snd vc)) hist ->
  zrun f sz key_of hash keq rep (h0, s_new a) hist = Ok ((h, s), rs) ->
  zmoved_by f sz key_of hash keq rep (h0, s_new a) hist <= 20 * additions rs + 31.
Proof. exact (fun E K f sz key_of hash keq rep Hsz KL R => new_run_cost f sz key_of hash keq Hsz KL rep R). Qed.
Print Assumptions C62_ordered.

(** A queue of at most three elements: each round appends one and erases the first of the
    order through its iterator.  It stays in 7 slots, with an allocator that
    supplies no more than 31. *)
Definition tight (b : Z) : senv := let v := SwissOrderedInstances.sat b in mksv (mkenv 31 true) (sv_base v) (sv_junk v).
Definition zqueue (n : Z) : list (senv * zcall entry Z) :=
  flat_map (fun k => (tight (2 ^ 16 * (2 * k + 1)), ZInsert (k, k)) :: if k <? 3 then [] else [(tight (2 ^ 16 * (2 * k + 2)), ZEraseAt 0)]) (zrange n).
Definition zgo (f : simd) := zrun f 48 ekey ehash ekeq erep (OrderedInstances.heap0, s_new (OrderedInstances.addr0 0)).
Definition zsizes (f : simd) (n : Z) : list Z :=
  map (fun j => match zgo f (firstn j (zqueue n)) with Ok (hs, _) => size (os_t (snd hs)) | Err _ => -1 end) (seq 0 (S (length (zqueue n)))).
Definition is_throw (r : ret entry) : bool := match r with RThrow => true | _ => false end.
Example C56_ordered_sparse_case :
  forallb (fun z => (0 <=? z) && (z <=? 4)) (zsizes SSE2 20) = true /\
  match zgo SSE2 (zqueue 40) with
  | Ok (hs, rs) => bucket_count (os_t (snd hs)) = 7 /\ capacity SSE2 (os_t (snd hs)) = 7 /\ slots SSE2 4 = 31 /\ size (os_t (snd hs)) = 3 /\ existsb is_throw rs = false /\ length rs = 77%nat /\
      s_iterate 48 (fst hs) (snd hs) = Ok [(37, 37); (38, 38); (39, 39)] /\ additions rs = 40 /\
      zmoved_by SSE2 48 ekey ehash ekeq erep (OrderedInstances.heap0, s_new (OrderedInstances.addr0 0)) (zqueue 40) = 4
  | Err _ => False
  end.
Proof. split; [vm_compute; reflexivity|]. vm_compute. repeat split; reflexivity. Qed.

(** 14 elements fill 15 slots; the 15th makes 31; then six are erased through
    iterators and 20 more appended, which takes 63.  Last column: elements moved. *)
Definition grown (n : Z) : list (zcall entry Z) := map (fun k => ZInsert (k, k)) (zrange n).
Definition shape (l : list (zcall entry Z)) : res (Z * Z * Z * Z * Z) :=
  let p := SwissOrderedInstances.xprog l in
  let* x := zgo SSE2 p in let t := os_t (snd (fst x)) in
  Ok (size t, capacity SSE2 t, bucket_count t, additions (snd x), zmoved_by SSE2 48 ekey ehash ekeq erep (OrderedInstances.heap0, s_new (OrderedInstances.addr0 0)) p).
Example C62_ordered_case : map shape [grown 14; grown 15; grown 15 ++ repeat (ZEraseAt 2) 6 ++ map (fun k => ZInsert (k + 100, k)) (zrange 20)] =
  [Ok (14, 14, 15, 14, 11); Ok (15, 28, 31, 15, 25); Ok (29, 56, 63, 35, 51)].
Proof. vm_compute. reflexivity. Qed.

(** C56 for ordered dense containers with any number of keys. *)
Theorem C56_ordered_dense : forall (E K : Type) sz nk (key_of : nat -> E -> K) hash keq rep, 0 < sz ->
  key_laws hash keq -> (forall x e, key_of 0%nat (rep x e) = key_of 0%nat x) ->
  forall lp lq m (h0 : heap) a hist h s rs, 0 < lp -> 0 < lq -> 8 * lp <= 7 * lq -> 0 <= m -> h0 a = Some (0, 0) ->
  OrderedRun.ohistory_ok nk hist -> Forall (fun vc => oload_ok lp lq (snd vc)) hist ->
  owithin sz nk key_of hash keq rep m (h0, OrderedRun.o_new a) hist -> fed sz nk key_of hash keq rep (h0, OrderedRun.o_new a) hist ->
  OrderedRun.orun sz nk key_of hash keq rep (h0, OrderedRun.o_new a) hist = Ok ((h, s), rs) ->
  DenseModel.d_cap (OrderedDense.o_d s) <= nodes_for m /\ buckets_for lp lq m (DenseModel.d_bc (OrderedDense.o_d s)).
Proof. exact (fun E K sz nk key_of hash keq rep Hsz KL R => new_dense_caps sz nk key_of hash keq rep Hsz KL R). Qed.
Print Assumptions C56_ordered_dense.
(** C55: with that memory no call throws. *)
Theorem C55_ordered_dense_history : forall (E K : Type) sz nk (key_of : nat -> E -> K) hash keq rep, 0 < sz ->
  key_laws hash keq -> (forall x e, key_of 0%nat (rep x e) = key_of 0%nat x) ->
  forall lp lq m (h0 : heap) a hist h s rs, 0 < lp -> 0 < lq -> 8 * lp <= 7 * lq -> 0 <= m -> h0 a = Some (0, 0) ->
  OrderedRun.ohistory_ok nk hist -> Forall (fun vc => oload_ok lp lq (snd vc)) hist ->
  owithin sz nk key_of hash keq rep m (h0, OrderedRun.o_new a) hist ->
  (forall v c, In (v, c) hist -> nodes_for m <= DenseRun.dv_dlim (OrderedDense.ov_d v) /\ forall b, buckets_for lp lq m b -> b <= DenseRun.dv_slim (OrderedDense.ov_d v)) ->
  OrderedRun.orun sz nk key_of hash keq rep (h0, OrderedRun.o_new a) hist = Ok ((h, s), rs) -> ~ In DenseSpec.QThrow rs.
Proof. exact (fun E K sz nk key_of hash keq rep Hsz KL R => new_dense_no_throw sz nk key_of hash keq rep Hsz KL R). Qed.
Print Assumptions C55_ordered_dense_history.
(** C62: without reserve, insertions move at most two elements per element added. *)
Theorem C62_ordered_dense : forall (E K : Type) sz nk (key_of : nat -> E -> K) hash keq rep, 0 < sz ->
  key_laws hash keq -> (forall x e, key_of 0%nat (rep x e) = key_of 0%nat x) ->
  forall (h0 : heap) a hist h s rs, h0 a = Some (0, 0) -> OrderedRun.ohistory_ok nk hist -> Forall (fun vc => osteady (snd vc)) hist ->
  fed sz nk key_of hash keq rep (h0, OrderedRun.o_new a) hist ->
  OrderedRun.orun sz nk key_of hash keq rep (h0, OrderedRun.o_new a) hist = Ok ((h, s), rs) ->
  omoved_by sz nk key_of hash keq rep (h0, OrderedRun.o_new a) hist <= Z.max 1 (2 * dadditions rs).
Proof. exact (fun E K sz nk key_of hash keq rep Hsz KL R => new_dense_cost sz nk key_of hash keq rep Hsz KL R). Qed.
Print Assumptions C62_ordered_dense.
(** C60 with the default max load factor and growth by doubling. *)
Theorem C60_ordered_default_partial : forall (E K : Type) sz nk (key_of : nat -> E -> K) hash keq rep, 0 < sz ->
  key_laws hash keq -> (forall x e, key_of 0%nat (rep x e) = key_of 0%nat x) ->
  forall (h0 : heap) a hist h s rs, h0 a = Some (0, 0) -> OrderedRun.ohistory_ok nk hist -> Forall (fun vc => okeeps_policy (snd vc)) hist ->
  fed sz nk key_of hash keq rep (h0, OrderedRun.o_new a) hist ->
  OrderedRun.orun sz nk key_of hash keq rep (h0, OrderedRun.o_new a) hist = Ok ((h, s), rs) ->
  let d := OrderedDense.o_d s in
  DenseModel.d_mlf d = (7, 8) /\ doubled (DenseModel.d_bc d) /\ within_load 7 8 (DenseModel.size d) (DenseModel.d_bc d) /\
  (0 < DenseModel.d_bc d -> rle (f32_div (f32_of (DenseModel.size d)) (f32_of (DenseModel.d_bc d))) (DenseModel.d_mlf d) = true).
Proof. exact (fun E K sz nk key_of hash keq rep Hsz KL R => new_dense_default sz nk key_of hash keq rep Hsz KL R). Qed.
Print Assumptions C60_ordered_default_partial.

(** The queue on an ordered dense map. *)
Definition oqueue (n : Z) : list (OrderedDense.oenv * OrderedSpec.ocall entry Z) :=
  OrderedInstances.yprog (flat_map (fun k => OrderedSpec.OInsert (k, k) :: if k <? 3 then [] else [OrderedSpec.OEraseAt 0]) (zrange n)).
Definition tight_dense (vc : OrderedDense.oenv * OrderedSpec.ocall entry Z) : OrderedDense.oenv * OrderedSpec.ocall entry Z :=
  (OrderedDense.mkov (DenseRun.mkdv 8 13) (OrderedDense.ov_base (fst vc)) (OrderedDense.ov_junk (fst vc)), snd vc).
Definition onew := (OrderedInstances.heap0, OrderedRun.o_new (E := entry) (OrderedInstances.addr0 0)).
Definition ogo := OrderedRun.orun 48 1 DenseInstances.key1 ehash ekeq erep onew.
Definition is_dthrow (r : DenseSpec.dret entry) : bool := match r with DenseSpec.QThrow => true | _ => false end.
Example C56_ordered_dense_case :
  nodes_for 4 = 8 /\ (forall b, buckets_for 7 8 4 b -> b <= 13) /\
  match ogo (map tight_dense (oqueue 40)) with
  | Ok (hs, rs) => let d := OrderedDense.o_d (snd hs) in
      DenseModel.d_cap d = 4 /\ DenseModel.d_bc d = 8 /\ DenseModel.size d = 3 /\ existsb is_dthrow rs = false /\ length rs = 77%nat /\
      OrderedDense.o_iterate 48 (fst hs) (snd hs) = Ok [(37, 37); (38, 38); (39, 39)] /\ dadditions rs = 40 /\
      omoved_by 48 1 DenseInstances.key1 ehash ekeq erep onew (map tight_dense (oqueue 40)) = 3
  | Err _ => False
  end.
Proof. split; [reflexivity|]. split; [unfold buckets_for; intros; lia|]. vm_compute. repeat split; reflexivity. Qed.
