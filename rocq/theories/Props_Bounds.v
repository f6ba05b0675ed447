(** Properties C55 and C56: exceptions only for lack of memory, and how much memory the
    containers use. *)
From Coq Require Import ZArith List Bool Lia.
From Verif Require Import Base Bits MapSpec WorldSpec World SwissModel SwissInv SwissRun Instances BoundsSpec SwissRefine SwissBounds WorldProofs.
From Verif Require DenseSpec DenseModel DenseRun DenseInv DenseRefine DenseWorldSpec DenseWorld DenseFinal DenseBounds DenseInstances.
From Verif Require LinkModel SwissOrderedSpec SwissOrdered SwissOrderedRun SwissOrderedWorldSpec SwissOrderedWorld SwissOrderedInstances OrderedSpec OrderedDense OrderedRun OrderedWorldSpec OrderedWorld OrderedInstances OrderedBounds.
Import ListNotations.
Open Scope Z_scope.

(** C55, sparse and stable containers, one call: an exception means that the constructor of
    a new element threw, or that the allocator did not supply the slots for the elements
    present (insertion) or asked for (reserve, rehash). *)
Theorem C55_sparse_call : forall (E K : Type) f (key_of : E -> K) hash keq rep,
  key_laws hash keq -> (forall a b, keq (key_of a) (key_of b) = true -> key_of (rep a b) = key_of a) ->
  forall v s c s', occurs f key_of hash keq rep s -> env_ok v -> call_ok c ->
  exec f key_of hash keq rep v s c = Ok (s', RThrow) ->
  (constructs key_of keq (elems s) c /\ ev_ctor v = false) \/ ev_lim v < slots f (demand (size s) c).
Proof.
  exact (fun E K f key_of hash keq rep KL R v s c s' Ho Hv Hc E0 =>
    proj2 (exec_caps f key_of hash keq KL rep R v s c s' RThrow (occurs_wf f key_of hash keq KL rep R s Ho) Hv Hc E0) eq_refl).
Qed.
Print Assumptions C55_sparse_call.

(** Seven elements fill the 7 slots of a 16-byte-group table; the eighth needs 15, which the
    allocator refuses at 14.  With a throwing constructor, an insertion of an absent key
    throws and one of a present key does not. *)
Definition seven : list (call entry Z) := map (fun k => CInsert (k, k)) [1; 2; 3; 4; 5; 6; 7].
Definition tbl (f : simd) (l : list (call entry Z)) : @swiss entry := state (erun f l) empty_swiss.
Definition thrown (x : res (@swiss entry * ret entry)) : bool := match x with Ok (_, RThrow) => true | _ => false end.
Example C55_sparse_call_case :
  let s := tbl SSE2 seven in let go v c := thrown (exec SSE2 ekey ehash ekeq erep v s c) in
  s_cap s = 7 /\ go (mkenv 14 true) (CInsert (8, 8)) = true /\ go (mkenv 15 true) (CInsert (8, 8)) = false /\
  go (mkenv 15 false) (CInsert (8, 8)) = true /\ go (mkenv 0 false) (CInsert (7, 8)) = false /\
  go (mkenv 254 true) (CReserve 112) = false /\ go (mkenv 126 true) (CReserve 112) = true /\ slots SSE2 (demand (size s) (CReserve 112 : call entry Z)) = 336.
Proof. vm_compute. repeat split; reflexivity. Qed.

(** C55, histories: with enough slots for m elements and constructors that do not throw, no
    call of a history that stays within m elements throws. *)
Theorem C55_sparse_history : forall (E K : Type) f (key_of : E -> K) hash keq rep,
  key_laws hash keq -> (forall a b, keq (key_of a) (key_of b) = true -> key_of (rep a b) = key_of a) ->
  forall m h s rs, 0 <= m -> history_ok h -> within f key_of hash keq rep m empty_swiss h ->
  (forall v c, In (v, c) h -> ev_ctor v = true /\ slots f m <= ev_lim v) ->
  run f key_of hash keq rep empty_swiss h = Ok (s, rs) -> ~ In RThrow rs.
Proof.
  exact (fun E K f key_of hash keq rep KL R m h s rs Hm Hh Hw Hl =>
    run_no_throw f key_of hash keq KL rep R m h empty_swiss s rs Hm (proj1 (empty_inv f key_of hash keq)) Hh Hw Hl).
Qed.
Print Assumptions C55_sparse_history.

(** C56, sparse and stable containers: the slots in use stay within three per element that
    was ever present or asked for at once, however long the history is. *)
Theorem C56_sparse : forall (E K : Type) f (key_of : E -> K) hash keq rep,
  key_laws hash keq -> (forall a b, keq (key_of a) (key_of b) = true -> key_of (rep a b) = key_of a) ->
  forall m h s rs, 0 <= m -> history_ok h -> within f key_of hash keq rep m empty_swiss h ->
  run f key_of hash keq rep empty_swiss h = Ok (s, rs) -> bucket_count s <= slots f m.
Proof.
  exact (fun E K f key_of hash keq rep KL R m h s rs Hm Hh Hw Hr =>
    run_caps_empty f key_of hash keq KL rep R m h s rs Hm Hh Hw Hr).
Qed.
Print Assumptions C56_sparse.

(** A queue of at most three elements that runs for 200 rounds: 200 different keys, 31
    slots at the end, all calls succeed with an allocator that supplies no more than 31. *)
Definition v31 : env := mkenv 31 true.
Definition queue (n : Z) : list (env * call entry Z) :=
  flat_map (fun k => [(v31, CInsert (k, k)); (v31, CErase (k - 3))]) (zrange n).
Definition sizes (f : simd) (n : Z) : list Z :=
  map (fun j => match run f ekey ehash ekeq erep empty_swiss (firstn j (queue n)) with Ok (s, _) => size s | Err _ => -1 end) (seq 0 (S (length (queue n)))).
Definition is_throw (r : ret entry) : bool := match r with RThrow => true | _ => false end.
Example C56_sparse_case :
  forallb (fun z => (0 <=? z) && (z <=? 4)) (sizes SSE2 20) = true /\
  match run SSE2 ekey ehash ekeq erep empty_swiss (queue 200) with
  | Ok (s, rs) => bucket_count s <= slots SSE2 4 /\ size s = 3 /\ existsb is_throw rs = false /\ length rs = 400%nat
  | Err _ => False
  end.
Proof. vm_compute. repeat split; try reflexivity; discriminate. Qed.

(** C55, dense containers with any number of keys, one call: an exception means that the
    allocator refused the elements or the buckets for the elements present or asked for.
    lp/lq is any lower bound of the max load factor. *)
Theorem C55_dense_call : forall (E K : Type) nk (key_of : nat -> E -> K) hash keq rep clone pocca pocma,
  key_laws hash keq -> (forall x e, key_of 0%nat (rep x e) = key_of 0%nat x) -> (forall j e, (j < nk)%nat -> key_of j (clone e) = key_of j e) ->
  forall lp lq v s t c, 0 < lp -> 0 < lq -> lp <= 3 * lq -> lp * snd (DenseModel.d_mlf s) <= fst (DenseModel.d_mlf s) * lq ->
  DenseWorld.doccurs nk key_of hash keq rep clone pocca pocma s -> DenseRun.denv_ok v -> DenseRun.dcall_ok nk c ->
  DenseRun.dexec nk key_of hash keq rep v s c = Ok (t, DenseSpec.QThrow) ->
  DenseRun.dv_dlim v < nodes_for (ddemand (DenseModel.size s) c) \/
  exists b, buckets_for lp lq (ddemand (DenseModel.size s) c) b /\ DenseRun.dv_slim v < b.
Proof.
  exact (fun E K nk key_of hash keq rep clone pocca pocma KL R C lp lq v s t c H1 H2 H3 Hl Ho Hv Hc He =>
    DenseBounds.throws_call nk key_of hash keq rep lp lq H1 H2 H3 v s t c
      (DenseFinal.occurs_wf nk key_of hash keq rep clone pocca pocma KL R C s Ho) Hv Hc Hl He).
Qed.
Print Assumptions C55_dense_call.

(** C55, histories of a dense container: with enough memory for m elements the table answers
    every call of a history that stays within m elements as the list does and never throws,
    unless the caller passes an invalid iterator or erases by key before there are buckets. *)
Theorem C55_dense_history : forall (E K : Type) nk (key_of : nat -> E -> K) hash keq rep,
  key_laws hash keq -> (forall x e, key_of 0%nat (rep x e) = key_of 0%nat x) ->
  forall lp lq m h, 0 < lp -> 0 < lq -> 8 * lp <= 7 * lq -> 0 <= m ->
  DenseRun.dhistory_ok nk h -> Forall (fun vc => load_ok lp lq (snd vc)) h -> dwithin nk key_of hash keq rep m DenseModel.empty_dense h ->
  (forall v c, In (v, c) h -> nodes_for m <= DenseRun.dv_dlim v /\ forall b, buckets_for lp lq m b -> b <= DenseRun.dv_slim v) ->
  (exists s rs, DenseRun.drun nk key_of hash keq rep DenseModel.empty_dense h = Ok (s, rs) /\
     DenseSpec.dspec_run nk key_of keq rep (map snd h) [] (DenseRun.delems s) rs /\ ~ In DenseSpec.QThrow rs) \/
  (exists h1 v c h2 s1 rs1, h = h1 ++ (v, c) :: h2 /\ DenseRun.drun nk key_of hash keq rep DenseModel.empty_dense h1 = Ok (s1, rs1) /\ misused s1 c).
Proof.
  exact (fun E K nk key_of hash keq rep KL R lp lq m h H1 H2 H3 Hm Hh Hlo Hw Hl =>
    DenseBounds.history_call nk key_of hash keq rep lp lq H1 H2 (DenseBounds.below_three lp lq H1 H2 H3) KL R m h H3 Hm Hh Hlo Hw Hl).
Qed.
Print Assumptions C55_dense_history.

(** C56, dense containers: element slots and buckets stay within what the largest number of
    elements present or asked for at once needs. *)
Theorem C56_dense : forall (E K : Type) nk (key_of : nat -> E -> K) hash keq rep,
  key_laws hash keq -> (forall x e, key_of 0%nat (rep x e) = key_of 0%nat x) ->
  forall lp lq m h s rs, 0 < lp -> 0 < lq -> 8 * lp <= 7 * lq -> 0 <= m ->
  DenseRun.dhistory_ok nk h -> Forall (fun vc => load_ok lp lq (snd vc)) h -> dwithin nk key_of hash keq rep m DenseModel.empty_dense h ->
  (forall h1 v c h2 s1 rs1, h = h1 ++ (v, c) :: h2 -> DenseRun.drun nk key_of hash keq rep DenseModel.empty_dense h1 = Ok (s1, rs1) ->
     ~ DenseRun.blocked nk key_of hash keq rep v s1 c) ->
  DenseRun.drun nk key_of hash keq rep DenseModel.empty_dense h = Ok (s, rs) ->
  DenseModel.d_cap s <= nodes_for m /\ buckets_for lp lq m (DenseModel.d_bc s).
Proof.
  exact (fun E K nk key_of hash keq rep KL R lp lq m h s rs H1 H2 H3 Hm Hh Hlo Hw Hnb Hr =>
    DenseBounds.history_caps nk key_of hash keq rep lp lq H1 H2 (DenseBounds.below_three lp lq H1 H2 H3) KL R m h s rs H3 Hm Hh Hlo Hw Hnb Hr).
Qed.
Print Assumptions C56_dense.

(** The same queue on a dense map, max load factor 7/8: 4 element slots and 8 buckets at the
    end, with an allocator that supplies no more than 8 slots and 13 buckets; reserve(100) on the
    result takes 100 slots and 114 buckets, and throws when one of them is missing. *)
Definition v13 : DenseRun.denv := DenseRun.mkdv 8 13.
Definition dqueue (n : Z) : list (DenseRun.denv * DenseSpec.dcall entry Z) :=
  flat_map (fun k => [(v13, DenseSpec.DInsert (k, k)); (v13, DenseSpec.DErase 0 (k - 3))]) (zrange n).
Definition dgo := DenseRun.drun 1 DenseInstances.key1 ehash ekeq erep.
Definition dsizes (n : Z) : list Z :=
  map (fun j => match dgo DenseModel.empty_dense (firstn j (dqueue n)) with Ok (s, _) => DenseModel.size s | Err _ => -1 end) (seq 0 (S (length (dqueue n)))).
Definition is_dthrow (r : DenseSpec.dret entry) : bool := match r with DenseSpec.QThrow => true | _ => false end.
Example C56_dense_case :
  forallb (fun z => (0 <=? z) && (z <=? 4)) (dsizes 20) = true /\ nodes_for 4 = 8 /\ (forall b, buckets_for 7 8 4 b -> b <= 13) /\
  match dgo DenseModel.empty_dense (dqueue 200) with
  | Ok (s, rs) => DenseModel.d_cap s = 4 /\ DenseModel.d_bc s = 8 /\ DenseModel.size s = 3 /\ existsb is_dthrow rs = false /\ length rs = 400%nat /\
      (let ask v := DenseRun.dexec 1 DenseInstances.key1 ehash ekeq erep v s (DenseSpec.DReserve 100) in
       match ask (DenseRun.mkdv 100 114) with Ok (t, DenseSpec.QUnit) => DenseModel.d_cap t = 100 /\ DenseModel.d_bc t = 114 | _ => False end /\
       match ask (DenseRun.mkdv 99 114), ask (DenseRun.mkdv 100 113) with Ok (_, DenseSpec.QThrow), Ok (_, DenseSpec.QThrow) => True | _, _ => False end)
  | Err _ => False
  end.
Proof.
  split; [vm_compute; reflexivity|]. split; [reflexivity|]. split; [unfold buckets_for; intros; lia|]. vm_compute. repeat split; reflexivity.
Qed.

(** C55, ordered sparse and stable containers, one call. *)
Theorem C55_ordered_sparse_call : forall (E K : Type) f sz (key_of : E -> K) hash keq rep clone pocca pocma, 0 < sz ->
  key_laws hash keq -> (forall a b, keq (key_of a) (key_of b) = true -> key_of (rep a b) = key_of a) -> (forall e, key_of (clone e) = key_of e) ->
  forall w i l v c hs', SwissOrderedWorld.xoccurs f sz key_of hash keq rep clone pocca pocma w -> env_ok (SwissOrdered.sv_e v) -> SwissOrderedRun.zcall_ok c ->
  SwissOrdered.s_iterate sz (SwissOrderedWorld.xw_m w) (SwissOrderedWorld.xw_c w i) = Ok l ->
  SwissOrderedRun.zexec f sz key_of hash keq rep v (SwissOrderedWorld.xw_m w, SwissOrderedWorld.xw_c w i) c = Ok (hs', RThrow) ->
  (zconstructs key_of keq l c /\ ev_ctor (SwissOrdered.sv_e v) = false) \/ ev_lim (SwissOrdered.sv_e v) < slots f (zdemand (Z.of_nat (length l)) c).
Proof.
  exact (fun E K f sz key_of hash keq rep clone pocca pocma Hsz KL R C =>
    OrderedBounds.zexec_throw_list f sz key_of hash keq rep KL clone pocca pocma Hsz R C).
Qed.
Print Assumptions C55_ordered_sparse_call.

(** Seven elements in 7 slots, in the order 7 to 1: as in the unordered case. *)
Definition zthrown {S} (x : res (S * ret entry)) : bool := match x with Ok (_, RThrow) => true | _ => false end.
Example C55_ordered_sparse_call_case :
  let w := SwissOrderedInstances.smaps SSE2 (map (fun k => SwissOrderedWorldSpec.XOn 0 (SwissOrderedSpec.ZInsert (k, k))) [7; 6; 5; 4; 3; 2; 1]) in
  let go lim ctor c := zthrown (SwissOrderedRun.zexec SSE2 48 ekey ehash ekeq erep (SwissOrdered.mksv (mkenv lim ctor) (2 ^ 24) (fun a => (a mod 7, 5))) (SwissOrderedWorld.xw_m w, SwissOrderedWorld.xw_c w 0%nat) c) in
  SwissOrderedWorld.xoccurs SSE2 48 ekey ehash ekeq erep SwissOrderedInstances.same_entry false true w /\
  go 14 true (SwissOrderedSpec.ZInsert (8, 8)) = true /\ go 15 true (SwissOrderedSpec.ZInsert (8, 8)) = false /\
  go 15 false (SwissOrderedSpec.ZInsert (8, 8)) = true /\ go 0 false (SwissOrderedSpec.ZInsert (7, 8)) = false /\
  go 254 true (SwissOrderedSpec.ZReserve 112) = false /\ go 126 true (SwissOrderedSpec.ZReserve 112) = true.
Proof. split; [apply SwissOrderedInstances.smaps_occur; vm_compute; reflexivity|]. vm_compute. repeat split; reflexivity. Qed.

(** C55, ordered dense containers, one call. *)
Theorem C55_ordered_dense_call : forall (E K : Type) sz nk (key_of : nat -> E -> K) hash keq rep clone pocca pocma, 0 < sz ->
  key_laws hash keq -> (forall x e, key_of 0%nat (rep x e) = key_of 0%nat x) -> (forall j e, (j < nk)%nat -> key_of j (clone e) = key_of j e) ->
  forall lp lq hw i l v c hs', 0 < lp -> 0 < lq -> lp <= 3 * lq ->
  OrderedWorld.yoccurs sz nk key_of hash keq rep clone pocca pocma hw -> DenseRun.denv_ok (OrderedDense.ov_d v) -> OrderedRun.ocall_ok nk c ->
  lp * snd (DenseModel.d_mlf (OrderedDense.o_d (snd hw i))) <= fst (DenseModel.d_mlf (OrderedDense.o_d (snd hw i))) * lq ->
  OrderedDense.o_iterate sz (fst hw) (snd hw i) = Ok l ->
  OrderedRun.oexec sz nk key_of hash keq rep v (fst hw, snd hw i) c = Ok (hs', DenseSpec.QThrow) ->
  DenseRun.dv_dlim (OrderedDense.ov_d v) < nodes_for (odemand (Z.of_nat (length l)) c) \/
  exists b, buckets_for lp lq (odemand (Z.of_nat (length l)) c) b /\ DenseRun.dv_slim (OrderedDense.ov_d v) < b.
Proof.
  exact (fun E K sz nk key_of hash keq rep clone pocca pocma Hsz KL R C lp lq hw i l v c hs' H1 H2 H3 =>
    OrderedBounds.oexec_throw_list sz nk key_of hash keq rep lp lq H1 H2 H3 clone pocca pocma Hsz KL R C hw i l v c hs').
Qed.
Print Assumptions C55_ordered_dense_call.

(** Four elements in 4 element slots and 8 buckets: the fifth needs 8 element slots;
    reserve(100) takes 100 of them and 114 buckets. *)
Definition othrown {S} (x : res (S * DenseSpec.dret entry)) : bool := match x with Ok (_, DenseSpec.QThrow) => true | _ => false end.
Example C55_ordered_dense_call_case :
  let w := OrderedInstances.omaps (map (fun k => OrderedWorldSpec.YOn 0 (OrderedSpec.OInsert (k, k))) [4; 3; 2; 1]) in
  let go dl sl c := othrown (OrderedRun.oexec 48 1 DenseInstances.key1 ehash ekeq erep (OrderedDense.mkov (DenseRun.mkdv dl sl) (2 ^ 24) (fun a => (a mod 7, 5))) (fst w, snd w 0%nat) c) in
  OrderedWorld.yoccurs 48 1 DenseInstances.key1 ehash ekeq erep DenseInstances.sameel false true w /\
  go 7 13 (OrderedSpec.OInsert (8, 8)) = true /\ go 8 13 (OrderedSpec.OInsert (8, 8)) = false /\
  go 100 114 (OrderedSpec.OReserve 100) = false /\ go 99 114 (OrderedSpec.OReserve 100) = true /\ go 100 113 (OrderedSpec.OReserve 100) = true.
Proof. split; [apply OrderedInstances.omaps_occur; vm_compute; reflexivity|]. vm_compute. repeat split; reflexivity. Qed.
