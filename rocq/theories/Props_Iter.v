(** C81: comparing iterators.  C82: front() and back() of dense containers. *)
From Coq Require Import ZArith List Bool Lia.
From Verif Require Import Base BaseLemmas MapSpec Bits Instances DenseSpec DenseModel DenseRun DenseRefine World DenseWorldSpec DenseWorld DenseFinal LinkModel OrderedSpec OrderedDense OrderedRun OrderedWorldSpec OrderedWorld OrderedRefine OrderedFinal
  SlotsCost SlotsDenseBounds DenseInstances OrderedInstances IterSpec IterModel IterProofs IterSwiss.
From Verif Require SwissModel SwissInv SwissOrderedSpec SwissOrdered SwissOrderedWorldSpec SwissOrderedWorld SwissOrderedInstances WrapSwissOrdered.
Import ListNotations.
Open Scope Z_scope.

(** C81 for unordered dense containers, in full: wherever the element array is, comparison,
    difference, advancing and indexing of the iterators of any container that occurs are those
    of positions in the sequence that iteration gives. *)
Theorem C81_dense : forall (E K : Type) sz nk (key_of : nat -> E -> K) hash keq rep clone pocca pocma, 0 < sz -> key_laws hash keq ->
  (forall x e, key_of 0%nat (rep x e) = key_of 0%nat x) -> (forall j e, (j < nk)%nat -> key_of j (clone e) = key_of j e) ->
  forall s base, doccurs nk key_of hash keq rep clone pocca pocma s ->
  exists l, iterate s = Ok l /\ Z.of_nat (length l) = size s /\ it_plus sz (d_begin base) (size s) = d_end sz base s /\
  (forall i j, 0 <= i <= size s -> 0 <= j <= size s ->
     let a := it_plus sz (d_begin base) i in let b := it_plus sz (d_begin base) j in
     link_lt a b = (i <? j) /\ it_minus sz b a = j - i /\ it_plus sz a (j - i) = b /\ (i <= j -> it_steps sz (Z.to_nat (j - i)) a = b)) /\
  (forall i j x, nth_error l (Z.to_nat j) = Some x -> 0 <= j -> 0 <= i <= size s ->
     it_at sz base s (it_plus sz (d_begin base) j) = Ok x /\ it_sub sz base s (it_plus sz (d_begin base) i) (j - i) = Ok x).
Proof. exact (fun E K sz nk key_of hash keq rep clone pocca pocma Hsz KL R C s base Ho => walks_ok sz nk key_of hash keq rep Hsz R s base (occurs_wf nk key_of hash keq rep clone pocca pocma KL R C s Ho)). Qed.
Print Assumptions C81_dense.
(** C82 for unordered dense containers: first and last of the iteration; an empty container has
    neither. *)
Theorem C82_dense : forall (E K : Type) sz nk (key_of : nat -> E -> K) hash keq rep clone pocca pocma, 0 < sz -> key_laws hash keq ->
  (forall x e, key_of 0%nat (rep x e) = key_of 0%nat x) -> (forall j e, (j < nk)%nat -> key_of j (clone e) = key_of j e) ->
  forall s base, doccurs nk key_of hash keq rep clone pocca pocma s ->
  (0 < size s -> exists l x y, iterate s = Ok l /\ first_of l = Some x /\ last_of l = Some y /\ d_front sz base s = Ok x /\ d_back sz base s = Ok y) /\
  (size s = 0 -> (exists e, d_front sz base s = Err e) /\ (exists e, d_back sz base s = Err e)).
Proof.
  exact (fun E K sz nk key_of hash keq rep clone pocca pocma Hsz KL R C s base Ho => let W := occurs_wf nk key_of hash keq rep clone pocca pocma KL R C s Ho in
    conj (front_back_ok sz nk key_of hash keq rep Hsz R s base W) (empty_front sz nk key_of hash keq s base W)).
Qed.
Print Assumptions C82_dense.
(** C82 for ordered dense containers. *)
Theorem C82_ordered : forall (E K : Type) sz nk (key_of : nat -> E -> K) hash keq rep clone pocca pocma, 0 < sz -> key_laws hash keq ->
  (forall x e, key_of 0%nat (rep x e) = key_of 0%nat x) -> (forall j e, (j < nk)%nat -> key_of j (clone e) = key_of j e) ->
  forall hw c, yoccurs sz nk key_of hash keq rep clone pocca pocma hw ->
  (0 < size (o_d (snd hw c)) -> exists l x y, o_iterate sz (fst hw) (snd hw c) = Ok l /\ first_of l = Some x /\ last_of l = Some y /\
     o_front sz (fst hw) (snd hw c) = Ok x /\ o_back sz (fst hw) (snd hw c) = Ok y) /\
  (size (o_d (snd hw c)) = 0 -> (exists e, o_front sz (fst hw) (snd hw c) = Err e) /\ (exists e, o_back sz (fst hw) (snd hw c) = Err e)).
Proof. exact (fun E K sz nk key_of hash keq rep clone pocca pocma Hsz KL R C => ordered_front_back sz nk key_of hash keq rep Hsz KL R clone pocca pocma C). Qed.
Print Assumptions C82_ordered.

(** C81 for ordered dense containers: comparison tells which element comes first exactly when
    the order of the links is that of the array. *)
Theorem C81_ordered_dense_partial : forall (E K : Type) sz nk (key_of : nat -> E -> K) hash keq rep clone pocca pocma, 0 < sz -> key_laws hash keq -> (0 < nk)%nat ->
  (forall x e, key_of 0%nat (rep x e) = key_of 0%nat x) -> (forall j e, (j < nk)%nat -> key_of j (clone e) = key_of j e) ->
  forall hw c, yoccurs sz nk key_of hash keq rep clone pocca pocma hw ->
  (in_order link_lt (fun i => given (o_nth (fst hw) (snd hw c) i)) (size (o_d (snd hw c))) <-> o_iterate sz (fst hw) (snd hw c) = iterate (o_d (snd hw c))).
Proof. exact (fun E K sz nk key_of hash keq rep clone pocca pocma Hsz KL Hk R C => ordered_in_order sz nk key_of hash keq rep Hsz KL R clone pocca pocma C Hk). Qed.
Print Assumptions C81_ordered_dense_partial.
(** The same for ordered sparse containers: exactly when that order is that of the slots. *)
Theorem C81_ordered_sparse_partial : forall (E K : Type) f sz (key_of : E -> K) hash keq rep clone pocca pocma, 0 < sz -> key_laws hash keq ->
  (forall a b, keq (key_of a) (key_of b) = true -> key_of (rep a b) = key_of a) -> (forall e, key_of (clone e) = key_of e) ->
  forall w c, SwissOrderedWorld.xoccurs f sz key_of hash keq rep clone pocca pocma w ->
  let h := SwissOrderedWorld.xw_m w in let s := SwissOrderedWorld.xw_c w c in
  (in_order link_lt (fun i => given (SwissOrdered.s_nth h s i)) (SwissModel.size (SwissOrdered.os_t s)) <-> SwissOrdered.s_iterate sz h s = Ok (SwissInv.elems (SwissOrdered.os_t s))).
Proof. exact (fun E K f sz key_of hash keq rep clone pocca pocma Hsz KL R C => sparse_in_order f sz key_of hash keq Hsz KL rep clone pocca pocma R C). Qed.
Print Assumptions C81_ordered_sparse_partial.
(** Programs on an ordered dense container that never erase keep iterators in order.  Missing:
    programs that erase ([C81_refuted]). *)
Theorem C81_appends_partial : forall (E K : Type) sz nk (key_of : nat -> E -> K) hash keq rep, 0 < sz -> key_laws hash keq -> (0 < nk)%nat ->
  (forall x e, key_of 0%nat (rep x e) = key_of 0%nat x) ->
  forall (h0 : heap) a hist h s rs, h0 a = Some (0, 0) -> ohistory_ok nk hist -> Forall (fun vc => match snd vc with OErase _ _ | OEraseAt _ => False | _ => True end) hist ->
  fed sz nk key_of hash keq rep (h0, o_new a) hist -> orun sz nk key_of hash keq rep (h0, o_new a) hist = Ok (h, s, rs) ->
  in_order link_lt (fun i => given (o_nth h s i)) (size (o_d s)).
Proof. exact (fun E K sz nk key_of hash keq rep Hsz KL Hk R => appends_in_order sz nk key_of hash keq rep Hsz KL R Hk). Qed.
Print Assumptions C81_appends_partial.
(** C81 fails: from any ordered dense container whose iterators are in order, erasing any
    element but the last two leaves one whose iterators are not. *)
Theorem C81_refuted : forall (E K : Type) sz nk (key_of : nat -> E -> K) hash keq rep clone pocca pocma, 0 < sz -> key_laws hash keq ->
  (forall x e, key_of 0%nat (rep x e) = key_of 0%nat x) -> (forall j e, (j < nk)%nat -> key_of j (clone e) = key_of j e) ->
  forall hw c v k, yoccurs sz nk key_of hash keq rep clone pocca pocma hw ->
  in_order link_lt (fun i => given (o_nth (fst hw) (snd hw c) i)) (size (o_d (snd hw c))) -> 0 <= k -> k + 2 < size (o_d (snd hw c)) ->
  exists h' s', oexec sz nk key_of hash keq rep v (fst hw, snd hw c) (OEraseAt k) = Ok (h', s', QUnit) /\ size (o_d s') = size (o_d (snd hw c)) - 1 /\
    ~ in_order link_lt (fun i => given (o_nth h' s' i)) (size (o_d s')).
Proof. exact (fun E K sz nk key_of hash keq rep clone pocca pocma Hsz KL R C => ordered_disorders sz nk key_of hash keq rep Hsz KL R clone pocca pocma C). Qed.
Print Assumptions C81_refuted.
(** Nor does begin() compare below end() of a non-empty ordered dense container that lies below
    its array, as a static one does below memory from the heap. *)
Theorem C81_end_refuted : forall (E K : Type) sz nk (key_of : nat -> E -> K) hash keq rep clone pocca pocma, 0 < sz -> key_laws hash keq ->
  (forall x e, key_of 0%nat (rep x e) = key_of 0%nat x) -> (forall j e, (j < nk)%nat -> key_of j (clone e) = key_of j e) ->
  forall hw c, yoccurs sz nk key_of hash keq rep clone pocca pocma hw -> 0 < size (o_d (snd hw c)) -> o_hdr (snd hw c) < o_base (snd hw c) ->
  exists a b, o_nth (fst hw) (snd hw c) 0 = Ok a /\ o_nth (fst hw) (snd hw c) (size (o_d (snd hw c))) = Ok b /\ link_lt a b = false /\ link_lt b a = true.
Proof. exact (fun E K sz nk key_of hash keq rep clone pocca pocma Hsz KL R C => ordered_end sz nk key_of hash keq rep Hsz KL R clone pocca pocma C). Qed.
Print Assumptions C81_end_refuted.

(** An unordered dense map whose array is at address 8192: five elements, one erased, one more. *)
Definition somed : dense entry := dmap (map (XOn 0) [DInsert (40, 1); DInsert (5, 2); DInsert (17, 3); DInsert (33, 4); DErase 0 5; DInsert (9, 5)]) 0.
Example C81_dense_case : dnormal somed /\ iterate somed = Ok [(40, 1); (33, 4); (17, 3); (9, 5)] /\ d_begin 8192 = 8192 /\ d_end 48 8192 somed = 8384 /\
  it_minus 48 (it_plus 48 8192 3) (it_plus 48 8192 1) = 2 /\ link_lt (it_plus 48 8192 3) (it_plus 48 8192 1) = false /\ it_sub 48 8192 somed (it_plus 48 8192 3) (-2) = Ok (33, 4).
Proof. split; [apply dmap_occurs; vm_compute; reflexivity|]. vm_compute. repeat split; reflexivity. Qed.
Example C82_dense_case : d_front 48 8192 somed = Ok (40, 1) /\ d_back 48 8192 somed = Ok (9, 5) /\ dnormal (dmap [] 0) /\ d_front 48 8192 (dmap [] 0) = Err NullDeref.
Proof. split; [vm_compute; reflexivity|]. split; [vm_compute; reflexivity|]. split; [apply dmap_occurs; vm_compute; reflexivity|vm_compute; reflexivity]. Qed.

(** it(i) < it(j) for all positions i and j. *)
Definition compared (it : Z -> res Z) (n : Z) : list (list bool) :=
  map (fun i => map (fun j => match it i, it j with Ok a, Ok b => link_lt a b | _, _ => false end) (zrange n)) (zrange n).
(** An ordered dense map with four elements: in order; after the first is erased, no more: the
    element that was last is now in the first slot. *)
Definition linked4 : list (ycall entry Z) := map (fun k => YOn 0 (OInsert (k, 10 * k))) [40; 5; 17; 33].
Definition at4 (l : list (ycall entry Z)) (i : Z) : res Z := o_nth (fst (omaps l)) (snd (omaps l) 0%nat) i.
Example C81_ordered_case :
  ynormal (omaps linked4) /\ compared (at4 linked4) 4 = [[false; true; true; true]; [false; false; true; true]; [false; false; false; true]; [false; false; false; false]] /\
  let l := linked4 ++ [YOn 0 (OEraseAt 0)] in
  ynormal (omaps l) /\ compared (at4 l) 3 = [[false; true; false]; [false; false; false]; [true; true; false]] /\
  o_iterate 48 (fst (omaps l)) (snd (omaps l) 0%nat) = Ok [(5, 50); (17, 170); (33, 330)] /\ iterate (o_d (snd (omaps l) 0%nat)) = Ok [(33, 330); (5, 50); (17, 170)].
Proof.
  split; [apply omaps_occur; vm_compute; reflexivity|]. split; [vm_compute; reflexivity|]. split; [apply omaps_occur; vm_compute; reflexivity|]. vm_compute. repeat split; reflexivity.
Qed.
Example C82_ordered_case : let l := linked4 ++ [YOn 0 (OEraseAt 0)] in let hw := omaps l in
  o_front 48 (fst hw) (snd hw 0%nat) = Ok (5, 50) /\ o_back 48 (fst hw) (snd hw 0%nat) = Ok (33, 330) /\
  o_front 48 (fst (omaps [])) (snd (omaps []) 0%nat) = Err OutOfBounds.
Proof. vm_compute. repeat split; reflexivity. Qed.
(** Growing, looking up, assigning and clearing keep the order. *)
Definition growing : list (ocall entry Z) := [OInsert (7, 7); OClear; OInsert (40, 1); OEmplace (5, 2); OInsert (17, 3); OAssign (5, 9); OInsert (40, 8); OReserve 50; OFind 0 17; OInsert (33, 4)].
Example C81_appends_case : ohistory_ok 1 (yprog growing) /\
  match orun 48 1 key1 ehash ekeq erep (heap0, o_new (addr0 0)) (yprog growing) with
  | Ok (h, s, _) => o_iterate 48 h s = Ok [(40, 1); (5, 9); (17, 3); (33, 4)] /\ compared (o_nth h s) 4 = [[false; true; true; true]; [false; false; true; true]; [false; false; false; true]; [false; false; false; false]]
  | Err _ => False
  end.
Proof. split; [apply place_from_calls; reflexivity|]. vm_compute. split; reflexivity. Qed.
(** A container below its array: the iterators of elements compare as positions, end() compares
    below all of them.  (Only the order of the addresses matters here.) *)
Definition below (i : nat) : Z := - 64 * Z.of_nat i - 64.
Definition heap_below : heap := fun a => if (a <? 0) && (a mod 64 =? 0) then Some (0, 0) else None.
Lemma below_ok : yinit_ok below heap_below.
Proof.
  split; [intros i j H; unfold below in H; lia|]. intros i. unfold heap_below, below. destruct (Z.ltb_spec (- 64 * Z.of_nat i - 64) 0); [|lia].
  replace (- 64 * Z.of_nat i - 64) with ((- Z.of_nat i - 1) * 64) by lia. rewrite Z.mod_mul by lia. reflexivity.
Qed.
Example C81_end_case : let hw := yend 48 1 key1 ehash ekeq erep sameel false true below heap_below (yprog linked4) in
  ynormal hw /\ o_hdr (snd hw 0%nat) = -64 /\ o_base (snd hw 0%nat) = 12288 /\
  compared (o_nth (fst hw) (snd hw 0%nat)) 5 = [[false; true; true; true; false]; [false; false; true; true; false]; [false; false; false; true; false]; [false; false; false; false; false]; [true; true; true; true; false]].
Proof. split; [apply yclear_occurs; [exact below_ok|apply place_from_ok; reflexivity|vm_compute; reflexivity]|]. vm_compute. repeat split; reflexivity. Qed.
(** Ordered sparse maps: two elements are in order or not depending on where their hashes put
    them. *)
Definition sparse2 (a b : Z) : SwissOrderedWorld.xworld entry := SwissOrderedInstances.smaps SSE2 (map (fun k => SwissOrderedWorldSpec.XOn 0 (SwissOrderedSpec.ZInsert (k, k))) [a; b]).
Definition s_compared (w : SwissOrderedWorld.xworld entry) : list (list bool) := compared (SwissOrdered.s_nth (SwissOrderedWorld.xw_m w) (SwissOrderedWorld.xw_c w 0%nat)) 2.
Example C81_sparse_case : SwissOrderedInstances.xnormal SSE2 (sparse2 40 5) /\ SwissOrderedInstances.xnormal SSE2 (sparse2 5 40) /\
  s_compared (sparse2 40 5) = [[false; true]; [false; false]] /\ s_compared (sparse2 5 40) = [[false; false]; [true; false]].
Proof. split; [apply SwissOrderedInstances.smaps_occur; vm_compute; reflexivity|]. split; [apply SwissOrderedInstances.smaps_occur; vm_compute; reflexivity|]. vm_compute. split; reflexivity. Qed.
(** So C81 fails for ordered sparse containers even without erasing. *)
Theorem C81_sparse_refuted : exists w, SwissOrderedInstances.xnormal SSE2 w /\
  SwissOrdered.s_iterate 48 (SwissOrderedWorld.xw_m w) (SwissOrderedWorld.xw_c w 0%nat) = Ok [(5, 5); (40, 40)] /\
  ~ in_order link_lt (fun i => given (SwissOrdered.s_nth (SwissOrderedWorld.xw_m w) (SwissOrderedWorld.xw_c w 0%nat) i)) 2.
Proof.
  exists (sparse2 5 40). split; [apply SwissOrderedInstances.smaps_occur; vm_compute; reflexivity|]. split; [vm_compute; reflexivity|].
  intros H. destruct (H 0 1 ltac:(lia) ltac:(lia)) as (a & b & Ha & Hb & Hl). vm_compute in Ha, Hb. injection Ha as <-. injection Hb as <-. vm_compute in Hl. discriminate Hl.
Qed.
Print Assumptions C81_sparse_refuted.
