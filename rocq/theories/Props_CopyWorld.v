(** Property C76: programs that copy unordered sparse or stable containers. *)
From Coq Require Import ZArith List Bool Permutation.
From Verif Require Import Base Bits MapSpec WorldSpec CopyWorldSpec SwissModel SwissInv SwissRun Instances SwissMore SwissCopy World WorldProofs
  CopyWorld CopyWorldProofs.
Import ListNotations.
Open Scope Z_scope.

(** Programs over any number of containers and node handles that also copy-construct and
    copy-assign containers: all answers and contents are those of the lists, where a copy
    holds the copies of the elements in the same order, up to the first statement listed in
    [pblocked], if there is one.  Missing: what follows such a statement. *)
Theorem C76_programs_partial : forall (E K : Type) f (key_of : E -> K) hash keq rep clone pocca,
  key_laws hash keq ->
  (forall a b, keq (key_of a) (key_of b) = true -> key_of (rep a b) = key_of a) ->
  (forall e, key_of (clone e) = key_of e) ->
  forall h, phistory_ok h ->
  (exists w rs, prun f key_of hash keq rep clone pocca winit h = Ok (w, rs) /\
    pspec_run key_of keq rep clone (map snd h) wstart (abs w) rs) \/
  (exists h1 v c h2 w rs, h = h1 ++ (v, c) :: h2 /\ prun f key_of hash keq rep clone pocca winit h1 = Ok (w, rs) /\
    pspec_run key_of keq rep clone (map snd h1) wstart (abs w) rs /\
    pblocked f key_of hash keq rep clone pocca v w c).
Proof. exact (fun E K f key_of hash keq rep clone pocca KL R C => programs_final f key_of hash keq KL rep R clone C pocca). Qed.
Print Assumptions C76_programs_partial.

(** The containers of such programs, copies and copies of copies included, answer every
    later history of calls as their list does. *)
Theorem C76_containers_partial : forall (E K : Type) f (key_of : E -> K) hash keq rep clone pocca,
  key_laws hash keq ->
  (forall a b, keq (key_of a) (key_of b) = true -> key_of (rep a b) = key_of a) ->
  (forall e, key_of (clone e) = key_of e) ->
  forall s, poccurs f key_of hash keq rep clone pocca s -> behaves f key_of hash keq rep s (elems s).
Proof. exact (fun E K f key_of hash keq rep clone pocca KL R C => poccurs_behaves f key_of hash keq KL rep R clone C pocca). Qed.
Print Assumptions C76_containers_partial.

(** A further copy of such a container finds all keys, and then answers as the list of
    copies does, if and only if the container is clean; with fewer buckets than the group
    width it always is. *)
Theorem C76_copy_partial : forall (E K : Type) f (key_of : E -> K) hash keq rep clone pocca,
  key_laws hash keq ->
  (forall a b, keq (key_of a) (key_of b) = true -> key_of (rep a b) = key_of a) ->
  (forall e, key_of (clone e) = key_of e) ->
  forall lim o, poccurs f key_of hash keq rep clone pocca o -> bucket_count o <= lim ->
  exists c, copy_ctor f clone lim o = Ok (c, true) /\ elems c = map clone (elems o) /\
    ((forall x, In x (elems o) -> contains f key_of hash keq c (key_of x) = Ok true) <-> clean f o) /\
    (clean f o -> behaves f key_of hash keq rep c (map clone (elems o))) /\
    (bucket_count o < width f -> clean f o).
Proof. exact (fun E K f key_of hash keq rep clone pocca KL R C => poccurs_copy f key_of hash keq KL rep R clone C pocca). Qed.
Print Assumptions C76_copy_partial.

(** A copy that can be told from its source. *)
Definition marked (e : entry) : entry := (fst e, snd e + 100).

(** Copies, changes to copy and source, a copy of the copy, self assignment, a copy refused
    memory, an assignment of an empty container to a fresh one. *)
Definition C76_program : list (env * pcall entry Z) :=
  map (fun c => (v0, c)) [PDo (WOn 0 (CInsert (1, 1))); PDo (WOn 0 (CInsert (2, 2))); PDo (WOn 0 (CInsert (3, 3))); PDo (WOn 0 (CErase 2));
    PCopyNew 1 0; PDo (WOn 1 CIterate); PDo (WOn 0 (CErase 1)); PDo (WOn 1 (CInsert (1, 9))); PDo (WOn 1 (CInsert (7, 7)));
    PCopy 2 1; PDo (WOn 2 CIterate); PDo (WMerge 0 2); PDo (WOn 0 CIterate); PDo (WOn 2 CIterate); PCopy 1 1; PDo (WOn 1 CSize)] ++
  [(mkenv 0 true, PCopyNew 0 1); (mkenv 0 true, PCopy 4 1)] ++
  map (fun c => (v0, c)) [PDo (WOn 0 CSize); PDo (WOn 4 (CInsert (5, 5))); PDo (WExtract 1 3 0); PDo (WInsertNode 4 0); PCopy 5 6; PDo (WOn 5 (CFind 1)); PDo (WOn 4 CIterate)].
Example C76_case :
  results (prun SSE2 ekey chash ekeq erep marked false winit C76_program) =
  Ok [WRet (RInserted (1, 1) true); WRet (RInserted (2, 2) true); WRet (RInserted (3, 3) true); WRet (RErased (Some (3, 3)) true);
      WDone; WRet (RList [(1, 101); (3, 103)]); WRet (RErased (Some (3, 3)) true); WRet (RInserted (1, 101) false); WRet (RInserted (7, 7) true);
      WDone; WRet (RList [(1, 201); (7, 107); (3, 203)]); WDone; WRet (RList [(3, 3); (1, 201); (7, 107)]); WRet (RList [(3, 203)]); WDone; WRet (RNum 3);
      WThrow; WThrow; WRet (RNum 0); WRet (RInserted (5, 5) true); WNode (Some (3, 103)); WNodeIn (3, 103) true; WDone; WRet (RFound None);
      WRet (RList [(5, 5); (3, 103)])] /\
  phistory_ok C76_program /\ (forall e, ekey (marked e) = ekey e).
Proof.
  split; [vm_compute; reflexivity|]. split; [|reflexivity].
  repeat (apply Forall_cons; [split; [reflexivity|first [exact I|discriminate]]|]); apply Forall_nil.
Qed.

(** A container copied after an erase: the copy holds key 16 but does not find it, and takes
    a second element with that key. *)
Theorem C76_refuted : exists h w rs, phistory_ok h /\
  prun SSE2 ekey chash ekeq erep marked false winit (h ++ [(v0, PCopyNew 1 0); (v0, PDo (WOn 1 (CContains 16))); (v0, PDo (WOn 1 (CInsert (16, 0))))]) =
    Ok (w, rs ++ [WDone; WRet (RBool false); WRet (RInserted (16, 0) true)]) /\
  In (16, 116) (elems (w_c w 1)) /\ In (16, 0) (elems (w_c w 1)).
Proof.
  set (h := map (fun c => (v0, PDo (WOn O c))) (CReserve 20 :: map (fun i => CInsert (i, i)) (zrange 17) ++ [CErase 3])).
  set (x := prun SSE2 ekey chash ekeq erep marked false winit (h ++ [(v0, PCopyNew 1 0); (v0, PDo (WOn 1 (CContains 16))); (v0, PDo (WOn 1 (CInsert (16, 0))))])).
  assert (Hr : results x = Ok ((WRet RUnit :: map (fun i => WRet (RInserted (i, i) true)) (zrange 17) ++ [WRet (RErased (Some (4, 4)) true)]) ++
    [WDone; WRet (RBool false); WRet (RInserted (16, 0) true)])) by (vm_compute; reflexivity).
  assert (He : let l := elems (w_c (state x winit) 1) in In (16, 116) l /\ In (16, 0) l) by (vm_compute; tauto).
  exists h. fold x. destruct x as [[w rs]|]; [|discriminate]. unfold results in Hr. cbn [bind snd] in Hr. injection Hr as ->.
  exists w, (WRet RUnit :: map (fun i => WRet (RInserted (i, i) true)) (zrange 17) ++ [WRet (RErased (Some (4, 4)) true)]). split; [|split; [reflexivity|exact He]].
  repeat (apply Forall_cons; [split; [reflexivity|first [exact I|split; discriminate || reflexivity]]|]). apply Forall_nil.
Qed.
Print Assumptions C76_refuted.

(** A copy assignment that is refused memory releases the buffer of the target and keeps
    the pointers: on every build the next insertion into the target reads released memory. *)
Theorem C76_refused_refuted : forall f, exists h, phistory_ok h /\
  (exists rs, results (prun f ekey ehash ekeq erep marked false winit (h ++ [(mkenv 0 true, PCopy 0 1)])) = Ok (rs ++ [WThrow])) /\
  prun f ekey ehash ekeq erep marked false winit (h ++ [(mkenv 0 true, PCopy 0 1); (v0, PDo (WOn 0 (CInsert (7, 7))))]) = Err UseAfterFree.
Proof.
  intros f. exists (map (fun c => (v0, PDo c)) [WOn 0 (CInsert (1, 1)); WOn 1 (CInsert (1, 1)); WOn 1 (CInsert (2, 2)); WOn 1 (CReserve 40)]).
  split; [repeat (apply Forall_cons; [split; [reflexivity|first [exact I|split; discriminate || reflexivity]]|]); apply Forall_nil|].
  split; [|destruct f; vm_compute; reflexivity].
  exists [WRet (RInserted (1, 1) true); WRet (RInserted (1, 1) true); WRet (RInserted (2, 2) true); WRet RUnit]. destruct f; vm_compute; reflexivity.
Qed.
Print Assumptions C76_refused_refuted.
