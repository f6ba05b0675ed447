(** Properties C07 to C12, C14 to C16 and C47: several unordered sparse or stable
    containers, copies, moves, node handles. *)
From Coq Require Import ZArith List Bool Permutation.
From Verif Require Import Base Bits MapSpec WorldSpec SwissModel SwissInv SwissRun Instances SwissMore SwissCopy World WorldProofs WorldFinal.
Import ListNotations.
Open Scope Z_scope.

(** C47: programs over any number of containers and node handles, on SSE2 and SSSE3
    builds: every statement is defined and does what the list specification says.  Missing:
    a merge whose target has no buckets and that is refused memory inside its noexcept
    transfer (refutation below). *)
Theorem C47_programs_x86_partial : forall (E K : Type) f (key_of : E -> K) hash keq rep,
  key_laws hash keq ->
  (forall a b, keq (key_of a) (key_of b) = true -> key_of (rep a b) = key_of a) ->
  forall h, f = SSE2 \/ f = SSSE3 -> whistory_ok h ->
  (exists w rs, wrun f key_of hash keq rep winit h = Ok (w, rs) /\
    wspec_run key_of keq rep (map snd h) wstart (abs w) rs) \/
  (exists h1 v i j h2 w rs, h = h1 ++ (v, WMerge i j) :: h2 /\ wrun f key_of hash keq rep winit h1 = Ok (w, rs) /\
    wspec_run key_of keq rep (map snd h1) wstart (abs w) rs /\
    bucket_count (w_c w i) = 0 /\ elems (w_c w j) <> [] /\ wrun f key_of hash keq rep winit h = Err Terminated).
Proof. exact (fun E K f key_of hash keq rep KL R h => world_refines_wide f key_of hash keq KL rep R h). Qed.
Print Assumptions C47_programs_x86_partial.

(** The same on every build; on NEON and portable builds a program that erases, extracts,
    merges or iterates may instead hit the undefined bit scan of C22. *)
Theorem C47_programs_all_partial : forall (E K : Type) f (key_of : E -> K) hash keq rep,
  key_laws hash keq ->
  (forall a b, keq (key_of a) (key_of b) = true -> key_of (rep a b) = key_of a) ->
  forall h, whistory_ok h ->
  (exists w rs, wrun f key_of hash keq rep winit h = Ok (w, rs) /\
     wspec_run key_of keq rep (map snd h) wstart (abs w) rs) \/
  ((f = NEON \/ f = WORD) /\ (exists v c, In (v, c) h /\ wscanning c) /\ wrun f key_of hash keq rep winit h = Err BitScanZero) \/
  (exists h1 v i j h2 w rs, h = h1 ++ (v, WMerge i j) :: h2 /\ wrun f key_of hash keq rep winit h1 = Ok (w, rs) /\
    wspec_run key_of keq rep (map snd h1) wstart (abs w) rs /\
    bucket_count (w_c w i) = 0 /\ elems (w_c w j) <> [] /\ wrun f key_of hash keq rep winit h = Err Terminated).
Proof. exact (fun E K f key_of hash keq rep KL R h => world_refines f key_of hash keq KL rep R h). Qed.
Print Assumptions C47_programs_all_partial.

Definition C47_program : list (wcall entry Z) :=
  [WRange 0 true [(1, 10); (2, 20); (1, 99)] 0; WOn 1 (CInsert (2, 200)); WOn 1 (CInsert (3, 300)); WOn 1 (CInsert (4, 400));
   WMerge 0 1; WOn 0 CIterate; WOn 1 CIterate; WExtract 0 3 7; WOn 1 (CContains 3); WInsertNode 1 7; WInsertNode 1 7; WExtract 0 1 5;
   WOn 0 (CInsert (1, 11)); WInsertNode 0 5; WEraseIf 0 (fun e => snd e <? 15); WSwap 0 1; WMove 2 0; WOn 0 CSize;
   WOn 0 (CInsert (9, 90)); WOn 2 CIterate].
Example C47_case : results (wrun SSE2 ekey chash ekeq erep winit (map (fun c => (v0, c)) C47_program)) =
  Ok [WDone; WRet (RInserted (2, 200) true); WRet (RInserted (3, 300) true); WRet (RInserted (4, 400) true);
      WDone; WRet (RList [(1, 10); (2, 20); (3, 300); (4, 400)]); WRet (RList [(2, 200)]); WNode (Some (3, 300));
      WRet (RBool false); WNodeIn (3, 300) true; WDone; WNode (Some (1, 10)); WRet (RInserted (1, 11) true); WNodeIn (1, 11) false;
      WCount 1; WDone; WDone; WRet (RNum 0); WRet (RInserted (9, 90) true); WRet (RList [(2, 200); (3, 300)])] /\
  whistory_ok (map (fun c => (v0, c)) C47_program).
Proof.
  split; [vm_compute; reflexivity|]. repeat (apply Forall_cons; [split; [reflexivity|]|]); try apply Forall_nil; cbn [snd wcall_ok call_ok]; try exact I.
  - split; [reflexivity|]. exists 2. split; [discriminate|reflexivity].
  - discriminate.
Qed.

(** merge into a container that was moved from, without memory: on all builds the program
    ends instead of throwing std::bad_alloc. *)
Theorem C47_refuted : forall f, exists h, whistory_ok h /\ wrun f ekey ehash ekeq erep winit h = Err Terminated.
Proof.
  intros f.
  exists (map (fun c : wcall entry Z => (v0, c)) [WOn 0 (CInsert (1, 1)); WOn 0 (CInsert (2, 2)); WOn 1 (CInsert (5, 5)); WMove 0 1] ++ [(mkenv 0 true, WMerge 1 0)]).
  split; [|destruct f; vm_compute; reflexivity].
  repeat (apply Forall_cons; [split; [reflexivity|first [exact I|discriminate]]|]); apply Forall_nil.
Qed.
Print Assumptions C47_refuted.

(** Tables used below. *)
Definition two (f : simd) := state (erun f [CInsert (1, 1); CInsert (2, 2)]) empty_swiss.
Definition one (f : simd) := state (erun f [CInsert (5, 5)]) empty_swiss.
Lemma two_occurs : forall f, occurs f ekey ehash ekeq erep (two f).
Proof.
  intros f. apply (reachable_occurs f ekey ehash ekeq). apply erun_reachable; [vm_compute; reflexivity|]. eexists. destruct f; vm_compute; reflexivity.
Qed.
Lemma one_occurs : forall f, occurs f ekey ehash ekeq erep (one f).
Proof.
  intros f. apply (reachable_occurs f ekey ehash ekeq). apply erun_reachable; [vm_compute; reflexivity|]. eexists. destruct f; vm_compute; reflexivity.
Qed.
Lemma empty_occurs : forall f, occurs f ekey ehash ekeq erep empty_swiss.
Proof. intros f. exists [], winit, [], O. split; [constructor|split; reflexivity]. Qed.

(** C07.  The copy always holds the right elements in the same iteration order.  Every key
    is found in it, and it answers all later calls as the source list does, if and only if
    the source is clean: no element lies behind (in probe order) a group with an erased
    slot.  Tables with fewer buckets than the group width are always clean.  Missing for
    the full statement: sources that are not clean (refutation below). *)
Theorem C07_copy_partial : forall (E K : Type) f (key_of : E -> K) hash keq rep,
  key_laws hash keq ->
  (forall a b, keq (key_of a) (key_of b) = true -> key_of (rep a b) = key_of a) ->
  forall clone lim o, (forall e, key_of (clone e) = key_of e) -> occurs f key_of hash keq rep o -> bucket_count o <= lim ->
  exists c, copy_ctor f clone lim o = Ok (c, true) /\ elems c = map clone (elems o) /\ size c = size o /\
    (clean f o <-> forall x, In x (elems o) -> contains f key_of hash keq c (key_of x) = Ok true) /\
    (clean f o -> behaves f key_of hash keq rep c (map clone (elems o))).
Proof. exact (fun E K f key_of hash keq rep KL R => copy_ctor_final f key_of hash keq KL rep R). Qed.
Print Assumptions C07_copy_partial.

Theorem C07_small_partial : forall (E K : Type) f (key_of : E -> K) hash keq rep,
  key_laws hash keq ->
  (forall a b, keq (key_of a) (key_of b) = true -> key_of (rep a b) = key_of a) ->
  forall s, occurs f key_of hash keq rep s -> bucket_count s < width f -> clean f s.
Proof. exact (fun E K f key_of hash keq rep KL R => occurs_small f key_of hash keq KL rep R). Qed.
Print Assumptions C07_small_partial.

Example C07_case :
  let o := state (crun SSE2 [CInsert (1, 10); CInsert (2, 20); CInsert (3, 30); CErase 2; CInsert (4, 40)]) empty_swiss in
  bucket_count o = 3 /\
  match copy_ctor SSE2 (fun e => e) (2 ^ 40) o with
  | Ok (c, true) => results (run SSE2 ekey chash ekeq erep c (calls [CFind 3; CErase 1; CInsert (2, 21); CContains 4; CSize])) =
      Ok [RFound (Some (3, 30)); RErased (Some (4, 40)) true; RInserted (2, 21) true; RBool true; RNum 3]
  | _ => False
  end.
Proof. vm_compute. repeat split; reflexivity. Qed.

(** 17 colliding elements in 31 buckets, one of the first 16 erased: key 16 is found in
    the source but not in the copy, although the copy iterates over it. *)
Theorem C07_refuted : exists o c k, occurs SSE2 ekey chash ekeq erep o /\ copy_ctor SSE2 (fun e => e) (2 ^ 40) o = Ok (c, true) /\
  contains SSE2 ekey chash ekeq o k = Ok true /\ contains SSE2 ekey chash ekeq c k = Ok false /\ In (k, k) (elems c).
Proof.
  set (o := state (crun SSE2 (CReserve 20 :: map (fun i => CInsert (i, i)) (zrange 17) ++ [CErase 3])) empty_swiss).
  exists o. destruct (copy_ctor SSE2 (fun e => e) (2 ^ 40) o) as [[c b]|] eqn:Ec; [|vm_compute in Ec; discriminate].
  exists c, 16. split.
  { apply (reachable_occurs SSE2 ekey chash ekeq). apply crun_reachable; [vm_compute; reflexivity|eexists; vm_compute; reflexivity]. }
  vm_compute in Ec. injection Ec as <- <-. split; [reflexivity|]. split; [vm_compute; reflexivity|]. split; [vm_compute; reflexivity|].
  vm_compute. tauto.
Qed.
Print Assumptions C07_refuted.

(** C08.  As C07, when the target has no more buckets than the source or the allocator
    propagates on copy assignment (std::allocator does not).  Missing: sources that are not
    clean, and larger targets (refutation). *)
Theorem C08_copy_assign_partial : forall (E K : Type) f (key_of : E -> K) hash keq rep,
  key_laws hash keq ->
  (forall a b, keq (key_of a) (key_of b) = true -> key_of (rep a b) = key_of a) ->
  forall clone pocca lim s o, (forall e, key_of (clone e) = key_of e) ->
  occurs f key_of hash keq rep s -> occurs f key_of hash keq rep o ->
  bucket_count o <= lim -> elems o <> [] -> pocca = true \/ bucket_count s <= bucket_count o ->
  exists c, copy_assign f clone pocca lim s o = Ok (c, true) /\ elems c = map clone (elems o) /\ size c = size o /\
    (clean f o <-> forall x, In x (elems o) -> contains f key_of hash keq c (key_of x) = Ok true) /\
    (clean f o -> behaves f key_of hash keq rep c (map clone (elems o))).
Proof. exact (fun E K f key_of hash keq rep KL R => copy_assign_final f key_of hash keq KL rep R). Qed.
Print Assumptions C08_copy_assign_partial.

Example C08_case :
  match copy_assign SSE2 (fun e => e) false (2 ^ 40) (one SSE2) (two SSE2) with
  | Ok (c, true) => results (run SSE2 ekey ehash ekeq erep c (calls [CFind 1; CContains 5; CErase 1; CIterate])) =
      Ok [RFound (Some (1, 1)); RBool false; RErased (Some (2, 2)) true; RList [(2, 2)]]
  | _ => False
  end.
Proof. vm_compute. reflexivity. Qed.

(** Three elements copied over an empty table with 31 buckets: key 17 is not found. *)
Theorem C08_refuted : exists s o c, occurs SSE2 ekey ehash ekeq erep s /\ occurs SSE2 ekey ehash ekeq erep o /\ size s = 0 /\
  copy_assign SSE2 (fun e => e) false (2 ^ 40) s o = Ok (c, true) /\
  contains SSE2 ekey ehash ekeq o 17 = Ok true /\ contains SSE2 ekey ehash ekeq c 17 = Ok false.
Proof.
  set (s := state (erun SSE2 [CReserve 20]) empty_swiss).
  set (o := state (erun SSE2 [CInsert (1, 0); CInsert (17, 1); CInsert (33, 2)]) empty_swiss).
  exists s, o. destruct (copy_assign SSE2 (fun e => e) false (2 ^ 40) s o) as [[c b]|] eqn:Ec; [|vm_compute in Ec; discriminate].
  exists c. split.
  { apply (reachable_occurs SSE2 ekey ehash ekeq). apply erun_reachable; [vm_compute; reflexivity|eexists; vm_compute; reflexivity]. }
  split.
  { apply (reachable_occurs SSE2 ekey ehash ekeq). apply erun_reachable; [vm_compute; reflexivity|eexists; vm_compute; reflexivity]. }
  vm_compute in Ec. injection Ec as <- <-. repeat split; vm_compute; reflexivity.
Qed.
Print Assumptions C08_refuted.

(** C09, when the allocator propagates on copy assignment or the target never held an
    element since its last clear or rehash.  Missing: the other targets (refutation). *)
Theorem C09_copy_assign_empty_partial : forall (E K : Type) f (key_of : E -> K) hash keq rep,
  key_laws hash keq ->
  (forall a b, keq (key_of a) (key_of b) = true -> key_of (rep a b) = key_of a) ->
  forall (clone : E -> E) pocca lim s o, occurs f key_of hash keq rep s -> occurs f key_of hash keq rep o -> elems o = [] ->
  pocca = true \/ (forall j, 0 <= j < bucket_count s -> s_meta s j = m_empty) ->
  exists c, copy_assign f clone pocca lim s o = Ok (c, true) /\ size c = 0 /\ behaves f key_of hash keq rep c [].
Proof. exact (fun E K f key_of hash keq rep KL R => copy_assign_empty_final f key_of hash keq KL rep R). Qed.
Print Assumptions C09_copy_assign_empty_partial.

Example C09_case :
  match copy_assign SSE2 (fun e => e) true (2 ^ 40) (two SSE2) empty_swiss with
  | Ok (c, true) => results (run SSE2 ekey ehash ekeq erep c (calls [CSize; CFind 1; CIterate; CInsert (1, 7); CIterate])) =
      Ok [RNum 0; RFound None; RList []; RInserted (1, 7) true; RList [(1, 7)]]
  | _ => False
  end.
Proof. vm_compute. reflexivity. Qed.

(** Assigning an empty container to one with two elements (std::allocator): size() is 0,
    but iterating, or looking up key 1 after inserting key 5, reads a destroyed element. *)
Theorem C09_refuted : exists s o c, occurs SSE2 ekey ehash ekeq erep s /\ occurs SSE2 ekey ehash ekeq erep o /\ size o = 0 /\
  copy_assign SSE2 (fun e => e) false (2 ^ 40) s o = Ok (c, true) /\ size c = 0 /\ iterate SSE2 c = Err DeadObject /\
  run SSE2 ekey ehash ekeq erep c (calls [CInsert (5, 5); CFind 1]) = Err DeadObject.
Proof.
  exists (two SSE2), empty_swiss.
  destruct (copy_assign SSE2 (fun e => e) false (2 ^ 40) (two SSE2) empty_swiss) as [[c b]|] eqn:Ec; [|vm_compute in Ec; discriminate].
  exists c. split; [apply two_occurs|]. split; [apply empty_occurs|]. vm_compute in Ec. injection Ec as <- <-. repeat split; vm_compute; reflexivity.
Qed.
Print Assumptions C09_refuted.

(** C10 for equal allocators that propagate on move assignment (as std::allocator), or
    targets without elements: the target becomes the very source table, the source an empty
    container that answers all later calls as a fresh one does.  Missing: non-propagating
    allocators with elements in the target, and the capacity guarantee of reserve on the
    source (two refutations). *)
Theorem C10_move_swap_partial : forall (E K : Type) f (key_of : E -> K) hash keq rep,
  key_laws hash keq ->
  (forall a b, keq (key_of a) (key_of b) = true -> key_of (rep a b) = key_of a) ->
  forall lim s o, occurs f key_of hash keq rep s -> occurs f key_of hash keq rep o ->
  (exists o', move_assign f true true lim s o = Ok (o, o', true) /\ behaves f key_of hash keq rep o' []) /\
  (elems s = [] -> exists o', move_assign f false true lim s o = Ok (o, o', true) /\ behaves f key_of hash keq rep o' []) /\
  (exists o', move_ctor f true lim o = Ok (o, o', true) /\ behaves f key_of hash keq rep o' []) /\
  swap true s o = Ok (o, s) /\ behaves f key_of hash keq rep o (elems o) /\ behaves f key_of hash keq rep s (elems s).
Proof. exact (fun E K f key_of hash keq rep KL R => move_swap_final f key_of hash keq KL rep R). Qed.
Print Assumptions C10_move_swap_partial.

Example C10_case :
  match move_assign SSE2 true true (2 ^ 40) (two SSE2) (one SSE2) with
  | Ok (s, o, true) => results (run SSE2 ekey ehash ekeq erep s (calls [CIterate; CFind 1])) = Ok [RList [(5, 5)]; RFound None] /\
      results (run SSE2 ekey ehash ekeq erep o (calls [CSize; CInsert (1, 8); CInsert (2, 9); CIterate])) =
        Ok [RNum 0; RInserted (1, 8) true; RInserted (2, 9) true; RList [(1, 8); (2, 9)]]
  | _ => False
  end.
Proof. vm_compute. repeat split; reflexivity. Qed.

(** With a non-propagating allocator the moved-from table takes over the target's buffer
    whose metadata still marks the destroyed elements. *)
Theorem C10_refuted : exists s o s' o', occurs SSE2 ekey ehash ekeq erep s /\ occurs SSE2 ekey ehash ekeq erep o /\
  move_assign SSE2 false true (2 ^ 40) s o = Ok (s', o', true) /\ size o' = 0 /\ iterate SSE2 o' = Err DeadObject.
Proof.
  exists (two SSE2), (one SSE2).
  destruct (move_assign SSE2 false true (2 ^ 40) (two SSE2) (one SSE2)) as [[[c d] b]|] eqn:Ec; [|vm_compute in Ec; discriminate].
  exists c, d. split; [apply two_occurs|]. split; [apply one_occurs|]. vm_compute in Ec. injection Ec as <- <- <-. repeat split; vm_compute; reflexivity.
Qed.
Print Assumptions C10_refuted.

(** With a propagating allocator the moved-from table has no buckets but keeps the old
    number of free slots, so that reserve(1) does nothing on it. *)
Theorem C10_reserve_refuted : exists s o o' o'' t, occurs SSE2 ekey ehash ekeq erep s /\ occurs SSE2 ekey ehash ekeq erep o /\
  move_assign SSE2 true true (2 ^ 40) s o = Ok (o, o', true) /\ reserve SSE2 (2 ^ 40) o' 1 = Ok (o'', Some t) /\
  bucket_count o'' = 0.
Proof.
  exists (two SSE2), (one SSE2).
  destruct (move_assign SSE2 true true (2 ^ 40) (two SSE2) (one SSE2)) as [[[c d] b]|] eqn:Ec; [|vm_compute in Ec; discriminate].
  destruct (reserve SSE2 (2 ^ 40) d 1) as [[e [t|]]|] eqn:Er; try (vm_compute in Ec; injection Ec as <- <- <-; vm_compute in Er; discriminate).
  exists d, e, t. split; [apply two_occurs|]. split; [apply one_occurs|]. vm_compute in Ec. injection Ec as <- <- <-.
  vm_compute in Er. injection Er as <- <-. split; [vm_compute; reflexivity|]. split; [vm_compute; reflexivity|]. vm_compute. reflexivity.
Qed.
Print Assumptions C10_reserve_refuted.

(** Move assignment between unequal allocators that do not propagate (elements are moved
    one by one): contents are right; lookups are right if the source is clean. *)
Theorem C10_unequal_partial : forall (E K : Type) f (key_of : E -> K) hash keq rep,
  key_laws hash keq ->
  (forall a b, keq (key_of a) (key_of b) = true -> key_of (rep a b) = key_of a) ->
  forall lim s o, occurs f key_of hash keq rep s -> occurs f key_of hash keq rep o -> elems o <> [] -> bucket_count o <= lim ->
  bucket_count s <= bucket_count o ->
  exists s' o', move_assign f false false lim s o = Ok (s', o', true) /\ elems s' = elems o /\ behaves f key_of hash keq rep o' [] /\
    (clean f o -> behaves f key_of hash keq rep s' (elems o)).
Proof. exact (fun E K f key_of hash keq rep KL R => move_unequal_final f key_of hash keq KL rep R). Qed.
Print Assumptions C10_unequal_partial.

Example C10_unequal_case :
  match move_assign SSE2 false false (2 ^ 40) (one SSE2) (two SSE2) with
  | Ok (s, o, true) => results (run SSE2 ekey ehash ekeq erep s (calls [CIterate; CFind 5])) = Ok [RList [(1, 1); (2, 2)]; RFound None] /\
      results (run SSE2 ekey ehash ekeq erep o (calls [CSize; CInsert (1, 8); CIterate])) = Ok [RNum 0; RInserted (1, 8) true; RList [(1, 8)]]
  | _ => False
  end.
Proof. vm_compute. repeat split; reflexivity. Qed.

(** C11 on every build; missing: the undefined bit scan of C22 on NEON and portable builds. *)
Theorem C11_erase_if_partial : forall (E K : Type) f (key_of : E -> K) hash keq rep,
  key_laws hash keq ->
  (forall a b, keq (key_of a) (key_of b) = true -> key_of (rep a b) = key_of a) ->
  forall pred s, occurs f key_of hash keq rep s ->
  (exists s' m, erase_if f pred s = Ok (s', m) /\ elems s' = filter (fun x => negb (pred x)) (elems s) /\
     m = Z.of_nat (length (filter pred (elems s))) /\ behaves f key_of hash keq rep s' (filter (fun x => negb (pred x)) (elems s))) \/
  ((f = NEON \/ f = WORD) /\ erase_if f pred s = Err BitScanZero).
Proof. exact (fun E K f key_of hash keq rep KL R => erase_if_final f key_of hash keq KL rep R). Qed.
Print Assumptions C11_erase_if_partial.

Example C11_case :
  let s := state (crun SSE2 (map (fun i => CInsert (i, 10 * i)) (zrange 20))) empty_swiss in
  match erase_if SSE2 (fun e => Z.odd (fst e)) s with
  | Ok (s', m) => m = 10 /\ map fst (elems s') = [0; 2; 4; 6; 8; 10; 12; 14; 16; 18] /\ contains SSE2 ekey chash ekeq s' 18 = Ok true /\
      contains SSE2 ekey chash ekeq s' 17 = Ok false
  | Err _ => False
  end.
Proof. vm_compute. repeat split; reflexivity. Qed.

Theorem C11_refuted : exists s, occurs WORD ekey ehash ekeq erep s /\ erase_if WORD (fun _ => false) s = Err BitScanZero.
Proof.
  exists (state (erun WORD [CReserve 20; CInsert (1, 10)]) empty_swiss). split.
  - apply (reachable_occurs WORD ekey ehash ekeq). apply erun_reachable; [vm_compute; reflexivity|eexists; vm_compute; reflexivity].
  - vm_compute. reflexivity.
Qed.
Print Assumptions C11_refuted.

(** C12.  If reserve throws, both containers are as before.  Missing: a target without
    buckets that was moved from, if memory is refused inside the transfer (second refutation:
    the program ends), and the undefined bit scan of C22. *)
Theorem C12_merge_partial : forall (E K : Type) f (key_of : E -> K) hash keq rep,
  key_laws hash keq ->
  (forall a b, keq (key_of a) (key_of b) = true -> key_of (rep a b) = key_of a) ->
  forall lim s o, occurs f key_of hash keq rep s -> occurs f key_of hash keq rep o -> lim < 2 ^ 59 ->
  (exists s' o' b, merge f key_of hash keq lim s o = Ok (s', o', b) /\
     behaves f key_of hash keq rep s' (elems s') /\ behaves f key_of hash keq rep o' (elems o') /\
     (b = true -> Permutation (elems s') (filter (fun x => negb (present key_of keq (elems s) x)) (elems o) ++ elems s) /\
                  elems o' = filter (present key_of keq (elems s)) (elems o)) /\
     (b = false -> s' = s /\ o' = o)) \/
  ((f = NEON \/ f = WORD) /\ merge f key_of hash keq lim s o = Err BitScanZero) \/
  (bucket_count s = 0 /\ elems o <> [] /\ merge f key_of hash keq lim s o = Err Terminated).
Proof. exact (fun E K f key_of hash keq rep KL R => merge_final f key_of hash keq KL rep R). Qed.
Print Assumptions C12_merge_partial.

Example C12_case :
  let s := state (erun SSE2 [CInsert (1, 1); CInsert (2, 2); CInsert (3, 3)]) empty_swiss in
  let o := state (erun SSE2 [CInsert (2, 20); CInsert (4, 40); CInsert (3, 30); CInsert (20, 200)]) empty_swiss in
  match merge SSE2 ekey ehash ekeq (2 ^ 40) s o with
  | Ok (s', o', b) => b = true /\ elems o' = [(2, 20); (3, 30)] /\ elems s' = [(1, 1); (2, 2); (3, 3); (4, 40); (20, 200)]
  | Err _ => False
  end.
Proof. vm_compute. repeat split; reflexivity. Qed.

Theorem C12_refuted : exists s o, occurs NEON ekey ehash ekeq erep s /\ occurs NEON ekey ehash ekeq erep o /\
  merge NEON ekey ehash ekeq (2 ^ 40) s o = Err BitScanZero.
Proof.
  exists empty_swiss, (state (erun NEON [CReserve 20; CInsert (1, 10)]) empty_swiss). split; [apply empty_occurs|]. split.
  - apply (reachable_occurs NEON ekey ehash ekeq). apply erun_reachable; [vm_compute; reflexivity|eexists; vm_compute; reflexivity].
  - vm_compute. reflexivity.
Qed.
Print Assumptions C12_refuted.

(** A failing allocation while merging {5} into a moved-from container ends the program. *)
Theorem C12_terminated_refuted : exists s o, occurs SSE2 ekey ehash ekeq erep s /\ occurs SSE2 ekey ehash ekeq erep o /\
  elems s = [] /\ elems o = [(5, 5)] /\ merge SSE2 ekey ehash ekeq 0 s o = Err Terminated.
Proof.
  set (h := map (fun c : wcall entry Z => (v0, c)) [WOn 0 (CInsert (1, 1)); WOn 0 (CInsert (2, 2)); WOn 1 (CInsert (5, 5)); WMove 0 1]).
  destruct (wrun SSE2 ekey ehash ekeq erep winit h) as [[w rs]|] eqn:Ew; [|vm_compute in Ew; discriminate].
  assert (Hh : whistory_ok h) by (repeat (apply Forall_cons; [split; [reflexivity|exact I]|]); apply Forall_nil).
  exists (w_c w 1), (w_c w 0). split; [exists h, w, rs, 1%nat; auto|]. split; [exists h, w, rs, 0%nat; auto|].
  vm_compute in Ew. injection Ew as <- <-. repeat split; vm_compute; reflexivity.
Qed.
Print Assumptions C12_terminated_refuted.

(** C14.  Elements carry their address ([addr]); assignment to the mapped value keeps it.
    Every element not erased keeps address and key through every history that runs to its
    end (on NEON and portable builds histories may end in the bit scan of C22); moves of the
    element between containers (C12, C15, C47) move the very element. *)
Theorem C14_stable_addresses : forall (E K A : Type) f (key_of : E -> K) hash keq rep (addr : E -> A),
  key_laws hash keq ->
  (forall a b, keq (key_of a) (key_of b) = true -> key_of (rep a b) = key_of a) ->
  (forall a b, addr (rep a b) = addr a) ->
  forall s h s' rs, occurs f key_of hash keq rep s -> history_ok h -> run f key_of hash keq rep s h = Ok (s', rs) ->
  forall e, In e (elems s) -> Forall (spares keq (key_of e)) (map snd h) ->
  exists e', In e' (elems s') /\ addr e' = addr e /\ key_of e' = key_of e.
Proof. exact (fun E K A f key_of hash keq rep addr KL R Ad => stable_final f key_of hash keq KL rep R addr Ad). Qed.
Print Assumptions C14_stable_addresses.

(** Elements with addresses: key, (address, value). *)
Example C14_case :
  let key (e : Z * (Z * Z)) := fst e in let rep (a b : Z * (Z * Z)) := (fst a, (fst (snd a), snd (snd b))) in
  let h := map (fun c => (v0, c)) [CInsert (1, (1000, 1)); CInsert (2, (2000, 2)); CAssign (2, (3000, 22)); CErase 1; CReserve 100; CInsert (3, (3000, 3)); CIterate] in
  results (run SSE2 key chash ekeq rep empty_swiss h) =
  Ok [RInserted (1, (1000, 1)) true; RInserted (2, (2000, 2)) true; RInserted (2, (2000, 22)) false; RErased (Some (2, (2000, 22))) true; RUnit;
      RInserted (3, (3000, 3)) true; RList [(2, (2000, 22)); (3, (3000, 3))]].
Proof. vm_compute. reflexivity. Qed.

(** C15: extract and insertion of a non-empty handle.  Missing: the undefined bit scan of
    C22, and empty handles (refutation). *)
Theorem C15_extract_partial : forall (E K : Type) f (key_of : E -> K) hash keq rep,
  key_laws hash keq ->
  (forall a b, keq (key_of a) (key_of b) = true -> key_of (rep a b) = key_of a) ->
  forall s k, occurs f key_of hash keq rep s ->
  (exists s' o, extract_key f key_of hash keq s k = Ok (s', o) /\
     match o with
     | None => s' = s /\ absent key_of keq k (elems s)
     | Some e => exists a b, located key_of keq k (elems s) a e b /\ behaves f key_of hash keq rep s' (a ++ b)
     end) \/
  ((f = NEON \/ f = WORD) /\ extract_key f key_of hash keq s k = Err BitScanZero).
Proof. exact (fun E K f key_of hash keq rep KL R => extract_final f key_of hash keq KL rep R). Qed.
Print Assumptions C15_extract_partial.

Theorem C15_insert_handle_partial : forall (E K : Type) f (key_of : E -> K) hash keq rep,
  key_laws hash keq ->
  (forall a b, keq (key_of a) (key_of b) = true -> key_of (rep a b) = key_of a) ->
  forall lim s e, occurs f key_of hash keq rep s -> lim < 2 ^ 59 ->
  exists s' o, insert_handle f key_of hash keq lim s (Some e) = Ok (s', o) /\ behaves f key_of hash keq rep s' (elems s') /\
    match o with
    | None => s' = s /\ absent key_of keq (key_of e) (elems s)
    | Some (p, true, h, _) => h = None /\ absent key_of keq (key_of e) (elems s) /\ Permutation (elems s') (e :: elems s) /\ holds s' p e
    | Some (p, false, h, _) => h = Some e /\ s' = s /\ exists x, holds s p x /\ keq (key_of x) (key_of e) = true
    end.
Proof. exact (fun E K f key_of hash keq rep KL R => insert_handle_final f key_of hash keq KL rep R). Qed.
Print Assumptions C15_insert_handle_partial.

Example C15_case :
  match extract_key SSE2 ekey ehash ekeq (two SSE2) 1 with
  | Ok (s', Some e) => e = (1, 1) /\ elems s' = [(2, 2)] /\
      match insert_handle SSE2 ekey ehash ekeq (2 ^ 40) (one SSE2) (Some e) with
      | Ok (t, Some (_, b, h, _)) => b = true /\ h = None /\ elems t = [(5, 5); (1, 1)]
      | _ => False
      end
  | _ => False
  end.
Proof. vm_compute. repeat split; reflexivity. Qed.

(** Inserting an empty handle dereferences a null pointer. *)
Theorem C15_refuted : exists s, occurs SSE2 ekey ehash ekeq erep s /\ insert_handle SSE2 ekey ehash ekeq (2 ^ 40) s None = Err NullDeref.
Proof. exists (two SSE2). split; [apply two_occurs|reflexivity]. Qed.
Print Assumptions C15_refuted.

(** C16 when the bucket count is 2^k - 1, where the bucket count is the requested one or, for
    random access iterators, the larger of it and the number of elements.  Missing: every
    other count (next theorem). *)
Theorem C16_range_partial : forall (E K : Type) f (key_of : E -> K) hash keq rep,
  key_laws hash keq ->
  (forall a b, keq (key_of a) (key_of b) = true -> key_of (rep a b) = key_of a) ->
  forall (ra : bool) (l : list E) n lim, lim < 2 ^ 59 -> Z.of_nat (length l) < 2 ^ 64 ->
  (exists k, 0 <= k /\ (if ra then Z.max (Z.of_nat (length l)) n else n) = 2 ^ k - 1) ->
  exists o, ctor_range f key_of hash keq ra lim l n = Ok o /\
    match o with
    | None => lim < (if ra then Z.max (Z.of_nat (length l)) n else n)
    | Some (s, b) => b = true -> Permutation (elems s) (firsts key_of keq [] l) /\ behaves f key_of hash keq rep s (elems s)
    end.
Proof. exact (fun E K f key_of hash keq rep KL R => range_final f key_of hash keq KL rep R). Qed.
Print Assumptions C16_range_partial.

Example C16_case :
  match ctor_range SSE2 ekey ehash ekeq true (2 ^ 40) [(1, 1); (2, 2); (1, 3)] 0 with
  | Ok (Some (s, b)) => b = true /\ elems s = [(1, 1); (2, 2)] /\ bucket_count s = 3
  | _ => False
  end.
Proof. vm_compute. repeat split; reflexivity. Qed.

Example C16_requested_case :
  match ctor_range SSE2 ekey ehash ekeq true (2 ^ 40) [(1, 1); (2, 2)] 7 with
  | Ok (Some (s, b)) => b = true /\ elems s = [(1, 1); (2, 2)] /\ bucket_count s = 7
  | _ => False
  end.
Proof. vm_compute. repeat split; reflexivity. Qed.

(** Every other bucket count that can be allocated violates the assertion in the
    constructor. *)
Theorem C16_undefined : forall (E : Type) f lim n, 0 <= n <= lim -> n < 2 ^ 59 -> (forall k, 0 <= k -> n <> 2 ^ k - 1) ->
  @ctor_n E f lim n = Err AssertFailed.
Proof. exact (fun E f => ctor_n_undefined f). Qed.
Print Assumptions C16_undefined.

Theorem C16_refuted : exists l : list entry, ctor_range SSE2 ekey ehash ekeq true (2 ^ 40) l 0 = Err AssertFailed.
Proof. exists [(1, 1); (2, 2)]. vm_compute. reflexivity. Qed.
Print Assumptions C16_refuted.

(** C41 on sparse and stable containers: inserting a present key returns the present element
    and leaves the table (elements, slots, bucket count) as it is, whatever allocations and
    constructors would do. *)
Theorem C41_sparse : forall (E K : Type) f (key_of : E -> K) hash keq rep,
  key_laws hash keq ->
  (forall a b, keq (key_of a) (key_of b) = true -> key_of (rep a b) = key_of a) ->
  forall v s e, occurs f key_of hash keq rep s -> (exists x, In x (elems s) /\ keq (key_of x) (key_of e) = true) ->
  exists x, In x (elems s) /\ keq (key_of x) (key_of e) = true /\ exec f key_of hash keq rep v s (CInsert e) = Ok (s, RInserted x false).
Proof. exact (fun E K f key_of hash keq rep KL R => insert_present_final f key_of hash keq KL rep R). Qed.
Print Assumptions C41_sparse.

(** No room is left, no allocation would succeed. *)
Example C41_sparse_case : (s_nempty (one SSE2) =? 0) = true /\ results (exec SSE2 ekey ehash ekeq erep (mkenv 0 false) (one SSE2) (CInsert (5, 7))) = Ok (RInserted (5, 5) false).
Proof. vm_compute. split; reflexivity. Qed.
