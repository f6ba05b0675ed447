(** Property C75: insert_or_assign of a node handle on stable maps, unordered and ordered. *)
From Coq Require Import ZArith List Bool Permutation Lia.
From Verif Require Import Base Bits MapSpec WorldSpec SwissModel SwissInv SwissRun Instances SwissMore World WorldProofs
  LinkModel SwissOrderedSpec SwissOrdered SwissOrderedRun SwissOrderedWorldSpec SwissOrderedWorld OrderedInstances SwissOrderedInstances AssignNode.
Import ListNotations.
Open Scope Z_scope.

(** Unordered maps, handles with an element: an absent key is inserted (or the allocation
    throws and nothing changes, the handle included); otherwise the element of the handle, key
    included, takes the slot of the equivalent one, and every other slot keeps its element.
    Missing: empty handles (refutation below). *)
Theorem C75_sparse_partial : forall (E K : Type) f (key_of : E -> K) hash keq rep,
  key_laws hash keq ->
  (forall a b, keq (key_of a) (key_of b) = true -> key_of (rep a b) = key_of a) ->
  forall lim s e, occurs f key_of hash keq rep s -> lim < 2 ^ 59 ->
  exists s' o, assign_handle f key_of hash keq lim s (Some e) = Ok (s', o) /\ behaves f key_of hash keq rep s' (elems s') /\
    match o with
    | None => s' = s /\ absent key_of keq (key_of e) (elems s)
    | Some (p, true, _) => absent key_of keq (key_of e) (elems s) /\ Permutation (elems s') (e :: elems s) /\ holds s' p e
    | Some (p, false, _) => exists a x b, located key_of keq (key_of e) (elems s) a x b /\ elems s' = a ++ e :: b /\ holds s p x /\ holds s' p e /\
        forall q y, q <> p -> (holds s' q y <-> holds s q y)
    end.
Proof. exact (fun E K f key_of hash keq rep KL R => assign_handle_final f key_of hash keq KL rep R). Qed.
Print Assumptions C75_sparse_partial.

(** Keys are equal modulo 100; the key 5 becomes 105. *)
Definition mkey (k : Z) : Z := k mod 100.
Definition meq (a b : Z) : bool := a mod 100 =? b mod 100.
Lemma mlaws : key_laws mkey meq.
Proof. unfold mkey, meq. split; intros; lia. Qed.
Definition C75_program : list (wcall entry Z) :=
  [WOn 0 (CInsert (5, 50)); WOn 0 (CInsert (7, 70)); WOn 0 (CInsert (9, 90)); WOn 1 (CInsert (105, 1)); WOn 1 (CInsert (4, 40)); WExtract 1 5 3; WAssignNode 0 3;
   WOn 0 CIterate; WOn 0 (CFind 205); WAssignNode 0 3; WExtract 1 4 3; WAssignNode 0 3; WOn 0 CIterate; WOn 1 CSize].
Example C75_sparse_case : results (wrun SSE2 ekey mkey meq erep winit (map (fun c => (v0, c)) C75_program)) =
  Ok [WRet (RInserted (5, 50) true); WRet (RInserted (7, 70) true); WRet (RInserted (9, 90) true); WRet (RInserted (105, 1) true); WRet (RInserted (4, 40) true); WNode (Some (105, 1)); WNodeIn (105, 1) false;
      WRet (RList [(105, 1); (7, 70); (9, 90)]); WRet (RFound (Some (105, 1))); WDone; WNode (Some (4, 40)); WNodeIn (4, 40) true; WRet (RList [(105, 1); (7, 70); (9, 90); (4, 40)]); WRet (RNum 0)] /\
  whistory_ok (map (fun c => (v0, c)) C75_program).
Proof. split; [vm_compute; reflexivity|]. repeat (apply Forall_cons; [split; [reflexivity|]; exact I|]). apply Forall_nil. Qed.

(** Ordered maps, key present: no memory is needed, the call is always defined, the element
    of the handle takes the position of the equivalent one, and no link is written. *)
Theorem C75_ordered_found : forall (E K : Type) f sz (key_of : E -> K) hash keq rep clone pocca pocma, 0 < sz ->
  key_laws hash keq -> (forall a b, keq (key_of a) (key_of b) = true -> key_of (rep a b) = key_of a) -> (forall e, key_of (clone e) = key_of e) ->
  forall w v i l e, xoccurs f sz key_of hash keq rep clone pocca pocma w -> env_ok (sv_e v) -> let h := xw_m w in let s := xw_c w i in s_iterate sz h s = Ok l ->
  (exists x, In x l /\ keq (key_of x) (key_of e) = true) ->
  exists s' a p x q, s_assign_node f sz key_of hash keq v h s (Some e) = Ok (h, s', Some (a, false)) /\ located key_of keq (key_of e) l p x q /\
    s_value sz s a = Ok x /\ s_value sz s' a = Ok e /\ zlists sz (h, s') (p ++ e :: q) /\
    forall hist, zhistory_ok hist -> zrefines f sz key_of hash keq rep (h, s') (p ++ e :: q) hist.
Proof. exact (fun E K f sz key_of hash keq rep clone pocca pocma Hsz KL R C => assign_found f sz key_of hash keq rep clone pocca pocma Hsz KL R C). Qed.
Print Assumptions C75_ordered_found.

(** Ordered maps, key absent: the element is appended, or the allocation throws and the
    elements stay.  Missing: insertions that swap nodes while they reclaim erased slots
    (C17), and empty handles (refutation below). *)
Theorem C75_ordered_absent_partial : forall (E K : Type) f sz (key_of : E -> K) hash keq rep clone pocca pocma, 0 < sz ->
  key_laws hash keq -> (forall a b, keq (key_of a) (key_of b) = true -> key_of (rep a b) = key_of a) -> (forall e, key_of (clone e) = key_of e) ->
  forall w v i l e, xoccurs f sz key_of hash keq rep clone pocca pocma w -> env_ok (sv_e v) -> let h := xw_m w in let s := xw_c w i in s_iterate sz h s = Ok l ->
  absent key_of keq (key_of e) l ->
  zswaps f key_of hash keq v s e \/ s_assign_node f sz key_of hash keq v h s (Some e) = Err BadPlacement \/
  exists h' s' o, s_assign_node f sz key_of hash keq v h s (Some e) = Ok (h', s', o) /\
    match o with
    | None => zlists sz (h', s') l
    | Some (a, b) => b = true /\ s_value sz s' a = Ok e /\ zlists sz (h', s') (l ++ [e]) /\
        forall hist, zhistory_ok hist -> zrefines f sz key_of hash keq rep (h', s') (l ++ [e]) hist
    end.
Proof. exact (fun E K f sz key_of hash keq rep clone pocca pocma Hsz KL R C => assign_absent f sz key_of hash keq rep clone pocca pocma Hsz KL R C). Qed.
Print Assumptions C75_ordered_absent_partial.

Definition put (i : nat) (l : list Z) : list (xcall entry Z) := map (fun k => XOn i (ZInsert (k, 10 * k))) l.
Example C75_ordered_case : forall f,
  let l := put 0 [3; 1; 2] ++ [XOn 1 (ZInsert (1, 99)); XOn 1 (ZInsert (8, 98)); XExtract 1 1 5; XAssignNode 0 5; XAssignNode 0 5; XExtract 1 8 5; XAssignNode 0 5; XOn 0 (ZErase 3)] in
  xnormal f (smaps f l) /\ map (fun i => s_iterate 48 (xw_m (smaps f l)) (xw_c (smaps f l) i)) [0%nat; 1%nat] = [Ok [(1, 99); (2, 20); (8, 98)]; Ok []].
Proof. intros f. split; [apply smaps_occur; destruct f; vm_compute; reflexivity|destruct f; vm_compute; reflexivity]. Qed.

(** An empty handle, as extraction of an absent key returns it, is dereferenced. *)
Theorem C75_refuted : forall f, exists s hd, occurs f ekey ehash ekeq erep s /\ extract_key f ekey ehash ekeq s 3 = Ok (s, hd) /\
  assign_handle f ekey ehash ekeq (2 ^ 40) s hd = Err NullDeref.
Proof. exact (fun f => ex_intro _ empty_swiss (ex_intro _ None (conj (ex_intro _ [] (ex_intro _ winit (ex_intro _ [] (ex_intro _ 0%nat (conj (Forall_nil _) (conj eq_refl eq_refl)))))) (conj eq_refl eq_refl)))). Qed.
Print Assumptions C75_refuted.
