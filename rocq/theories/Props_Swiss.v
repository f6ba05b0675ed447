(** Properties C01 to C06, C28 and C46: unordered sparse and stable containers. *)
From Coq Require Import ZArith List Bool Permutation.
From Verif Require Import Base Bits MapSpec SwissModel SwissInv SwissRun Instances SwissFinal.
Import ListNotations.
Open Scope Z_scope.

(** C46 (C01 to the full on SSE2 and SSSE3 builds): every history of calls is defined and
    returns what the list specification allows, for every hash and key equality subject
    to the usual laws and for every pattern of failing allocations and constructors. *)
Theorem C46_unordered_map_x86 : forall (E K : Type) f (key_of : E -> K) hash keq rep,
  key_laws hash keq ->
  (forall a b, keq (key_of a) (key_of b) = true -> key_of (rep a b) = key_of a) ->
  forall h, f = SSE2 \/ f = SSSE3 -> history_ok h ->
  exists s rs l, run f key_of hash keq rep empty_swiss h = Ok (s, rs) /\
    spec_run key_of keq rep (map snd h) [] l rs.
Proof. exact (fun E K f key_of hash keq rep KL R h Hf Hh => history_refines_wide f key_of hash keq KL rep R h Hf Hh). Qed.
Print Assumptions C46_unordered_map_x86.

(** A history with growth, a failing constructor, erasure with successor, replacement and
    iteration on a table where all keys collide. *)
Definition C46_history : list (call entry Z) :=
  [CInsert (1, 10); CInsert (2, 20); CInsert (3, 30); CInsert (2, 99); CAssign (3, 33); CErase 1;
   CFind 3; CContains 1; CReserve 40; CSize; CInsert (4, 40); CErase 7; CRehash 100; CIterate; CClear; CIterate].
Example C46_case : results (crun SSE2 C46_history) =
  Ok [RInserted (1, 10) true; RInserted (2, 20) true; RInserted (3, 30) true; RInserted (2, 20) false;
      RInserted (3, 33) false; RErased (Some (2, 20)) true; RFound (Some (3, 33)); RBool false; RUnit; RNum 2;
      RInserted (4, 40) true; RErased None false; RUnit; RList [(2, 20); (3, 33); (4, 40)]; RUnit; RList []] /\
  history_ok (calls C46_history) /\
  results (run SSE2 ekey ehash ekeq erep empty_swiss
    [(mkenv 3 true, CInsert (1, 1)); (mkenv 3 false, CInsert (2, 2)); (mkenv 1 true, CInsert (2, 2)); (mkenv 9 true, CReserve 100); (mkenv 0 true, CIterate)]) =
  Ok [RInserted (1, 1) true; RThrow; RInserted (2, 2) true; RThrow; RList [(1, 1); (2, 2)]].
Proof. split; [vm_compute; reflexivity|]. split; [apply calls_ok; vm_compute; reflexivity|vm_compute; reflexivity]. Qed.

(** C01 on every build.  Missing for the full statement: on NEON and portable builds a
    history containing an erasure or an iteration may instead hit the undefined bit scan
    of C22 (and nothing else can go wrong). *)
Theorem C01_unordered_map_partial : forall (E K : Type) f (key_of : E -> K) hash keq rep,
  key_laws hash keq ->
  (forall a b, keq (key_of a) (key_of b) = true -> key_of (rep a b) = key_of a) ->
  forall h, history_ok h ->
  (exists s rs l, run f key_of hash keq rep empty_swiss h = Ok (s, rs) /\
     spec_run key_of keq rep (map snd h) [] l rs) \/
  ((f = NEON \/ f = WORD) /\ (exists v c, In (v, c) h /\ scanning c) /\
   run f key_of hash keq rep empty_swiss h = Err BitScanZero).
Proof. exact (fun E K f key_of hash keq rep KL R h Hh => history_refines f key_of hash keq KL rep R h Hh). Qed.
Print Assumptions C01_unordered_map_partial.

Example C01_case : results (crun WORD [CInsert (1, 10); CInsert (2, 20); CAssign (1, 11); CErase 2; CFind 1; CIterate]) =
  Ok [RInserted (1, 10) true; RInserted (2, 20) true; RInserted (1, 11) false; RErased None true;
      RFound (Some (1, 11)); RList [(1, 11)]].
Proof. vm_compute. reflexivity. Qed.

(** On NEON and portable builds erasing the only element of a table with 31 slots is
    undefined. *)
Theorem C01_refuted : exists f h, history_ok h /\ run f ekey ehash ekeq erep empty_swiss h = Err BitScanZero.
Proof.
  exists NEON, (calls [CReserve 20; CInsert (1, 10); CErase 1]). split.
  - apply calls_ok. vm_compute. reflexivity.
  - vm_compute. reflexivity.
Qed.
Print Assumptions C01_refuted.

(** C02: on every reachable table lookups are defined and right for every key; so is
    erase(key), with the exception of C22 when the key is present on narrow builds
    (missing part). *)
Theorem C02_lookup_defined_partial : forall (E K : Type) f (key_of : E -> K) hash keq rep,
  key_laws hash keq ->
  (forall a b, keq (key_of a) (key_of b) = true -> key_of (rep a b) = key_of a) ->
  forall s k, reachable f key_of hash keq rep s ->
  (exists b, contains f key_of hash keq s k = Ok b /\
     (b = true <-> exists e, In e (elems s) /\ keq (key_of e) k = true)) /\
  (exists o, find f key_of hash keq s k = Ok o /\
     match o with
     | Some e => In e (elems s) /\ keq (key_of e) k = true
     | None => forall e, In e (elems s) -> keq (key_of e) k = false
     end) /\
  ((f = NEON \/ f = WORD) /\ (exists e, In e (elems s) /\ keq (key_of e) k = true) /\
     erase_key f key_of hash keq s k = Err BitScanZero \/
   exists s' q b, erase_key f key_of hash keq s k = Ok (s', q, b) /\ 0 <= q <= s_cap s').
Proof.
  exact (fun E K f key_of hash keq rep KL R s k Hs =>
    lookup_defined f key_of hash keq KL s k (proj1 (reachable_inv f key_of hash keq KL rep R s Hs))).
Qed.
Print Assumptions C02_lookup_defined_partial.

(** The elements of a table are the contents of its live slots. *)
Theorem C02_elements : forall (E : Type) (s : @swiss E) e, In e (elems s) <-> exists p, holds s p e.
Proof. exact @elems_In. Qed.
Print Assumptions C02_elements.

(** Three colliding keys of which the middle one was erased; lookup passes the tombstone. *)
Definition C02_table := state (crun SSE2 [CInsert (1, 10); CInsert (2, 20); CInsert (3, 30); CErase 2]) empty_swiss.
Example C02_case : reachable SSE2 ekey chash ekeq erep C02_table /\
  contains SSE2 ekey chash ekeq C02_table 3 = Ok true /\ contains SSE2 ekey chash ekeq C02_table 2 = Ok false /\
  find SSE2 ekey chash ekeq C02_table 1 = Ok (Some (1, 10)) /\ elems C02_table = [(1, 10); (3, 30)].
Proof.
  split; [|repeat split; vm_compute; reflexivity].
  apply crun_reachable; [vm_compute; reflexivity|eexists; vm_compute; reflexivity].
Qed.

Theorem C02_refuted : exists s, reachable NEON ekey ehash ekeq erep s /\ erase_key NEON ekey ehash ekeq s 1 = Err BitScanZero.
Proof.
  exists (state (erun NEON [CReserve 20; CInsert (1, 10)]) empty_swiss). split.
  - apply erun_reachable; [vm_compute; reflexivity|eexists; vm_compute; reflexivity].
  - vm_compute. reflexivity.
Qed.
Print Assumptions C02_refuted.

(** C03 on SSE2 and SSSE3 builds.  Missing: NEON and portable builds (next theorem). *)
Theorem C03_iteration_partial : forall (E K : Type) f (key_of : E -> K) hash keq rep,
  key_laws hash keq ->
  (forall a b, keq (key_of a) (key_of b) = true -> key_of (rep a b) = key_of a) ->
  forall s, reachable f key_of hash keq rep s -> f = SSE2 \/ f = SSSE3 ->
  exists l, iterate f s = Ok l /\ NoDup (map fst l) /\ (forall p e, In (p, e) l <-> holds s p e) /\
    Z.of_nat (length l) = size s.
Proof.
  exact (fun E K f key_of hash keq rep KL R s Hs =>
    iterate_exact f key_of hash keq s (proj1 (reachable_inv f key_of hash keq KL rep R s Hs))).
Qed.
Print Assumptions C03_iteration_partial.

Example C03_case : iterate SSE2 (state (erun SSE2 [CReserve 40; CInsert (40, 1); CInsert (3, 2); CInsert (17, 3); CErase 3]) empty_swiss)
  = Ok [(17, (17, 3)); (40, (40, 1))].
Proof. vm_compute. reflexivity. Qed.

(** Merely iterating an empty container after reserve(20) is undefined on these builds. *)
Theorem C03_refuted : exists s, reachable WORD ekey ehash ekeq erep s /\ size s = 0 /\ iterate WORD s = Err BitScanZero.
Proof.
  exists (state (erun WORD [CReserve 20]) empty_swiss). split.
  - apply erun_reachable; [vm_compute; reflexivity|eexists; vm_compute; reflexivity].
  - split; vm_compute; reflexivity.
Qed.
Print Assumptions C03_refuted.

(** C04.  A successful reserve keeps the contents, and afterwards new keys can be inserted
    up to n elements with the bucket count unchanged; this holds even if no further
    allocation succeeds (lim' is arbitrary). *)
Theorem C04_reserve : forall (E K : Type) f (key_of : E -> K) hash keq rep,
  key_laws hash keq ->
  (forall a b, keq (key_of a) (key_of b) = true -> key_of (rep a b) = key_of a) ->
  forall s lim lim' n, reachable f key_of hash keq rep s -> lim < 2 ^ 59 -> lim' < 2 ^ 59 -> 0 <= n < 2 ^ 64 ->
  exists s' o, reserve f lim s n = Ok (s', o) /\
    match o with
    | None => s' = s
    | Some _ => Permutation (elems s') (elems s) /\
        forall l, keys_distinct key_of keq l -> (forall e, In e l -> absent key_of keq (key_of e) (elems s)) ->
          size s + Z.of_nat (length l) <= n ->
          exists s'', insert_all f key_of hash keq lim' s' l = Ok (s'', true) /\ bucket_count s'' = bucket_count s' /\
            Permutation (elems s'') (l ++ elems s)
    end.
Proof.
  exact (fun E K f key_of hash keq rep KL R s lim lim' n Hs Hl Hl' Hn =>
    reserve_spec f key_of hash keq KL lim lim' s n (reachable_inv f key_of hash keq KL rep R s Hs) Hl Hl' Hn).
Qed.
Print Assumptions C04_reserve.

Example C04_case :
  let s := state (erun SSE2 [CInsert (1, 1); CInsert (2, 2); CErase 1]) empty_swiss in
  let s' := match reserve SSE2 (2 ^ 40) s 14 with Ok (x, _) => x | Err _ => s end in
  bucket_count s = 3 /\ bucket_count s' = 15 /\
  match insert_all SSE2 ekey ehash ekeq 0 s' (map (fun i => (i + 10, i)) (zrange 13)) with
  | Ok (x, b) => b = true /\ size x = 14 /\ bucket_count x = 15
  | Err _ => False
  end.
Proof. vm_compute. repeat split; reflexivity. Qed.

(** C05 for n > 0, and for n = 0 on tables with at most one element.  Missing: rehash(0)
    with two or more elements, which is undefined (refutation below). *)
Theorem C05_rehash_partial : forall (E K : Type) f (key_of : E -> K) hash keq rep,
  key_laws hash keq ->
  (forall a b, keq (key_of a) (key_of b) = true -> key_of (rep a b) = key_of a) ->
  forall s lim n, reachable f key_of hash keq rep s -> lim < 2 ^ 59 -> 0 <= n < 2 ^ 64 -> 0 < n \/ size s <= 1 ->
  exists s' o, rehash f lim s n = Ok (s', o) /\
    match o with
    | None => s' = s
    | Some _ => Permutation (elems s') (elems s) /\ n <= bucket_count s' /\ (0 < n -> n <= capacity f s') /\
        (forall k, exists b, contains f key_of hash keq s' k = Ok b /\
           (b = true <-> exists e, In e (elems s) /\ keq (key_of e) k = true))
    end.
Proof.
  exact (fun E K f key_of hash keq rep KL R s lim n Hs =>
    rehash_contents f key_of hash keq KL lim s n (reachable_inv f key_of hash keq KL rep R s Hs)).
Qed.
Print Assumptions C05_rehash_partial.

Example C05_case :
  match rehash SSE2 (2 ^ 40) C02_table 17 with
  | Ok (s', Some _) => bucket_count C02_table = 3 /\ bucket_count s' = 31 /\ elems s' = [(1, 10); (3, 30)]
  | _ => False
  end.
Proof. vm_compute. repeat split; reflexivity. Qed.

(** rehash(0) is undefined on every reachable table with at least two elements. *)
Theorem C05_undefined : forall (E K : Type) f (key_of : E -> K) hash keq rep,
  key_laws hash keq ->
  (forall a b, keq (key_of a) (key_of b) = true -> key_of (rep a b) = key_of a) ->
  forall s lim, reachable f key_of hash keq rep s -> 1 <= lim -> 2 <= size s -> rehash f lim s 0 = Err OutOfBounds.
Proof.
  exact (fun E K f key_of hash keq rep KL R s lim Hs =>
    rehash_zero_undefined f key_of hash keq s lim (proj1 (reachable_inv f key_of hash keq KL rep R s Hs))).
Qed.
Print Assumptions C05_undefined.

Theorem C05_refuted : exists s, reachable SSE2 ekey ehash ekeq erep s /\ size s = 2 /\ rehash SSE2 (2 ^ 40) s 0 = Err OutOfBounds.
Proof.
  exists (state (erun SSE2 [CInsert (1, 1); CInsert (2, 2)]) empty_swiss). split.
  - apply erun_reachable; [vm_compute; reflexivity|eexists; vm_compute; reflexivity].
  - split; vm_compute; reflexivity.
Qed.
Print Assumptions C05_refuted.

(** C06. *)
Theorem C06_load_factor : forall (E K : Type) f (key_of : E -> K) hash keq rep,
  key_laws hash keq ->
  (forall a b, keq (key_of a) (key_of b) = true -> key_of (rep a b) = key_of a) ->
  forall s, reachable f key_of hash keq rep s ->
  size s <= capacity f s <= bucket_count s /\
  (15 <= bucket_count s ->
   Z.of_nat (length (filter (fun i => negb (s_meta s i =? m_empty)) (zrange (bucket_count s)))) <= capacity f s /\
   capacity f s < bucket_count s /\ 8 * capacity f s <= 7 * (bucket_count s + 1)).
Proof.
  exact (fun E K f key_of hash keq rep KL R s Hs =>
    load_bound f key_of hash keq s (reachable_inv f key_of hash keq KL rep R s Hs)).
Qed.
Print Assumptions C06_load_factor.

Example C06_case :
  let s := state (erun SSE2 (map (fun i => CInsert (i, i)) (zrange 14))) empty_swiss in
  size s = 14 /\ capacity SSE2 s = 14 /\ bucket_count s = 15.
Proof. vm_compute. repeat split; reflexivity. Qed.

(** C28.  When an allocation fails in insert, reserve or rehash the table is exactly what
    it was; when constructing the new element fails (which includes the allocation of the
    element of a stable container) the contents are what they were.  [inv] keeps all
    later calls covered: the history theorems C01/C46 also quantify over such failures. *)
Theorem C28_failed_allocation : forall (E K : Type) f (key_of : E -> K) hash keq rep,
  key_laws hash keq ->
  (forall a b, keq (key_of a) (key_of b) = true -> key_of (rep a b) = key_of a) ->
  forall s lim, reachable f key_of hash keq rep s -> lim < 2 ^ 59 ->
  (forall ok e, exists s' o, do_insert f key_of hash keq lim ok s e = Ok (s', o) /\
     (o = None -> Permutation (elems s') (elems s) /\ (ok = true -> s' = s) /\
        forall k, exists b, contains f key_of hash keq s' k = Ok b /\
          (b = true <-> exists x, In x (elems s) /\ keq (key_of x) k = true))) /\
  (forall n, 0 <= n < 2 ^ 64 -> exists s' o, reserve f lim s n = Ok (s', o) /\ (o = None -> s' = s)) /\
  (forall n, 0 < n < 2 ^ 64 -> exists s' o, rehash f lim s n = Ok (s', o) /\ (o = None -> s' = s)).
Proof.
  exact (fun E K f key_of hash keq rep KL R s lim Hs =>
    failed_allocation f key_of hash keq KL lim s (reachable_inv f key_of hash keq KL rep R s Hs)).
Qed.
Print Assumptions C28_failed_allocation.

Example C28_case :
  let s := state (erun SSE2 [CInsert (1, 1)]) empty_swiss in
  match do_insert SSE2 ekey ehash ekeq 1 true s (2, 2) with Ok (s', o) => o = None /\ elems s' = [(1, 1)] | Err _ => False end /\
  match do_insert SSE2 ekey ehash ekeq 9 false s (2, 2) with
  | Ok (s', o) => o = None /\ elems s' = [(1, 1)] /\ bucket_count s' = 3
  | Err _ => False end /\
  match reserve SSE2 9 s 100 with Ok (s', o) => o = None /\ bucket_count s' = 1 | Err _ => False end.
Proof. vm_compute. repeat split; reflexivity. Qed.
