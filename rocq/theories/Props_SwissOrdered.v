(** Properties of ordered sparse and stable containers (C13, C17, C18, C20, C52, C53).
    Containers and memories are those that occur at some point of some program over any
    number of containers and node handles ([xoccurs]), for any placement of the arrays and
    any content of fresh memory. *)
From Coq Require Import ZArith List Bool Lia.
From Verif Require Import Base Bits MapSpec WorldSpec World SwissModel SwissRun LinkModel SwissOrderedSpec SwissOrdered SwissOrderedRun SwissOrderedWorldSpec SwissOrderedWorld
  Instances OrderedInstances SwissOrderedInstances SwissOrderedFinal.
Import ListNotations.
Open Scope Z_scope.

Definition ins (i : nat) (l : list Z) : list (xcall entry Z) := map (fun k => XOn i (ZInsert (k, 10 * k))) l.
Definition del (i : nat) (l : list Z) : list (xcall entry Z) := map (fun k => XOn i (ZErase k)) l.
Definition elements (w : xworld entry) (i : nat) : res (list entry) := s_iterate 48 (xw_m w) (xw_c w i).

(** C17: on every ordered sparse or stable container that occurs, every history of calls has
    the results of the list in insertion order; iteration backwards gives the reverse; links
    outside of the container do not change.  Missing: insertions that swap nodes while they
    reclaim erased slots (refuted below). *)
Theorem C17_partial : forall (E K : Type) f sz (key_of : E -> K) hash keq rep clone pocca pocma, 0 < sz ->
  key_laws hash keq -> (forall a b, keq (key_of a) (key_of b) = true -> key_of (rep a b) = key_of a) -> (forall e, key_of (clone e) = key_of e) ->
  forall w i l hist, xoccurs f sz key_of hash keq rep clone pocca pocma w -> s_iterate sz (xw_m w) (xw_c w i) = Ok l -> zhistory_ok hist ->
  zrefines f sz key_of hash keq rep (xw_m w, xw_c w i) l hist.
Proof. exact (fun E K f sz key_of hash keq rep clone pocca pocma Hsz KL R C => occurs_history f sz key_of hash keq rep clone pocca pocma Hsz KL R C). Qed.
Print Assumptions C17_partial.

Example C17_case : forall f,
  let h := xprog [ZInsert (5, 50); ZInsert (1, 10); ZInsert (9, 90); ZInsert (1, 11); ZInsert (2, 20); ZInsert (17, 170); ZErase 1; ZIterate; ZBackwards; ZEraseAt 1; ZAssign (2, 21); ZReserve 20; ZIterate;
                  ZInsert (1, 12); ZBackwards; ZFront; ZBack; ZEraseRange 1 3; ZIterate; ZEraseIf (fun e => fst e =? 5); ZIterate; ZClear; ZIterate; ZInsert (3, 30); ZIterate] in
  zhistory_ok h /\
  match zrun f 48 ekey ehash ekeq erep (heap0, s_new (addr0 0)) h with
  | Ok (_, rs) => rs = [RInserted (5, 50) true; RInserted (1, 10) true; RInserted (9, 90) true; RInserted (1, 10) false; RInserted (2, 20) true; RInserted (17, 170) true; RErased (Some (9, 90)) true;
      RList [(5, 50); (9, 90); (2, 20); (17, 170)]; RList [(17, 170); (2, 20); (9, 90); (5, 50)]; RErased (Some (2, 20)) true; RInserted (2, 21) false; RUnit; RList [(5, 50); (2, 21); (17, 170)];
      RInserted (1, 12) true; RList [(1, 12); (17, 170); (2, 21); (5, 50)]; RFound (Some (5, 50)); RFound (Some (1, 12)); RErased (Some (1, 12)) true; RList [(5, 50); (1, 12)]; RNum 1; RList [(1, 12)];
      RUnit; RList []; RInserted (3, 30) true; RList [(3, 30)]]
  | Err _ => False
  end.
Proof. intros f. split; [apply placed_calls; vm_compute; reflexivity|destruct f; vm_compute; reflexivity]. Qed.

(** As long as no element is erased other than by clear(), no insertion swaps nodes: the
    histories of C17 are covered. *)
Theorem C17_inserting : forall (E K : Type) f sz (key_of : E -> K) hash keq rep, 0 < sz ->
  key_laws hash keq -> (forall a b, keq (key_of a) (key_of b) = true -> key_of (rep a b) = key_of a) ->
  forall h a hist, h a = Some (0, 0) -> zhistory_ok hist -> (forall v c, In (v, c) hist -> zerasing c = false) ->
  zrefines f sz key_of hash keq rep (h, s_new a) [] hist /\
  forall h1 v e h2 hs' rs, hist = h1 ++ (v, ZInsert e) :: h2 \/ hist = h1 ++ (v, ZAssign e) :: h2 ->
    zrun f sz key_of hash keq rep (h, s_new a) h1 = Ok (hs', rs) -> ~ zswaps f key_of hash keq v (snd hs') e.
Proof. exact (fun E K f sz key_of hash keq rep Hsz KL R => new_history f sz key_of hash keq rep Hsz KL R). Qed.
Print Assumptions C17_inserting.
(** The same for tables of at most as many slots as a metadata block has. *)
Theorem C17_small : forall (E K : Type) f (key_of : E -> K) hash keq v (s : oswiss E) e, s_cap (os_t s) <= W f -> ~ zswaps f key_of hash keq v s e.
Proof. exact (fun E K f key_of hash keq => small_swaps f key_of hash keq (fun a _ => a)). Qed.
Print Assumptions C17_small.

Example C17_inserting_case : forall f, let l := xprog (map (fun k => ZInsert (k, k)) [1; 17; 33; 2; 3; 4; 5; 6; 7; 8; 9; 10; 11; 12; 13; 14; 15; 16] ++ [ZIterate]) in
  zhistory_ok l /\ forallb (fun vc => negb (zerasing (snd vc))) l = true /\
  match zrun f 48 ekey ehash ekeq erep (heap0, s_new (addr0 0)) l with
  | Ok (_, rs) => last rs RUnit = RList (map (fun k => (k, k)) [1; 17; 33; 2; 3; 4; 5; 6; 7; 8; 9; 10; 11; 12; 13; 14; 15; 16])
  | Err _ => False
  end.
Proof. intros f. split; [apply placed_calls; vm_compute; reflexivity|]. split; [vm_compute; reflexivity|destruct f; vm_compute; reflexivity]. Qed.

(** An insertion that reclaims erased slots in place: it succeeds, and afterwards neither
    direction of iteration works. *)
Definition worn (f : simd) : list (xcall entry Z) :=
  match f with
  | WORD => ins 0 [8; 24; 40; 56; 72; 88; 104; 120; 136; 2; 3; 4; 5; 6] ++ del 0 [2; 3; 4]
  | _ => ins 0 (map (fun k => 16 + 32 * k) [0; 1; 2; 3; 4; 5; 6; 7; 8; 9; 10; 11; 12; 13; 14; 15; 16] ++ [2; 3; 4; 5; 6; 7; 8; 9; 10; 11; 12]) ++ del 0 [2; 3; 4; 5]
  end.
Definition worn_next (f : simd) : entry := match f with WORD => (7, 70) | _ => (13, 130) end.
Definition worn_left (f : simd) : list Z :=
  match f with
  | WORD => [8; 24; 40; 56; 72; 88; 104; 120; 136; 5; 6]
  | _ => map (fun k => 16 + 32 * k) [0; 1; 2; 3; 4; 5; 6; 7; 8; 9; 10; 11; 12; 13; 14; 15; 16] ++ [6; 7; 8; 9; 10; 11; 12]
  end.
Theorem C17_refuted : forall f, xnormal f (smaps f (worn f)) /\ elements (smaps f (worn f)) 0 = Ok (map (fun k => (k, 10 * k)) (worn_left f)) /\
  match xexec1 f (sat 99) (smaps f (worn f)) (XOn 0 (ZInsert (worn_next f))) with
  | Ok (w', r) => r = XRet (RInserted (worn_next f) true) /\ elements w' 0 = Err OutOfBounds /\ exists b, s_backwards 48 (xw_m w') (xw_c w' 0%nat) = Err b
  | Err _ => False
  end.
Proof. intros f. split; [apply smaps_occur; destruct f; vm_compute; reflexivity|]. destruct f; vm_compute; (split; [reflexivity|split; [reflexivity|split; [reflexivity|eexists; reflexivity]]]). Qed.
Print Assumptions C17_refuted.

(** C53: programs over several ordered sparse or stable containers and node handles that
    share the memory: calls, destruction, copies, moves, swaps, extraction and insertion of
    nodes and merging keep every container's sequence, up to a statement that is not covered:
    those of C17; copies that lose elements (C07); some assignments (C08, C09); swap with an
    empty container (C18); merge from a container whose first element is to move (C13). *)
Theorem C53_programs : forall (E K : Type) f sz (key_of : E -> K) hash keq rep clone pocca pocma, 0 < sz ->
  key_laws hash keq -> (forall a b, keq (key_of a) (key_of b) = true -> key_of (rep a b) = key_of a) -> (forall e, key_of (clone e) = key_of e) ->
  forall w l hist, xoccurs f sz key_of hash keq rep clone pocca pocma w -> (forall i, s_iterate sz (xw_m w) (xw_c w i) = Ok (xc l i)) -> (forall i, xw_h w i = xh l i) -> xhistory_ok hist ->
  xrefines f sz key_of hash keq rep clone pocca pocma w l hist.
Proof. exact (fun E K f sz key_of hash keq rep clone pocca pocma Hsz KL R C => occurs_program f sz key_of hash keq rep clone pocca pocma Hsz KL R C). Qed.
Print Assumptions C53_programs.

Example C53_case : forall f,
  let l := ins 0 [1; 2; 3] ++ [XOn 0 (ZErase 1); XCopyNew 1 0] ++ ins 1 [7; 1] ++ [XMove 2 1; XCopy 3 2; XSwap 3 0; XOn 3 (ZInsert (9, 90)); XMoveNew 4 0; XOn 4 (ZErase 7); XExtract 4 3 5; XInsertNode 6 5] ++
           ins 6 [8; 9] ++ ins 7 [3; 4; 5] ++ [XMerge 6 7] in
  xnormal f (smaps f l) /\ map (elements (smaps f l)) [0%nat; 1%nat; 2%nat; 3%nat; 4%nat; 6%nat; 7%nat] =
    [Ok []; Ok []; Ok [(2, 20); (3, 30); (7, 70); (1, 10)]; Ok [(2, 20); (3, 30); (9, 90)]; Ok [(2, 20); (1, 10)]; Ok [(3, 30); (8, 80); (9, 90); (5, 50); (4, 40)]; Ok [(3, 30)]].
Proof. intros f. split; [apply smaps_occur; destruct f; vm_compute; reflexivity|destruct f; vm_compute; reflexivity]. Qed.

(** C18: swap of two ordered sparse or stable containers that both have elements exchanges
    the sequences in both directions.  Missing: empty containers (next theorem). *)
Theorem C18_sparse_partial : forall (E K : Type) f sz (key_of : E -> K) hash keq rep clone pocca pocma, 0 < sz ->
  key_laws hash keq -> (forall a b, keq (key_of a) (key_of b) = true -> key_of (rep a b) = key_of a) -> (forall e, key_of (clone e) = key_of e) ->
  forall w v i j a b, xoccurs f sz key_of hash keq rep clone pocca pocma w -> i <> j ->
  s_iterate sz (xw_m w) (xw_c w i) = Ok a -> s_iterate sz (xw_m w) (xw_c w j) = Ok b -> a <> [] -> b <> [] ->
  exists w', xexec f sz key_of hash keq rep clone pocca pocma v w (XSwap i j) = Ok (w', XDone) /\ zlists sz (xw_m w', xw_c w' i) b /\ zlists sz (xw_m w', xw_c w' j) a /\
    forall k l, k <> i -> k <> j -> s_iterate sz (xw_m w) (xw_c w k) = Ok l -> zlists sz (xw_m w', xw_c w' k) l.
Proof. exact (fun E K f sz key_of hash keq rep clone pocca pocma Hsz KL R C => swap_full f sz key_of hash keq rep clone pocca pocma Hsz KL R C). Qed.
Print Assumptions C18_sparse_partial.

Example C18_sparse_case : forall f, let w := smaps f (ins 0 [1; 2; 3] ++ ins 1 [4]) in
  xnormal f w /\ match xexec1 f (sat 99) w (XSwap 0 1) with Ok (w', _) => elements w' 0 = Ok [(4, 40)] /\ elements w' 1 = Ok [(1, 10); (2, 20); (3, 30)] | Err _ => False end.
Proof. intros f. split; [apply smaps_occur; destruct f; vm_compute; reflexivity|destruct f; vm_compute; split; reflexivity]. Qed.
(** After swap with an empty container, iteration over the container that is now empty never
    reaches end(). *)
Theorem C18_sparse_refuted : forall f, let w := smaps f (ins 0 [1; 2]) in
  xnormal f w /\ elements w 0 = Ok [(1, 10); (2, 20)] /\ elements w 1 = Ok [] /\
  match xexec1 f (sat 99) w (XSwap 0 1) with Ok (w', r) => r = XDone /\ elements w' 0 = Err Diverges /\ elements w' 1 = Ok [(1, 10); (2, 20)] | Err _ => False end.
Proof. intros f. split; [apply smaps_occur; destruct f; vm_compute; reflexivity|]. destruct f; vm_compute; repeat split; reflexivity. Qed.
Print Assumptions C18_sparse_refuted.

(** C20, sparse and stable containers: insert(hint, value) with the iterator of an element
    places a new value directly behind that element if the table need not be rehashed.
    Missing: the hint end() and insertions that rehash (next theorems). *)
Theorem C20_sparse_partial : forall (E K : Type) f sz (key_of : E -> K) hash keq rep clone pocca pocma, 0 < sz ->
  key_laws hash keq -> (forall a b, keq (key_of a) (key_of b) = true -> key_of (rep a b) = key_of a) -> (forall e, key_of (clone e) = key_of e) ->
  forall w v i p x q a e, xoccurs f sz key_of hash keq rep clone pocca pocma w -> env_ok (sv_e v) -> let h := xw_m w in let s := xw_c w i in
  s_iterate sz h s = Ok (p ++ x :: q) -> s_nth h s (Z.of_nat (length p)) = Ok a -> a <> 0 -> 0 < s_nempty (os_t s) -> absent key_of keq (key_of e) (p ++ x :: q) ->
  exists h' s' r, s_do_insert f sz key_of hash keq v h s a e = Ok (h', s', r) /\
    match r with
    | Some (it, b) => b = true /\ s_at sz s' it = Ok (Some e) /\ zlists sz (h', s') (p ++ x :: e :: q)
    | None => ev_ctor (sv_e v) = false /\ zlists sz (h', s') (p ++ x :: q)
    end.
Proof. exact (fun E K f sz key_of hash keq rep clone pocca pocma Hsz KL R C => hint_full f sz key_of hash keq rep clone pocca pocma Hsz KL R C). Qed.
Print Assumptions C20_sparse_partial.

Definition hinted_insert (f : simd) (w : xworld entry) (n : Z) (e : entry) : res (list entry) :=
  let* a := s_nth (xw_m w) (xw_c w 0%nat) n in
  let* x := s_do_insert f 48 ekey ehash ekeq (sat (2 ^ 40)) (xw_m w) (xw_c w 0%nat) a e in
  let '(h', s', _) := x in s_iterate 48 h' s'.
Example C20_sparse_case : forall f, let w := smaps f (ins 0 [1; 2; 3; 4]) in
  xnormal f w /\ 0 < s_nempty (os_t (xw_c w 0%nat)) /\
  hinted_insert f w 0 (9, 90) = Ok [(1, 10); (9, 90); (2, 20); (3, 30); (4, 40)] /\ hinted_insert f w 3 (9, 90) = Ok [(1, 10); (2, 20); (3, 30); (4, 40); (9, 90)].
Proof. intros f. split; [apply smaps_occur; destruct f; vm_compute; reflexivity|]. destruct f; vm_compute; repeat split; reflexivity. Qed.
(** With the hint end() the new value becomes the first element, also when the table is
    rehashed. *)
Theorem C20_sparse_end : forall (E K : Type) f sz (key_of : E -> K) hash keq rep clone pocca pocma, 0 < sz ->
  key_laws hash keq -> (forall a b, keq (key_of a) (key_of b) = true -> key_of (rep a b) = key_of a) -> (forall e, key_of (clone e) = key_of e) ->
  forall w v i l e, xoccurs f sz key_of hash keq rep clone pocca pocma w -> env_ok (sv_e v) -> let h := xw_m w in let s := xw_c w i in
  s_iterate sz h s = Ok l -> os_hdr s <> 0 -> absent key_of keq (key_of e) l -> ~ zswaps f key_of hash keq v s e ->
  s_do_insert f sz key_of hash keq v h s (os_hdr s) e = Err BadPlacement \/
  exists h' s' r, s_do_insert f sz key_of hash keq v h s (os_hdr s) e = Ok (h', s', r) /\
    match r with
    | Some (it, b) => b = true /\ s_at sz s' it = Ok (Some e) /\ zlists sz (h', s') (e :: l)
    | None => zlists sz (h', s') l
    end.
Proof. exact (fun E K f sz key_of hash keq rep clone pocca pocma Hsz KL R C => end_full f sz key_of hash keq rep clone pocca pocma Hsz KL R C). Qed.
Print Assumptions C20_sparse_end.
Example C20_sparse_end_case : forall f, hinted_insert f (smaps f (ins 0 [1; 2; 3; 4])) 4 (9, 90) = Ok [(9, 90); (1, 10); (2, 20); (3, 30); (4, 40)] /\
  hinted_insert f (smaps f (ins 0 [1; 2; 3])) 3 (9, 90) = Ok [(9, 90); (1, 10); (2, 20); (3, 30)].
Proof. intros f. destruct f; vm_compute; split; reflexivity. Qed.
(** The hint of an element and a rehash: the new node is linked behind freed memory. *)
Theorem C20_sparse_refuted : forall f, let w := smaps f (ins 0 [1; 2; 3]) in
  xnormal f w /\ s_nempty (os_t (xw_c w 0%nat)) = 0 /\ elements w 0 = Ok [(1, 10); (2, 20); (3, 30)] /\ hinted_insert f w 1 (9, 90) = Err OutOfBounds.
Proof. intros f. split; [apply smaps_occur; destruct f; vm_compute; reflexivity|]. destruct f; vm_compute; repeat split; reflexivity. Qed.
Print Assumptions C20_sparse_refuted.

(** C13: what merge does on ordered stable containers.  The first element of the source
    stays there in any case; the others move if their keys are not taken, in reverse order. *)
Theorem C13_partial : forall (E K : Type) f sz (key_of : E -> K) hash keq rep clone pocca pocma, 0 < sz ->
  key_laws hash keq -> (forall a b, keq (key_of a) (key_of b) = true -> key_of (rep a b) = key_of a) -> (forall e, key_of (clone e) = key_of e) ->
  forall w v i j a b, xoccurs f sz key_of hash keq rep clone pocca pocma w -> env_ok (sv_e v) -> i <> j ->
  s_iterate sz (xw_m w) (xw_c w i) = Ok a -> s_iterate sz (xw_m w) (xw_c w j) = Ok b -> (s_cap (os_t (xw_c w i)) = 0 -> s_nempty (os_t (xw_c w i)) = 0) ->
  xexec f sz key_of hash keq rep clone pocca pocma v w (XMerge i j) = Err BadPlacement \/
  exists w' r, xexec f sz key_of hash keq rep clone pocca pocma v w (XMerge i j) = Ok (w', r) /\
    ((r = XDone /\ zlists sz (xw_m w', xw_c w' i) (a ++ rev (filter (fun x => negb (present key_of keq a x)) (tl b))) /\
        zlists sz (xw_m w', xw_c w' j) (firstn 1 b ++ filter (present key_of keq a) (tl b))) \/
     (r = XThrow /\ zlists sz (xw_m w', xw_c w' i) a /\ zlists sz (xw_m w', xw_c w' j) b)).
Proof. exact (fun E K f sz key_of hash keq rep clone pocca pocma Hsz KL R C => merge_full f sz key_of hash keq rep clone pocca pocma Hsz KL R C). Qed.
Print Assumptions C13_partial.

Definition merged (f : simd) (l : list (xcall entry Z)) : res (res (list entry) * res (list entry)) :=
  let* x := xexec1 f (sat (2 ^ 40)) (smaps f l) (XMerge 0 1) in Ok (elements (fst x) 0, elements (fst x) 1).
Example C13_case : forall f, let l := ins 0 [1; 2] ++ ins 1 [2; 3; 4; 1; 5] in
  xnormal f (smaps f l) /\ merged f l = Ok (Ok [(1, 10); (2, 20); (5, 50); (4, 40); (3, 30)], Ok [(2, 20); (1, 10)]).
Proof. intros f. split; [apply smaps_occur; destruct f; vm_compute; reflexivity|destruct f; vm_compute; reflexivity]. Qed.
(** The key 3 is not in the target, and its element is not moved. *)
Theorem C13_refuted : forall f, let l := ins 0 [1; 2] ++ ins 1 [3; 4] in
  xnormal f (smaps f l) /\ elements (smaps f l) 0 = Ok [(1, 10); (2, 20)] /\ elements (smaps f l) 1 = Ok [(3, 30); (4, 40)] /\
  merged f l = Ok (Ok [(1, 10); (2, 20); (4, 40)], Ok [(3, 30)]).
Proof. intros f. split; [apply smaps_occur; destruct f; vm_compute; reflexivity|]. destruct f; vm_compute; repeat split; reflexivity. Qed.
Print Assumptions C13_refuted.

(** C52: erase(first, last) on an ordered sparse or stable container erases the elements of
    the range and nothing else; it returns [last] for a range that is not empty.  Missing:
    for an empty range it returns end(), which is [last] only at the end. *)
Theorem C52_partial : forall (E K : Type) f sz (key_of : E -> K) hash keq rep clone pocca pocma, 0 < sz ->
  key_laws hash keq -> (forall a b, keq (key_of a) (key_of b) = true -> key_of (rep a b) = key_of a) -> (forall e, key_of (clone e) = key_of e) ->
  forall w i p m q a b, xoccurs f sz key_of hash keq rep clone pocca pocma w -> let h := xw_m w in let s := xw_c w i in
  s_iterate sz h s = Ok (p ++ m ++ q) -> s_nth h s (Z.of_nat (length p)) = Ok a -> s_nth h s (Z.of_nat (length p + length m)) = Ok b ->
  exists h' s' it, s_erase_range f sz h s a b = Ok (h', s', it) /\ zlists sz (h', s') (p ++ q) /\
    (m <> [] -> it = b /\ s_at sz s' it = Ok (hd_error q)) /\ (m = [] -> h' = h /\ s' = s /\ it = os_hdr s /\ s_at sz s' it = Ok None).
Proof. exact (fun E K f sz key_of hash keq rep clone pocca pocma Hsz KL R C => range_full f sz key_of hash keq rep clone pocca pocma Hsz KL R C). Qed.
Print Assumptions C52_partial.

Definition range_erased (f : simd) (w : xworld entry) (m n : Z) : res (list entry * res (option entry)) :=
  let* a := s_nth (xw_m w) (xw_c w 0%nat) m in
  let* b := s_nth (xw_m w) (xw_c w 0%nat) n in
  let* x := s_erase_range f 48 (xw_m w) (xw_c w 0%nat) a b in
  let '(h', s', it) := x in
  let* l := s_iterate 48 h' s' in Ok (l, s_at 48 s' it).
Example C52_case : forall f, let w := smaps f (ins 0 [1; 2; 3; 4; 5]) in
  range_erased f w 1 4 = Ok ([(1, 10); (5, 50)], Ok (Some (5, 50))) /\ range_erased f w 0 5 = Ok ([], Ok None).
Proof. intros f. destruct f; vm_compute; split; reflexivity. Qed.
(** The empty range in front of the second element: end() is returned. *)
Theorem C52_refuted : forall f, let w := smaps f (ins 0 [1; 2; 3]) in
  xnormal f w /\ range_erased f w 1 1 = Ok ([(1, 10); (2, 20); (3, 30)], Ok None).
Proof. intros f. split; [apply smaps_occur; destruct f; vm_compute; reflexivity|destruct f; vm_compute; reflexivity]. Qed.
Print Assumptions C52_refuted.
