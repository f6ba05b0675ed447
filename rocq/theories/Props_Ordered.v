(** Properties of the links of ordered containers and of ordered dense containers (C18-C20,
    C35-C37, C50, C51).  Containers and memories are those that occur at some point of some
    program over any number of containers ([yoccurs]), for any number [nk] of keys per
    element, any placement of the arrays and any content of fresh memory. *)
From Coq Require Import ZArith List Bool Lia.
From Verif Require Import Base MapSpec Instances DenseSpec World DenseModel DenseRun LinkSpec LinkModel OrderedSpec OrderedWorldSpec OrderedDense OrderedRun OrderedWorld
  DenseInstances OrderedInstances OrderedWorldProofs OrderedFinal OrderedSweep.
Import ListNotations.
Open Scope Z_scope.

Definition ins (i : nat) (l : list Z) : list (ycall entry Z) := map (fun k => YOn i (OInsert (k, 10 * k))) l.
Definition two : @yworld entry := omaps (ins 0 [1; 2]).
Definition three : @yworld entry := omaps (ins 0 [1; 2; 3]).
Definition four : @yworld entry := omaps (ins 0 [1; 2; 3; 4]).
Definition elements (hw : @yworld entry) (i : nat) : res (list entry) := o_iterate 48 (fst hw) (snd hw i).

(** C19: starting with a header alone, any sequence of linking, unlinking and relocation
    gives the links of the specified sequence of addresses: walking forwards and backwards
    visits it, each link is the predecessor of its successor, and no other link changes. *)
Theorem C19_links : forall (h : heap) a cs l, h a = Some (0, 0) -> lspec_run cs [a] l -> (forall c b, In c cs -> In b (lcall_addrs c) -> h b <> None) ->
  exists h' x r, lrun h cs = Ok h' /\ l = x :: r /\
    (exists b, next_link h' x = Ok b /\ walk (S (length r)) h' b x = Ok r) /\
    (exists b, prev_link h' x = Ok b /\ walk_back (S (length r)) h' b x = Ok (rev r)) /\
    (forall l1 y z l2, l = l1 ++ y :: z :: l2 -> next_link h' y = Ok z /\ prev_link h' z = Ok y) /\
    (forall b, ~ In b (a :: flat_map lcall_addrs cs) -> h' b = h b).
Proof. exact links_final. Qed.
Print Assumptions C19_links.

Example C19_case :
  lspec_run [LAfter 100 0; LAfter 200 100; LAfter 300 100; LMove 400 100; LUnlink 300; LMove 500 0] [0] [500; 400; 200] /\
  match lrun (fun _ => Some (0, 0)) [LAfter 100 0; LAfter 200 100; LAfter 300 100; LMove 400 100; LUnlink 300; LMove 500 0] with
  | Ok h => walk 3 h 400 500 = Ok [400; 200] /\ walk_back 3 h 200 500 = Ok [200; 400]
  | Err _ => False
  end.
Proof.
  split; [|vm_compute; split; reflexivity].
  eapply lr_cons; [apply (ls_after 100 0 [] []); cbn; intuition discriminate|].
  eapply lr_cons; [apply (ls_after 200 100 [0] []); cbn; intuition discriminate|].
  eapply lr_cons; [apply (ls_after 300 100 [0] [200]); cbn; intuition discriminate|].
  eapply lr_cons; [apply (ls_move 400 100 [0] [300; 200]); cbn; intuition discriminate|].
  eapply lr_cons; [apply (ls_unlink 300 0 [400] [200])|].
  eapply lr_cons; [apply (ls_move 500 0 [] [400; 200]); cbn; intuition discriminate|]. apply lr_nil.
Qed.

(** C35: on every ordered dense container that occurs, every history of calls has the results
    of the list in insertion order; iteration backwards gives the reverse; links outside of
    the container do not change.  Missing: what follows erase(key) on a container without
    buckets (C32) and a failed allocation of a larger bucket array (C29). *)
Theorem C35_partial : forall (E K : Type) sz nk (key_of : nat -> E -> K) hash keq rep clone pocca pocma, 0 < sz ->
  key_laws hash keq -> (forall x e, key_of 0%nat (rep x e) = key_of 0%nat x) -> (forall j e, (j < nk)%nat -> key_of j (clone e) = key_of j e) ->
  forall hw i l hist, yoccurs sz nk key_of hash keq rep clone pocca pocma hw -> o_iterate sz (fst hw) (snd hw i) = Ok l -> ohistory_ok nk hist ->
  orefines sz nk key_of hash keq rep (fst hw, snd hw i) l hist.
Proof. exact (fun E K sz nk key_of hash keq rep clone pocca pocma Hsz KL R C => occurs_history sz nk key_of hash keq rep clone pocca pocma Hsz KL R C). Qed.
Print Assumptions C35_partial.

(** Four growths, an erasure from the middle that moves the last node, and a rehash. *)
Example C35_case :
  let h := yprog [OInsert (5, 50); OEmplace (1, 10); OInsert (9, 90); OInsert (1, 11); OInsert (2, 20); OInsert (17, 170); OErase 0 1; OIterate; OBackwards; OEraseAt 1; OAssign (2, 21); OReserve 20; OIterate;
                  OInsert (1, 12); OBackwards; OClear; OIterate; OInsert (3, 30); OIterate] in
  ohistory_ok 1 h /\
  match orun 48 1 key1 ehash ekeq erep (heap0, o_new (addr0 0)) h with
  | Ok (_, rs) => rs = [QInserted (5, 50) true; QInserted (1, 10) true; QInserted (9, 90) true; QInserted (1, 10) false; QInserted (2, 20) true; QInserted (17, 170) true; QUnit;
      QList [(5, 50); (9, 90); (2, 20); (17, 170)]; QList [(17, 170); (2, 20); (9, 90); (5, 50)]; QUnit; QInserted (2, 21) false; QUnit; QList [(5, 50); (2, 21); (17, 170)];
      QInserted (1, 12) true; QList [(1, 12); (17, 170); (2, 21); (5, 50)]; QUnit; QList []; QInserted (3, 30) true; QList [(3, 30)]]
  | Err _ => False
  end.
Proof. split; [apply place_from_calls; vm_compute; reflexivity|vm_compute; reflexivity]. Qed.

(** The first exclusion: erase(key) on a container that never had an element. *)
Theorem C35_refuted : exists v, ynormal (omaps []) /\ o_iterate 48 (fst (omaps [])) (snd (omaps []) 0%nat) = Ok [] /\ ohistory_ok (E := entry) 1 [(v, OErase 0 1)] /\
  orun 48 1 key1 ehash ekeq erep (fst (omaps []), snd (omaps []) 0%nat) [(v, OErase 0 1)] = Err NullDeref.
Proof. exists (at_ 99). split; [apply omaps_occur; reflexivity|]. split; [reflexivity|]. split; [repeat constructor|]. vm_compute. reflexivity. Qed.
Print Assumptions C35_refuted.

(** C50: programs over several ordered dense containers that share the memory: calls,
    destruction, copies, moves and swaps keep every container's sequence, up to a statement
    that is not covered: those of C35; assigning an empty container to one with elements
    (C38); a copy assignment left by an exception; moving into a container with elements
    without propagation (C39); swap with an empty container (C18). *)
Theorem C50_programs : forall (E K : Type) sz nk (key_of : nat -> E -> K) hash keq rep clone pocca pocma, 0 < sz ->
  key_laws hash keq -> (forall x e, key_of 0%nat (rep x e) = key_of 0%nat x) -> (forall j e, (j < nk)%nat -> key_of j (clone e) = key_of j e) ->
  forall hw l hist, yoccurs sz nk key_of hash keq rep clone pocca pocma hw -> (forall i, o_iterate sz (fst hw) (snd hw i) = Ok (l i)) -> yhistory_ok nk hist ->
  yrefines sz nk key_of hash keq rep clone pocca pocma hw l hist.
Proof. exact (fun E K sz nk key_of hash keq rep clone pocca pocma Hsz KL R C => occurs_program sz nk key_of hash keq rep clone pocca pocma Hsz KL R C). Qed.
Print Assumptions C50_programs.

Example C50_case :
  let l := ins 0 [1; 2; 3] ++ [YOn 0 (OErase 0 1); YCopyNew 1 0] ++ ins 1 [7; 1] ++ [YMove 2 1; YCopy 3 2; YSwap 3 0; YOn 3 (OInsert (9, 90)); YMoveNew 4 0; YOn 4 (OErase 0 7)] in
  ynormal (omaps l) /\ map (elements (omaps l)) [0%nat; 1%nat; 2%nat; 3%nat; 4%nat] =
    [Ok []; Ok []; Ok [(2, 20); (3, 30); (7, 70); (1, 10)]; Ok [(2, 20); (3, 30); (9, 90)]; Ok [(2, 20); (3, 30); (1, 10)]].
Proof. split; [apply omaps_occur; vm_compute; reflexivity|vm_compute; reflexivity]. Qed.

(** C18: swap of two ordered containers that both have elements exchanges the sequences in
    both directions.  Missing: empty containers (next theorems). *)
Theorem C18_dense_partial : forall (E K : Type) sz nk (key_of : nat -> E -> K) hash keq rep clone pocca pocma, 0 < sz ->
  key_laws hash keq -> (forall x e, key_of 0%nat (rep x e) = key_of 0%nat x) -> (forall j e, (j < nk)%nat -> key_of j (clone e) = key_of j e) ->
  forall hw i j v li lj, yoccurs sz nk key_of hash keq rep clone pocca pocma hw -> i <> j ->
  o_iterate sz (fst hw) (snd hw i) = Ok li -> o_iterate sz (fst hw) (snd hw j) = Ok lj -> li <> [] -> lj <> [] ->
  exists hw', yexec sz nk key_of hash keq rep clone pocca pocma v hw (YSwap i j) = Ok (hw', YDone) /\
    o_iterate sz (fst hw') (snd hw' i) = Ok lj /\ o_iterate sz (fst hw') (snd hw' j) = Ok li /\
    o_backwards sz (fst hw') (snd hw' i) = Ok (rev lj) /\ o_backwards sz (fst hw') (snd hw' j) = Ok (rev li) /\
    forall k, k <> i -> k <> j -> o_iterate sz (fst hw') (snd hw' k) = o_iterate sz (fst hw) (snd hw k).
Proof. exact (fun E K sz nk key_of hash keq rep clone pocca pocma Hsz KL R C => swap_final sz nk key_of hash keq rep clone pocca pocma Hsz KL R C). Qed.
Print Assumptions C18_dense_partial.

Example C18_case : let hw := omaps (ins 0 [1; 2; 3] ++ ins 1 [4]) in
  ynormal hw /\ match yexec1 (at_ 99) hw (YSwap 0 1) with Ok (hw', _) => elements hw' 0 = Ok [(4, 40)] /\ elements hw' 1 = Ok [(1, 10); (2, 20); (3, 30)] | Err _ => False end.
Proof. split; [apply omaps_occur; vm_compute; reflexivity|vm_compute; split; reflexivity]. Qed.

(** After swap with an empty container, iteration over the container that is now empty never
    reaches end(). *)
Theorem C18_refuted : ynormal two /\ elements two 0 = Ok [(1, 10); (2, 20)] /\ elements two 1 = Ok [] /\
  match yexec1 (at_ 99) two (YSwap 0 1) with Ok (hw', r) => r = YDone /\ elements hw' 0 = Err Diverges /\ elements hw' 1 = Ok [(1, 10); (2, 20)] | Err _ => False end.
Proof. split; [apply omaps_occur; vm_compute; reflexivity|]. vm_compute. repeat split; reflexivity. Qed.
Print Assumptions C18_refuted.
(** The same for two empty containers. *)
Theorem C18_empty_refuted : ynormal (omaps []) /\ elements (omaps []) 0 = Ok [] /\ elements (omaps []) 1 = Ok [] /\
  match yexec1 (at_ 99) (omaps []) (YSwap 0 1) with Ok (hw', r) => r = YDone /\ elements hw' 0 = Err Diverges /\ elements hw' 1 = Err Diverges | Err _ => False end.
Proof. split; [apply omaps_occur; vm_compute; reflexivity|]. vm_compute. repeat split; reflexivity. Qed.
Print Assumptions C18_empty_refuted.

(** C20, dense containers: insert(hint, value) with a hint that is the iterator of an element
    places a new value directly behind that element, also when the insertion reallocates;
    a value whose key is taken changes nothing.  Missing: the hint end() (next theorems). *)
Theorem C20_dense_partial : forall (E K : Type) sz nk (key_of : nat -> E -> K) hash keq rep clone pocca pocma, 0 < sz ->
  key_laws hash keq -> (forall x e, key_of 0%nat (rep x e) = key_of 0%nat x) -> (forall j e, (j < nk)%nat -> key_of j (clone e) = key_of j e) ->
  forall hw i v p x q a e, yoccurs sz nk key_of hash keq rep clone pocca pocma hw -> let h := fst hw in let s := snd hw i in
  o_iterate sz h s = Ok (p ++ x :: q) -> o_nth h s (Z.of_nat (length p)) = Ok a -> a <> 0 -> denv_ok (ov_d v) -> 0 < ov_base v ->
  o_do_insert sz nk key_of hash keq v true h s a e = Err BadPlacement \/
  exists h' s' r, o_do_insert sz nk key_of hash keq v true h s a e = Ok (h', s', r) /\
    match r with
    | Some (it, true) => dnew nk key_of keq e (p ++ x :: q) /\ o_iterate sz h' s' = Ok (p ++ x :: e :: q) /\ o_at sz s' it = Ok (Some e)
    | Some (it, false) => o_iterate sz h' s' = Ok (p ++ x :: q) /\ exists y, dclash nk key_of keq e (p ++ x :: q) y /\ o_at sz s' it = Ok (Some y)
    | None => o_iterate sz h' s' = Ok (p ++ x :: q) \/ (0 < d_bc (o_d s) /\ d_sok (o_d s') = false)
    end.
Proof. exact (fun E K sz nk key_of hash keq rep clone pocca pocma Hsz KL R C => insert_after sz nk key_of hash keq rep clone pocca pocma Hsz KL R C). Qed.
Print Assumptions C20_dense_partial.

Definition hinted_insert (hw : @yworld entry) (n : Z) (e : entry) : res (list entry) :=
  let* a := o_nth (fst hw) (snd hw 0%nat) n in
  let* x := o_do_insert 48 1 key1 ehash ekeq (at_ 4000000) true (fst hw) (snd hw 0%nat) a e in
  let '(h', s', _) := x in o_iterate 48 h' s'.
Example C20_case : hinted_insert three 0 (9, 90) = Ok [(1, 10); (9, 90); (2, 20); (3, 30)] /\ hinted_insert four 2 (9, 90) = Ok [(1, 10); (2, 20); (3, 30); (9, 90); (4, 40)].
Proof. split; vm_compute; reflexivity. Qed.

(** With the hint end(), and no reallocation, the new value becomes the first element. *)
Theorem C20_dense_end : forall (E K : Type) sz nk (key_of : nat -> E -> K) hash keq rep clone pocca pocma, 0 < sz ->
  key_laws hash keq -> (forall x e, key_of 0%nat (rep x e) = key_of 0%nat x) -> (forall j e, (j < nk)%nat -> key_of j (clone e) = key_of j e) ->
  forall hw i v l e, yoccurs sz nk key_of hash keq rep clone pocca pocma hw -> let h := fst hw in let s := snd hw i in
  o_iterate sz h s = Ok l -> o_hdr s <> 0 -> denv_ok (ov_d v) -> d_cap (o_d s) <> d_size (o_d s) ->
  o_do_insert sz nk key_of hash keq v true h s (o_hdr s) e = Err BadPlacement \/
  exists h' s' r, o_do_insert sz nk key_of hash keq v true h s (o_hdr s) e = Ok (h', s', r) /\
    match r with
    | Some (it, true) => dnew nk key_of keq e l /\ o_iterate sz h' s' = Ok (e :: l) /\ o_at sz s' it = Ok (Some e)
    | Some (it, false) => o_iterate sz h' s' = Ok l /\ exists y, dclash nk key_of keq e l y /\ o_at sz s' it = Ok (Some y)
    | None => o_iterate sz h' s' = Ok l \/ (0 < d_bc (o_d s) /\ d_sok (o_d s') = false)
    end.
Proof. exact (fun E K sz nk key_of hash keq rep clone pocca pocma Hsz KL R C => insert_end sz nk key_of hash keq rep clone pocca pocma Hsz KL R C). Qed.
Print Assumptions C20_dense_end.

(** With the hint end() and a reallocation, links are written outside of any container; the
    first insertion reallocates as well. *)
Theorem C20_dense_refuted : ynormal three /\ ynormal four /\ ynormal (omaps []) /\
  hinted_insert three 3 (9, 90) = Ok [(9, 90); (1, 10); (2, 20); (3, 30)] /\
  hinted_insert four 4 (9, 90) = Err OutOfBounds /\ hinted_insert (omaps []) 0 (9, 90) = Err OutOfBounds.
Proof.
  split; [apply omaps_occur; vm_compute; reflexivity|]. split; [apply omaps_occur; vm_compute; reflexivity|]. split; [apply omaps_occur; vm_compute; reflexivity|].
  split; [vm_compute; reflexivity|]. split; vm_compute; reflexivity.
Qed.
Print Assumptions C20_dense_refuted.

(** C36: erase(it) removes the element and returns the iterator that followed it before the
    call, which refers to the following element unless that was the node in the last slot of
    the array.  Missing: that case, where the node has moved and the iterator refers to a
    destroyed node. *)
Theorem C36_partial : forall (E K : Type) sz nk (key_of : nat -> E -> K) hash keq rep clone pocca pocma, 0 < sz ->
  key_laws hash keq -> (forall x e, key_of 0%nat (rep x e) = key_of 0%nat x) -> (forall j e, (j < nk)%nat -> key_of j (clone e) = key_of j e) ->
  forall hw i p x q a, yoccurs sz nk key_of hash keq rep clone pocca pocma hw ->
  o_iterate sz (fst hw) (snd hw i) = Ok (p ++ x :: q) -> o_nth (fst hw) (snd hw i) (Z.of_nat (length p)) = Ok a ->
  exists h' s' it, o_erase_at sz nk (fst hw) (snd hw i) a = Ok (h', s', it) /\ o_iterate sz h' s' = Ok (p ++ q) /\
    next_link (fst hw) a = Ok it /\
    (it <> o_base (snd hw i) + (d_size (o_d (snd hw i)) - 1) * sz -> o_at sz s' it = Ok (hd_error q)) /\
    (it = o_base (snd hw i) + (d_size (o_d (snd hw i)) - 1) * sz -> o_at sz s' it = Err DeadObject).
Proof. exact (fun E K sz nk key_of hash keq rep clone pocca pocma Hsz KL R C => erase_next sz nk key_of hash keq rep clone pocca pocma Hsz KL R C). Qed.
Print Assumptions C36_partial.

Definition erased (hw : @yworld entry) (n : Z) : res (list entry * res (option entry)) :=
  let* a := o_nth (fst hw) (snd hw 0%nat) n in
  let* x := o_erase_at 48 1 (fst hw) (snd hw 0%nat) a in
  let '(h', s', it) := x in
  let* l := o_iterate 48 h' s' in Ok (l, o_at 48 s' it).
Example C36_case : erased four 1 = Ok ([(1, 10); (3, 30); (4, 40)], Ok (Some (3, 30))) /\ erased four 3 = Ok ([(1, 10); (2, 20); (3, 30)], Ok None).
Proof. split; vm_compute; reflexivity. Qed.
Theorem C36_refuted : ynormal two /\ erased two 0 = Ok ([(2, 20)], Err DeadObject).
Proof. split; [apply omaps_occur; vm_compute; reflexivity|vm_compute; reflexivity]. Qed.
Print Assumptions C36_refuted.

(** C37: erase(first, last) for a range of elements whose nodes are the last ones of the
    array, in the same order; this includes [it, end()) for containers filled by insertion
    only.  Missing: other ranges of more than one element (refuted below). *)
Theorem C37_partial : forall (E K : Type) sz nk (key_of : nat -> E -> K) hash keq rep clone pocca pocma, 0 < sz ->
  key_laws hash keq -> (forall x e, key_of 0%nat (rep x e) = key_of 0%nat x) -> (forall j e, (j < nk)%nat -> key_of j (clone e) = key_of j e) ->
  forall hw i p m q a b, yoccurs sz nk key_of hash keq rep clone pocca pocma hw -> let h := fst hw in let s := snd hw i in
  o_iterate sz h s = Ok (p ++ m ++ q) -> m <> [] ->
  (forall t, 0 <= t < Z.of_nat (length m) -> o_nth h s (Z.of_nat (length p) + t) = Ok (o_base s + (d_size (o_d s) - Z.of_nat (length m) + t) * sz)) ->
  o_nth h s (Z.of_nat (length p)) = Ok a -> o_nth h s (Z.of_nat (length p + length m)) = Ok b ->
  exists h' s', o_erase_range sz nk h s a b = Ok (h', s', b) /\ o_iterate sz h' s' = Ok (p ++ q) /\ o_at sz s' b = Ok (hd_error q).
Proof. exact (fun E K sz nk key_of hash keq rep clone pocca pocma Hsz KL R C => range_final sz nk key_of hash keq rep clone pocca pocma Hsz KL R C). Qed.
Print Assumptions C37_partial.

(** A range of one element is erased as by erase(it). *)
Theorem C37_single : forall (E K : Type) sz nk (key_of : nat -> E -> K) hash keq rep clone pocca pocma, 0 < sz ->
  key_laws hash keq -> (forall x e, key_of 0%nat (rep x e) = key_of 0%nat x) -> (forall j e, (j < nk)%nat -> key_of j (clone e) = key_of j e) ->
  forall hw i p x q a b, yoccurs sz nk key_of hash keq rep clone pocca pocma hw -> let h := fst hw in let s := snd hw i in
  o_iterate sz h s = Ok (p ++ x :: q) -> o_nth h s (Z.of_nat (length p)) = Ok a -> o_nth h s (Z.of_nat (length p) + 1) = Ok b ->
  o_erase_range sz nk h s a b = o_erase_at sz nk h s a.
Proof. exact (fun E K sz nk key_of hash keq rep clone pocca pocma Hsz KL R C => range_single sz nk key_of hash keq rep clone pocca pocma Hsz KL R C). Qed.
Print Assumptions C37_single.

Definition range_erased (hw : @yworld entry) (m n : Z) : res (list entry * res (option entry)) :=
  let* a := o_nth (fst hw) (snd hw 0%nat) m in
  let* b := o_nth (fst hw) (snd hw 0%nat) n in
  let* x := o_erase_range 48 1 (fst hw) (snd hw 0%nat) a b in
  let '(h', s', it) := x in
  let* l := o_iterate 48 h' s' in Ok (l, o_at 48 s' it).
Example C37_case : range_erased four 1 4 = Ok ([(1, 10)], Ok None) /\ range_erased four 1 2 = Ok ([(1, 10); (3, 30); (4, 40)], Ok (Some (3, 30))).
Proof. split; vm_compute; reflexivity. Qed.
(** The first two of four elements: three are erased. *)
Theorem C37_refuted : ynormal four /\ elements four 0 = Ok [(1, 10); (2, 20); (3, 30); (4, 40)] /\ range_erased four 0 2 = Ok ([(4, 40)], Err DeadObject).
Proof. split; [apply omaps_occur; vm_compute; reflexivity|]. split; vm_compute; reflexivity. Qed.
Print Assumptions C37_refuted.
(** The empty range [begin(), begin()): nothing is erased, but the result is end(). *)
Theorem C37_empty : forall (E : Type) sz nk h (s : odense E) a, o_erase_range sz nk h s a a = Ok (h, s, o_hdr s).
Proof. exact (fun E sz nk => range_empty sz nk). Qed.
Print Assumptions C37_empty.

(** C51: erase_if that matches nothing changes nothing and returns 0.  Missing: predicates
    that match (next theorem). *)
Theorem C51_partial : forall (E K : Type) sz nk (key_of : nat -> E -> K) hash keq rep clone pocca pocma, 0 < sz ->
  key_laws hash keq -> (forall x e, key_of 0%nat (rep x e) = key_of 0%nat x) -> (forall j e, (j < nk)%nat -> key_of j (clone e) = key_of j e) ->
  forall hw i pred l, yoccurs sz nk key_of hash keq rep clone pocca pocma hw -> o_iterate sz (fst hw) (snd hw i) = Ok l -> Forall (fun x => pred x = false) l ->
  o_erase_if sz nk pred (fst hw) (snd hw i) = Ok (fst hw, snd hw i, 0).
Proof. exact (fun E K sz nk key_of hash keq rep clone pocca pocma Hsz KL R C => erase_if_none sz nk key_of hash keq rep clone pocca pocma Hsz KL R C). Qed.
Print Assumptions C51_partial.

Definition erased_if (hw : @yworld entry) (pred : entry -> bool) : res (list entry * Z) :=
  let* x := o_erase_if 48 1 pred (fst hw) (snd hw 0%nat) in
  let '(h', s', n) := x in
  let* l := o_iterate 48 h' s' in Ok (l, n).
Example C51_case : erased_if four (fun e => fst e =? 5) = Ok ([(1, 10); (2, 20); (3, 30); (4, 40)], 0) /\ erased_if four (fun e => fst e =? 2) = Ok ([(1, 10); (3, 30); (4, 40)], 1).
Proof. split; vm_compute; reflexivity. Qed.
(** Erasing the first of two elements reads the node that has been moved away. *)
Theorem C51_refuted : ynormal two /\ erased_if two (fun e => fst e =? 1) = Err DeadObject.
Proof. split; [apply omaps_occur; vm_compute; reflexivity|vm_compute; reflexivity]. Qed.
Print Assumptions C51_refuted.
(** Exactly: the k-th element lies in slot [slots k] of the array; the call erases the
    elements that match, returns their number and keeps the order of the others, if the
    element after an erased one is never in the last slot at that time; otherwise it reads a
    node that is gone. *)
Theorem C51_exact : forall (E K : Type) sz nk (key_of : nat -> E -> K) hash keq rep clone pocca pocma, 0 < sz ->
  key_laws hash keq -> (forall x e, key_of 0%nat (rep x e) = key_of 0%nat x) -> (forall j e, (j < nk)%nat -> key_of j (clone e) = key_of j e) ->
  forall hw i pred l slots, let h := fst hw in let s := snd hw i in
  yoccurs sz nk key_of hash keq rep clone pocca pocma hw -> o_iterate sz h s = Ok l ->
  length slots = length l -> (forall k p, nth_error slots k = Some p -> o_nth h s (Z.of_nat k) = Ok (o_base s + p * sz)) ->
  if sweeps pred (Z.of_nat (length l)) (fun i => i) (combine slots l) then
    exists h' s', o_erase_if sz nk pred h s = Ok (h', s', matches pred l) /\ o_iterate sz h' s' = Ok (filter (fun e => negb (pred e)) l)
  else o_erase_if sz nk pred h s = Err DeadObject.
Proof. exact (fun E K sz nk key_of hash keq rep clone pocca pocma Hsz KL R C => erase_if_exact sz nk key_of hash keq rep clone pocca pocma Hsz KL R C). Qed.
Print Assumptions C51_exact.
(** Two and four elements, each in the slot of its number, cannot be erased at once, three can.
    Of four elements one can be erased alone unless it is the third.  After an erasure the
    slots are permuted: the last element of four in the first slot, the second and the third
    can be erased together. *)
Example C51_exact_case :
  let all := fun _ : entry => true in let is := fun k (e : entry) => fst e =? k in
  let moved := omaps (ins 0 [1; 2; 3; 4; 5] ++ [YOn 0 (OErase 0 1)]) in
  map (o_nth (fst four) (snd four 0%nat)) [0; 1; 2; 3] = map (fun p => Ok (o_base (snd four 0%nat) + p * 48)) [0; 1; 2; 3] /\
  erased_if two all = Err DeadObject /\ sweeps all 2 (fun i => i) (combine [0; 1] [(1, 10); (2, 20)]) = false /\
  erased_if three all = Ok ([], 3) /\ sweeps all 3 (fun i => i) (combine [0; 1; 2] [(1, 10); (2, 20); (3, 30)]) = true /\
  erased_if four all = Err DeadObject /\
  erased_if four (is 3) = Err DeadObject /\ erased_if four (is 1) = Ok ([(2, 20); (3, 30); (4, 40)], 1) /\
  map (o_nth (fst moved) (snd moved 0%nat)) [0; 1; 2; 3] = map (fun p => Ok (o_base (snd moved 0%nat) + p * 48)) [1; 2; 3; 0] /\
  erased_if moved (is 3) = Err DeadObject /\ sweeps (is 3) 4 (fun i => i) (combine [1; 2; 3; 0] [(2, 20); (3, 30); (4, 40); (5, 50)]) = false /\
  erased_if moved (is 4) = Ok ([(2, 20); (3, 30); (5, 50)], 1).
Proof. vm_compute. repeat split. Qed.
