(** Property C85 on ordered open-addressing containers: a copy assignment left by an exception. *)
From Coq Require Import ZArith List Bool Lia.
From Verif Require Import Base Bits MapSpec Instances SwissModel SwissInv SwissRun LinkModel OrderedInstances SwissOrderedSpec SwissOrderedWorldSpec SwissOrdered SwissOrderedRun SwissOrderedWorld
  SwissOrderedInstances OrderedSparseCopyModel.
From Verif Require OrderedSparseCopyProofs.
Import ListNotations.
Open Scope Z_scope.

(** Memory is refused or the copy of element number [n] throws.  The other containers (the source
    too) show what they showed before.  The target has size() 0, but begin() is as far from its
    header as the source's first element [g] is from the source's header: it is not end(), and if
    the target holds nothing iterating is undefined.  clear() does nothing about it. *)
Theorem C85_sparse_refuted : forall (E K : Type) f sz (key_of : E -> K) hash keq rep clone pocca pocma, 0 < sz ->
  key_laws hash keq -> (forall a b, keq (key_of a) (key_of b) = true -> key_of (rep a b) = key_of a) -> (forall e, key_of (clone e) = key_of e) ->
  forall n v w i j l g, xoccurs f sz key_of hash keq rep clone pocca pocma w -> i <> j -> let h := xw_m w in let s := xw_c w i in let o := xw_c w j in
  (n < length (elems (os_t o)))%nat -> pocca = true \/ s_cap (os_t s) <= s_cap (os_t o) -> (forall k, s_iterate sz h (xw_c w k) = Ok (l k)) -> next_link h (os_hdr o) = Ok g ->
  sc_copy_assign f sz clone n pocca v h s o = Err BadPlacement \/
  exists h' s', sc_copy_assign f sz clone n pocca v h s o = Ok (h', s', false) /\
    os_hdr s' = os_hdr s /\ s_size (os_t s') = 0 /\ next_link h' (os_hdr s') = Ok (os_hdr s + (g - os_hdr o)) /\ os_hdr s + (g - os_hdr o) <> os_hdr s' /\
    s_clear f h' s' = Ok (h', s') /\
    (s_copy_assign f sz clone pocca v h s o = Ok (h', s', false) /\ elems (os_t s') = [] \/ elems (os_t s') = map clone (firstn n (elems (os_t o)))) /\
    (elems (os_t s') = [] -> exists e, s_iterate sz h' s' = Err e) /\
    (forall k, k <> i -> s_iterate sz h' (xw_c w k) = Ok (l k)).
Proof. exact (fun E K f sz key_of hash keq rep clone pocca pocma Hsz KL R C => OrderedSparseCopyProofs.sparse_copy_left f sz key_of hash keq rep clone pocca pocma Hsz KL R C). Qed.
Print Assumptions C85_sparse_refuted.

(** Two ordered maps; the second one is assigned to the first one and to a new one. *)
Definition pair1 : xworld entry := smaps SSE2 [XOn 0 (ZInsert (3, 30)); XOn 1 (ZInsert (4, 40)); XOn 1 (ZInsert (5, 50)); XOn 1 (ZInsert (6, 60)); XOn 1 (ZErase 4); XOn 1 (ZInsert (4, 40))].
Definition copy1 (i n : nat) (v : senv) := sc_copy_assign SSE2 48 same_entry n false v (xw_m pair1) (xw_c pair1 i) (xw_c pair1 1%nat).
(** What is seen of the target: begin() - end(), the elements in the slots, size(), the iteration. *)
Definition told1 (x : res (heap * oswiss entry * bool)) : res (res Z * list entry * Z * res (list entry) * bool) :=
  let* y := x in let '(h, s, b) := y in Ok (let* a := next_link h (os_hdr s) in Ok (a - os_hdr s), elems (os_t s), s_size (os_t s), s_iterate 48 h s, b).
Definition far1 : senv := sat (2 ^ 31).
Definition poor1 : senv := mksv (mkenv 2 true) (2 ^ 31) (fun _ => (0, 0)).
(** The third of three copies throws, the first one does, none does; into the new container the
    second one throws, and memory is refused; clear() changes nothing. *)
Example C85_sparse_case : xnormal SSE2 pair1 /\ s_iterate 48 (xw_m pair1) (xw_c pair1 1%nat) = Ok [(5, 50); (6, 60); (4, 40)] /\
  (let* g := next_link (xw_m pair1) (os_hdr (xw_c pair1 1%nat)) in Ok (g - os_hdr (xw_c pair1 1%nat))) = Ok (-281476050255824) /\
  told1 (copy1 0 2 far1) = Ok (Ok (-281476050255824), [(4, 40); (5, 50)], 0, Err OutOfBounds, false) /\
  told1 (copy1 0 0 far1) = Ok (Ok (-281476050255824), [], 0, Err OutOfBounds, false) /\
  (let* x := told1 (copy1 0 3 far1) in Ok (snd (fst x), snd x)) = Ok (Ok [(5, 50); (6, 60); (4, 40)], true) /\
  told1 (copy1 2 1 far1) = Ok (Ok (-281476050255824), [(4, 40)], 0, Err OutOfBounds, false) /\
  told1 (copy1 2 1 poor1) = Ok (Ok (-281476050255824), [], 0, Err OutOfBounds, false) /\
  told1 (let* x := copy1 0 2 far1 in let* y := s_clear SSE2 (fst (fst x)) (snd (fst x)) in Ok (y, false)) = told1 (copy1 0 2 far1).
Proof. split; [apply smaps_occur; vm_compute; reflexivity|]. vm_compute. repeat split; reflexivity. Qed.
