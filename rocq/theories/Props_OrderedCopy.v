(** Property C85: ordered containers after a copy assignment was left by an exception. *)
From Coq Require Import ZArith List Bool Lia.
From Verif Require Import Base MapSpec Instances DenseSpec World DenseModel LinkModel DenseRun OrderedSpec OrderedWorldSpec OrderedDense OrderedRun OrderedWorld
  DenseInstances OrderedInstances OrderedCopyModel.
From Verif Require OrderedCopyProofs.
Import ListNotations.
Open Scope Z_scope.

(** C85, ordered dense containers: the copy of element number [n] throws.  Every other container
    (the source too) shows what it showed before.  Unless memory was refused, the target is empty
    after clear(), and from then on every program behaves as specified.
    Missing: the target itself before clear(), and after refused memory (refuted below). *)
Theorem C85_partial : forall (E K : Type) sz nk (key_of : nat -> E -> K) hash keq rep clone pocca pocma, 0 < sz ->
  key_laws hash keq -> (forall x e, key_of 0%nat (rep x e) = key_of 0%nat x) -> (forall j e, (j < nk)%nat -> key_of j (clone e) = key_of j e) ->
  forall n v hw i j l hist, yoccurs sz nk key_of hash keq rep clone pocca pocma hw -> denv_ok (ov_d v) -> i <> j ->
  let h := fst hw in let s := snd hw i in let o := snd hw j in
  Z.of_nat n < d_size (o_d o) -> (forall k, o_iterate sz h (snd hw k) = Ok (l k)) -> yhistory_ok nk hist ->
  oc_copy_assign sz nk clone n pocca v h s o = Err BadPlacement \/
  exists h' s', oc_copy_assign sz nk clone n pocca v h s o = Ok (h', s', false) /\ (forall k, k <> i -> o_iterate sz h' (snd hw k) = Ok (l k)) /\
    (o_copy_assign sz nk clone pocca v h s o = Ok (h', s', false) \/
     exists h'' s'', o_clear h' s' = Ok (h'', s'') /\
       yrefines sz nk key_of hash keq rep clone pocca pocma (h'', setn (snd hw) i s'') (setn l i []) hist).
Proof. exact (fun E K sz nk key_of hash keq rep clone pocca pocma Hsz KL R C => OrderedCopyProofs.copy_left_clear sz nk key_of hash keq rep clone pocca pocma Hsz KL R C). Qed.
Print Assumptions C85_partial.
(** The target itself: begin() is as far from the target's header as the source's first element
    [f] is from the source's header.  That is not end(), also when the target is empty, which it is
    if memory was refused or the first copy threw; iterating is then undefined. *)
Theorem C85_refuted : forall (E K : Type) sz nk (key_of : nat -> E -> K) hash keq rep clone pocca pocma, 0 < sz ->
  key_laws hash keq -> (forall x e, key_of 0%nat (rep x e) = key_of 0%nat x) -> (forall j e, (j < nk)%nat -> key_of j (clone e) = key_of j e) ->
  forall n v hw i j f, yoccurs sz nk key_of hash keq rep clone pocca pocma hw -> denv_ok (ov_d v) -> i <> j ->
  let h := fst hw in let s := snd hw i in let o := snd hw j in
  Z.of_nat n < d_size (o_d o) -> next_link h (o_hdr o) = Ok f ->
  oc_copy_assign sz nk clone n pocca v h s o = Err BadPlacement \/
  exists h' s', oc_copy_assign sz nk clone n pocca v h s o = Ok (h', s', false) /\
    o_hdr s' = o_hdr s /\ next_link h' (o_hdr s') = Ok (o_hdr s + (f - o_hdr o)) /\ o_hdr s + (f - o_hdr o) <> o_hdr s' /\
    (o_copy_assign sz nk clone pocca v h s o = Ok (h', s', false) /\ d_size (o_d s') = 0 \/
     delems (o_d s') = map clone (firstn n (delems (o_d o))) /\ d_size (o_d s') = Z.of_nat n) /\
    (d_size (o_d s') = 0 -> exists e, o_iterate sz h' s' = Err e).
Proof. exact (fun E K sz nk key_of hash keq rep clone pocca pocma Hsz KL R C => OrderedCopyProofs.copy_left_order sz nk key_of hash keq rep clone pocca pocma Hsz KL R C). Qed.
Print Assumptions C85_refuted.

(** Two ordered maps; the second one is assigned to the first one. *)
Definition pair0 : yworld := omaps [YOn 0 (OInsert (3, 30)); YOn 1 (OInsert (4, 40)); YOn 1 (OInsert (5, 50)); YOn 1 (OInsert (6, 60)); YOn 1 (OErase 0 4); YOn 1 (OInsert (4, 40))].
Definition copy0 (n : nat) (v : oenv) := oc_copy_assign 48 1 sameel n false v (fst pair0) (snd pair0 0%nat) (snd pair0 1%nat).
Definition far : oenv := at_ (2 ^ 20).
Definition poor : oenv := mkov (mkdv 2 (2 ^ 40)) (2 ^ 20) (fun _ => (0, 0)).
(** What is seen of the target: begin() - end(), the elements by index, size(), the iteration. *)
Definition told (x : res (heap * odense entry * bool)) : res (res Z * list entry * Z * res (list entry) * bool) :=
  let* y := x in let '(h, s, b) := y in Ok (let* a := next_link h (o_hdr s) in Ok (a - o_hdr s), delems (o_d s), d_size (o_d s), o_iterate 48 h s, b).
(** The source shows 5, 6, 4 before and after; after clear() and two insertions the target shows them. *)
Example C85_case : ynormal pair0 /\ o_iterate 48 (fst pair0) (snd pair0 1%nat) = Ok [(5, 50); (6, 60); (4, 40)] /\
  (let* x := copy0 2 far in o_iterate 48 (fst (fst x)) (snd pair0 1%nat)) = Ok [(5, 50); (6, 60); (4, 40)] /\
  (let* x := copy0 2 far in let* y := o_clear (fst (fst x)) (snd (fst x)) in
   let* z := yrun 48 1 key1 ehash ekeq erep sameel false true (fst y, setn (snd pair0) 0%nat (snd y)) [(far, YOn 0 (OInsert (8, 80))); (far, YOn 0 (OInsert (7, 70)))] in
   o_iterate 48 (fst (fst z)) (snd (fst z) 0%nat)) = Ok [(8, 80); (7, 70)].
Proof. split; [apply omaps_occur; vm_compute; reflexivity|]. vm_compute. repeat split; reflexivity. Qed.
(** The third copy throws, the first one does, memory for 3 elements is refused; with 3 or more
    copies allowed nothing throws. *)
Example C85_refuted_case : ynormal pair0 /\ (let* f := next_link (fst pair0) (o_hdr (snd pair0 1%nat)) in Ok (f - o_hdr (snd pair0 1%nat))) = Ok (16432 - (2 ^ 48 + 2 ^ 30)) /\
  told (copy0 2 far) = Ok (Ok (16432 - (2 ^ 48 + 2 ^ 30)), [(6, 60); (5, 50)], 2, Err OutOfBounds, false) /\
  told (copy0 0 far) = Ok (Ok (16432 - (2 ^ 48 + 2 ^ 30)), [], 0, Err OutOfBounds, false) /\
  told (copy0 0 poor) = Ok (Ok (16432 - (2 ^ 48 + 2 ^ 30)), [], 0, Err OutOfBounds, false) /\
  (let* x := told (copy0 3 far) in Ok (snd (fst x), snd x)) = Ok (Ok [(5, 50); (6, 60); (4, 40)], true).
Proof. split; [apply omaps_occur; vm_compute; reflexivity|]. vm_compute. repeat split; reflexivity. Qed.
