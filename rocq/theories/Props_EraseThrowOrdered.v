(** Property C84 on ordered dense containers: erasures whose move assignment throws. *)
From Coq Require Import ZArith List Bool Lia.
From Verif Require Import Base MapSpec Instances DenseSpec DenseModel LinkModel DenseRun OrderedSpec OrderedWorldSpec OrderedDense OrderedRun OrderedWorld
  DenseInstances OrderedInstances EraseThrowModel.
From Verif Require EraseThrowOrdered.
Import ListNotations.
Open Scope Z_scope.

(** C84, ordered dense containers: without a throw, and for the element in the last slot, the
    erasure through an iterator is the one of OrderedDense.
    Missing: an assignment that throws while another element is erased (refuted below). *)
Theorem C84_ordered_partial : forall (E K : Type) sz nk (key_of : nat -> E -> K) hash keq rep clone pocca pocma, 0 < sz ->
  key_laws hash keq -> (forall x e, key_of 0%nat (rep x e) = key_of 0%nat x) -> (forall j e, (j < nk)%nat -> key_of j (clone e) = key_of j e) ->
  forall bad hw c i a, yoccurs sz nk key_of hash keq rep clone pocca pocma hw -> let h := fst hw in let s := snd hw c in
  0 <= i < d_size (o_d s) -> a = slot sz s i -> bad = false \/ i = d_size (o_d s) - 1 ->
  o_t_erase_at sz nk bad h s a = let* x := o_erase_at sz nk h s a in let '(h', s', b) := x in Ok (h', s', Some b).
Proof. exact (fun E K sz nk key_of hash keq rep clone pocca pocma Hsz KL R C => EraseThrowOrdered.ordered_safe sz nk key_of hash keq rep clone pocca pocma Hsz KL R C). Qed.
Print Assumptions C84_ordered_partial.
(** The assignment throws: size() is the one of before, but the iteration shows one element less:
    x, which was to be erased, has left its place and stands in the place of y, the element in the
    last slot, which the iteration does not show any more.  By every key for which the two were in
    different buckets neither is found. *)
Theorem C84_ordered_refuted : forall (E K : Type) sz nk (key_of : nat -> E -> K) hash keq rep clone pocca pocma, 0 < sz ->
  key_laws hash keq -> (forall x e, key_of 0%nat (rep x e) = key_of 0%nat x) -> (forall j e, (j < nk)%nat -> key_of j (clone e) = key_of j e) ->
  forall hw c i, yoccurs sz nk key_of hash keq rep clone pocca pocma hw -> let h := fst hw in let s := snd hw c in 0 <= i < d_size (o_d s) - 1 ->
  exists h' s' x y p q u w, o_t_erase_at sz nk true h s (slot sz s i) = Ok (h', s', None) /\ d_size (o_d s') = d_size (o_d s) /\
    d_nodes (o_d s) i = Some x /\ d_nodes (o_d s) (d_size (o_d s) - 1) = Some y /\
    o_iterate sz h s = Ok (p ++ n_val x :: q) /\ p ++ q = u ++ n_val y :: w /\ o_iterate sz h' s' = Ok (u ++ n_val x :: w) /\
    forall j, (j < nk)%nat -> apart key_of hash (o_d s) j i (d_size (o_d s) - 1) ->
      contains key_of hash keq (o_d s') j (key_of j (n_val x)) = Ok false /\ contains key_of hash keq (o_d s') j (key_of j (n_val y)) = Ok false.
Proof. exact (fun E K sz nk key_of hash keq rep clone pocca pocma Hsz KL R C => EraseThrowOrdered.ordered_lost sz nk key_of hash keq rep clone pocca pocma Hsz KL R C). Qed.
Print Assumptions C84_ordered_refuted.

(** An ordered map of (k, 10 k); 3 was moved to the back, so that the order is not the one of the slots. *)
Definition kept : yworld := omaps (map (fun k => YOn 0 (OInsert (k, 10 * k))) [3; 4; 5; 6] ++ [YOn 0 (OErase 0 3); YOn 0 (OInsert (3, 30))]).
Definition seen (x : res (heap * odense entry * option Z)) (l : list Z) : res (list entry * Z * bool * list (res bool)) :=
  let* y := x in let '(h, s, a) := y in let* e := o_iterate 48 h s in
  Ok (e, d_size (o_d s), match a with None => true | _ => false end, map (fun k => contains key1 ehash ekeq (o_d s) 0 k) l).
Definition erase0 (bad : bool) (i : Z) := o_t_erase_at 48 1 bad (fst kept) (snd kept 0%nat) (slot 48 (snd kept 0%nat) i).
(** Slots 6, 4, 5, 3; order 4, 5, 6, 3.  Erasing slot 1 without a throw, and slot 3 (the last). *)
Example C84_ordered_case : ynormal kept /\ delems (o_d (snd kept 0%nat)) = [(6, 60); (4, 40); (5, 50); (3, 30)] /\
  o_iterate 48 (fst kept) (snd kept 0%nat) = Ok [(4, 40); (5, 50); (6, 60); (3, 30)] /\
  seen (erase0 false 1) [3; 4; 5; 6] = Ok ([(5, 50); (6, 60); (3, 30)], 3, false, [Ok true; Ok false; Ok true; Ok true]) /\
  seen (erase0 true 3) [3; 4; 5; 6] = Ok ([(4, 40); (5, 50); (6, 60)], 3, false, [Ok false; Ok true; Ok true; Ok true]).
Proof. split; [apply omaps_occur; vm_compute; reflexivity|]. vm_compute. repeat split; reflexivity. Qed.
(** Erasing slot 1 with a throw: 4 stands in the place of 3, and neither is found. *)
Example C84_ordered_refuted_case : ynormal kept /\ apart key1 ehash (o_d (snd kept 0%nat)) 0 1 3 /\
  seen (erase0 true 1) [3; 4; 5; 6] = Ok ([(5, 50); (6, 60); (4, 40)], 4, true, [Ok false; Ok false; Ok true; Ok true]).
Proof.
  split; [apply omaps_occur; vm_compute; reflexivity|].
  split; [eexists _, _; split; [vm_compute; reflexivity|split; [vm_compute; reflexivity|vm_compute; discriminate]]|]. vm_compute. reflexivity.
Qed.
