(** The erase loop over unordered dense containers (C63).  The loop over ordered dense
    containers, where the iterator returned by erase may be invalid, is C36 and C51; on
    sparse containers it is C11. *)
From Coq Require Import ZArith List Bool Lia Permutation.
From Verif Require Import Base MapSpec Bits Instances DenseSpec DenseWorldSpec World DenseModel DenseRun DenseWorld DenseInstances DenseFinal EraseLoop.
Import ListNotations.
Open Scope Z_scope.

(** C63: the loop applies the predicate once to each element, removes those for which it
    holds, keeps the others, and leaves a container that behaves as its elements say. *)
Theorem C63 : forall (E K : Type) nk (key_of : nat -> E -> K) hash keq rep clone pocca pocma,
  key_laws hash keq -> (forall x e, key_of 0%nat (rep x e) = key_of 0%nat x) -> (forall j e, (j < nk)%nat -> key_of j (clone e) = key_of j e) ->
  forall (s : dense E) pred, doccurs nk key_of hash keq rep clone pocca pocma s ->
  exists s' seen, erase_each nk pred s = Ok (s', seen) /\ Permutation seen (delems s) /\
    Permutation (delems s') (filter (fun x => negb (pred x)) (delems s)) /\
    forall h, dhistory_ok nk h -> drefines nk key_of hash keq rep s' (delems s') h.
Proof. exact (fun E K nk key_of hash keq rep clone pocca pocma KL R C => erase_each_final nk key_of hash keq rep clone pocca pocma KL R C). Qed.
Print Assumptions C63.

(** Seven elements, four removed: the element that takes the place of a removed one is
    visited too, also when it is to be removed itself. *)
Example C63_case :
  let s := dmap (map (fun k => XOn 0 (DInsert (k, 10 * k))) [1; 2; 3; 4; 5; 6; 7]) 0 in
  doccurs 1 key1 ehash ekeq erep sameel false true s /\
  match erase_each 1 (fun e => Z.odd (fst e)) s with
  | Ok (s', seen) => map fst seen = [1; 7; 6; 2; 3; 5; 4] /\ map fst (delems s') = [6; 2; 4]
  | Err _ => False
  end.
Proof. split; [apply dmap_occurs; vm_compute; reflexivity|vm_compute; split; reflexivity]. Qed.
