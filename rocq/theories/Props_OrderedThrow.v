(** Throwing user functions on ordered dense containers (C71). *)
From Coq Require Import ZArith List Bool Lia.
From Verif Require Import Base MapSpec Instances Float32 DenseSpec World DenseModel DenseRun LinkModel OrderedSpec OrderedWorldSpec OrderedDense OrderedRun OrderedWorld
  DenseInstances OrderedInstances ThrowSpec OrderedThrowSpec OrderedThrowModel OrderedThrowProofs OrderedGhost.
Import ListNotations.
Open Scope Z_scope.

(** Histories in which the hash function, key_equal or the constructor of a new element throws
    in any call, on every ordered dense container that occurs: a call that throws changes
    neither the elements nor their order, forwards and backwards; later calls work as before;
    links of other containers are not touched; up to the first call that is not covered (an
    uncovered call of C35; a throwing constructor that has to be called; a search that throws
    in emplace). *)
Theorem C71_partial : forall (E K : Type) sz nk (key_of : nat -> E -> K) hash keq rep clone pocca pocma, 0 < sz ->
  key_laws hash keq -> (forall x e, key_of 0%nat (rep x e) = key_of 0%nat x) -> (forall j e, (j < nk)%nat -> key_of j (clone e) = key_of j e) ->
  forall hw i l hist, yoccurs sz nk key_of hash keq rep clone pocca pocma hw -> o_iterate sz (fst hw) (snd hw i) = Ok l -> othistory_ok nk hist ->
  otrefines sz nk key_of hash keq rep (fst hw, snd hw i) l hist.
Proof. exact (fun E K sz nk key_of hash keq rep clone pocca pocma Hsz KL R C => occurs_othistory sz nk key_of hash keq rep clone pocca pocma Hsz KL R C). Qed.
Print Assumptions C71_partial.
Definition mixed (l : list (fault * ocall entry Z)) : list (fault * oenv * ocall entry Z) := map (fun x => (fst (snd x), fst x, snd (snd x))) (place_from (2 ^ 20) l).
Definition some2 : @yworld entry := omaps [YOn 0 (OInsert (5, 50)); YOn 0 (OInsert (1, 10)); YOn 0 (OInsert (7, 70)); YOn 0 (OErase 0 5)].
(** The third call grows the element array and then throws; the array has moved. *)
Example C71_case :
  let h := mixed [(SearchThrows, OInsert (9, 90)); (Fine, OInsert (2, 20)); (SearchThrows, OAssign (3, 30)); (CtorThrows, OInsert (1, 11)); (SearchThrows, OErase 0 1); (SearchThrows, OFind 0 1);
                  (CtorThrows, OAssign (1, 12)); (Fine, OEmplace (9, 91)); (SearchThrows, OClear); (SearchThrows, OInsert (4, 40)); (Fine, OInsert (4, 41)); (CtorThrows, OIterate); (Fine, OBackwards)] in
  ynormal some2 /\ o_iterate 48 (fst some2) (snd some2 0%nat) = Ok [(1, 10); (7, 70)] /\ othistory_ok 1 h /\
  match otrun 48 1 key1 ehash ekeq erep (fst some2, snd some2 0%nat) h with Ok (_, rs) => rs | Err _ => [] end =
  [QThrow; QInserted (2, 20) true; QThrow; QInserted (1, 10) false; QThrow; QThrow; QInserted (1, 12) false; QInserted (9, 91) true; QUnit; QThrow; QInserted (4, 41) true; QList [(4, 41)]; QList [(4, 41)]].
Proof.
  split; [apply omaps_occur; vm_compute; reflexivity|]. split; [vm_compute; reflexivity|]. split; [|vm_compute; reflexivity].
  repeat (apply Forall_cons; [split; [apply dv0_ok|cbn; auto]|]). apply Forall_nil.
Qed.

(** A constructor that throws: the container counts one element too many, which iteration does
    not show, in either direction; to clear (or destroy) the container, or to erase any of its
    elements by iterator, accesses an object that was never constructed. *)
Theorem C71_ctor_refuted : forall (E K : Type) sz nk (key_of : nat -> E -> K) hash keq rep clone pocca pocma, 0 < sz ->
  key_laws hash keq -> (forall x e, key_of 0%nat (rep x e) = key_of 0%nat x) -> (forall j e, (j < nk)%nat -> key_of j (clone e) = key_of j e) ->
  forall hw i l v e, yoccurs sz nk key_of hash keq rep clone pocca pocma hw -> o_iterate sz (fst hw) (snd hw i) = Ok l -> denv_ok (ov_d v) -> o_has_room sz nk v (fst hw, snd hw i) ->
  let hs := (fst hw, snd hw i) in
  (dnew nk key_of keq e l -> exists hs', otexec sz nk key_of hash keq rep CtorThrows v hs (OInsert e) = Ok (hs', QThrow) /\ oghostly sz nk l (Z.of_nat (length l)) hs') /\
  (dnew nk key_of keq e l -> nk = 1%nat -> exists hs', otexec sz nk key_of hash keq rep CtorThrows v hs (OAssign e) = Ok (hs', QThrow) /\ oghostly sz nk l (Z.of_nat (length l)) hs') /\
  exists hs', otexec sz nk key_of hash keq rep CtorThrows v hs (OEmplace e) = Ok (hs', QThrow) /\ oghostly sz nk l (Z.of_nat (length l)) hs'.
Proof. exact (fun E K sz nk key_of hash keq rep clone pocca pocma Hsz KL R C => occurs_ctor sz nk key_of hash keq rep clone pocca pocma Hsz KL R C). Qed.
Print Assumptions C71_ctor_refuted.
Definition results_of (h : list (fault * ocall entry Z)) : list (dret entry) + err :=
  match otrun 48 1 key1 ehash ekeq erep (fst some2, snd some2 0%nat) (mixed h) with Ok (_, rs) => inl rs | Err e => inr e end.
Example C71_ctor_case :
  o_has_room 48 1 (at_ (2 ^ 20)) (fst some2, snd some2 0%nat) /\
  results_of [(CtorThrows, OInsert (9, 90)); (Fine, OSize); (Fine, OIterate); (Fine, OBackwards)] = inl [QThrow; QNum 3; QList [(1, 10); (7, 70)]; QList [(7, 70); (1, 10)]] /\
  map (fun c => results_of [(CtorThrows, OEmplace (1, 90)); (Fine, c)]) [OClear; OEraseAt 0; OEraseAt 1; OErase 0 7] = [inr DeadObject; inr DeadObject; inr DeadObject; inr DeadObject].
Proof. split; [apply has_roomb_ok; vm_compute; reflexivity|]. split; vm_compute; reflexivity. Qed.

(** A hash function or key_equal that throws in emplace: the new element is counted and takes a
    slot, but iteration does not show it. *)
Theorem C71_search_refuted : forall (E K : Type) sz nk (key_of : nat -> E -> K) hash keq rep clone pocca pocma, 0 < sz ->
  key_laws hash keq -> (forall x e, key_of 0%nat (rep x e) = key_of 0%nat x) -> (forall j e, (j < nk)%nat -> key_of j (clone e) = key_of j e) ->
  forall hw i l v e, yoccurs sz nk key_of hash keq rep clone pocca pocma hw -> o_iterate sz (fst hw) (snd hw i) = Ok l -> denv_ok (ov_d v) -> o_has_room sz nk v (fst hw, snd hw i) ->
  exists hs', otexec sz nk key_of hash keq rep SearchThrows v (fst hw, snd hw i) (OEmplace e) = Ok (hs', QThrow) /\ size (o_d (snd hs')) = Z.of_nat (length l) + 1 /\
    o_iterate sz (fst hs') (snd hs') = Ok l /\ o_backwards sz (fst hs') (snd hs') = Ok (rev l).
Proof. exact (fun E K sz nk key_of hash keq rep clone pocca pocma Hsz KL R C => occurs_search sz nk key_of hash keq rep clone pocca pocma Hsz KL R C). Qed.
Print Assumptions C71_search_refuted.
Example C71_search_case :
  results_of [(SearchThrows, OEmplace (9, 90)); (Fine, OSize); (Fine, OIterate); (Fine, OFind 0 9); (Fine, OInsert (9, 91)); (Fine, OSize); (Fine, OIterate)] =
  inl [QThrow; QNum 3; QList [(1, 10); (7, 70)]; QFound None; QInserted (9, 91) true; QNum 4; QList [(1, 10); (7, 70); (9, 91)]].
Proof. vm_compute. reflexivity. Qed.
