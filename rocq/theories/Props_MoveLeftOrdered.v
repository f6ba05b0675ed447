(** Property C86 on ordered dense containers: moves between unequal allocators left by a throwing
    element move. *)
From Coq Require Import ZArith List Bool Lia.
From Verif Require Import Base MapSpec DenseSpec DenseModel DenseRun LinkModel Instances DenseInstances OrderedSpec OrderedDense OrderedRun OrderedWorldSpec OrderedWorld OrderedInstances
  UnequalDense MoveLeftModel MoveLeftOrderedModel MoveLeftOrdered MoveLeftOrderedQuiet.
Import ListNotations.
Open Scope Z_scope.

(** With enough moves the calls are those of C68, whether or not the [noexcept] clause holds
    ([leaves]: if it does, refused memory ends the program).  Missing: throwing moves. *)
Theorem C86_ordered_dense_partial : forall (E K : Type) sz nk (key_of : nat -> E -> K) hash keq rep clone pocca pocma,
  0 < sz -> key_laws hash keq -> (forall x e, key_of 0%nat (rep x e) = key_of 0%nat x) -> (forall j e, (j < nk)%nat -> key_of j (clone e) = key_of j e) ->
  forall ne n v h w i j l, yoccurs sz nk key_of hash keq rep clone pocca pocma (h, w) -> denv_ok (ov_d v) -> o_iterate sz h (w j) = Ok l -> (length l <= n)%nat ->
  om_move_assign sz nk ne n v h (w i) (w j) = leaves ne (o_move_assign sz nk false false v h (w i) (w j)) /\
  om_move_ctor sz nk ne n v (o_destroy sz h (w i)) (o_hdr (w i)) (w j) = leaves ne (o_move_ctor sz nk false v (o_destroy sz h (w i)) (o_hdr (w i)) (w j)).
Proof. exact (fun E K sz nk key_of hash keq rep clone pocca pocma Hsz KL R C => quiet_moves sz nk key_of hash keq rep clone pocca pocma Hsz KL R C). Qed.
Print Assumptions C86_ordered_dense_partial.

(** Whenever a move throws, the first included, the program is ended if the [noexcept] clause
    holds.  Otherwise the source keeps its size but begin() is end(); its table is as it was, or
    as in [C86_dense_refuted] after [n] > 0 moves.  The iterators of the target go through as
    many elements as the source had, some of which are in the source's array; one of them is
    the slot [n] of the target, in which no element was constructed.  ([refused]: memory is
    refused, nothing is moved but the header.  [BadPlacement]: the model's memory has no room.) *)
Theorem C86_ordered_dense_refuted : forall (E K : Type) sz nk (key_of : nat -> E -> K) hash keq rep clone pocca pocma,
  0 < sz -> key_laws hash keq -> (forall x e, key_of 0%nat (rep x e) = key_of 0%nat x) -> (forall j e, (j < nk)%nat -> key_of j (clone e) = key_of j e) ->
  forall ne n v h w i j l, yoccurs sz nk key_of hash keq rep clone pocca pocma (h, w) -> i <> j -> denv_ok (ov_d v) -> o_iterate sz h (w j) = Ok l -> (n < length l)%nat ->
  let o := o_d (w j) in
  let broken o1 := DenseModel.size o1 = DenseModel.size o /\ delems o1 = skipn n (delems o) /\
    clear_data o1 = Err DeadObject /\ DenseModel.clear o1 = Err DeadObject /\ DenseModel.iterate o1 = Err DeadObject /\
    (forall c e, (c < nk)%nat -> In e (firstn n (delems o)) -> DenseModel.contains key_of hash keq o1 c (key_of c e) = Err DeadObject) in
  let left (bc cap : Z) h' s' o' := DenseModel.size (o_d o') = DenseModel.size o /\ o_iterate sz h' o' = Ok [] /\ (o_d o' = o \/ (0 < n)%nat /\ broken (o_d o')) /\
    (refused (dv_dlim (ov_d v)) (dv_slim (ov_d v)) bc cap o \/
     exists a ls, next_link h' (o_hdr s') = Ok a /\ walk (S (Z.to_nat (DenseModel.size o))) h' a (o_hdr s') = Ok ls /\ Z.of_nat (length ls) = DenseModel.size o /\
       In (slot sz s' (Z.of_nat n)) ls /\ delems (o_d s') = firstn n (delems o) /\ forall x, get_node (o_d s') (Z.of_nat n) <> Ok x) in
  (let r := om_move_assign sz nk ne n v h (w i) (w j) in
   r = Err BadPlacement \/ (ne = true /\ r = Err Terminated) \/ exists h' s' o', ne = false /\ r = Ok (h', s', o', false) /\ left (d_bc (o_d (w i))) (d_cap (o_d (w i))) h' s' o') /\
  (let r := om_move_ctor sz nk ne n v (o_destroy sz h (w i)) (o_hdr (w i)) (w j) in
   r = Err BadPlacement \/ (ne = true /\ r = Err Terminated) \/ exists h' s' o', ne = false /\ r = Ok (h', s', o', false) /\ left 0 0 h' s' o').
Proof.
  exact (fun E K sz nk key_of hash keq rep clone pocca pocma Hsz KL R C ne n v h w i j l Ho Hij V Hl Hn =>
    conj (left_assign sz nk key_of hash keq rep clone pocca pocma Hsz KL R C ne n v h w i j l Ho Hij V Hl Hn) (left_ctor sz nk key_of hash keq rep clone pocca pocma Hsz KL R C ne n v h w i j l Ho Hij V Hl Hn)).
Qed.
Print Assumptions C86_ordered_dense_refuted.

(** Container 1 has three elements, container 0 two.  With no throw the target shows the three;
    with a throwing first move both containers are broken although nothing was moved: the
    source finds its elements but shows none. *)
Definition two_maps : yworld := omaps (map (fun k => YOn 1 (OInsert (k, 10 * k))) [3; 11; 4] ++ map (fun k => YOn 0 (OInsert (k, k))) [1; 4]).
Definition left_by (n : nat) := om_move_assign 48 1 false n (at_ (2 ^ 30)) (fst two_maps) (snd two_maps 0%nat) (snd two_maps 1%nat).
Example C86_ordered_dense_case : ynormal two_maps /\ o_iterate 48 (fst two_maps) (snd two_maps 1%nat) = Ok [(3, 30); (11, 110); (4, 40)] /\
  match left_by 3 with Ok (h, s, o, b) => b = true /\ o_iterate 48 h s = Ok [(3, 30); (11, 110); (4, 40)] /\ o_iterate 48 h o = Ok [] | Err _ => False end.
Proof. split; [apply omaps_occur; vm_compute; reflexivity|]. split; [vm_compute; reflexivity|]. vm_compute. auto. Qed.
Example C86_ordered_dense_refuted_case :
  match left_by 0 with
  | Ok (h, s, o, b) => b = false /\ o_iterate 48 h o = Ok [] /\ DenseModel.size (o_d o) = 3 /\ DenseModel.contains key1 ehash ekeq (o_d o) 0 11 = Ok true /\
      DenseModel.size (o_d s) = 0 /\ (let* a := next_link h (o_hdr s) in let* l := walk 4 h a (o_hdr s) in deref_all 48 s (firstn 1 l)) = Err DeadObject
  | Err _ => False end /\
  match left_by 2 with
  | Ok (h, s, o, b) => b = false /\ o_iterate 48 h o = Ok [] /\ DenseModel.size (o_d o) = 3 /\ DenseModel.contains key1 ehash ekeq (o_d o) 0 11 = Err DeadObject /\
      DenseModel.size (o_d s) = 2 /\ (let* a := next_link h (o_hdr s) in let* l := walk 4 h a (o_hdr s) in deref_all 48 s (firstn 2 l)) = Ok [(3, 30); (11, 110)] /\
      (let* a := next_link h (o_hdr s) in let* l := walk 4 h a (o_hdr s) in deref_all 48 s l) = Err DeadObject
  | Err _ => False end.
Proof. split; vm_compute; repeat split. Qed.
(** The same calls with a [noexcept] clause that holds. *)
Example C86_ordered_dense_noexcept_case :
  om_move_assign 48 1 true 0 (at_ (2 ^ 30)) (fst two_maps) (snd two_maps 0%nat) (snd two_maps 1%nat) = Err Terminated /\
  match om_move_assign 48 1 true 3 (at_ (2 ^ 30)) (fst two_maps) (snd two_maps 0%nat) (snd two_maps 1%nat) with
  | Ok (h, s, _, b) => b = true /\ o_iterate 48 h s = Ok [(3, 30); (11, 110); (4, 40)] | Err _ => False end.
Proof. vm_compute. auto. Qed.
