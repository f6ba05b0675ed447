(** Heap objects of stable containers and node handles (C57, C58). *)
From Coq Require Import ZArith List Bool Lia.
From Verif Require Import Base NodeModel NodeSpec NodeProofs NodeRun NodeFaults.
Import ListNotations.
Open Scope Z_scope.

(** Programs with equal allocators and constructors that do not throw: every statement of the
    program is executed without an error and every object has one owner -- unless the program
    inserts an empty handle.  When all containers and handles are empty at the end, every block
    was given back. *)
Theorem C57 : forall K V (keq : K -> K -> bool) pocca pocma dflt (h : list (nenv * ncall K V)), Forall (plain dflt) h ->
  (exists w bs, nrun keq pocca pocma dflt (nstart dflt (fun _ => dflt)) h = Ok (w, bs) /\ owned w /\
     ((forall o, held w o = []) -> forall p, m_cell (w_m w) p = None)) \/
  (exists h1 v c h2 w1 bs, h = h1 ++ (v, c) :: h2 /\ nrun keq pocca pocma dflt (nstart dflt (fun _ => dflt)) h1 = Ok (w1, bs) /\ owned w1 /\ inserts_nothing w1 c).
Proof. exact (fun K V keq pocca pocma dflt h => plain_programs keq pocca pocma dflt h). Qed.
Print Assumptions C57.

(** Programs over containers of int * int with std::allocator (number 0). *)
Definition run0 := nrun (K := Z) (V := Z) Z.eqb false true 0 (nstart 0 (fun _ => 0)).
Definition ok (c : ncall Z Z) : nenv * ncall Z Z := (calm, c).
(** What c_0 .. c_2 and h_0 .. h_1 hold, and how many blocks are in use. *)
Definition contents (w : nworld Z Z) (o : holder) : list (option (cell Z Z)) := map (m_cell (w_m w)) (held w o).
Definition in_use (w : nworld Z Z) : nat :=
  length (filter (fun p => match m_cell (w_m w) (Z.of_nat p) with Some _ => true | None => false end) (seq 0 (Z.to_nat (m_next (w_m w))))).
Definition view (x : res (nworld Z Z * list bool)) :=
  match x with Ok (w, bs) => Some (contents w (HC 0), contents w (HC 1), contents w (HC 2), contents w (HH 0), contents w (HH 1), in_use w, bs) | Err _ => None end.
(** Insertion, a node that goes to another container, one that comes back because its key is
    taken, a copy, a merge, a failed allocation, a move and a swap. *)
Definition prog : list (nenv * ncall Z Z) :=
  [ok (NInsert 0 1 10); ok (NEmplace 0 2 20); ok (NEmplace 0 2 21); ok (NInsert 1 2 22); ok (NExtract 0 2 0); ok (NInsertBack 1 0); ok (NExtract 0 1 1); ok (NInsertNode 1 1);
   (mkne true false true, NInsert 0 3 30); ok (NAssign 0 4 40); ok (NAssign 0 4 41); ok (NCopy 2 1); ok (NMerge 0 2); ok (NMove 2 0); ok (NSwap 0 1)].
Example C57_case : Forall (plain 0) prog /\
  view (run0 prog) = Some ([Some (Obj 0 2 (Some 22)); Some (Obj 0 1 (Some 10))], [], [Some (Obj 0 4 (Some 41)); Some (Obj 0 2 (Some 22)); Some (Obj 0 1 (Some 10))], [Some (Obj 0 2 (Some 20))], [], 6%nat,
    [true; true; true; true; true; true; true; true; false; true; true; true; true; true; true]) /\
  view (run0 (prog ++ map ok [NNew 0 0; NNew 1 0; NNew 2 0; NHandleDrop 0; NHandleDrop 1])) = Some ([], [], [], [], [], 0%nat, repeat true 8 ++ [false] ++ repeat true 11).
Proof. split; [repeat constructor|]. split; vm_compute; reflexivity. Qed.

(** All programs: up to the first statement that is not covered. *)
Theorem C58_partial : forall K V (keq : K -> K -> bool) pocca pocma dflt (al : nat -> Z) (h : list (nenv * ncall K V)),
  (exists w bs, nrun keq pocca pocma dflt (nstart dflt al) h = Ok (w, bs) /\ owned w /\
     ((forall o, held w o = []) -> forall p, m_cell (w_m w) p = None)) \/
  (exists h1 v c h2 w1 bs, h = h1 ++ (v, c) :: h2 /\ nrun keq pocca pocma dflt (nstart dflt al) h1 = Ok (w1, bs) /\ owned w1 /\ nblocked keq pocma dflt v w1 c).
Proof. exact (fun K V keq pocca pocma dflt al h => all_programs keq pocca pocma dflt al h). Qed.
Print Assumptions C58_partial.
(** Containers with the allocators 1, 2, 3 that do not propagate; copies between them. *)
Definition al3 (i : nat) : Z := Z.of_nat i + 1.
Definition run3 := nrun (K := Z) (V := Z) Z.eqb false false 0 (nstart 0 al3).
Definition prog3 := [ok (NInsert 0 1 10); ok (NInsert 1 2 20); (mkne true false true, NEmplace 1 5 50); (mkne false true true, NInsert 1 5 50); ok (NCopy 2 0); ok (NExtractNew 0 1 0); ok (NInsertBack 1 0)].
Example C58_case :
  view (run3 (firstn 6 prog3)) = Some ([], [Some (Obj 2 2 (Some 20))], [Some (Obj 3 1 (Some 10))], [Some (Obj 1 1 (Some 10))], [], 3%nat, [true; true; false; false; true; true]) /\
  exists w bs, run3 (firstn 6 prog3) = Ok (w, bs) /\ nblocked Z.eqb false 0 calm w (NInsertBack 1 0).
Proof.
  split; [vm_compute; reflexivity|].
  assert (X : forall (r : res (nworld Z Z * list bool)) (P : nworld Z Z -> Prop), match r with Ok (w, _) => P w | Err _ => False end -> exists w bs, r = Ok (w, bs) /\ P w)
    by (intros [[w bs]|x] P Hp; [exact (ex_intro _ w (ex_intro _ bs (conj eq_refl Hp)))|destruct Hp]).
  apply X. vm_compute. right. left. discriminate.
Qed.

(** A constructor that throws, and an emplace that does not get the memory to grow, leave a block
    that nothing holds. *)
Theorem C58_insert_refuted : forall K V (keq : K -> K -> bool) pocca pocma dflt v (w : nworld K V) i k x,
  reached keq pocca pocma dflt w -> e_grow v = true -> e_alloc v = true -> e_ctor v = false -> absent keq w i k ->
  (exists w', nexec keq pocca pocma dflt v w (NInsert i k x) = Ok (w', false) /\ leaked w') /\
  (exists w', nexec keq pocca pocma dflt v w (NAssign i k x) = Ok (w', false) /\ leaked w').
Proof. exact (fun K V keq pocca pocma dflt => throw_insert keq pocca pocma dflt). Qed.
Print Assumptions C58_insert_refuted.
Theorem C58_emplace_refuted : forall K V (keq : K -> K -> bool) pocca pocma dflt v (w : nworld K V) i k x,
  reached keq pocca pocma dflt w -> e_alloc v = true -> e_ctor v = false \/ (e_grow v = false /\ absent keq w i k) ->
  exists w', nexec keq pocca pocma dflt v w (NEmplace i k x) = Ok (w', false) /\ leaked w'.
Proof. exact (fun K V keq pocca pocma dflt => throw_emplace keq pocca pocma dflt). Qed.
Print Assumptions C58_emplace_refuted.
Example C58_leak_case :
  map (fun c => match run0 [ok (NInsert 0 1 10); c; ok (NNew 0 0)] with Ok (w, bs) => Some (held w (HC 0), in_use w, bs) | Err _ => None end)
    [(mkne true true false, NInsert 0 2 20); (mkne true true false, NEmplace 0 1 20); (mkne false true true, NEmplace 0 2 20); (mkne true true false, NAssign 0 2 20); ok (NInsert 0 2 20)] =
  [Some ([], 1%nat, [true; false; true]); Some ([], 1%nat, [true; false; true]); Some ([], 1%nat, [true; false; true]); Some ([], 1%nat, [true; false; true]); Some ([], 0%nat, [true; true; true])].
Proof. vm_compute. reflexivity. Qed.

(** insert_or_assign on a present key whose new mapped value throws: the destructor of the
    container, and clear, destroy the mapped value a second time. *)
Theorem C58_assign_refuted : forall K V (keq : K -> K -> bool) pocca pocma dflt v v' (w : nworld K V) i k x,
  reached keq pocca pocma dflt w -> e_ctor v = false -> ~ absent keq w i k ->
  exists w', nexec keq pocca pocma dflt v w (NAssign i k x) = Ok (w', false) /\
    forall a, nexec keq pocca pocma dflt v' w' (NNew i a) = Err DeadObject /\ nexec keq pocca pocma dflt v' w' (NClear i) = Err DeadObject.
Proof. exact (fun K V keq pocca pocma dflt => throw_assign keq pocca pocma dflt). Qed.
Print Assumptions C58_assign_refuted.
Example C58_assign_case : view (run0 [ok (NInsert 0 1 10); ok (NInsert 0 2 20); (mkne true true false, NAssign 0 2 21)]) = Some ([Some (Obj 0 1 (Some 10)); Some (Obj 0 2 None)], [], [], [], [], 2%nat, [true; true; false]) /\
  run0 [ok (NInsert 0 1 10); ok (NInsert 0 2 20); (mkne true true false, NAssign 0 2 21); ok (NNew 0 0)] = Err DeadObject.
Proof. split; vm_compute; reflexivity. Qed.

(** A handle whose element was inserted in a container with an unequal allocator destroys that
    element again. *)
Theorem C58_handle_refuted : forall K V (keq : K -> K -> bool) pocca pocma dflt v v' (w : nworld K V) i j,
  reached keq pocca pocma dflt w -> e_grow v = true -> e_alloc v = true -> e_ctor v = true -> h_ptr (w_h w j) <> 0 -> h_alloc (w_h w j) <> t_alloc (w_c w i) ->
  (forall a k x, m_cell (w_m w) (h_ptr (w_h w j)) = Some (Obj a k x) -> absent keq w i k) ->
  exists w', nexec keq pocca pocma dflt v w (NInsertNode i j) = Ok (w', true) /\ nexec keq pocca pocma dflt v' w' (NHandleDrop j) = Err UseAfterFree.
Proof. exact (fun K V keq pocca pocma dflt => handle_unequal keq pocca pocma dflt). Qed.
Print Assumptions C58_handle_refuted.
Example C58_handle_case : run3 [ok (NInsert 0 1 10); ok (NExtractNew 0 1 0); ok (NInsertNode 1 0); ok (NHandleDrop 0)] = Err UseAfterFree /\
  view (run3 [ok (NInsert 0 1 10); ok (NExtractNew 0 1 0); ok (NInsertNode 1 0)]) = Some ([], [Some (Obj 2 1 (Some 10))], [], [None], [], 1%nat, [true; true; true]).
Proof. split; vm_compute; reflexivity. Qed.

(** merge of containers with unequal allocators fails as soon as one element has to move. *)
Theorem C58_merge_refuted : forall K V (keq : K -> K -> bool) pocca pocma dflt v (w : nworld K V) i j,
  reached keq pocca pocma dflt w -> i <> j -> e_grow v = true -> t_alloc (w_c w i) <> t_alloc (w_c w j) ->
  (exists p a k x, In p (t_nodes (w_c w j)) /\ m_cell (w_m w) p = Some (Obj a k x) /\ absent keq w i k) ->
  exists e, nexec keq pocca pocma dflt v w (NMerge i j) = Err e.
Proof. exact (fun K V keq pocca pocma dflt v w i j R => merge_unequal keq pocca pocma dflt v w i j (reached_winv keq pocca pocma dflt w R)). Qed.
Print Assumptions C58_merge_refuted.
Example C58_merge_case : run3 [ok (NInsert 0 1 10); ok (NInsert 1 1 11); ok (NInsert 1 2 20); ok (NMerge 0 1)] = Err UseAfterFree /\
  view (run0 [ok (NInsert 0 1 10); ok (NInsert 1 1 11); ok (NInsert 1 2 20); ok (NMerge 0 1)]) = Some ([Some (Obj 0 1 (Some 10)); Some (Obj 0 2 (Some 20))], [Some (Obj 0 1 (Some 11))], [], [], [], 3%nat, [true; true; true; true]).
Proof. split; vm_compute; reflexivity. Qed.

(** After a move assignment between unequal allocators that do not propagate, the destructor
    gives blocks back to the wrong allocator. *)
Theorem C58_move_refuted : forall K V (keq : K -> K -> bool) pocca dflt v v' (w : nworld K V) i j a,
  reached keq pocca false dflt w -> i <> j -> t_alloc (w_c w i) <> t_alloc (w_c w j) -> t_nodes (w_c w j) <> [] ->
  exists w', nexec keq pocca false dflt v w (NMove i j) = Ok (w', true) /\ nexec keq pocca false dflt v' w' (NNew i a) = Err BadFree.
Proof. exact (fun K V keq pocca dflt v v' w i j a R Hij Ha Hn => move_unequal keq pocca false dflt v v' w i j a (reached_winv keq pocca false dflt w R) (conj eq_refl (conj Ha Hn)) Hij). Qed.
Print Assumptions C58_move_refuted.
Example C58_move_case : run3 [ok (NInsert 0 1 10); ok (NInsert 1 2 20); ok (NMove 0 1); ok (NNew 0 1)] = Err BadFree /\
  view (nrun Z.eqb false true 0 (nstart 0 al3) [ok (NInsert 0 1 10); ok (NInsert 1 2 20); ok (NMove 0 1); ok (NNew 0 1)]) = Some ([], [], [], [], [], 0%nat, [true; true; true; true]).
Proof. split; vm_compute; reflexivity. Qed.

(** h = c.extract(k) for an absent key fails the assertion when h has another allocator than a
    default constructed one -- as it has after an earlier extract from c. *)
Theorem C58_extract_refuted : forall K V (keq : K -> K -> bool) pocca dflt v (w : nworld K V) i k j,
  reached keq pocca false dflt w -> absent keq w i k -> h_alloc (w_h w j) <> dflt -> nexec keq pocca false dflt v w (NExtract i k j) = Err AssertFailed.
Proof. exact (fun K V keq pocca dflt v w i k j R => extract_absent keq pocca false dflt v w i k j (reached_winv keq pocca false dflt w R) eq_refl). Qed.
Print Assumptions C58_extract_refuted.
Example C58_extract_case : run3 [ok (NInsert 0 1 10); ok (NExtractNew 0 1 0); ok (NExtract 0 7 0)] = Err AssertFailed /\
  view (run0 [ok (NInsert 0 1 10); ok (NExtractNew 0 1 0); ok (NExtract 0 7 0)]) = Some ([], [], [], [], [], 0%nat, [true; true; true]).
Proof. split; vm_compute; reflexivity. Qed.
