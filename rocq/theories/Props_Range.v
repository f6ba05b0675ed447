(** Inserting, assigning and constructing from ranges (C69): insert(first, last), assign,
    insert and operator= with initializer lists, range constructors.  [ra]: the iterators are
    random access iterators; with them the tables reserve room first. *)
From Coq Require Import ZArith List Bool Lia Permutation.
From Verif Require Import Base MapSpec Instances DenseSpec World DenseModel DenseRun DenseWorldSpec DenseWorld DenseInstances LinkModel OrderedSpec OrderedWorldSpec OrderedDense OrderedRun OrderedWorld OrderedInstances
  RangeSpec RangeModel RangeProofs.
From Verif Require Props_Ordered.
From Verif Require Import Bits WorldSpec SwissModel SwissInv SwissRun PlaceInstances SwissOrderedSpec SwissOrdered SwissOrderedRun SwissOrderedWorldSpec SwissOrderedWorld SwissOrderedInstances Props_SwissOrdered RangeSwiss.
Import ListNotations.
Open Scope Z_scope.

(** ** Unordered sparse and stable containers. *)
(** The elements whose key is new are added, the first of those with equal keys; an exception
    leaves what was added before it.  The table behaves accordingly from then on. *)
Theorem C69_sparse_insert : forall (E K : Type) f (key_of : E -> K) hash keq rep,
  key_laws hash keq -> (forall a b, keq (key_of a) (key_of b) = true -> key_of (rep a b) = key_of a) ->
  forall ra l lim s, occurs f key_of hash keq rep s -> lim < 2 ^ 59 -> s_size s + Z.of_nat (length l) < 2 ^ 64 ->
  exists s' b n, SwissModel.insert_range f key_of hash keq ra lim s l = Ok (s', b) /\ behaves f key_of hash keq rep s' (elems s') /\
    Permutation (elems s') (added (RangeSpec.has_key keq key_of) (elems s) (firstn n l)) /\ (b = true -> firstn n l = l).
Proof. exact (fun E K f key_of hash keq rep KL R => t_range_occurs f key_of hash keq rep KL R). Qed.
Print Assumptions C69_sparse_insert.
(** assign: the old elements are gone. *)
Theorem C69_sparse_assign : forall (E K : Type) f (key_of : E -> K) hash keq rep,
  key_laws hash keq -> (forall a b, keq (key_of a) (key_of b) = true -> key_of (rep a b) = key_of a) ->
  forall ra l lim s, occurs f key_of hash keq rep s -> lim < 2 ^ 59 -> Z.of_nat (length l) < 2 ^ 64 ->
  exists s' b n, assign_range hash keq f key_of ra lim s l = Ok (s', b) /\ behaves f key_of hash keq rep s' (elems s') /\
    Permutation (elems s') (added (RangeSpec.has_key keq key_of) [] (firstn n l)) /\ (b = true -> firstn n l = l).
Proof. exact (fun E K f key_of hash keq rep KL R => t_assign_occurs f key_of hash keq rep KL R). Qed.
Print Assumptions C69_sparse_assign.

Definition some_table (f : simd) : @swiss entry := state (erun f [CInsert (1, 10); CInsert (2, 20); CInsert (17, 170)]) empty_swiss.
Example C69_sparse_case : forall f, occurs f ekey ehash ekeq erep (some_table f) /\
  let xs := [(2, 21); (3, 30); (33, 330); (3, 31); (4, 40)] in
  (forall ra, match SwissModel.insert_range f ekey ehash ekeq ra (2 ^ 40) (some_table f) xs with
              | Ok (s, b) => b = true /\ length (elems s) = 6%nat /\ forall x, In x (elems s) <-> In x [(1, 10); (2, 20); (17, 170); (3, 30); (33, 330); (4, 40)] | Err _ => False end) /\
  (forall ra, match assign_range ehash ekeq f ekey ra (2 ^ 40) (some_table f) xs with
              | Ok (s, b) => b = true /\ length (elems s) = 4%nat /\ forall x, In x (elems s) <-> In x [(2, 21); (3, 30); (33, 330); (4, 40)] | Err _ => False end) /\
  (* an allocation of more than 7 slots throws: the part that fits is added *)
  match SwissModel.insert_range f ekey ehash ekeq false 7 (some_table f) [(3, 30); (4, 40); (5, 50); (6, 60); (7, 70); (8, 80)] with
  | Ok (s, b) => b = false /\ existsb (fun x => fst x =? 3) (elems s) = true /\ existsb (fun x => fst x =? 8) (elems s) = false | Err _ => False end.
Proof.
  intros f. split.
  - apply WorldProofs.reachable_occurs. unfold some_table. apply erun_reachable; [vm_compute; reflexivity|]. destruct f; eexists; vm_compute; reflexivity.
  - cbv zeta. split; [|split].
    + intros ra. destruct ra, f; vm_compute; (split; [reflexivity|]); (split; [reflexivity|]); intros x; split; intros H; repeat (destruct H as [H|H]; [subst; tauto|]); destruct H.
    + intros ra. destruct ra, f; vm_compute; (split; [reflexivity|]); (split; [reflexivity|]); intros x; split; intros H; repeat (destruct H as [H|H]; [subst; tauto|]); destruct H.
    + destruct f; vm_compute; auto.
Qed.

(** ** Unordered dense containers, for any number [nk] of keys per element.  The contents keep
    the order of insertion.  [d_sok] false: the allocation of a larger bucket array threw
    (C44). *)
Theorem C69_dense_insert : forall (E K : Type) nk (key_of : nat -> E -> K) hash keq rep clone pocca pocma,
  key_laws hash keq -> (forall x e, key_of 0%nat (rep x e) = key_of 0%nat x) -> (forall j e, (j < nk)%nat -> key_of j (clone e) = key_of j e) ->
  forall ra l dlim slim s, doccurs nk key_of hash keq rep clone pocca pocma s -> dlim < 2 ^ 59 -> slim < 2 ^ 60 -> Z.of_nat (length l) < 2 ^ 58 ->
  let add := added (has_keys keq nk key_of) (delems s) in
  exists s' b, DenseModel.insert_range nk key_of hash keq ra dlim slim s l = Ok (s', b) /\
    if b then delems s' = add l /\ (forall hist, dhistory_ok nk hist -> drefines nk key_of hash keq rep s' (add l) hist)
    else exists n, delems s' = add (firstn n l) /\ (d_sok s' = false \/ forall hist, dhistory_ok nk hist -> drefines nk key_of hash keq rep s' (add (firstn n l)) hist).
Proof. exact (fun E K nk key_of hash keq rep clone pocca pocma KL R C => d_range_occurs nk key_of hash keq rep clone pocca pocma KL R C). Qed.
Print Assumptions C69_dense_insert.
Theorem C69_dense_assign : forall (E K : Type) nk (key_of : nat -> E -> K) hash keq rep clone pocca pocma,
  key_laws hash keq -> (forall x e, key_of 0%nat (rep x e) = key_of 0%nat x) -> (forall j e, (j < nk)%nat -> key_of j (clone e) = key_of j e) ->
  forall ra l dlim slim s, doccurs nk key_of hash keq rep clone pocca pocma s -> dlim < 2 ^ 59 -> slim < 2 ^ 60 -> Z.of_nat (length l) < 2 ^ 58 ->
  let add := added (has_keys keq nk key_of) [] in
  exists s' b, d_assign_range hash keq nk key_of ra dlim slim s l = Ok (s', b) /\
    if b then delems s' = add l /\ (forall hist, dhistory_ok nk hist -> drefines nk key_of hash keq rep s' (add l) hist)
    else exists n, delems s' = add (firstn n l) /\ (d_sok s' = false \/ forall hist, dhistory_ok nk hist -> drefines nk key_of hash keq rep s' (add (firstn n l)) hist).
Proof. exact (fun E K nk key_of hash keq rep clone pocca pocma KL R C => d_assign_occurs nk key_of hash keq rep clone pocca pocma KL R C). Qed.
Print Assumptions C69_dense_assign.

Definition some_dense : dense entry := dmap (map (fun k => DenseWorldSpec.XOn 0 (DInsert (k, 10 * k))) [1; 9; 17] ++ [DenseWorldSpec.XOn 0 (DErase 0 1)]) 0.
Example C69_dense_case : doccurs 1 key1 ehash ekeq erep sameel false true some_dense /\ delems some_dense = [(17, 170); (9, 90)] /\
  let xs := [(9, 91); (3, 30); (25, 250); (3, 31); (4, 40)] in
  (forall ra, match DenseModel.insert_range 1 key1 ehash ekeq ra (2 ^ 40) (2 ^ 40) some_dense xs with Ok (s, b) => b = true /\ delems s = [(17, 170); (9, 90); (3, 30); (25, 250); (4, 40)] | Err _ => False end) /\
  (forall ra, match d_assign_range ehash ekeq 1 key1 ra (2 ^ 40) (2 ^ 40) some_dense xs with Ok (s, b) => b = true /\ delems s = [(9, 91); (3, 30); (25, 250); (4, 40)] | Err _ => False end) /\
  match DenseModel.insert_range 1 key1 ehash ekeq false 4 (2 ^ 40) some_dense xs with Ok (s, b) => b = false /\ delems s = [(17, 170); (9, 90); (3, 30); (25, 250)] | Err _ => False end.
Proof. split; [apply dmap_occurs; vm_compute; reflexivity|]. split; [vm_compute; reflexivity|]. cbv zeta. split; [|split]; [intros [|]| intros [|]|]; vm_compute; auto. Qed.

(** ** Ordered dense containers: iteration gives the old elements and then the new ones in the
    order of the range.  Memory outside of the container is not touched. *)
Theorem C69_ordered_dense_insert : forall (E K : Type) sz nk (key_of : nat -> E -> K) hash keq rep clone pocca pocma,
  key_laws hash keq -> (forall x e, key_of 0%nat (rep x e) = key_of 0%nat x) -> (forall j e, (j < nk)%nat -> key_of j (clone e) = key_of j e) -> 0 < sz ->
  forall ra v l hw i l0, yoccurs sz nk key_of hash keq rep clone pocca pocma hw -> o_iterate sz (fst hw) (snd hw i) = Ok l0 ->
  denv_ok (ov_d v) -> Forall (fun x => denv_ok (ov_d (fst x))) l -> Z.of_nat (length l0) + Z.of_nat (length l) < 2 ^ 59 ->
  let add xs := added (has_keys keq nk key_of) l0 xs in
  let x := o_insert_range sz nk key_of hash keq ra v (fst hw) (snd hw i) l in
  x = Err BadPlacement \/
  exists h' s' b, x = Ok (h', s', b) /\ o_keeps sz (fst hw) (snd hw i) h' /\
    (if b then o_holds sz nk key_of hash keq rep h' s' (add (map snd l))
     else d_sok (o_d s') = false \/ exists n, o_holds sz nk key_of hash keq rep h' s' (add (firstn n (map snd l)))).
Proof. exact (fun E K sz nk key_of hash keq rep clone pocca pocma KL R C Hsz => o_range_occurs sz nk key_of hash keq rep clone pocca pocma KL R C Hsz). Qed.
Print Assumptions C69_ordered_dense_insert.
Theorem C69_ordered_dense_assign : forall (E K : Type) sz nk (key_of : nat -> E -> K) hash keq rep clone pocca pocma,
  key_laws hash keq -> (forall x e, key_of 0%nat (rep x e) = key_of 0%nat x) -> (forall j e, (j < nk)%nat -> key_of j (clone e) = key_of j e) -> 0 < sz ->
  forall ra v l hw i, yoccurs sz nk key_of hash keq rep clone pocca pocma hw ->
  denv_ok (ov_d v) -> Forall (fun x => denv_ok (ov_d (fst x))) l -> Z.of_nat (length l) < 2 ^ 59 ->
  let add xs := added (has_keys keq nk key_of) [] xs in
  let x := o_assign_range sz nk key_of hash keq ra v (fst hw) (snd hw i) l in
  x = Err BadPlacement \/
  exists h' s' b, x = Ok (h', s', b) /\ o_keeps sz (fst hw) (snd hw i) h' /\
    (if b then o_holds sz nk key_of hash keq rep h' s' (add (map snd l))
     else d_sok (o_d s') = false \/ exists n, o_holds sz nk key_of hash keq rep h' s' (add (firstn n (map snd l)))).
Proof. exact (fun E K sz nk key_of hash keq rep clone pocca pocma KL R C Hsz => o_assign_occurs sz nk key_of hash keq rep clone pocca pocma KL R C Hsz). Qed.
Print Assumptions C69_ordered_dense_assign.
(** Construction at an address [hdr] of unused memory, with any count. *)
Theorem C69_ordered_dense_construct : forall (E K : Type) sz nk (key_of : nat -> E -> K) hash keq rep,
  key_laws hash keq -> 0 < sz -> (forall x e, key_of 0%nat (rep x e) = key_of 0%nat x) ->
  forall ra v0 v l h hdr n, h hdr = Some (0, 0) -> denv_ok (ov_d v0) -> denv_ok (ov_d v) -> Forall (fun x => denv_ok (ov_d (fst x))) l -> 0 <= n < 2 ^ 64 -> Z.of_nat (length l) < 2 ^ 59 ->
  let x := o_ctor_range sz nk key_of hash keq ra v0 v h hdr l n in
  x = Err BadPlacement \/ x = Ok None \/
  exists h' s' b, x = Ok (Some (h', s', b)) /\ (forall a, a <> hdr -> h a <> None -> h' a = h a) /\
    (b = true -> o_holds sz nk key_of hash keq rep h' s' (added (has_keys keq nk key_of) [] (map snd l))).
Proof. exact (fun E K sz nk key_of hash keq rep KL Hsz R => o_ctor_range_ok sz nk key_of hash keq rep KL Hsz R). Qed.
Print Assumptions C69_ordered_dense_construct.

Fixpoint o_placed (b : Z) (l : list entry) : list (oenv * entry) := match l with [] => [] | e :: r => (at_ b, e) :: o_placed (b + 2 ^ 16) r end.
Definition some_odense : @yworld entry := omaps (Props_Ordered.ins 0 [5; 1; 9; 2] ++ [YOn 0%nat (OErase 0 1)] ++ Props_Ordered.ins 1 [7]).
Definition o_show (x : res (heap * odense entry * bool)) : res (list entry * list entry * bool) :=
  let* y := x in let '(h, s, b) := y in let* a := o_iterate 48 h s in let* c := o_backwards 48 h s in Ok (a, c, b).
Example C69_ordered_dense_case : ynormal some_odense /\ Props_Ordered.elements some_odense 0 = Ok [(5, 50); (9, 90); (2, 20)] /\
  let xs := o_placed (2 ^ 24) [(9, 91); (3, 30); (25, 250); (3, 31); (4, 40)] in
  (forall ra, o_show (o_insert_range 48 1 key1 ehash ekeq ra (at_ (2 ^ 26)) (fst some_odense) (snd some_odense 0%nat) xs) =
     Ok ([(5, 50); (9, 90); (2, 20); (3, 30); (25, 250); (4, 40)], [(4, 40); (25, 250); (3, 30); (2, 20); (9, 90); (5, 50)], true)) /\
  (forall ra, o_show (o_assign_range 48 1 key1 ehash ekeq ra (at_ (2 ^ 26)) (fst some_odense) (snd some_odense 0%nat) xs) =
     Ok ([(9, 91); (3, 30); (25, 250); (4, 40)], [(4, 40); (25, 250); (3, 30); (9, 91)], true)) /\
  (forall ra, match o_ctor_range 48 1 key1 ehash ekeq ra (at_ (2 ^ 25)) (at_ (2 ^ 26)) heap0 (addr0 0) xs 3 with
              | Ok (Some x) => o_show (Ok x) = Ok ([(9, 91); (3, 30); (25, 250); (4, 40)], [(4, 40); (25, 250); (3, 30); (9, 91)], true) | _ => False end).
Proof.
  split; [apply omaps_occur; vm_compute; reflexivity|]. split; [vm_compute; reflexivity|]. cbv zeta. split; [|split]; intros [|]; vm_compute; reflexivity.
Qed.

(** ** Ordered sparse and stable containers. *)
(** With random access iterators no insertion swaps nodes: room for all elements was
    reserved. *)
Theorem C69_ordered_sparse_insert : forall (E K : Type) f sz (key_of : E -> K) hash keq rep clone pocca pocma,
  key_laws hash keq -> (forall a b, keq (key_of a) (key_of b) = true -> key_of (rep a b) = key_of a) -> (forall e, key_of (clone e) = key_of e) -> 0 < sz ->
  forall v l w i l0, xoccurs f sz key_of hash keq rep clone pocca pocma w -> s_iterate sz (xw_m w) (xw_c w i) = Ok l0 ->
  env_ok (sv_e v) -> Forall (fun x => env_ok (sv_e (fst x))) l -> Z.of_nat (length l0) + Z.of_nat (length l) < 2 ^ 64 ->
  let x := s_insert_range f sz key_of hash keq true v (xw_m w) (xw_c w i) l in
  x = Err BadPlacement \/
  exists h' s' b n, x = Ok (h', s', b) /\ s_keeps sz (xw_m w) (xw_c w i) h' /\
    s_holds f sz key_of hash keq rep h' s' (added (RangeSpec.has_key keq key_of) l0 (firstn n (map snd l))) /\ (b = true -> firstn n (map snd l) = map snd l).
Proof. exact (fun E K f sz key_of hash keq rep clone pocca pocma KL R C Hsz => s_range_occurs f sz key_of hash keq rep clone pocca pocma KL R C Hsz). Qed.
Print Assumptions C69_ordered_sparse_insert.
(** With other iterators, up to the first insertion that swaps nodes. *)
Theorem C69_ordered_sparse_forward_partial : forall (E K : Type) f sz (key_of : E -> K) hash keq rep clone pocca pocma,
  key_laws hash keq -> (forall a b, keq (key_of a) (key_of b) = true -> key_of (rep a b) = key_of a) -> (forall e, key_of (clone e) = key_of e) -> 0 < sz ->
  forall v l w i l0, xoccurs f sz key_of hash keq rep clone pocca pocma w -> s_iterate sz (xw_m w) (xw_c w i) = Ok l0 ->
  Forall (fun x => env_ok (sv_e (fst x))) l ->
  let x := s_insert_range f sz key_of hash keq false v (xw_m w) (xw_c w i) l in
  (x = Err BadPlacement \/
   exists h' s' b n, x = Ok (h', s', b) /\ s_keeps sz (xw_m w) (xw_c w i) h' /\
     s_holds f sz key_of hash keq rep h' s' (added (RangeSpec.has_key keq key_of) l0 (firstn n (map snd l))) /\ (b = true -> firstn n (map snd l) = map snd l)) \/
  exists l1 v' e l2 h' s', l = l1 ++ (v', e) :: l2 /\ s_insert_range f sz key_of hash keq false v (xw_m w) (xw_c w i) l1 = Ok (h', s', true) /\
    s_keeps sz (xw_m w) (xw_c w i) h' /\ s_holds f sz key_of hash keq rep h' s' (added (RangeSpec.has_key keq key_of) l0 (map snd l1)) /\ zswaps f key_of hash keq v' s' e.
Proof. exact (fun E K f sz key_of hash keq rep clone pocca pocma KL R C Hsz => s_forward_occurs f sz key_of hash keq rep clone pocca pocma KL R C Hsz). Qed.
Print Assumptions C69_ordered_sparse_forward_partial.
(** assign with random access iterators, or to a container with elements (clear() then wipes
    the erased slots too). *)
Theorem C69_ordered_sparse_assign_partial : forall (E K : Type) f sz (key_of : E -> K) hash keq rep clone pocca pocma,
  key_laws hash keq -> (forall a b, keq (key_of a) (key_of b) = true -> key_of (rep a b) = key_of a) -> (forall e, key_of (clone e) = key_of e) -> 0 < sz ->
  forall ra v l w i l0, xoccurs f sz key_of hash keq rep clone pocca pocma w -> s_iterate sz (xw_m w) (xw_c w i) = Ok l0 ->
  env_ok (sv_e v) -> Forall (fun x => env_ok (sv_e (fst x))) l -> Z.of_nat (length l) < 2 ^ 64 -> ra = true \/ l0 <> [] ->
  let x := s_assign_range f sz key_of hash keq ra v (xw_m w) (xw_c w i) l in
  x = Err BadPlacement \/
  exists h' s' b n, x = Ok (h', s', b) /\ s_keeps sz (xw_m w) (xw_c w i) h' /\
    s_holds f sz key_of hash keq rep h' s' (added (RangeSpec.has_key keq key_of) [] (firstn n (map snd l))) /\ (b = true -> firstn n (map snd l) = map snd l).
Proof. exact (fun E K f sz key_of hash keq rep clone pocca pocma KL R C Hsz => s_assign_occurs f sz key_of hash keq rep clone pocca pocma KL R C Hsz). Qed.
Print Assumptions C69_ordered_sparse_assign_partial.
(** Construction; the number of slots has to be 2^k - 1 (C16). *)
Theorem C69_ordered_sparse_construct_partial : forall (E K : Type) f sz (key_of : E -> K) hash keq rep, 0 < sz ->
  key_laws hash keq -> (forall a b, keq (key_of a) (key_of b) = true -> key_of (rep a b) = key_of a) ->
  forall ra v0 v l h hdr n, h hdr = Some (0, 0) -> env_ok (sv_e v0) -> env_ok (sv_e v) -> Forall (fun x => env_ok (sv_e (fst x))) l -> Z.of_nat (length l) < 2 ^ 64 ->
  (exists k, 0 <= k /\ distance_or_n ra (map snd l) n = 2 ^ k - 1) ->
  let x := s_ctor_range f sz key_of hash keq ra v0 v h hdr l n in
  x = Err BadPlacement \/ x = Ok None \/
  exists h' s' b, x = Ok (Some (h', s', b)) /\ (forall a, a <> hdr -> h a <> None -> h' a = h a) /\
    (b = true -> s_holds f sz key_of hash keq rep h' s' (added (RangeSpec.has_key keq key_of) [] (map snd l))).
Proof. exact (fun E K f sz key_of hash keq rep Hsz KL R => s_ctor_range_ok f sz key_of hash keq rep Hsz KL R). Qed.
Print Assumptions C69_ordered_sparse_construct_partial.

Fixpoint s_placed (b : Z) (l : list entry) : list (senv * entry) := match l with [] => [] | e :: r => (sat b, e) :: s_placed (b + 2 ^ 16) r end.
Definition s_show (x : res (heap * oswiss entry * bool)) : res (list entry * list entry * bool) :=
  let* y := x in let '(h, s, b) := y in let* a := s_iterate 48 h s in let* c := s_backwards 48 h s in Ok (a, c, b).
Definition some_oswiss (f : simd) : xworld entry := smaps f (ins 0 [5; 1; 9; 2] ++ del 0 [1] ++ ins 1 [7]).
(** The worn container of C17: with random access iterators its order survives. *)
Example C69_ordered_sparse_case : forall f, xnormal f (some_oswiss f) /\ elements (some_oswiss f) 0 = Ok [(5, 50); (9, 90); (2, 20)] /\
  (let w := some_oswiss f in let xs := s_placed (2 ^ 24) [(9, 91); (3, 30); (25, 250); (3, 31); (4, 40)] in
  (forall ra, s_show (s_insert_range f 48 ekey ehash ekeq ra (sat (2 ^ 26)) (xw_m w) (xw_c w 0%nat) xs) =
     Ok ([(5, 50); (9, 90); (2, 20); (3, 30); (25, 250); (4, 40)], [(4, 40); (25, 250); (3, 30); (2, 20); (9, 90); (5, 50)], true)) /\
  (forall ra, s_show (s_assign_range f 48 ekey ehash ekeq ra (sat (2 ^ 26)) (xw_m w) (xw_c w 0%nat) xs) =
     Ok ([(9, 91); (3, 30); (25, 250); (4, 40)], [(4, 40); (25, 250); (3, 30); (9, 91)], true)) /\
  (forall ra, match s_ctor_range f 48 ekey ehash ekeq ra (sat (2 ^ 25)) (sat (2 ^ 26)) heap0 (addr0 0) xs 7 with
              | Ok (Some x) => s_show (Ok x) = Ok ([(9, 91); (3, 30); (25, 250); (4, 40)], [(4, 40); (25, 250); (3, 30); (9, 91)], true) | _ => False end)) /\
  let w := smaps f (worn f) in
  match s_insert_range f 48 ekey ehash ekeq true (sat (2 ^ 26)) (xw_m w) (xw_c w 0%nat) (s_placed (2 ^ 24) [worn_next f]) with
  | Ok (h, s, b) => s_iterate 48 h s = Ok (map (fun k => (k, 10 * k)) (worn_left f) ++ [worn_next f]) /\ b = true | Err _ => False end.
Proof.
  intros f. split; [apply smaps_occur; destruct f; vm_compute; reflexivity|]. split; [destruct f; vm_compute; reflexivity|]. cbv zeta. split.
  - split; [|split]; intros [|]; destruct f; vm_compute; reflexivity.
  - destruct f; vm_compute; auto.
Qed.

(** Inserting the same element through forward iterators breaks the container (C17). *)
Theorem C69_forward_insert_refuted : forall f, xnormal f (smaps f (worn f)) /\
  let w := smaps f (worn f) in
  match s_insert_range f 48 ekey ehash ekeq false (sat (2 ^ 26)) (xw_m w) (xw_c w 0%nat) (s_placed (2 ^ 24) [worn_next f]) with
  | Ok (h, s, b) => b = true /\ s_iterate 48 h s = Err OutOfBounds | Err _ => False end.
Proof. intros f. split; [apply smaps_occur; destruct f; vm_compute; reflexivity|]. destruct f; vm_compute; auto. Qed.
Print Assumptions C69_forward_insert_refuted.
(** The same for assign on a container whose elements were erased one by one: clear() does
    nothing when the container is empty, so the erased slots stay. *)
Definition emptied (f : simd) : xworld entry := smaps f (worn f ++ del 0 (worn_left f)).
Theorem C69_forward_assign_refuted : forall f, xnormal f (emptied f) /\ elements (emptied f) 0 = Ok [] /\
  let w := emptied f in
  match s_assign_range f 48 ekey ehash ekeq false (sat (2 ^ 26)) (xw_m w) (xw_c w 0%nat) (s_placed (2 ^ 24) (map (fun k => (k, 10 * k)) (worn_left f) ++ [worn_next f])) with
  | Ok (h, s, b) => b = true /\ s_iterate 48 h s = Err OutOfBounds | Err _ => False end.
Proof. intros f. split; [apply smaps_occur; destruct f; vm_compute; reflexivity|]. destruct f; vm_compute; auto. Qed.
Print Assumptions C69_forward_assign_refuted.
