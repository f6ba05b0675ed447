(** Property C86 on ordered sparse containers: moves between unequal allocators left by a throwing
    element move. *)
From Coq Require Import ZArith List Bool Lia.
From Verif Require Import Base Bits MapSpec WorldSpec World SwissModel SwissRun LinkModel Instances SwissOrderedSpec SwissOrdered SwissOrderedRun SwissOrderedWorldSpec SwissOrderedWorld SwissOrderedInstances
  SwissInv UnequalModel CopyModel MoveLeftModel MoveLeftSparseModel MoveLeftSparse MoveLeftSparseQuiet.
Import ListNotations.
Open Scope Z_scope.

(** With enough moves the calls are those of C68, whether or not the [noexcept] clause holds
    ([leaves]: if it does, refused memory ends the program).  Missing: throwing moves. *)
Theorem C86_ordered_sparse_partial : forall (E K : Type) f sz (key_of : E -> K) hash keq rep clone pocca pocma,
  0 < sz -> key_laws hash keq -> (forall a b, keq (key_of a) (key_of b) = true -> key_of (rep a b) = key_of a) -> (forall e, key_of (clone e) = key_of e) ->
  forall ne n v w i j l, xoccurs f sz key_of hash keq rep clone pocca pocma w -> s_iterate sz (xw_m w) (xw_c w j) = Ok l -> (length l <= n)%nat ->
  let s := xw_c w i in let o := xw_c w j in
  (bucket_count (os_t s) <= bucket_count (os_t o) -> unthrown (sm_move_assign f sz ne n v (xw_m w) s o) = u_oswiss_assign f sz v (xw_m w) s o) /\
  (let h := x_destroy sz (xw_m w) s in sm_move_ctor f sz ne n v h (os_hdr s) o = leaves ne (u_oswiss_ctor f sz v h (os_hdr s) o)).
Proof. exact (fun E K f sz key_of hash keq rep clone pocca pocma Hsz KL R C => quiet_moves f sz key_of hash keq rep clone pocca pocma Hsz KL R C). Qed.
Print Assumptions C86_ordered_sparse_partial.

(** Whenever a move throws, the first included, the program is ended if the [noexcept] clause
    holds.  Otherwise the source keeps its size but begin() is end(); its table is as it was, or
    as in [C86_refuted] after [n] > 0 moves.  The target has size 0 and [n] elements, but its iterators go
    through as many nodes as the source had, [n] + 1 of them in the target's array.
    ([BadPlacement]: the model's memory has no room.) *)
Theorem C86_ordered_sparse_refuted : forall (E K : Type) f sz (key_of : E -> K) hash keq rep clone pocca pocma,
  0 < sz -> key_laws hash keq -> (forall a b, keq (key_of a) (key_of b) = true -> key_of (rep a b) = key_of a) -> (forall e, key_of (clone e) = key_of e) ->
  forall ne n v w i j l, xoccurs f sz key_of hash keq rep clone pocca pocma w -> i <> j -> s_iterate sz (xw_m w) (xw_c w j) = Ok l -> (n < length l)%nat -> bucket_count (os_t (xw_c w j)) <= ev_lim (sv_e v) ->
  let o := os_t (xw_c w j) in
  let broken o1 := size o1 = size o /\ elems o1 = skipn n (elems o) /\ destroy f o1 = Err DeadObject /\ clear f o1 = Err DeadObject /\
    (forall e, In e (firstn n (elems o)) -> contains f key_of hash keq o1 (key_of e) = Err DeadObject) in
  let left h' (s' o' : oswiss E) := size (os_t o') = size o /\ next_link h' (os_hdr o') = Ok (os_hdr o') /\ (os_t o' = o \/ (0 < n)%nat /\ broken (os_t o')) /\
    size (os_t s') = 0 /\ elems (os_t s') = firstn n (elems o) /\
    exists a ls ks, next_link h' (os_hdr s') = Ok a /\ walk (S (Z.to_nat (size o))) h' a (os_hdr s') = Ok ls /\ Z.of_nat (length ls) = size o /\
      NoDup ks /\ length ks = S n /\ forall k, In k ks -> 0 <= k < bucket_count (os_t s') /\ In (sslot sz s' k) ls in
  (bucket_count (os_t (xw_c w i)) <= bucket_count o -> let r := sm_move_assign f sz ne n v (xw_m w) (xw_c w i) (xw_c w j) in
   r = Err BadPlacement \/ (ne = true /\ r = Err Terminated) \/ exists h' s' o', ne = false /\ r = Ok (h', s', o', false) /\ left h' s' o') /\
  (let r := sm_move_ctor f sz ne n v (x_destroy sz (xw_m w) (xw_c w i)) (os_hdr (xw_c w i)) (xw_c w j) in
   r = Err BadPlacement \/ (ne = true /\ r = Err Terminated) \/ exists h' s' o', ne = false /\ r = Ok (h', s', o', false) /\ left h' s' o').
Proof. exact (fun E K f sz key_of hash keq rep clone pocca pocma Hsz KL R C => left_moves f sz key_of hash keq rep clone pocca pocma Hsz KL R C). Qed.
Print Assumptions C86_ordered_sparse_refuted.

(** Container 1 has four elements, container 0 two.  With no throw the target shows the four;
    with a throwing first move both containers are broken although nothing was moved: the
    source finds its elements but shows none, and iterating over the target leaves its array or
    meets an unconstructed slot. *)
Definition two_sparse (f : simd) : xworld entry := smaps f (map (fun k => XOn 0 (ZInsert (k, k))) [1; 2] ++ map (fun k => XOn 1 (ZInsert (k, 10 * k))) [3; 11; 4; 8; 19] ++ [XOn 1 (ZErase 11)]).
Definition sleft_by (f : simd) (n : nat) := let w := two_sparse f in sm_move_assign f 48 false n (sat (2 ^ 30)) (xw_m w) (xw_c w 0%nat) (xw_c w 1%nat).
Example C86_ordered_sparse_case : forall f, xnormal f (two_sparse f) /\ s_iterate 48 (xw_m (two_sparse f)) (xw_c (two_sparse f) 1%nat) = Ok [(3, 30); (4, 40); (8, 80); (19, 190)] /\
  match sleft_by f 4 with Ok (h, s, o, b) => b = true /\ s_iterate 48 h s = Ok [(3, 30); (4, 40); (8, 80); (19, 190)] /\ s_iterate 48 h o = Ok [] | Err _ => False end.
Proof. intros f. split; [apply smaps_occur; destruct f; vm_compute; reflexivity|]. destruct f; vm_compute; repeat split; reflexivity. Qed.
Example C86_ordered_sparse_refuted_case : forall f,
  match sleft_by f 0 with
  | Ok (h, s, o, b) => b = false /\ s_iterate 48 h o = Ok [] /\ size (os_t o) = 4 /\ contains f ekey ehash ekeq (os_t o) 19 = Ok true /\
      size (os_t s) = 0 /\ (let* a := next_link h (os_hdr s) in let* l := walk 5 h a (os_hdr s) in Ok (length l)) = Ok 4%nat /\ In (s_iterate 48 h s) [Err DeadObject; Err OutOfBounds]
  | Err _ => False end /\
  match sleft_by f 2 with
  | Ok (h, s, o, b) => b = false /\ s_iterate 48 h o = Ok [] /\ size (os_t o) = 4 /\ destroy f (os_t o) = Err DeadObject /\
      size (os_t s) = 0 /\ length (elems (os_t s)) = 2%nat /\ In (s_iterate 48 h s) [Err DeadObject; Err OutOfBounds]
  | Err _ => False end.
Proof. intros f. destruct f; vm_compute; repeat split; auto. Qed.
(** The same calls with a [noexcept] clause that holds. *)
Example C86_ordered_sparse_noexcept_case : forall f, let w := two_sparse f in
  sm_move_assign f 48 true 0 (sat (2 ^ 30)) (xw_m w) (xw_c w 0%nat) (xw_c w 1%nat) = Err Terminated /\
  match sm_move_assign f 48 true 4 (sat (2 ^ 30)) (xw_m w) (xw_c w 0%nat) (xw_c w 1%nat) with
  | Ok (h, s, _, b) => b = true /\ s_iterate 48 h s = Ok [(3, 30); (4, 40); (8, 80); (19, 190)] | Err _ => False end.
Proof. intros f. destruct f; vm_compute; repeat split; reflexivity. Qed.
