(** Ranges that point into the container itself (C87): ordered containers. *)
From Coq Require Import ZArith List Bool Lia.
From Verif Require Import Base MapSpec Instances DenseSpec DenseModel DenseRun LinkModel OrderedSpec OrderedDense OrderedRun OrderedWorldSpec OrderedWorld OrderedInstances DenseInstances RangeModel OwnRangeOrderedModel OwnRangeOrderedDense.
From Verif Require Import Bits SwissModel SwissInv SwissRun SwissOrderedSpec SwissOrdered SwissOrderedWorldSpec SwissOrderedWorld SwissOrderedInstances OwnRangeOrdered.
Import ListNotations.
Open Scope Z_scope.

(** ** Ordered sparse and stable containers. *)
(** Any range of links of the container that leads from [a] to [last]: nothing changes. *)
Theorem C87_ordered_sparse : forall (E K : Type) f sz (key_of : E -> K) hash keq rep clone pocca pocma,
  0 < sz -> key_laws hash keq -> (forall a b, keq (key_of a) (key_of b) = true -> key_of (rep a b) = key_of a) -> (forall e, key_of (clone e) = key_of e) ->
  forall v (w : xworld E) j a last l es, xoccurs f sz key_of hash keq rep clone pocca pocma w ->
  LinkModel.walk (iter_fuel (os_t (xw_c w j))) (xw_m w) a last = Ok l -> s_deref_all sz (xw_c w j) l = Ok es ->
  s_own_insert f sz key_of hash keq v (xw_m w) (xw_c w j) a last = Ok (xw_m w, xw_c w j, true).
Proof. exact (fun E K f sz key_of hash keq rep clone pocca pocma Hsz KL R C => s_own_part f sz key_of hash keq rep clone pocca pocma Hsz KL R C). Qed.
Print Assumptions C87_ordered_sparse.
(** s.insert(s.begin(), s.end()), also on builds with 8-slot blocks. *)
Theorem C87_ordered_sparse_all : forall (E K : Type) f sz (key_of : E -> K) hash keq rep clone pocca pocma,
  0 < sz -> key_laws hash keq -> (forall a b, keq (key_of a) (key_of b) = true -> key_of (rep a b) = key_of a) -> (forall e, key_of (clone e) = key_of e) ->
  forall v (w : xworld E) j, xoccurs f sz key_of hash keq rep clone pocca pocma w ->
  s_own_insert_all f sz key_of hash keq v (xw_m w) (xw_c w j) = Ok (xw_m w, xw_c w j, true).
Proof. exact (fun E K f sz key_of hash keq rep clone pocca pocma Hsz KL R C => s_own_all f sz key_of hash keq rep clone pocca pocma Hsz KL R C). Qed.
Print Assumptions C87_ordered_sparse_all.
Theorem C87_ordered_sparse_assign_refuted : forall (E K : Type) f sz (key_of : E -> K) hash keq rep clone pocca pocma,
  0 < sz -> key_laws hash keq -> (forall a b, keq (key_of a) (key_of b) = true -> key_of (rep a b) = key_of a) -> (forall e, key_of (clone e) = key_of e) ->
  forall v (w : xworld E) j, xoccurs f sz key_of hash keq rep clone pocca pocma w ->
  s_own_assign f sz key_of hash keq v (xw_m w) (xw_c w j) = if s_size (os_t (xw_c w j)) =? 0 then Ok (xw_m w, xw_c w j, true) else Err DeadObject.
Proof. exact (fun E K f sz key_of hash keq rep clone pocca pocma Hsz KL R C => s_own_assign_dead f sz key_of hash keq rep clone pocca pocma Hsz KL R C). Qed.
Print Assumptions C87_ordered_sparse_assign_refuted.

Definition own_links (f : simd) : xworld entry := smaps f (map (fun k => XOn 0 (ZInsert (k, 10 * k))) [3; 11; 4; 19; 8] ++ [XOn 0 (ZErase 4)]).
Example C87_ordered_sparse_case : forall f, let w := own_links f in xnormal f w /\
  s_iterate 48 (xw_m w) (xw_c w 0%nat) = Ok [(3, 30); (11, 110); (19, 190); (8, 80)] /\
  match s_own_insert_all f 48 ekey ehash ekeq (sat (2 ^ 30)) (xw_m w) (xw_c w 0%nat) with Ok (h, s, b) => b = true /\ s_iterate 48 h s = Ok [(3, 30); (11, 110); (19, 190); (8, 80)] | Err _ => False end /\
  match s_own_assign f 48 ekey ehash ekeq (sat (2 ^ 30)) (xw_m w) (xw_c w 0%nat) with Ok _ => False | Err e => e = DeadObject end /\
  match s_own_assign f 48 ekey ehash ekeq (sat (2 ^ 30)) (xw_m w) (xw_c w 1%nat) with Ok (_, _, b) => b = true | Err _ => False end.
Proof. intros f w. split; [apply smaps_occur; destruct f; vm_compute; reflexivity|]. destruct f; vm_compute; auto 8. Qed.

(** ** Ordered dense containers, for any number [nk] of keys per element. *)
(** With room for one further element: the memory stays as it is and the contents too, in order.
    [d_sok] false: the allocation of a larger bucket array threw (C44). *)
Theorem C87_ordered_dense_partial : forall (E K : Type) sz nk (key_of : nat -> E -> K) hash keq rep clone pocca pocma,
  0 < sz -> key_laws hash keq -> (forall x e, key_of 0%nat (rep x e) = key_of 0%nat x) -> (forall j e, (j < nk)%nat -> key_of j (clone e) = key_of j e) -> (0 < nk)%nat ->
  forall v hw j l0 a last l es, yoccurs sz nk key_of hash keq rep clone pocca pocma hw -> let h := fst hw in let s := snd hw j in
  o_iterate sz h s = Ok l0 -> denv_ok (ov_d v) -> d_size (o_d s) < d_cap (o_d s) ->
  LinkModel.walk (S (Z.to_nat (d_size (o_d s)))) h a last = Ok l -> deref_all sz s l = Ok es ->
  exists s' b, o_own_insert sz nk key_of hash keq v h s a last = Ok (h, s', b) /\
    if b then o_holds sz nk key_of hash keq rep h s' l0 else d_sok (o_d s') = false \/ o_holds sz nk key_of hash keq rep h s' l0.
Proof. exact (fun E K sz nk key_of hash keq rep clone pocca pocma Hsz KL R C Hnk => o_own_part sz nk key_of hash keq rep clone pocca pocma Hsz KL R C Hnk). Qed.
Print Assumptions C87_ordered_dense_partial.
Theorem C87_ordered_dense_all_partial : forall (E K : Type) sz nk (key_of : nat -> E -> K) hash keq rep clone pocca pocma,
  0 < sz -> key_laws hash keq -> (forall x e, key_of 0%nat (rep x e) = key_of 0%nat x) -> (forall j e, (j < nk)%nat -> key_of j (clone e) = key_of j e) -> (0 < nk)%nat ->
  forall v hw j l0, yoccurs sz nk key_of hash keq rep clone pocca pocma hw -> let h := fst hw in let s := snd hw j in
  o_iterate sz h s = Ok l0 -> denv_ok (ov_d v) -> d_size (o_d s) < d_cap (o_d s) ->
  exists s' b, o_own_insert_all sz nk key_of hash keq v h s = Ok (h, s', b) /\
    if b then o_holds sz nk key_of hash keq rep h s' l0 else d_sok (o_d s') = false \/ o_holds sz nk key_of hash keq rep h s' l0.
Proof. exact (fun E K sz nk key_of hash keq rep clone pocca pocma Hsz KL R C Hnk => o_own_all sz nk key_of hash keq rep clone pocca pocma Hsz KL R C Hnk). Qed.
Print Assumptions C87_ordered_dense_all_partial.
(** On a full container the first insert grows the array although the key is present, and reads
    the element from the freed one, unless an allocation throws.  [BadPlacement]: the model's
    memory has no room for the new array. *)
Theorem C87_ordered_dense_growth_refuted : forall (E K : Type) sz nk (key_of : nat -> E -> K) hash keq rep clone pocca pocma,
  0 < sz -> key_laws hash keq -> (forall x e, key_of 0%nat (rep x e) = key_of 0%nat x) -> (forall j e, (j < nk)%nat -> key_of j (clone e) = key_of j e) ->
  forall v hw j l0 a last, yoccurs sz nk key_of hash keq rep clone pocca pocma hw -> let h := fst hw in let s := snd hw j in
  o_iterate sz h s = Ok l0 -> denv_ok (ov_d v) -> d_size (o_d s) = d_cap (o_d s) -> a <> last ->
  let x := o_own_insert sz nk key_of hash keq v h s a last in
  x = Err UseAfterFree \/ x = Err BadPlacement \/
  exists h' s', x = Ok (h', s', false) /\ (d_sok (o_d s') = false \/ o_holds sz nk key_of hash keq rep h' s' l0).
Proof. exact (fun E K sz nk key_of hash keq rep clone pocca pocma Hsz KL R C => o_own_freed sz nk key_of hash keq rep clone pocca pocma Hsz KL R C). Qed.
Print Assumptions C87_ordered_dense_growth_refuted.
Theorem C87_ordered_dense_assign_refuted : forall (E K : Type) sz nk (key_of : nat -> E -> K) hash keq rep clone pocca pocma,
  0 < sz -> key_laws hash keq -> (forall x e, key_of 0%nat (rep x e) = key_of 0%nat x) -> (forall j e, (j < nk)%nat -> key_of j (clone e) = key_of j e) ->
  forall v hw j l0, yoccurs sz nk key_of hash keq rep clone pocca pocma hw -> let h := fst hw in let s := snd hw j in
  o_iterate sz h s = Ok l0 -> l0 <> [] -> denv_ok (ov_d v) ->
  let x := o_own_assign sz nk key_of hash keq v h s in
  x = Err DeadObject \/ exists h' s', x = Ok (h', s', false) /\ (d_sok (o_d s') = false \/ o_holds sz nk key_of hash keq rep h' s' []).
Proof. exact (fun E K sz nk key_of hash keq rep clone pocca pocma Hsz KL R C => o_own_assign_dead sz nk key_of hash keq rep clone pocca pocma Hsz KL R C). Qed.
Print Assumptions C87_ordered_dense_assign_refuted.

Definition own_ordered (r : Z) : yworld := omaps (YOn 0 (OReserve r) :: map (fun k => YOn 0 (OInsert (k, 10 * k))) [17; 1; 9]).
Example C87_ordered_dense_case :
  (forall r, In r [3; 4] -> ynormal (own_ordered r)) /\ (let hw := own_ordered 4 in
  match o_own_insert_all 48 1 key1 ehash ekeq (at_ (2 ^ 30)) (fst hw) (snd hw 0%nat) with Ok (h, s, b) => b = true /\ o_iterate 48 h s = Ok [(17, 170); (1, 10); (9, 90)] | Err _ => False end).
Proof. split; [intros r Hr; repeat (destruct Hr as [<-|Hr]; [apply omaps_occur; vm_compute; reflexivity|]); destruct Hr|]. vm_compute. auto. Qed.
(** s.insert(s.begin(), s.end()) on a full container with three elements; assign on the same. *)
Theorem C87_ordered_refuted : exists hw v, ynormal hw /\ denv_ok (ov_d v) /\ o_iterate 48 (fst hw) (snd hw 0%nat) = Ok [(17, 170); (1, 10); (9, 90)] /\
  o_own_insert_all 48 1 key1 ehash ekeq v (fst hw) (snd hw 0%nat) = Err UseAfterFree /\ o_own_assign 48 1 key1 ehash ekeq v (fst hw) (snd hw 0%nat) = Err DeadObject.
Proof. exists (own_ordered 3), (at_ (2 ^ 30)). split; [apply omaps_occur; vm_compute; reflexivity|]. split; [apply dv0_ok|]. vm_compute. auto. Qed.
Print Assumptions C87_ordered_refuted.
