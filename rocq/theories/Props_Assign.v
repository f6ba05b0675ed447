(** Property C83: insert_or_assign destroys the mapped value before it constructs the new one. *)
From Coq Require Import ZArith List Bool Lia.
From Verif Require Import DenseModel DenseRun DenseSpec DenseWorldSpec DenseWorld DenseInstances.
From Verif Require Import Base Bits MapSpec WorldSpec World SwissModel SwissInv SwissRun Instances AssignSpec AssignModel.
From Verif Require WorldProofs DenseFinal AssignProofs AssignDense.
Import ListNotations.
Open Scope Z_scope.

(** C83, sparse maps: the call stores the value the argument had when the call was made, and all
    mapped values are alive afterwards.  [triv]: the mapped type is trivially destructible.
    Missing: a constructor that throws while a present key is assigned; a reference to the very
    element that is assigned, unless the type is trivially destructible; a reference argument
    and a new key in a table without an empty slot to spare (all refuted below). *)
Theorem C83_partial : forall (K V : Type) f (hash : K -> Z) keq, key_laws hash keq ->
  forall triv v (s : @swiss (elt K V)) k a x, occurs f fst hash keq takes s -> env_ok v -> whole (elems s) -> denotes s a x ->
  (ev_ctor v = true \/ absent fst keq k (elems s)) ->
  match a with Outside _ => True | Slot i => (0 < s_nempty s \/ ~ absent fst keq k (elems s)) /\ (triv = true \/ forall e, holds s i e -> keq (fst e) k = false) end ->
  exists s' r, (let* y := s_assign f hash keq triv v s k a in give_inserted f y) = Ok (s', r) /\
    spec_step fst keq takes (CAssign (k, Some x)) (elems s) (elems s') r /\ whole (elems s') /\ s_destroy f s' = Ok tt.
Proof. exact (fun K V f hash keq KL => AssignProofs.assign_final f hash keq KL). Qed.
Print Assumptions C83_partial.
(** m.insert_or_assign(k, m.at(k)) reads a destroyed object, on every map that has the key. *)
Theorem C83_self_refuted : forall (K V : Type) f (hash : K -> Z) keq, key_laws hash keq ->
  forall v (s : @swiss (elt K V)) i k0 o k, occurs f fst hash keq takes s -> holds s i (k0, o) -> keq k0 k = true ->
  s_assign f hash keq false v s k (Slot i) = Err DeadObject.
Proof. exact (fun K V f hash keq KL => AssignProofs.assign_self f hash keq KL). Qed.
Print Assumptions C83_self_refuted.
(** A constructor that throws while a present key is assigned leaves the element in the table
    without its mapped value: the exception reaches the caller, and then the destructor of the
    table, reading the element and assigning it again are undefined. *)
Theorem C83_throw_refuted : forall (K V : Type) f (hash : K -> Z) keq, key_laws hash keq ->
  forall v (s : @swiss (elt K V)) i k0 x k y, occurs f fst hash keq takes s -> ev_ctor v = false -> holds s i (k0, Some x) -> keq k0 k = true ->
  exists s', s_assign f hash keq false v s k (Outside y) = Ok (s', None) /\ holds s' i (k0, None) /\
    s_destroy f s' = Err DeadObject /\ s_read f hash keq s' k = Err DeadObject /\ forall w z, s_assign f hash keq false w s' k (Outside z) = Err DeadObject.
Proof. exact (fun K V f hash keq KL => AssignProofs.assign_throws f hash keq KL). Qed.
Print Assumptions C83_throw_refuted.
(** A reference argument and a new key for which the table grows. *)
Theorem C83_growth_refuted : forall (K V : Type) f (hash : K -> Z) keq, key_laws hash keq ->
  forall triv v (s : @swiss (elt K V)) i k, occurs f fst hash keq takes s -> absent fst keq k (elems s) ->
  (exists s' p tr, make_room f (ev_lim v) s (hash k) = Ok (s', Some (p, tr)) /\ s_cap s' <> s_cap s) ->
  s_assign f hash keq triv v s k (Slot i) = Err UseAfterFree.
Proof. exact (fun K V f hash keq KL => AssignProofs.assign_freed f hash keq KL). Qed.
Print Assumptions C83_growth_refuted.

(** Maps with integer keys and values, built by reserve(n) and insertions of (k, 10 k). *)
Definition puts (n : Z) (l : list Z) : list (env * call (elt Z Z) Z) := (v0, CReserve n) :: map (fun k => (v0, CInsert (k, Some (10 * k)))) l.
Definition amap (f : simd) (n : Z) (l : list Z) : @swiss (elt Z Z) := state (run f fst ehash ekeq takes empty_swiss (puts n l)) empty_swiss.
Lemma amap_occurs : forall f n l, 0 <= n < 2 ^ 64 -> (exists rs, results (run f fst ehash ekeq takes empty_swiss (puts n l)) = Ok rs) -> occurs f fst ehash ekeq takes (amap f n l).
Proof.
  intros f n l Hn [rs Hr]. apply WorldProofs.reachable_occurs. unfold results in Hr. exists (puts n l). unfold amap.
  destruct (run f fst ehash ekeq takes empty_swiss (puts n l)) as [[s r]|] eqn:Ex; [|discriminate]. exists r. split; [|reflexivity].
  unfold history_ok, puts. constructor; [split; [reflexivity|exact Hn]|]. clear. induction l as [|k l IH]; cbn [map]; constructor; [split; [reflexivity|exact I]|exact IH].
Qed.
Definition throwing : env := mkenv (2 ^ 40) false.
(** Contents after the call, and the slot and flag returned ([None] when it threw). *)
Definition after {V} (x : res (@swiss (elt Z V) * ins_result)) : res (list (elt Z V) * option (Z * bool)) :=
  let* y := x in Ok (elems (fst y), match snd y with Some (p, b, _) => Some (p, b) | None => None end).
Example C83_case : forall f, let s := amap f 20 [1; 2; 5] in
  occurs f fst ehash ekeq takes s /\ elems s = [(1, Some 10); (2, Some 20); (5, Some 50)] /\ holds s 1 (1, Some 10) /\
  after (s_assign f ehash ekeq false v0 s 2 (Outside 7)) = Ok ([(1, Some 10); (2, Some 7); (5, Some 50)], Some (2, false)) /\
  after (s_assign f ehash ekeq false v0 s 2 (Slot 1)) = Ok ([(1, Some 10); (2, Some 10); (5, Some 50)], Some (2, false)) /\
  after (s_assign f ehash ekeq false v0 s 6 (Slot 1)) = Ok ([(1, Some 10); (2, Some 20); (5, Some 50); (6, Some 10)], Some (6, true)) /\
  after (s_assign f ehash ekeq true v0 s 1 (Slot 1)) = Ok ([(1, Some 10); (2, Some 20); (5, Some 50)], Some (1, false)).
Proof.
  intros f s. split; [apply amap_occurs; [lia|]; destruct f; (eexists; vm_compute; reflexivity)|]. split; [destruct f; vm_compute; reflexivity|].
  split; [split; [destruct f; vm_compute; split; congruence|exists (ehash 1); destruct f; vm_compute; reflexivity]|]. repeat split; destruct f; vm_compute; reflexivity.
Qed.
(** The failing calls on the same map. *)
Theorem C83_refuted : forall f, let s := amap f 20 [1; 2; 5] in
  occurs f fst ehash ekeq takes s /\ holds s 1 (1, Some 10) /\
  s_assign f ehash ekeq false v0 s 1 (Slot 1) = Err DeadObject /\
  after (s_assign f ehash ekeq false throwing s 1 (Outside 7)) = Ok ([(1, None); (2, Some 20); (5, Some 50)], None) /\
  (let* y := s_assign f ehash ekeq false throwing s 1 (Outside 7) in s_destroy f (fst y)) = Err DeadObject /\
  s_destroy f s = Ok tt /\
  s_assign f ehash ekeq false v0 (amap f 1 [0]) 1 (Slot 0) = Err UseAfterFree.
Proof.
  intros f s. split; [apply amap_occurs; [lia|]; destruct f; (eexists; vm_compute; reflexivity)|].
  split; [split; [destruct f; vm_compute; split; congruence|exists (ehash 1); destruct f; vm_compute; reflexivity]|]. repeat split; destruct f; vm_compute; reflexivity.
Qed.
Print Assumptions C83_refuted.

(** C83, dense maps.  Missing as above; here a reference argument needs a free slot in the
    element array also when the key is present. *)
Theorem C83_dense_partial : forall (K V : Type) (hash : K -> Z) keq clone pocca pocma, key_laws hash keq -> (forall e : elt K V, fst (clone e) = fst e) ->
  forall triv v s k a x, doccurs 1 key0 hash keq takes clone pocca pocma s -> denv_ok v -> whole (delems s) -> ddenotes s a x ->
  match a with Outside _ => True | Slot i => d_size s < d_cap s /\ (triv = true \/ forall e, nth_error (delems s) (Z.to_nat i) = Some e -> keq (fst e) k = false) end ->
  exists s' r, (let* y := d_assign hash keq triv true v s k a in DenseRun.give_inserted y) = Ok (s', r) /\
    dspec 1 key0 keq takes (DAssign (k, Some x)) (delems s) (delems s') r /\ whole (delems s') /\ (r <> QThrow -> d_destroy s' = Ok tt).
Proof. exact (fun K V hash keq clone pocca pocma KL C => AssignDense.assign_final hash keq clone pocca pocma KL C). Qed.
Print Assumptions C83_dense_partial.
(** A reference to the element that is assigned, if the arrays can be had. *)
Theorem C83_dense_self_refuted : forall (K V : Type) (hash : K -> Z) keq clone pocca pocma, key_laws hash keq -> (forall e : elt K V, fst (clone e) = fst e) ->
  forall ctor v s i k0 o k, doccurs 1 key0 hash keq takes clone pocca pocma s -> denv_ok v -> 0 <= i -> nth_error (delems s) (Z.to_nat i) = Some (k0, o) -> keq k0 k = true ->
  d_assign hash keq false ctor v s k (Slot i) = Err DeadObject \/ d_assign hash keq false ctor v s k (Slot i) = Err UseAfterFree \/
  exists s', d_assign hash keq false ctor v s k (Slot i) = Ok (s', None) /\ DenseModel.make_room 1 (dv_dlim v) (dv_slim v) s = Ok (s', None).
Proof. exact (fun K V hash keq clone pocca pocma KL C => AssignDense.assign_self hash keq clone pocca pocma KL C). Qed.
Print Assumptions C83_dense_self_refuted.
(** Any reference argument on a full element array, for present keys as for new ones. *)
Theorem C83_dense_growth_refuted : forall (K V : Type) (hash : K -> Z) keq clone pocca pocma, key_laws hash keq -> (forall e : elt K V, fst (clone e) = fst e) ->
  forall triv ctor v s i k, doccurs 1 key0 hash keq takes clone pocca pocma s -> denv_ok v -> whole (delems s) -> d_size s = d_cap s ->
  d_assign hash keq triv ctor v s k (Slot i) = Err UseAfterFree \/
  exists s', d_assign hash keq triv ctor v s k (Slot i) = Ok (s', None) /\ DenseModel.make_room 1 (dv_dlim v) (dv_slim v) s = Ok (s', None).
Proof. exact (fun K V hash keq clone pocca pocma KL C => AssignDense.assign_freed hash keq clone pocca pocma KL C). Qed.
Print Assumptions C83_dense_growth_refuted.
(** A throwing constructor. *)
Theorem C83_dense_throw_refuted : forall (K V : Type) (hash : K -> Z) keq clone pocca pocma, key_laws hash keq -> (forall e : elt K V, fst (clone e) = fst e) ->
  forall v s i k0 x k y, doccurs 1 key0 hash keq takes clone pocca pocma s -> denv_ok v -> 0 <= i -> nth_error (delems s) (Z.to_nat i) = Some (k0, Some x) -> keq k0 k = true ->
  (exists s' u, DenseModel.make_room 1 (dv_dlim v) (dv_slim v) s = Ok (s', Some u)) ->
  exists s', d_assign hash keq false false v s k (Outside y) = Ok (s', None) /\ nth_error (delems s') (Z.to_nat i) = Some (k0, None) /\
    d_destroy s' = Err DeadObject /\ d_read hash keq s' k = Err DeadObject.
Proof. exact (fun K V hash keq clone pocca pocma KL C => AssignDense.assign_throws hash keq clone pocca pocma KL C). Qed.
Print Assumptions C83_dense_throw_refuted.

Definition dputs (l : list Z) : list (xcall (elt Z Z) Z) := map (fun k => XOn 0 (DInsert (k, Some (10 * k)))) l.
Definition plain (e : elt Z Z) : elt Z Z := e.
Definition admap (l : list (xcall (elt Z Z) Z)) : dense (elt Z Z) := xstate 1 key0 ehash ekeq takes plain false true (prog l) 0.
Lemma admap_occurs : forall l, forallb (xcallb 1) l && xclear 1 key0 ehash ekeq takes plain false true xinit (prog l) = true -> doccurs 1 key0 ehash ekeq takes plain false true (admap l).
Proof. intros l H. apply andb_true_iff in H. destruct H as [H1 H2]. apply xclear_occurs; [apply prog_ok; exact H1|exact H2]. Qed.
Definition dafter (x : res (dense (elt Z Z) * DenseModel.ins_result)) : res (list (elt Z Z) * DenseModel.ins_result) := let* y := x in Ok (delems (fst y), snd y).
Example C83_dense_case : let s := admap (XOn 0 (DReserve 20) :: dputs [1; 2; 5]) in
  doccurs 1 key0 ehash ekeq takes plain false true s /\ d_size s < d_cap s /\
  dafter (d_assign ehash ekeq false true dv0 s 2 (Outside 7)) = Ok ([(1, Some 10); (2, Some 7); (5, Some 50)], Some (1, false)) /\
  dafter (d_assign ehash ekeq false true dv0 s 2 (Slot 2)) = Ok ([(1, Some 10); (2, Some 50); (5, Some 50)], Some (1, false)) /\
  dafter (d_assign ehash ekeq false true dv0 s 6 (Slot 2)) = Ok ([(1, Some 10); (2, Some 20); (5, Some 50); (6, Some 50)], Some (3, true)).
Proof. intros s. split; [apply admap_occurs; vm_compute; reflexivity|]. repeat split; vm_compute; reflexivity. Qed.
(** The failing calls: the second map has a full element array. *)
Theorem C83_dense_refuted : let s := admap (XOn 0 (DReserve 20) :: dputs [1; 2; 5]) in let t := admap (dputs [1; 2; 5; 6]) in
  doccurs 1 key0 ehash ekeq takes plain false true s /\ doccurs 1 key0 ehash ekeq takes plain false true t /\ d_size t = d_cap t /\
  d_assign ehash ekeq false true dv0 s 2 (Slot 1) = Err DeadObject /\
  d_assign ehash ekeq false true dv0 t 2 (Slot 2) = Err UseAfterFree /\
  dafter (d_assign ehash ekeq false false dv0 s 2 (Outside 7)) = Ok ([(1, Some 10); (2, None); (5, Some 50)], None) /\
  (let* y := d_assign ehash ekeq false false dv0 s 2 (Outside 7) in d_destroy (fst y)) = Err DeadObject.
Proof. intros s t. split; [apply admap_occurs; vm_compute; reflexivity|]. split; [apply admap_occurs; vm_compute; reflexivity|]. repeat split; vm_compute; reflexivity. Qed.
Print Assumptions C83_dense_refuted.
