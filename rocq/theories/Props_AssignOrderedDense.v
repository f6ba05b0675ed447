(** Property C83 on ordered dense maps. *)
From Coq Require Import ZArith List Bool Lia.
From Verif Require Import Base MapSpec DenseSpec DenseModel DenseRun DenseRefine LinkModel Instances DenseInstances OrderedSpec OrderedDense OrderedRun OrderedWorldSpec OrderedWorld OrderedInstances
  RangeModel AssignSpec AssignModel AssignOrderedModel AssignOrderedDense.
Import ListNotations.
Open Scope Z_scope.

(** The call stores the value the argument had when the call was made, keeps the order, and all
    mapped values are alive afterwards.  Missing: what [C83_dense_partial] leaves out, and steps
    in which the larger bucket array cannot be had or the element array has no place (oblocked). *)
Theorem C83_ordered_dense_partial : forall (K V : Type) sz (hash : K -> Z) keq (clone : elt K V -> elt K V) pocca pocma, 0 < sz -> key_laws hash keq -> (forall e, fst (clone e) = fst e) ->
  forall triv v hw j l0 k a x, yoccurs sz 1 key0 hash keq takes clone pocca pocma hw -> let h := fst hw in let s := snd hw j in
  o_iterate sz h s = Ok l0 -> denv_ok (ov_d v) -> whole l0 -> ddenotes (o_d s) a x ->
  match a with Outside _ => True | Slot i => d_size (o_d s) < d_cap (o_d s) /\ (triv = true \/ forall e, nth_error (delems (o_d s)) (Z.to_nat i) = Some e -> keq (fst e) k = false) end ->
  ~ oblocked sz 1 key0 hash keq takes v (h, s) (OAssign (k, Some x)) ->
  exists h' s' l' r, (let* y := o_assign sz hash keq triv true v h s k a in o_give sz y) = Ok (h', s', r) /\ ospec 1 key0 keq takes (OAssign (k, Some x)) l0 l' r /\
    o_holds sz 1 key0 hash keq takes h' s' l' /\ whole l' /\ d_destroy (o_d s') = Ok tt.
Proof. exact (fun K V sz hash keq clone pocca pocma Hsz KL C => o_final sz hash keq clone pocca pocma Hsz KL C). Qed.
Print Assumptions C83_ordered_dense_partial.
(** m.insert_or_assign(k, m.at(k)), on every map that has the key, unless an allocation throws
    ([BadPlacement]: the model's memory has no room for the new array). *)
Theorem C83_ordered_dense_self_refuted : forall (K V : Type) sz (hash : K -> Z) keq (clone : elt K V -> elt K V) pocca pocma, 0 < sz -> key_laws hash keq -> (forall e, fst (clone e) = fst e) ->
  forall ctor v hw j l0 i k0 o k, yoccurs sz 1 key0 hash keq takes clone pocca pocma hw -> let h := fst hw in let s := snd hw j in o_iterate sz h s = Ok l0 -> denv_ok (ov_d v) ->
  0 <= i -> nth_error (delems (o_d s)) (Z.to_nat i) = Some (k0, o) -> keq k0 k = true ->
  let r := o_assign sz hash keq false ctor v h s k (Slot i) in
  r = Err DeadObject \/ r = Err UseAfterFree \/ r = Err BadPlacement \/ exists h' s', r = Ok (h', s', None) /\ make_room 1 (dv_dlim (ov_d v)) (dv_slim (ov_d v)) (o_d s) = Ok (o_d s', None).
Proof. exact (fun K V sz hash keq clone pocca pocma Hsz KL C => o_self sz hash keq clone pocca pocma Hsz KL C). Qed.
Print Assumptions C83_ordered_dense_self_refuted.
(** A reference argument on a full map, whether or not the key is present. *)
Theorem C83_ordered_dense_growth_refuted : forall (K V : Type) sz (hash : K -> Z) keq (clone : elt K V -> elt K V) pocca pocma, 0 < sz -> key_laws hash keq -> (forall e, fst (clone e) = fst e) ->
  forall triv ctor v hw j l0 i k, yoccurs sz 1 key0 hash keq takes clone pocca pocma hw -> let h := fst hw in let s := snd hw j in o_iterate sz h s = Ok l0 -> denv_ok (ov_d v) ->
  whole l0 -> d_size (o_d s) = d_cap (o_d s) ->
  let r := o_assign sz hash keq triv ctor v h s k (Slot i) in
  r = Err UseAfterFree \/ r = Err BadPlacement \/ exists h' s', r = Ok (h', s', None) /\ make_room 1 (dv_dlim (ov_d v)) (dv_slim (ov_d v)) (o_d s) = Ok (o_d s', None).
Proof. exact (fun K V sz hash keq clone pocca pocma Hsz KL C => o_freed sz hash keq clone pocca pocma Hsz KL C). Qed.
Print Assumptions C83_ordered_dense_growth_refuted.
(** A throwing constructor: the iteration still shows the element, without its mapped value; the
    destructor of the map and reading the element are undefined. *)
Theorem C83_ordered_dense_throw_refuted : forall (K V : Type) sz (hash : K -> Z) keq (clone : elt K V -> elt K V) pocca pocma, 0 < sz -> key_laws hash keq -> (forall e, fst (clone e) = fst e) ->
  forall v hw j l0 i k0 x k y, yoccurs sz 1 key0 hash keq takes clone pocca pocma hw -> let h := fst hw in let s := snd hw j in o_iterate sz h s = Ok l0 -> denv_ok (ov_d v) ->
  0 <= i -> nth_error (delems (o_d s)) (Z.to_nat i) = Some (k0, Some x) -> keq k0 k = true -> (exists h1 s1 hint1 u, o_make_room sz 1 v h s 0 = Ok (h1, s1, hint1, Some u)) ->
  exists h' s' l1 l2, o_assign sz hash keq false false v h s k (Outside y) = Ok (h', s', None) /\ l0 = l1 ++ (k0, Some x) :: l2 /\ o_iterate sz h' s' = Ok (l1 ++ (k0, None) :: l2) /\
    d_destroy (o_d s') = Err DeadObject /\ d_read hash keq (o_d s') k = Err DeadObject.
Proof. exact (fun K V sz hash keq clone pocca pocma Hsz KL C => o_throws sz hash keq clone pocca pocma Hsz KL C). Qed.
Print Assumptions C83_ordered_dense_throw_refuted.

(** Maps with integer keys and values, built by reserve(n) and insertions of (k, 10 k); the
    order differs from that of the array after the erasure. *)
Definition plain_elt (e : elt Z Z) : elt Z Z := e.
Definition oputs (n : Z) : list (ycall (elt Z Z) Z) := YOn 0 (OReserve n) :: map (fun k => YOn 0 (OInsert (k, Some (10 * k)))) [4; 5; 2; 1] ++ [YOn 0 (OErase 0 4)].
Definition omap (n : Z) : yworld := yend 48 1 key0 ehash ekeq takes plain_elt false true addr0 heap0 (yprog (oputs n ++ if n =? 4 then [YOn 0 (OInsert (9, Some 90))] else [])).
Notation okmap hw := (yoccurs 48 1 (@key0 Z Z) ehash ekeq takes plain_elt false true hw) (only parsing).
Lemma omap_occurs : okmap (omap 20) /\ okmap (omap 4).
Proof. split; (apply yclear_occurs; [apply init0|apply place_from_ok; reflexivity|vm_compute; reflexivity]). Qed.
(** Contents after the call and the flag returned ([None] when it threw). *)
Definition oafter (x : res (heap * odense (elt Z Z) * o_result)) : res (list (elt Z Z) * option bool) :=
  let* y := x in let '(h, s, o) := y in let* l := o_iterate 48 h s in Ok (l, match o with Some (_, b) => Some b | None => None end).
Notation on triv ctor hw k a := (o_assign 48 ehash ekeq triv ctor (at_ (2 ^ 30)) (fst hw) (snd hw 0%nat) k a) (only parsing).
Example C83_ordered_dense_case : let w := omap 20 in okmap w /\ delems (o_d (snd w 0%nat)) = [(1, Some 10); (5, Some 50); (2, Some 20)] /\
  oafter (on false true w 2 (Outside 7)) = Ok ([(5, Some 50); (2, Some 7); (1, Some 10)], Some false) /\
  oafter (on false true w 2 (Slot 0)) = Ok ([(5, Some 50); (2, Some 10); (1, Some 10)], Some false) /\
  oafter (on false true w 6 (Slot 0)) = Ok ([(5, Some 50); (2, Some 20); (1, Some 10); (6, Some 10)], Some true) /\
  oafter (on true true w 1 (Slot 0)) = Ok ([(5, Some 50); (2, Some 20); (1, Some 10)], Some false) /\
  oafter (on false false w 6 (Outside 7)) = Ok ([(5, Some 50); (2, Some 20); (1, Some 10)], None).
Proof. intros w. split; [apply omap_occurs|]. repeat split; vm_compute; reflexivity. Qed.
(** The failing calls on the same map, and two on a full map. *)
Theorem C83_ordered_dense_refuted : let w := omap 20 in let full := omap 4 in okmap w /\ okmap full /\
  on false true w 1 (Slot 0) = Err DeadObject /\
  oafter (on false false w 1 (Outside 7)) = Ok ([(5, Some 50); (2, Some 20); (1, None)], None) /\
  (let* y := on false false w 1 (Outside 7) in d_destroy (o_d (snd (fst y)))) = Err DeadObject /\
  on true true full 1 (Slot 0) = Err UseAfterFree /\ on true true full 6 (Slot 0) = Err UseAfterFree.
Proof. intros w full. split; [apply omap_occurs|]. split; [apply omap_occurs|]. repeat split; vm_compute; reflexivity. Qed.
Print Assumptions C83_ordered_dense_refuted.
