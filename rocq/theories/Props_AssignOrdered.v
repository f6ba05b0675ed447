(** Property C83 on ordered sparse and stable maps: insert_or_assign destroys the mapped value
    before it constructs the new one. *)
From Coq Require Import ZArith List Bool Lia.
From Verif Require Import Base Bits MapSpec LinkModel SwissModel SwissInv SwissRun Instances OrderedInstances SwissOrderedSpec SwissOrdered SwissOrderedRun SwissOrderedWorldSpec SwissOrderedWorld SwissOrderedInstances
  RangeModel AssignSpec AssignModel AssignOrderedModel AssignOrdered.
Import ListNotations.
Open Scope Z_scope.

(** The call stores the value the argument had when the call was made, keeps the order, and all
    mapped values are alive afterwards.  Missing: what [C83_partial] leaves out, and insertions
    that swap two nodes while reclaiming erased slots ([zblocked], [C17_refuted]). *)
Theorem C83_ordered_partial : forall (K V : Type) f sz (hash : K -> Z) keq (clone : elt K V -> elt K V) pocca pocma, 0 < sz -> key_laws hash keq -> (forall e, fst (clone e) = fst e) ->
  forall triv v (w : xworld (elt K V)) j l0 k a x, xoccurs f sz fst hash keq takes clone pocca pocma w -> let h := xw_m w in let s := xw_c w j in
  s_iterate sz h s = Ok l0 -> env_ok (sv_e v) -> whole l0 -> denotes (os_t s) a x -> (ev_ctor (sv_e v) = true \/ absent fst keq k l0) ->
  match a with Outside _ => True | Slot i => (0 < s_nempty (os_t s) \/ ~ absent fst keq k l0) /\ (triv = true \/ forall e, holds (os_t s) i e -> keq (fst e) k = false) end ->
  ~ zblocked f sz fst hash keq takes v (h, s) (ZAssign (k, Some x)) ->
  exists h' s' l' r, (let* y := z_assign f sz hash keq triv v h s k a in z_give sz y) = Ok (h', s', r) /\ zspec fst keq takes (ZAssign (k, Some x)) l0 l' r /\
    s_holds f sz fst hash keq takes h' s' l' /\ whole l' /\ s_destroy f (os_t s') = Ok tt.
Proof. exact (fun K V f sz hash keq clone pocca pocma Hsz KL C => z_final f sz hash keq clone pocca pocma Hsz KL C). Qed.
Print Assumptions C83_ordered_partial.
(** m.insert_or_assign(k, m.at(k)), on every map that has the key. *)
Theorem C83_ordered_self_refuted : forall (K V : Type) f sz (hash : K -> Z) keq (clone : elt K V -> elt K V) pocca pocma, 0 < sz -> key_laws hash keq -> (forall e, fst (clone e) = fst e) ->
  forall v (w : xworld (elt K V)) j i k0 o k, xoccurs f sz fst hash keq takes clone pocca pocma w -> holds (os_t (xw_c w j)) i (k0, o) -> keq k0 k = true ->
  z_assign f sz hash keq false v (xw_m w) (xw_c w j) k (Slot i) = Err DeadObject.
Proof. exact (fun K V f sz hash keq clone pocca pocma Hsz KL C => z_self f sz hash keq clone pocca pocma Hsz KL C). Qed.
Print Assumptions C83_ordered_self_refuted.
(** A throwing constructor: the iteration still shows the element, without its mapped value; the
    destructor of the map, reading the element and assigning it again are undefined. *)
Theorem C83_ordered_throw_refuted : forall (K V : Type) f sz (hash : K -> Z) keq (clone : elt K V -> elt K V) pocca pocma, 0 < sz -> key_laws hash keq -> (forall e, fst (clone e) = fst e) ->
  forall v (w : xworld (elt K V)) j l0 i k0 x k y, xoccurs f sz fst hash keq takes clone pocca pocma w -> let h := xw_m w in let s := xw_c w j in s_iterate sz h s = Ok l0 ->
  ev_ctor (sv_e v) = false -> holds (os_t s) i (k0, Some x) -> keq k0 k = true ->
  exists s' l1 l2, z_assign f sz hash keq false v h s k (Outside y) = Ok (h, s', None) /\ l0 = l1 ++ (k0, Some x) :: l2 /\ s_iterate sz h s' = Ok (l1 ++ (k0, None) :: l2) /\
    s_destroy f (os_t s') = Err DeadObject /\ s_read f hash keq (os_t s') k = Err DeadObject /\ forall u z, z_assign f sz hash keq false u h s' k (Outside z) = Err DeadObject.
Proof. exact (fun K V f sz hash keq clone pocca pocma Hsz KL C => z_throws f sz hash keq clone pocca pocma Hsz KL C). Qed.
Print Assumptions C83_ordered_throw_refuted.
(** A reference argument and a new key for which the table grows. *)
Theorem C83_ordered_growth_refuted : forall (K V : Type) f sz (hash : K -> Z) keq (clone : elt K V -> elt K V) pocca pocma, 0 < sz -> key_laws hash keq -> (forall e, fst (clone e) = fst e) ->
  forall triv v (w : xworld (elt K V)) j i k, xoccurs f sz fst hash keq takes clone pocca pocma w -> let s := os_t (xw_c w j) in absent fst keq k (elems s) ->
  (exists s' p tr, make_room f (ev_lim (sv_e v)) s (hash k) = Ok (s', Some (p, tr)) /\ s_cap s' <> s_cap s) ->
  z_assign f sz hash keq triv v (xw_m w) (xw_c w j) k (Slot i) = Err UseAfterFree.
Proof. exact (fun K V f sz hash keq clone pocca pocma Hsz KL C => z_freed f sz hash keq clone pocca pocma Hsz KL C). Qed.
Print Assumptions C83_ordered_growth_refuted.

(** Maps with integer keys and values, built by reserve(n) and insertions of (k, 10 k). *)
Definition same_elt (e : elt Z Z) : elt Z Z := e.
Definition zputs (n : Z) (l : list Z) : list (xcall (elt Z Z) Z) := XOn 0 (ZReserve n) :: map (fun k => XOn 0 (ZInsert (k, Some (10 * k)))) l.
Definition zmap (f : simd) (n : Z) (l : list Z) : xworld (elt Z Z) := xend f 48 fst ehash ekeq takes same_elt false true addr0 heap0 (xprog (zputs n l)).
Notation zmap_ok f n l := (forallb xcallb (zputs n l) && xclear f 48 fst ehash ekeq takes same_elt false true (xinit addr0 heap0) (xprog (zputs n l))).
Lemma zmap_occurs : forall f n l, zmap_ok f n l = true -> xoccurs f 48 fst ehash ekeq takes same_elt false true (zmap f n l).
Proof. intros f n l H. apply andb_true_iff in H. destruct H as [H1 H2]. apply xclear_occurs; [apply xinit0|apply placed_ok; exact H1|exact H2]. Qed.
(** Contents after the call and the flag returned ([None] when it threw). *)
Definition zafter (x : res (heap * oswiss (elt Z Z) * s_result)) : res (list (elt Z Z) * option bool) :=
  let* y := x in let '(h, s, o) := y in let* l := s_iterate 48 h s in Ok (l, match o with Some (_, b) => Some b | None => None end).
Definition zthrowing : senv := mksv (mkenv (2 ^ 40) false) (2 ^ 30) (fun a => (a mod 7, 5)).
Notation on f triv v w k a := (z_assign f 48 ehash ekeq triv v (xw_m w) (xw_c w 0%nat) k a).
Example C83_ordered_case : forall f, let w := zmap f 20 [5; 2; 1] in
  xoccurs f 48 fst ehash ekeq takes same_elt false true w /\ holds (os_t (xw_c w 0%nat)) 1 (1, Some 10) /\
  zafter (on f false (sat (2 ^ 30)) w 2 (Outside 7)) = Ok ([(5, Some 50); (2, Some 7); (1, Some 10)], Some false) /\
  zafter (on f false (sat (2 ^ 30)) w 2 (Slot 1)) = Ok ([(5, Some 50); (2, Some 10); (1, Some 10)], Some false) /\
  zafter (on f false (sat (2 ^ 30)) w 6 (Slot 1)) = Ok ([(5, Some 50); (2, Some 20); (1, Some 10); (6, Some 10)], Some true) /\
  zafter (on f true (sat (2 ^ 30)) w 1 (Slot 1)) = Ok ([(5, Some 50); (2, Some 20); (1, Some 10)], Some false) /\
  zafter (on f false zthrowing w 6 (Outside 7)) = Ok ([(5, Some 50); (2, Some 20); (1, Some 10)], None).
Proof.
  intros f w. split; [apply zmap_occurs; destruct f; vm_compute; reflexivity|].
  split; [split; [destruct f; vm_compute; split; congruence|exists (ehash 1); destruct f; vm_compute; reflexivity]|]. repeat split; destruct f; vm_compute; reflexivity.
Qed.
(** The failing calls on the same map, and one on a full map. *)
Theorem C83_ordered_refuted : forall f, let w := zmap f 20 [5; 2; 1] in
  xoccurs f 48 fst ehash ekeq takes same_elt false true w /\ xoccurs f 48 fst ehash ekeq takes same_elt false true (zmap f 1 [0]) /\
  on f false (sat (2 ^ 30)) w 1 (Slot 1) = Err DeadObject /\
  zafter (on f false zthrowing w 1 (Outside 7)) = Ok ([(5, Some 50); (2, Some 20); (1, None)], None) /\
  (let* y := on f false zthrowing w 1 (Outside 7) in s_destroy f (os_t (snd (fst y)))) = Err DeadObject /\
  on f false (sat (2 ^ 30)) (zmap f 1 [0]) 1 (Slot 0) = Err UseAfterFree.
Proof.
  intros f w. split; [apply zmap_occurs; destruct f; vm_compute; reflexivity|]. split; [apply zmap_occurs; destruct f; vm_compute; reflexivity|]. repeat split; destruct f; vm_compute; reflexivity.
Qed.
Print Assumptions C83_ordered_refuted.
