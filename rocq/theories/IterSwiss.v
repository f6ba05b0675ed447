(** Comparison of iterators, ordered sparse tables. *)
From Coq Require Import ZArith List Bool Lia Sorted.
From Verif Require Import Base BaseLemmas MapSpec Bits IterSpec IterModel IterProofs SwissModel SwissInv SwissOps LinkModel LinkProofs SwissOrderedSpec SwissOrdered SwissOrderedLinks SwissOrderedProofs SwissOrderedOps.
From Verif Require SwissOrderedWorld WrapSwissOrdered.
Import ListNotations.
Open Scope Z_scope.

(** Keeping some members of an ascending list. *)
Lemma filter_ss : forall (p : Z -> bool) l, StronglySorted Z.lt l -> StronglySorted Z.lt (filter p l).
Proof.
  intros p l. induction l as [|x l IH]; intros H; [exact H|]. inversion H as [|? ? Hs Hf]; subst. cbn [filter]. destruct (p x); [|apply IH; exact Hs]. constructor; [apply IH; exact Hs|].
  rewrite Forall_forall in *. intros y Hy. apply filter_In in Hy. apply Hf. exact (proj1 Hy).
Qed.

Section Sparse.
Context {E K : Type}.
Variable f : simd.
Variable sz : Z.
Variable key_of : E -> K.
Variable hash : K -> Z.
Variable keq : K -> K -> bool.
Hypothesis Hsz : 0 < sz.
Hypothesis KL : key_laws hash keq.
Notation zinv := (SwissOrderedProofs.zinv f sz key_of hash keq).

(** The slots that hold elements, ascending. *)
Definition slots_of (s : oswiss E) : list Z := filter (fun i => match s_nodes (os_t s) i with Some _ => true | None => false end) (zrange (s_cap (os_t s))).
Lemma slots_elems : forall s, flat_map (look (s_nodes (os_t s))) (slots_of s) = elems (os_t s).
Proof.
  intros s. unfold slots_of. rewrite seqn_filter. unfold elems, collect. generalize (zrange (s_cap (os_t s))). intros l. induction l as [|i l IH]; [reflexivity|]. cbn [flat_map]. rewrite map_app, <- IH. unfold look at 1. destruct (s_nodes (os_t s) i); reflexivity.
Qed.
Lemma slots_in : forall h s ord i, zinv h s ord -> (In i (slots_of s) <-> In i ord).
Proof.
  intros h s ord i H. unfold slots_of. rewrite filter_In, zrange_In, (zi_tied _ _ _ _ _ _ _ _ H i). split.
  - intros (_ & X). destruct (s_nodes (os_t s) i); [discriminate|discriminate X].
  - intros X. split; [apply (rl_in _ _ _ _ _ _ (zi_rl _ _ _ _ _ _ _ _ H)); apply (zi_tied _ _ _ _ _ _ _ _ H); exact X|]. destruct (s_nodes (os_t s) i); [reflexivity|congruence].
Qed.
Lemma snth_given : forall h s ord i, zinv h s ord -> 0 <= i < Z.of_nat (length ord) -> given (s_nth h s i) = option_map (fun p => os_base s + p * sz) (nth_error ord (Z.to_nat i)).
Proof.
  intros h s ord i H Hi. destruct (nth_error ord (Z.to_nat i)) as [p|] eqn:Ep; [|apply nth_error_None in Ep; lia]. apply nth_error_split in Ep. destruct Ep as (o1 & o2 & -> & Hl).
  replace i with (Z.of_nat (length o1)) by lia. rewrite (nth_ok f sz key_of hash keq Hsz h s o1 (p :: o2) H). reflexivity.
Qed.
Lemma sorder_slots : forall h s ord, zinv h s ord -> (in_order link_lt (fun i => given (s_nth h s i)) (s_size (os_t s)) <-> ord = slots_of s).
Proof.
  intros h s ord H. rewrite (proj2 (zi_len _ _ _ _ _ _ _ _ H)). rewrite (in_order_sorted sz (os_base s) ord _ Hsz (fun i Hi => snth_given _ _ _ i H Hi)). split.
  - intros Hs. apply ss_same; [exact Hs|apply filter_ss, zrange_ss|]. intros i. symmetry. apply (slots_in _ _ _ i H).
  - intros ->. apply filter_ss, zrange_ss.
Qed.
Lemma sorder_array : forall h s ord, zinv h s ord -> (in_order link_lt (fun i => given (s_nth h s i)) (s_size (os_t s)) <-> cont s ord = elems (os_t s)).
Proof.
  intros h s ord H. rewrite (sorder_slots _ _ _ H). rewrite <- slots_elems. unfold cont, seqn. split; [intros <-; reflexivity|]. intros Hc.
  assert (Hu : uniq key_of keq (os_t s)). { destruct (zi_wf _ _ _ _ _ _ _ _ H) as [W|W]; [intros i j e e' a b Hi; rewrite (w0_nodes _ W) in Hi; discriminate Hi|apply (w_u _ _ _ _ _ W)]. }
  apply (flat_inj E (fun i => option_map fst (s_nodes (os_t s) i))).
  - intros i Hi. apply (zi_tied _ _ _ _ _ _ _ _ H) in Hi. destruct (s_nodes (os_t s) i); [discriminate|congruence].
  - intros i Hi. apply (slots_in _ _ _ i H) in Hi. apply (zi_tied _ _ _ _ _ _ _ _ H) in Hi. destruct (s_nodes (os_t s) i); [discriminate|congruence].
  - intros i j x _ _ Ei Ej. destruct (s_nodes (os_t s) i) as [(e, a)|] eqn:E1; [|discriminate Ei]. destruct (s_nodes (os_t s) j) as [(e', b)|] eqn:E2; [|discriminate Ej]. injection Ei as <-. injection Ej as ->. apply (Hu i j _ _ _ _ E1 E2). apply (kl_refl _ _ KL).
  - assert (X : forall l, flat_map (fun i => match option_map fst (s_nodes (os_t s) i) with Some x => [x] | None => [] end) l = flat_map (look (s_nodes (os_t s))) l)
      by (intros l; apply flat_map_ext; intros i; unfold look; destruct (s_nodes (os_t s) i); reflexivity).
    rewrite !X. exact Hc.
Qed.
End Sparse.

Section World.
Context {E K : Type}.
Variable f : simd.
Variable sz : Z.
Variable key_of : E -> K.
Variable hash : K -> Z.
Variable keq : K -> K -> bool.
Hypothesis Hsz : 0 < sz.
Hypothesis KL : key_laws hash keq.
Variable rep : E -> E -> E.
Variable clone : E -> E.
Variables pocca pocma : bool.
Hypothesis Hrep : forall a b, keq (key_of a) (key_of b) = true -> key_of (rep a b) = key_of a.
Hypothesis Hclone : forall e, key_of (clone e) = key_of e.
Lemma sparse_in_order : forall w c, SwissOrderedWorld.xoccurs f sz key_of hash keq rep clone pocca pocma w ->
  let h := SwissOrderedWorld.xw_m w in let s := SwissOrderedWorld.xw_c w c in
  (in_order link_lt (fun i => given (s_nth h s i)) (size (os_t s)) <-> s_iterate sz h s = Ok (elems (os_t s))).
Proof.
  intros w c Ho h s. destruct (WrapSwissOrdered.inv_of f sz key_of hash keq rep clone pocca pocma Hsz KL Hrep Hclone w c Ho) as (ord & H & Hi). fold h in H, Hi. fold s in H, Hi.
  unfold size. rewrite (sorder_array f sz key_of hash keq Hsz KL _ _ _ H), Hi. split; [intros ->; reflexivity|intros X; injection X as X; exact X].
Qed.
End World.
