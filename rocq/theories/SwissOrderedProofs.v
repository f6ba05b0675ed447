(** The calls on an ordered swiss table keep the ring of links in step with the slots. *)
From Coq Require Import ZArith List Bool Lia Permutation.
From Verif Require Import Base BaseLemmas MapSpec Bits SwissModel SwissArith SwissCap SwissInv SwissOps SwissClean SwissIter SwissRun SwissRoom SwissRefine
  LinkModel LinkProofs OrderedLinks SwissOrderedSpec SwissOrdered SwissOrderedRun SwissOrderedLinks.
Import ListNotations.
Open Scope Z_scope.

(** ** Elements in the order of their slots. *)
Section Seq.
Context {E : Type}.
Definition look (n : Z -> option (E * Z)) (i : Z) : list E := match n i with Some x => [fst x] | None => [] end.
Definition seqn (n : Z -> option (E * Z)) (ord : list Z) : list E := flat_map (look n) ord.
Definition tied (n : Z -> option (E * Z)) (ord : list Z) : Prop := forall i, In i ord <-> n i <> None.
Lemma seqn_app : forall n a b, seqn n (a ++ b) = seqn n a ++ seqn n b.
Proof. intros. apply flat_map_app. Qed.
Lemma seqn_cons : forall n i o x, n i = Some x -> seqn n (i :: o) = fst x :: seqn n o.
Proof. intros n i o x H. unfold seqn. cbn [flat_map]. unfold look at 1. rewrite H. reflexivity. Qed.
Lemma seqn_map : forall n n' g o, (forall i, In i o -> n' (g i) = n i) -> seqn n' (map g o) = seqn n o.
Proof.
  intros n n' g o. induction o as [|i o IH]; intros H; [reflexivity|]. unfold seqn in *. cbn [map flat_map]. rewrite IH by (intros j Hj; apply H; right; exact Hj).
  unfold look. rewrite (H i (or_introl eq_refl)). reflexivity.
Qed.
Lemma seqn_ext : forall n n' o, (forall i, In i o -> n' i = n i) -> seqn n' o = seqn n o.
Proof. intros n n' o H. rewrite <- (map_id o) at 1. apply seqn_map. exact H. Qed.
Lemma seqn_len : forall n o, (forall i, In i o -> n i <> None) -> length (seqn n o) = length o.
Proof.
  intros n o. induction o as [|i o IH]; intros H; [reflexivity|]. destruct (n i) as [x|] eqn:E0; [|exfalso; apply (H i); [left; reflexivity|exact E0]].
  rewrite (seqn_cons _ _ _ _ E0). cbn [length]. rewrite IH by (intros j Hj; apply H; right; exact Hj). reflexivity.
Qed.
Lemma tied_some : forall n o i, tied n o -> In i o -> exists x, n i = Some x.
Proof. intros n o i H Hi. apply H in Hi. destruct (n i) as [x|]; [exists x; reflexivity|congruence]. Qed.
Lemma seqn_filter : forall (n : Z -> option (E * Z)) l, flat_map (look n) (filter (fun i => match n i with Some _ => true | None => false end) l) = flat_map (look n) l.
Proof. intros n l. induction l as [|i l IH]; [reflexivity|]. cbn [filter flat_map]. unfold look at 2. destruct (n i) as [x|] eqn:E0; [cbn [flat_map app]; unfold look at 1; rewrite E0; cbn [app]; f_equal; exact IH|exact IH]. Qed.
Lemma seqn_perm : forall n ord cap, NoDup ord -> tied n ord -> (forall i, n i <> None -> 0 <= i < cap) -> Permutation (seqn n ord) (map fst (collect n cap)).
Proof.
  intros n ord cap Hn Ht Hr. assert (Em : map fst (collect n cap) = flat_map (look n) (zrange cap)).
  { unfold collect. generalize (zrange cap). intros l. induction l as [|i l IH]; [reflexivity|]. cbn [flat_map]. rewrite map_app, IH. unfold look at 2. destruct (n i); reflexivity. }
  rewrite Em, <- seqn_filter. unfold seqn. apply Permutation_flat_map. apply NoDup_Permutation; [exact Hn|apply NoDup_filter, zrange_NoDup|]. intros i. rewrite filter_In, zrange_In. rewrite (Ht i). split.
  - intros H. split; [apply Hr; exact H|]. destruct (n i); [reflexivity|congruence].
  - intros (_ & H). destruct (n i); [discriminate|congruence].
Qed.
End Seq.

Section Z.
Context {E K : Type}.
Variable f : simd.
Variable sz : Z.
Variable key_of : E -> K.
Variable hash : K -> Z.
Variable keq : K -> K -> bool.
Hypothesis Hsz : 0 < sz.
Hypothesis KL : key_laws hash keq.
Notation swiss := (@swiss E).
Notation oswiss := (oswiss E).
Notation wf1 := (wf1 f key_of hash keq).
Notation wf := (wf f key_of hash keq).
Notation absent := (absent key_of keq).

Definition rl (h : heap) (s : oswiss) (ord : list Z) : Prop := rlinks sz h (os_hdr s) (os_base s) (s_cap (os_t s)) ord.
Record zinv (h : heap) (s : oswiss) (ord : list Z) : Prop := {
  zi_wf : wf (os_t s);
  zi_rl : rl h s ord;
  zi_tied : tied (s_nodes (os_t s)) ord
}.
(** The contents in insertion order. *)
Definition cont (s : oswiss) (ord : list Z) : list E := seqn (s_nodes (os_t s)) ord.
Definition sfr (h : heap) (s : oswiss) (h' : heap) (s' : oswiss) : Prop :=
  os_hdr s' = os_hdr s /\ frame sz h (os_hdr s) (os_base s) (s_cap (os_t s)) h' (os_hdr s') (os_base s') (s_cap (os_t s')).
Lemma sfr_refl : forall h s, sfr h s h s. Proof. intros h s. split; [reflexivity|apply frame_refl]. Qed.
Lemma sfr_trans : forall h0 s0 h1 s1 h2 s2, sfr h0 s0 h1 s1 -> sfr h1 s1 h2 s2 -> sfr h0 s0 h2 s2.
Proof. intros h0 s0 h1 s1 h2 s2 (A & B) (C & D). split; [congruence|]. apply (frame_trans _ _ _ _ _ _ _ _ _ _ _ _ _ B D). Qed.

Lemma zi_perm : forall h s ord, zinv h s ord -> Permutation (cont s ord) (elems (os_t s)).
Proof.
  intros h s ord H. apply seqn_perm; [apply (rl_nd _ _ _ _ _ _ (zi_rl _ _ _ H))|apply (zi_tied _ _ _ H)|]. intros i Hi.
  destruct (Z_le_gt_dec 0 i); [destruct (Z_lt_ge_dec i (s_cap (os_t s))); [lia|]|]; exfalso; apply Hi; apply (wf_out f key_of hash keq _ (zi_wf _ _ _ H)); lia.
Qed.
Lemma zi_slot : forall h s ord i, zinv h s ord -> In i ord -> 0 <= i < s_cap (os_t s) /\ sslot sz s i <> os_hdr s /\ s_index sz s (sslot sz s i) = Ok i /\
  exists n, s_nodes (os_t s) i = Some n /\ get_node (os_t s) i = Ok n.
Proof.
  intros h s ord i H Hi. pose proof (rl_in _ _ _ _ _ _ (zi_rl _ _ _ H) i Hi) as Hr. split; [exact Hr|]. split; [apply (rl_hdr _ _ _ _ _ _ (zi_rl _ _ _ H)); exact Hr|]. split.
  - unfold s_index, sslot. rewrite slot_ix_of by lia. reflexivity.
  - destruct (tied_some _ _ _ (zi_tied _ _ _ H) Hi) as (n & Hn). exists n. split; [exact Hn|]. destruct (wf_some f key_of hash keq _ _ _ (zi_wf _ _ _ H) Hn) as (W1 & _).
    apply get_node_ok; [apply (w_m _ _ _ _ _ W1)|exact Hr|exact Hn].
Qed.
Lemma zi_len : forall h s ord, zinv h s ord -> length (cont s ord) = length ord /\ s_size (os_t s) = Z.of_nat (length ord).
Proof.
  intros h s ord H. assert (El : length (cont s ord) = length ord) by (apply seqn_len; intros i Hi; apply (zi_tied _ _ _ H); exact Hi). split; [exact El|].
  destruct (wf_size f key_of hash keq _ (zi_wf _ _ _ H)) as (E1 & _). rewrite E1, <- (Permutation_length (zi_perm _ _ _ H)), El. reflexivity.
Qed.
Lemma cont_split : forall s o1 i o2 n, s_nodes (os_t s) i = Some n -> cont s (o1 ++ i :: o2) = cont s o1 ++ fst n :: cont s o2.
Proof. intros s o1 i o2 n H. unfold cont. rewrite seqn_app. f_equal. apply seqn_cons. exact H. Qed.

(** ** Movements of nodes. *)
Definition swapless (tr : list ev) : Prop := forall a b, ~ In (EvSwap a b) tr.
Lemma dest_replay : forall v tr cap (n0 n1 : Z -> option (E * Z)), replay cap n0 tr n1 -> swapless tr ->
  forall h hdr base ord, rlinks sz h hdr base cap ord -> tied n0 ord ->
  exists h' g, foldM (s_event sz v) tr (h, base, cap) = Ok (h', base, cap) /\ rlinks sz h' hdr base cap (map g ord) /\ tied n1 (map g ord) /\
    seqn n1 (map g ord) = seqn n0 ord /\ frame sz h hdr base cap h' hdr base cap.
Proof.
  intros v tr cap n0 n1 R. induction R as [|tr n1 a b x R IH Ha Hb Hbc|tr n1 a b x y R IH Ha Hb Hab]; intros Hs h hdr base ord L T.
  - exists h, (fun i => i). rewrite map_id. split; [reflexivity|]. split; [exact L|]. split; [exact T|]. split; [reflexivity|apply frame_refl].
  - destruct (IH ltac:(intros a' b' Hi; apply (Hs a' b'); apply in_or_app; left; exact Hi) h hdr base ord L T) as (h1 & g & E1 & L1 & T1 & S1 & F1).
    assert (Hia : In a (map g ord)) by (apply T1; congruence). assert (Hib : ~ In b (map g ord)) by (intros Hi; apply T1 in Hi; congruence).
    destruct (move_links sz Hsz _ _ _ _ _ a b L1 Hia Hib Hbc) as (h2 & E2 & L2 & F2). exists h2, (fun i => dest [(a, b)] (g i)). rewrite map_map in L2.
    split; [rewrite foldM_app, E1; cbn [bind foldM s_event]; rewrite E2; reflexivity|]. split; [exact L2|].
    assert (Hab : a <> b) by (intros ->; congruence).
    assert (Hd : forall i, In i (map g ord) -> upd (upd n1 b (Some x)) a None (dest [(a, b)] i) = n1 i).
    { intros i Hi. rewrite dest_cons. destruct (Z.eqb_spec a i) as [<-|Hne]; [rewrite upd_other, upd_same by congruence; symmetry; exact Ha|]. change (dest [] i) with i.
      rewrite upd_other by (intros ->; apply Hne; reflexivity). rewrite upd_other by (intros ->; contradiction). reflexivity. }
    split; [|split; [|apply (frame_trans _ _ _ _ _ _ _ _ _ _ _ _ _ F1 F2)]].
    + intros i. change (fun i => dest [(a, b)] (g i)) with (fun i => dest [(a, b)] (g i)). rewrite <- map_map. split.
      * intros Hi. apply in_map_iff in Hi. destruct Hi as (j & <- & Hj). rewrite (Hd j Hj). apply T1. exact Hj.
      * intros Hi. destruct (Z.eq_dec i a) as [->|Hna]; [rewrite upd_same in Hi; congruence|]. rewrite upd_other in Hi by congruence. apply in_map_iff. destruct (Z.eq_dec i b) as [->|Hnb].
        -- exists a. split; [rewrite dest_cons, Z.eqb_refl; reflexivity|exact Hia].
        -- rewrite upd_other in Hi by congruence. exists i. split; [|apply T1; exact Hi]. rewrite dest_cons. destruct (Z.eqb_spec a i); [congruence|reflexivity].
    + rewrite <- map_map. rewrite (seqn_map n1) by exact Hd. exact S1.
  - exfalso. apply (Hs a b). apply in_or_app. right. left. reflexivity.
Qed.

Lemma events_ok : forall v h s ord tr t', zinv h s ord -> traced f (os_t s) tr t' -> wf t' -> swapless tr ->
  s_events sz v h s tr t' = Err BadPlacement \/
  exists h' s' g, s_events sz v h s tr t' = Ok (h', s') /\ os_t s' = t' /\ zinv h' s' (map g ord) /\ cont s' (map g ord) = cont s ord /\ sfr h s h' s' /\
    (tr = [] -> h' = h /\ os_base s' = os_base s /\ map g ord = ord).
Proof.
  intros v h s ord tr t' H T W' Hs. pose proof (zi_rl _ _ _ H) as L. unfold rl in L. destruct T as [(-> & ->)|[(c & mv & -> & Hc & M1 & M2 & M3 & M4)|(Hc & _ & R)]].
  - right. exists h, s, (fun i => i). rewrite map_id. unfold s_events. cbn [foldM bind]. split; [destruct s; reflexivity|]. split; [reflexivity|]. split; [exact H|]. split; [reflexivity|]. split; [apply sfr_refl|]. auto.
  - unfold s_events. cbn [foldM s_event bind]. destruct (place_cases (sv_junk v) h (sv_base v) sz c Hsz) as [->|(h1 & -> & P1 & P2 & P3)]; [left; reflexivity|]. cbn [bind].
    assert (Hnodes : forall i, In i (map fst mv) <-> s_nodes (os_t s) i <> None).
    { intros i. rewrite M1, filter_In, zrange_In. split; [intros (_ & Hi); destruct (s_nodes (os_t s) i); [discriminate|discriminate Hi]|]. intros Hi. destruct (s_nodes (os_t s) i) as [n|] eqn:En; [|congruence].
      destruct (wf_some f key_of hash keq _ _ _ (zi_wf _ _ _ H) En) as (_ & Hr). split; [exact Hr|reflexivity]. }
    assert (Hord : forall i, In i ord <-> In i (map fst mv)) by (intros i; rewrite (Hnodes i); apply (zi_tied _ _ _ H)).
    assert (Hdest : forall i, In i ord -> s_nodes t' (dest mv i) = s_nodes (os_t s) i) by (intros i Hi; apply M2; apply dest_some; apply Hord; exact Hi).
    assert (Hto : forall j, In j (map snd mv) -> s_nodes t' j <> None).
    { intros j Hj. apply in_map_iff in Hj. destruct Hj as ((a, b) & <- & Hj). cbn [snd]. rewrite (M2 a b Hj). apply Hnodes. change a with (fst (a, b)). apply in_map. exact Hj. }
    destruct (wf_cap_nonneg f key_of hash keq _ W') as (Hc0 & _).
    destruct (rehash_links sz Hsz h _ _ _ ord (sv_base v) c h1 mv L) as (h2 & E2 & L2 & F2); try assumption.
    + lia.
    + rewrite M1. apply NoDup_filter, zrange_NoDup.
    + intros j Hj. apply Hto in Hj. destruct (s_nodes t' j) as [n|] eqn:En; [|congruence]. destruct (wf_some f key_of hash keq _ _ _ W' En) as (_ & Hr). lia.
    + right. unfold relink_move. rewrite E2. cbn [bind]. eexists _, _, (dest mv). split; [reflexivity|]. split; [reflexivity|]. split; [|split; [|split; [|discriminate]]].
      * constructor; cbn [os_t os_hdr os_base]; [exact W'|unfold rl; cbn [os_t os_hdr os_base]; rewrite Hc; exact L2|]. intros j. split.
        -- intros Hj. apply in_map_iff in Hj. destruct Hj as (i & <- & Hi). rewrite (Hdest i Hi). apply (zi_tied _ _ _ H). exact Hi.
        -- intros Hj. apply M4 in Hj. apply in_map_iff in Hj. destruct Hj as ((a, b) & <- & Hj). cbn [snd]. assert (Ha : In a (map fst mv)) by (change a with (fst (a, b)); apply in_map; exact Hj).
           apply in_map_iff. exists a. split; [|apply Hord; exact Ha]. pose proof (dest_some _ _ Ha) as Hd. revert M1 Hd Hj. clear - H.
           intros M1 Hd Hj. assert (Hn : NoDup (map fst mv)) by (rewrite M1; apply NoDup_filter, zrange_NoDup). clear M1. induction mv as [|(x, y) mv IH]; [destruct Hj|]. cbn [map fst] in Hn. apply NoDup_cons_iff in Hn. destruct Hn as (Hx & Hn).
           rewrite dest_cons in *. destruct (Z.eqb_spec x a) as [->|Hne].
           ++ destruct Hj as [Hj|Hj]; [congruence|]. exfalso. apply Hx. change a with (fst (a, b)). apply in_map. exact Hj.
           ++ apply IH; [destruct Hd; [congruence|assumption]|destruct Hj; [congruence|assumption]|exact Hn].
      * unfold cont. cbn [os_t]. apply seqn_map. exact Hdest.
      * split; [reflexivity|]. cbn [os_t os_hdr os_base]. rewrite Hc. exact F2.
  - right. destruct (dest_replay v tr _ _ _ R Hs h (os_hdr s) (os_base s) ord L (zi_tied _ _ _ H)) as (h' & g & E1 & L1 & T1 & S1 & F1).
    destruct (list_eq_dec (fun a b : ev => ltac:(decide equality; try apply Z.eq_dec; apply list_eq_dec; intros [? ?] [? ?]; decide equality; apply Z.eq_dec)) tr []) as [->|Hne].
    + exists h, (mkos t' (os_hdr s) (os_base s)), (fun i => i). rewrite map_id. unfold s_events. cbn [foldM bind]. assert (En : s_nodes t' = s_nodes (os_t s)).
      { inversion R as [|tr0 n1 a b x R0 Ha Hb Hb2 Htr|tr0 n1 a b x y R0 Ha Hb Hab Htr]; [reflexivity| |]; destruct tr0; discriminate. }
      split; [reflexivity|]. split; [reflexivity|]. split; [constructor; cbn [os_t]; [exact W'|unfold rl; cbn [os_t os_hdr os_base]; rewrite Hc; exact L|rewrite En; apply (zi_tied _ _ _ H)]|]. split; [unfold cont; cbn [os_t]; rewrite En; reflexivity|].
      split; [split; [reflexivity|cbn [os_t os_hdr os_base]; rewrite Hc; apply frame_refl]|]. auto.
    + exists h', (mkos t' (os_hdr s) (os_base s)), g. unfold s_events. rewrite E1. cbn [bind]. split; [reflexivity|]. split; [reflexivity|]. split; [constructor; cbn [os_t]; [exact W'|unfold rl; cbn [os_t os_hdr os_base]; rewrite Hc; exact L1|exact T1]|].
      split; [exact S1|]. split; [split; [reflexivity|cbn [os_t os_hdr os_base]; rewrite Hc; exact F1]|]. intros ->. congruence.
Qed.
End Z.
