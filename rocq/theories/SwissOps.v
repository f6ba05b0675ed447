(** Preservation of the table invariant by metadata updates, insertion into a chosen
    slot, erasure and rehashing into a new buffer. *)
From Coq Require Import ZArith List Bool Lia Permutation.
From Coq Require Import ZifyBool ZifyNat.
From Verif Require Import Base BaseLemmas Bits BitsProofs SwissModel SwissArith SwissCap MapSpec SwissInv.
Import ListNotations.
Open Scope Z_scope.

Section Swiss.
Context {E K : Type}.
Variable f : simd.
Variable key_of : E -> K.
Variable hash : K -> Z.
Variable keq : K -> K -> bool.
Local Notation W := (W f).
Local Notation swiss := (@swiss E).
Local Notation mwf := (mwf f).
Local Notation ncons := (ncons key_of hash).
Local Notation probe_ok := (probe_ok f).
Local Notation wf1 := (wf1 f key_of hash keq).
Local Notation wf0 := (@wf0 E).
Local Notation wf := (wf f key_of hash keq).
Local Notation uniq := (uniq key_of keq).

(** ** Metadata updates. *)
Lemma mirror_index : forall cap pos, good_cap cap -> 0 <= pos < cap ->
  Z.land (sub64 pos (W - 1)) cap + Z.land (W - 1) cap = if pos <? W - 1 then cap + 1 + pos else pos.
Proof.
  intros cap pos Hc Hp. pose proof (good_cap_bounds cap Hc). pose proof (W_pos f) as HW.
  rewrite !good_cap_land by assumption. unfold sub64. rewrite good_cap_mod64 by assumption.
  destruct (good_cap_split f cap Hc) as [(H1 & H2 & H3) | (H1 & H2 & m & Hm & E1 & E2)].
  - destruct (Z.ltb_spec pos (W - 1)); [|lia].
    assert (Hdiv : exists q, W = (cap + 1) * q).
    { destruct Hc as (k & Hk & ->). destruct (W_pow2 f) as (wl & Hwl & EW).
      rewrite EW in H1 |- *. assert (k < wl).
      { apply (Z.pow_lt_mono_r_iff 2); lia. }
      exists (2 ^ (wl - k)). replace (2 ^ k - 1 + 1) with (2 ^ k) by lia.
      rewrite <- Z.pow_add_r by lia. f_equal. lia. }
    destruct Hdiv as (q & Eq).
    assert (Ea : (pos - (W - 1)) mod (cap + 1) = pos + 1).
    { symmetry. apply Z.mod_unique with (- q); lia. }
    assert (Eb : (W - 1) mod (cap + 1) = cap).
    { symmetry. apply Z.mod_unique with (q - 1); lia. }
    rewrite Ea, Eb. lia.
  - rewrite (Z.mod_small (W - 1)) by lia. destruct (Z.ltb_spec pos (W - 1)).
    + assert (Ea : (pos - (W - 1)) mod (cap + 1) = pos - (W - 1) + (cap + 1)).
      { symmetry. apply Z.mod_unique with (-1); lia. }
      rewrite Ea. lia.
    + rewrite Z.mod_small by lia. lia.
Qed.

(** Same table up to metadata. *)
Definition same_but_meta (s s' : swiss) : Prop :=
  s_buf s' = s_buf s /\ s_cap s' = s_cap s /\ s_nodes s' = s_nodes s /\
  s_size s' = s_size s /\ s_nempty s' = s_nempty s.

Lemma put_meta_ok : forall (s : swiss) i v, s_buf s = Live -> 0 <= i < s_cap s + W ->
  put_meta f s i v = Ok (mk (s_buf s) (s_cap s) (upd (s_meta s) i v) (s_nodes s) (s_size s) (s_nempty s)).
Proof.
  intros s i v Hb Hi. unfold put_meta, check_buf, guard. rewrite Hb. cbn [bind].
  destruct (Z.leb_spec 0 i); [|lia]. destruct (Z.ltb_spec i (s_cap s + W)); [|lia]. reflexivity.
Qed.
Lemma get_meta_ok : forall (s : swiss) i, s_buf s = Live -> 0 <= i < s_cap s + W -> get_meta f s i = Ok (s_meta s i).
Proof.
  intros s i Hb Hi. unfold get_meta, check_buf, guard. rewrite Hb. cbn [bind].
  destruct (Z.leb_spec 0 i); [|lia]. destruct (Z.ltb_spec i (s_cap s + W)); [|lia]. reflexivity.
Qed.

Lemma set_metadata_ok : forall (s : swiss) pos v, mwf s -> 0 <= pos < s_cap s -> node_byte v ->
  exists s', set_metadata f s pos v = Ok s' /\ mwf s' /\ same_but_meta s s' /\
    s_meta s' pos = v /\ (forall q, 0 <= q <= s_cap s -> q <> pos -> s_meta s' q = s_meta s q).
Proof.
  intros s pos v M Hp Hv. pose proof (W_pos f) as HW. pose proof (cap_bounds f s M) as Hcb.
  unfold set_metadata. rewrite mirror_index by (apply (mw_cap f s M) || exact Hp).
  set (mi := if pos <? W - 1 then s_cap s + 1 + pos else pos).
  assert (Hmi : 0 <= mi < s_cap s + W) by (unfold mi; destruct (Z.ltb_spec pos (W - 1)); lia).
  rewrite put_meta_ok by (apply (mw_buf f s M) || exact Hmi). cbn [bind].
  rewrite put_meta_ok; cbn [s_buf s_cap s_meta s_nodes s_size s_nempty]; [|apply (mw_buf f s M)|lia].
  eexists. split; [reflexivity|].
  set (m' := upd (upd (s_meta s) mi v) pos v).
  assert (Hpos : m' pos = v) by apply upd_same.
  assert (Hoth : forall q, q <> pos -> q <> mi -> m' q = s_meta s q).
  { intros q H1 H2. unfold m'. rewrite !upd_other by assumption. reflexivity. }
  assert (Hmir : m' mi = v).
  { unfold m'. destruct (Z.eq_dec mi pos) as [->|]; [apply upd_same|].
    rewrite upd_other by assumption. apply upd_same. }
  assert (Hlow : forall q, 0 <= q <= s_cap s -> q <> pos -> m' q = s_meta s q).
  { intros q Hq Hne. apply Hoth; [exact Hne|]. unfold mi. destruct (Z.ltb_spec pos (W - 1)); lia. }
  split; [|split; [repeat split|split; [exact Hpos|exact Hlow]]].
  constructor; cbn [s_buf s_cap s_meta s_nodes s_size s_nempty].
  - apply (mw_buf f s M).
  - apply (mw_cap f s M).
  - intros i Hi. destruct (Z.eq_dec i pos) as [->|]; [rewrite Hpos; exact Hv|].
    rewrite Hlow by lia. apply (mw_bytes f s M). exact Hi.
  - rewrite Hlow by lia. apply (mw_sent f s M).
  - intros j Hj. destruct (Z.ltb_spec j (s_cap s)) as [Hjc|Hjc].
    + destruct (Z.eq_dec j pos) as [->|Hne].
      * replace (s_cap s + 1 + pos) with mi by (unfold mi; destruct (Z.ltb_spec pos (W - 1)); lia).
        rewrite Hmir, Hpos. reflexivity.
      * rewrite Hoth, Hlow by (unfold mi; destruct (Z.ltb_spec pos (W - 1)); lia).
        rewrite (mw_mirror f s M) by lia. destruct (Z.ltb_spec j (s_cap s)); [reflexivity|lia].
    + rewrite Hoth by (unfold mi; destruct (Z.ltb_spec pos (W - 1)); lia).
      rewrite (mw_mirror f s M) by lia. destruct (Z.ltb_spec j (s_cap s)); [lia|reflexivity].
Qed.

(** [mwf] only looks at buffer, capacity and metadata. *)
Lemma mwf_ext : forall (s s' : swiss), s_buf s' = s_buf s -> s_cap s' = s_cap s -> s_meta s' = s_meta s -> mwf s -> mwf s'.
Proof.
  intros s s' H1 H2 H3 M. constructor; rewrite ?H1, ?H2, ?H3; apply M.
Qed.

Lemma put_node_ok : forall (s : swiss) p n, s_buf s = Live -> 0 <= p < s_cap s -> s_nodes s p = None ->
  put_node s p n = Ok (mk (s_buf s) (s_cap s) (s_meta s) (upd (s_nodes s) p (Some n)) (s_size s) (s_nempty s)).
Proof.
  intros s p n Hb Hp Hn. unfold put_node, check_buf, guard. rewrite Hb. cbn [bind].
  destruct (Z.leb_spec 0 p); [|lia]. destruct (Z.ltb_spec p (s_cap s)); [|lia]. cbn [andb bind].
  rewrite Hn. reflexivity.
Qed.
Lemma get_node_ok : forall (s : swiss) p n, s_buf s = Live -> 0 <= p < s_cap s -> s_nodes s p = Some n -> get_node s p = Ok n.
Proof.
  intros s p n Hb Hp Hn. unfold get_node, check_buf, guard. rewrite Hb. cbn [bind].
  destruct (Z.leb_spec 0 p); [|lia]. destruct (Z.ltb_spec p (s_cap s)); [|lia]. cbn [andb bind].
  rewrite Hn. reflexivity.
Qed.
Lemma kill_node_ok : forall (s : swiss) p n, s_buf s = Live -> 0 <= p < s_cap s -> s_nodes s p = Some n ->
  kill_node s p = Ok (mk (s_buf s) (s_cap s) (s_meta s) (upd (s_nodes s) p None) (s_size s) (s_nempty s)).
Proof. intros s p n Hb Hp Hn. unfold kill_node. rewrite (get_node_ok s p n) by assumption. reflexivity. Qed.

(** ** Distinct keys as a property of the contents. *)
Definition distinct (l : list E) : Prop :=
  ForallOrdPairs (fun a b => keq (key_of a) (key_of b) = false) l.

Hypothesis KL : key_laws hash keq.

Lemma keq_sym_false : forall a b, keq a b = false -> keq b a = false.
Proof.
  intros a b H. destruct (keq b a) eqn:E0; [|reflexivity]. apply (kl_sym _ _ KL) in E0. congruence.
Qed.

Lemma distinct_perm : forall l l', Permutation l l' -> distinct l -> distinct l'.
Proof.
  unfold distinct. induction 1; intros HD; auto.
  - inversion HD; subst. constructor; [|auto]. eapply Permutation_Forall; eauto.
  - inversion HD as [|? ? H1 H2]; subst. inversion H2 as [|? ? H3 H4]; subst. inversion H1; subst.
    constructor; [constructor; [apply keq_sym_false; assumption|assumption]|]. constructor; assumption.
Qed.

Lemma distinct_uniq_aux : forall (nodes : Z -> option (E * Z)) n, 0 <= n ->
  (distinct (map fst (collect nodes n)) <->
   forall i j e e' h h', 0 <= i < n -> 0 <= j < n -> nodes i = Some (e, h) -> nodes j = Some (e', h') ->
     keq (key_of e) (key_of e') = true -> i = j).
Proof.
  intros nodes. apply (cnt_ind (fun n => distinct (map fst (collect nodes n)) <->
   forall i j e e' h h', 0 <= i < n -> 0 <= j < n -> nodes i = Some (e, h) -> nodes j = Some (e', h') ->
     keq (key_of e) (key_of e') = true -> i = j)).
  - rewrite collect_0 by lia. cbn. split; [intros; lia|intros _; constructor].
  - intros n Hn IH. rewrite collect_succ by lia.
    destruct (nodes n) as [[x hx]|] eqn:Ex.
    + assert (Hp : Permutation (map fst (collect nodes n ++ [(x, hx)])) (x :: map fst (collect nodes n))).
      { rewrite map_app. cbn. apply Permutation_sym, Permutation_cons_append. }
      split.
      * intros Hd. apply (distinct_perm _ _ Hp) in Hd. inversion Hd as [|? ? Hf Hd']; subst.
        rewrite Forall_forall in Hf. pose proof (proj1 IH Hd') as IH'.
        assert (Hx : forall j e' h', 0 <= j < n -> nodes j = Some (e', h') -> keq (key_of x) (key_of e') = false).
        { intros j e' h' Hj Ej. apply Hf. change e' with (fst (e', h')). apply in_map. apply collect_In. eauto. }
        intros i j e e' h h' Hi Hj Ei Ej Hk.
        destruct (Z.eq_dec i n) as [->|], (Z.eq_dec j n) as [->|]; [reflexivity| | |].
        -- rewrite Ex in Ei. injection Ei as <- <-. rewrite (Hx j e' h') in Hk by (auto; lia). discriminate.
        -- rewrite Ex in Ej. injection Ej as <- <-. apply (kl_sym _ _ KL) in Hk.
           rewrite (Hx i e h) in Hk by (auto; lia). discriminate.
        -- eapply IH'; eauto; lia.
      * intros Hu. apply (distinct_perm (x :: map fst (collect nodes n))); [apply Permutation_sym, Hp|].
        constructor.
        -- apply Forall_forall. intros e He. apply in_map_iff in He. destruct He as ([e0 h0] & <- & HI).
           apply collect_In in HI. destruct HI as (j & Hj & Ej). cbn [fst].
           destruct (keq (key_of x) (key_of e0)) eqn:Ek; [|reflexivity]. exfalso.
           assert (n = j) by (eapply (Hu n j); eauto; lia). lia.
        -- apply IH. intros i j e e' h h' Hi Hj. apply Hu; lia.
    + rewrite app_nil_r. rewrite IH. split.
      * intros Hu i j e e' h h' Hi Hj Ei Ej. 
        assert (i <> n) by (intros ->; congruence). assert (j <> n) by (intros ->; congruence).
        apply (Hu i j e e' h h'); auto; lia.
      * intros Hu i j e e' h h' Hi Hj. apply Hu; lia.
Qed.

Lemma distinct_uniq : forall (s : swiss), 0 <= s_cap s -> (forall i, ~ (0 <= i < s_cap s) -> s_nodes s i = None) ->
  (distinct (elems s) <-> uniq s).
Proof.
  intros s Hc Ho. unfold elems. rewrite distinct_uniq_aux by exact Hc. unfold SwissInv.uniq. split.
  - intros H i j e e' h h' Ei Ej. 
    assert (0 <= i < s_cap s) by (destruct (Z_le_dec 0 i), (Z_lt_dec i (s_cap s)); try lia; rewrite Ho in Ei by lia; discriminate).
    assert (0 <= j < s_cap s) by (destruct (Z_le_dec 0 j), (Z_lt_dec j (s_cap s)); try lia; rewrite Ho in Ej by lia; discriminate).
    eauto.
  - intros H i j e e' h h' _ _. apply H.
Qed.

(** ** Counting via nodes. *)
Lemma ncons_occ : forall (s : swiss) i, ncons s -> 0 <= i < s_cap s ->
  is_occupied (s_meta s i) = match s_nodes s i with Some _ => true | None => false end.
Proof.
  intros s i [N1 _] Hi. specialize (N1 i Hi). destruct (s_nodes s i) as [[e h]|].
  - destruct N1 as [_ ->]. apply occ_h2.
  - unfold is_available, is_occupied in *. lia.
Qed.

Lemma elems_length : forall (s : swiss), ncons s -> 0 <= s_cap s -> Z.of_nat (length (elems s)) = n_occ s.
Proof.
  intros s N Hc. unfold elems. rewrite map_length, collect_length by exact Hc. unfold n_occ.
  apply cnt_ext. intros i Hi. symmetry. apply ncons_occ; assumption.
Qed.

Lemma wf1_elems_length : forall (s : swiss), wf1 s -> Z.of_nat (length (elems s)) = s_size s.
Proof.
  intros s H. rewrite (w_size _ _ _ _ s H). apply elems_length; [apply H|].
  pose proof (cap_bounds f s (w_m _ _ _ _ s H)). lia.
Qed.

(** Bytes: empty, deleted and occupied slots add up. *)
Lemma count_split : forall (s : swiss), mwf s ->
  n_emp s + cnt (fun i => s_meta s i =? m_deleted) (s_cap s) + n_occ s = s_cap s.
Proof.
  intros s M. pose proof (cap_bounds f s M).
  unfold n_emp, n_occ. rewrite <- cnt_or.
  - pose proof (cnt_compl (fun i => (s_meta s i =? m_empty) || (s_meta s i =? m_deleted)) (s_cap s) ltac:(lia)) as Hc.
    rewrite (cnt_ext (fun i => is_occupied (s_meta s i))
      (fun i => negb ((s_meta s i =? m_empty) || (s_meta s i =? m_deleted)))); [exact Hc|]. intros i Hi.
    destruct (node_byte_cases _ (mw_bytes f s M i Hi)) as [(Eb & _ & Eo)|[(Eb & _ & Eo)|(Eb & _ & Eo)]]; rewrite Eo; unfold m_empty, m_deleted in *; lia.
  - lia.
  - intros i Hi. unfold m_empty, m_deleted. lia.
Qed.

Lemma wf1_empty_slot : forall (s : swiss), wf1 s -> W <= s_cap s + 1 -> exists j, 0 <= j < s_cap s /\ s_meta s j = m_empty.
Proof.
  intros s H HW. pose proof (max_size_spare f (s_cap s) (mw_cap f s (w_m _ _ _ _ s H)) HW).
  pose proof (w_nempty _ _ _ _ s H). pose proof (w_nempty0 _ _ _ _ s H).
  destruct (cnt_pos (fun i => s_meta s i =? m_empty) (s_cap s)) as (j & Hj & Ej); [unfold n_emp in *; lia|].
  exists j. split; [exact Hj|lia].
Qed.

Lemma wf1_size_max : forall (s : swiss), wf1 s -> 0 <= s_size s <= capacity_to_max_size f (s_cap s).
Proof.
  intros s H. pose proof (w_nempty _ _ _ _ s H). pose proof (w_nempty0 _ _ _ _ s H).
  pose proof (w_size _ _ _ _ s H). pose proof (count_split s (w_m _ _ _ _ s H)).
  pose proof (cap_bounds f s (w_m _ _ _ _ s H)).
  pose proof (cnt_bounds (fun i => s_meta s i =? m_deleted) (s_cap s)).
  pose proof (cnt_bounds (fun i => is_occupied (s_meta s i)) (s_cap s)). unfold n_occ in *. lia.
Qed.

(** ** Putting an element into a chosen free slot (second half of emplace_node). *)
Lemma place_ok : forall (s : swiss) p e, wf1 s -> 0 <= p < s_cap s -> is_available (s_meta s p) = true ->
  (forall j, 0 <= j < s_cap s -> vis f (s_cap s) (hash (key_of e)) j < vis f (s_cap s) (hash (key_of e)) p ->
     is_available (s_meta s j) = false) ->
  0 < s_nempty s \/ s_meta s p = m_deleted ->
  (forall x, In x (elems s) -> keq (key_of x) (key_of e) = false) ->
  let h := hash (key_of e) in
  exists s',
    (let* s2 := put_node s p (e, h) in
     let* tm := get_meta f s2 p in
     let s3 := set_nempty s2 (sub64 (s_nempty s2) (if tm =? m_empty then 1 else 0)) in
     let* s4 := set_metadata f s3 p (h2_of h) in
     Ok (set_size s4 (add64 (s_size s4) 1))) = Ok s' /\
    wf1 s' /\ s_cap s' = s_cap s /\ Permutation (elems s') (e :: elems s) /\
    s_nodes s' = upd (s_nodes s) p (Some (e, h)) /\ s_size s' = s_size s + 1 /\
    s_nempty s' = s_nempty s - (if s_meta s p =? m_empty then 1 else 0).
Proof.
  intros s p e H Hp Ha Hfirst Hroom Habs h.
  destruct H as [M N U P Hsz Hne Hne0]. pose proof (cap_bounds f s M) as Hcb.
  pose proof (W_pos f) as HW.
  assert (Hnone : s_nodes s p = None).
  { destruct N as [N1 _]. specialize (N1 p Hp). destruct (s_nodes s p) as [[e0 h0]|]; [|reflexivity].
    destruct N1 as [_ Em]. rewrite Em in Ha. pose proof (occ_avail _ (occ_h2 h0)). congruence. }
  assert (Hsz64 : 0 <= s_size s < 2 ^ 59).
  { rewrite Hsz. unfold n_occ. pose proof (cnt_bounds (fun i => is_occupied (s_meta s i)) (s_cap s) ltac:(lia)). lia. }
  assert (Hne64 : s_nempty s < 2 ^ 59).
  { pose proof (cnt_bounds (fun i => s_meta s i =? m_empty) (s_cap s) ltac:(lia)) as Hc. fold (n_emp s) in Hc.
    pose proof (max_size_bounds f (s_cap s) ltac:(lia)). lia. }
  rewrite put_node_ok by (auto; apply (mw_buf f s M)). cbn [bind].
  rewrite get_meta_ok by (cbn [s_buf s_cap]; (apply (mw_buf f s M) || lia)). cbn [bind s_meta s_nempty].
  set (d := if s_meta s p =? m_empty then 1 else 0).
  assert (Hd : 0 <= d <= s_nempty s).
  { unfold d. destruct (Z.eqb_spec (s_meta s p) m_empty); [|lia].
    destruct Hroom as [|Hdel]; [lia|]. unfold m_empty, m_deleted in *. lia. }
  rewrite sub64_small by (rewrite two64_val; lia).
  set (s3 := set_nempty _ _).
  destruct (set_metadata_ok s3 p (h2_of h)) as (s4 & -> & M4 & (B4 & C4 & N4 & S4 & E4) & Hm1 & Hm2).
  { eapply mwf_ext; [..|exact M]; reflexivity. }
  { exact Hp. }
  { apply node_byte_h2. }
  cbn [s3 set_nempty s_buf s_cap s_meta s_nodes s_size s_nempty] in *.
  cbn [bind]. rewrite S4. rewrite add64_small by (rewrite two64_val; lia).
  eexists. split; [reflexivity|].
  assert (Hocc : n_occ (set_size s4 (s_size s + 1)) = n_occ s + 1).
  { unfold n_occ. cbn [set_size s_cap s_meta]. rewrite C4. apply cnt_flip with p; [exact Hp| | |].
    - intros j Hj Hjp. rewrite Hm2 by lia. reflexivity.
    - unfold is_available, is_occupied in *. lia.
    - rewrite Hm1. apply occ_h2. }
  assert (Hemp : n_emp (set_size s4 (s_size s + 1)) = n_emp s - d).
  { unfold n_emp. cbn [set_size s_cap s_meta]. rewrite C4. unfold d.
    pose proof (h2_range h).
    destruct (Z.eqb_spec (s_meta s p) m_empty) as [Ee|Ee].
    - assert (cnt (fun i => s_meta s i =? m_empty) (s_cap s) = cnt (fun i => s_meta s4 i =? m_empty) (s_cap s) + 1); [|lia].
      apply cnt_flip with p; [exact Hp| | |].
      + intros j Hj Hjp. rewrite Hm2 by lia. reflexivity.
      + rewrite Hm1. unfold m_empty. lia.
      + lia.
    - rewrite Z.sub_0_r. apply cnt_ext. intros j Hj. destruct (Z.eq_dec j p) as [->|]; [|rewrite Hm2 by lia; reflexivity].
      rewrite Hm1. unfold m_empty in *. lia. }
  assert (Hperm : Permutation (elems (set_size s4 (s_size s + 1))) (e :: elems s)).
  { unfold elems. cbn [set_size s_cap s_nodes]. rewrite C4, N4.
    change (e :: map fst ?l) with (map fst ((e, h) :: l)). apply Permutation_map.
    apply collect_put with p; [exact Hp|exact Hnone|apply upd_same|]. intros j _ Hj. apply upd_other; exact Hj. }
  assert (Hn' : ncons (set_size s4 (s_size s + 1))).
  { destruct N as [N1 N2]. split; cbn [set_size s_cap s_nodes s_meta]; rewrite C4, N4.
    - intros i Hi. destruct (Z.eq_dec i p) as [->|Hip].
      + rewrite upd_same. split; [reflexivity|]. exact Hm1.
      + rewrite upd_other by exact Hip. rewrite Hm2 by lia. apply N1. exact Hi.
    - intros i Hi. rewrite upd_other by lia. apply N2. exact Hi. }
  split; [|split; [exact C4|split; [exact Hperm|cbn [set_size s_nodes s_size s_nempty]; split; [exact N4|split; [reflexivity|exact E4]]]]].
  constructor.
  - eapply mwf_ext; [..|exact M4]; reflexivity.
  - exact Hn'.
  - apply distinct_uniq; [cbn [set_size s_cap]; lia|apply Hn'|].
    eapply distinct_perm; [apply Permutation_sym, Hperm|]. constructor.
    + apply Forall_forall. intros x Hx. apply keq_sym_false. apply Habs. exact Hx.
    + apply distinct_uniq; [lia|apply N|exact U].
  - unfold SwissInv.probe_ok. cbn [set_size s_cap s_nodes s_meta]. rewrite C4, N4.
    intros i e' h' Ei j Hj Hv. destruct (Z.eq_dec j p) as [->|Hjp].
    { rewrite Hm1. pose proof (h2_range h). unfold m_empty. lia. }
    rewrite Hm2 by lia. destruct (Z.eq_dec i p) as [->|Hip].
    + rewrite upd_same in Ei. injection Ei as <- <-. specialize (Hfirst j Hj Hv).
      intros Ee. rewrite Ee in Hfirst. discriminate.
    + rewrite upd_other in Ei by exact Hip. eapply P; eauto.
  - rewrite Hocc. cbn [set_size s_size]. lia.
  - rewrite Hemp. cbn [set_size s_nempty s_cap]. rewrite C4, E4. lia.
  - cbn [set_size s_nempty]. rewrite E4. lia.
Qed.

(** ** Erasure. *)
Lemma erase_core : forall (s : swiss) p n, wf1 s -> s_nodes s p = Some n -> 0 <= p < s_cap s /\
  exists s1 s2, erase_node f s p = Ok s1 /\ kill_node s1 p = Ok s2 /\
    mwf s1 /\ s_nodes s1 = s_nodes s /\ s_cap s1 = s_cap s /\
    s_meta s1 p = m_deleted /\ (forall q, 0 <= q <= s_cap s -> q <> p -> s_meta s1 q = s_meta s q) /\
    wf1 s2 /\ s_cap s2 = s_cap s /\ s_nodes s2 = upd (s_nodes s) p None /\ s_meta s2 = s_meta s1 /\
    s_buf s1 = Live /\ s_buf s2 = Live /\
    Permutation (elems s) (fst n :: elems s2) /\ s_size s2 = s_size s - 1 /\ s_nempty s2 = s_nempty s.
Proof.
  intros s p [e h] [M N U P Hsz Hne Hne0] En. destruct (get_node_some f key_of hash s M N p _ En) as [_ Hp].
  split; [exact Hp|].
  destruct (node_hash f key_of hash s M N p e h En) as [Eh Em].
  pose proof (cap_bounds f s M) as Hcb. pose proof (W_pos f) as HW.
  unfold erase_node, guard. destruct (Z.ltb_spec p (s_cap s)); [|lia]. cbn [bind].
  rewrite get_meta_ok by (apply (mw_buf f s M) || lia). cbn [bind]. rewrite Em, occ_h2. cbn [bind].
  destruct (set_metadata_ok s p m_deleted M Hp) as (s1 & -> & M1 & (B1 & C1 & N1' & S1 & E1) & Hm1 & Hm2).
  { right. left. reflexivity. }
  cbn [bind]. eexists. 
  assert (Hocc : n_occ s = cnt (fun i => is_occupied (s_meta s1 i)) (s_cap s) + 1).
  { unfold n_occ. apply cnt_flip with p; [exact Hp| | |].
    - intros j Hj Hjp. rewrite Hm2 by lia. reflexivity.
    - rewrite Hm1. reflexivity.
    - rewrite Em. apply occ_h2. }
  assert (Hemp : n_emp s = cnt (fun i => s_meta s1 i =? m_empty) (s_cap s)).
  { unfold n_emp. apply cnt_ext. intros j Hj. destruct (Z.eq_dec j p) as [->|]; [|rewrite Hm2 by lia; reflexivity].
    rewrite Hm1, Em. pose proof (h2_range h). unfold m_empty, m_deleted. lia. }
  pose proof (cnt_bounds (fun i => is_occupied (s_meta s1 i)) (s_cap s) ltac:(lia)) as Hcb1.
  eexists. split; [reflexivity|].
  rewrite S1. rewrite sub64_small by (rewrite two64_val; lia).
  split.
  { apply (kill_node_ok _ p (e, h)); cbn [set_size s_buf s_cap s_nodes].
    - rewrite B1. apply (mw_buf f s M).
    - lia.
    - rewrite N1'. exact En. }
  cbn [set_size s_buf s_cap s_meta s_nodes s_size s_nempty].
  split; [eapply mwf_ext; [..|exact M1]; reflexivity|].
  split; [exact N1'|]. split; [exact C1|]. split; [exact Hm1|]. split; [exact Hm2|].
  set (s2 := mk _ _ _ _ _ _).
  assert (Hn' : ncons s2).
  { destruct N as [N1 N2]. split; cbn [s2 s_cap s_nodes s_meta]; rewrite C1, N1'.
    - intros i Hi. destruct (Z.eq_dec i p) as [->|Hip].
      + rewrite upd_same, Hm1. reflexivity.
      + rewrite upd_other by exact Hip. rewrite Hm2 by lia. apply N1. exact Hi.
    - intros i Hi. rewrite upd_other by lia. apply N2. exact Hi. }
  assert (Hperm : Permutation (elems s) (e :: elems s2)).
  { unfold elems. cbn [s2 s_cap s_nodes]. rewrite C1, N1'.
    change (e :: map fst ?l) with (map fst ((e, h) :: l)). apply Permutation_map.
    apply collect_put with p; [exact Hp|apply upd_same|exact En|].
    intros j _ Hj. symmetry. apply upd_other; exact Hj. }
  split.
  2:{ split; [exact C1|]. split; [cbn [s2 s_nodes]; rewrite N1'; reflexivity|]. split; [reflexivity|].
      split; [rewrite B1; apply (mw_buf f s M)|]. split; [cbn [s2 s_buf]; rewrite B1; apply (mw_buf f s M)|].
      split; [exact Hperm|]. split; [reflexivity|exact E1]. }
  constructor.
  - eapply mwf_ext; [..|exact M1]; reflexivity.
  - exact Hn'.
  - apply distinct_uniq; [cbn [s2 s_cap]; lia|apply Hn'|].
    assert (Hd : distinct (e :: elems s2)).
    { eapply distinct_perm; [exact Hperm|]. apply distinct_uniq; [lia|apply N|exact U]. }
    inversion Hd; assumption.
  - unfold SwissInv.probe_ok. cbn [s2 s_cap s_nodes s_meta]. rewrite C1, N1'.
    intros i e' h' Ei j Hj Hv.
    destruct (Z.eq_dec i p) as [->|Hip]; [rewrite upd_same in Ei; discriminate|].
    rewrite upd_other in Ei by exact Hip.
    destruct (Z.eq_dec j p) as [->|Hjp]; [rewrite Hm1; discriminate|].
    rewrite Hm2 by lia. eapply P; eauto.
  - unfold n_occ. cbn [s2 s_cap s_meta s_size]. rewrite C1. lia.
  - unfold n_emp. cbn [s2 s_cap s_meta s_nempty]. rewrite C1, E1. lia.
  - cbn [s2 s_nempty]. lia.
Qed.

(** ** Rehashing into a fresh buffer. *)
Definition fresh (c sz ne : Z) : swiss := mk Live c (fill_empty_meta c) (fun _ => None) sz ne.

Lemma fresh_mwf : forall c sz ne, good_cap c -> mwf (fresh c sz ne).
Proof.
  intros c sz ne Hc. pose proof (good_cap_bounds c Hc). constructor; cbn [fresh s_buf s_cap s_meta].
  - reflexivity.
  - exact Hc.
  - intros i Hi. unfold fill_empty_meta. destruct (Z.eqb_spec i c); [lia|]. left. reflexivity.
  - unfold fill_empty_meta. rewrite Z.eqb_refl. reflexivity.
  - intros j Hj. unfold fill_empty_meta. destruct (Z.eqb_spec (c + 1 + j) c); [lia|].
    destruct (Z.eqb_spec j c); destruct (Z.ltb_spec j c); (reflexivity || lia).
Qed.

(** What the node movements of a rehash say (used by the ordered tables). *)
Definition moves_ok (s t : swiss) (n : Z) (mv : list (Z * Z)) : Prop :=
  map fst mv = filter (fun i => match s_nodes s i with Some _ => true | None => false end) (zrange n) /\
  (forall a b, In (a, b) mv -> s_nodes t b = s_nodes s a) /\
  NoDup (map snd mv) /\
  (forall b, s_nodes t b <> None -> In b (map snd mv)).

Record rehash_inv (s : swiss) (c i : Z) (acc : swiss * list (Z * Z)) : Prop := {
  ri_m : mwf (fst acc);
  ri_n : ncons (fst acc);
  ri_cap : s_cap (fst acc) = c;
  ri_size : s_size (fst acc) = s_size s;
  ri_nodel : forall j, 0 <= j < c -> s_meta (fst acc) j <> m_deleted;
  ri_p : probe_ok (fst acc);
  ri_perm : Permutation (collect (s_nodes (fst acc)) c) (collect (s_nodes s) i);
  ri_mv : moves_ok s (fst acc) i (snd acc)
}.

(** The relocation loop up to slot [n] of the old buffer. *)
Lemma rehash_prefix : forall (s : swiss) c, wf s -> good_cap c -> s_size s <= capacity_to_max_size f c ->
  forall n, 0 <= n <= s_cap s -> exists tm, foldM (rehash_step f s) (zrange n) (fresh c (s_size s) (s_nempty s), []) = Ok tm /\ rehash_inv s c n tm.
Proof.
  intros s c Hwf Hc Hsz n Hn. pose proof (good_cap_bounds c Hc) as Hcb.
  pose proof (max_size_bounds f c ltac:(lia)) as Hmx. pose proof (W_pos f) as HW.
  apply (foldM_zrange_inv _ _ (rehash_inv s c)).
  - lia.
  - constructor; cbn [fst snd].
    + apply fresh_mwf; exact Hc.
    + split; cbn [fresh s_cap s_nodes s_meta]; [|reflexivity].
      intros j Hj. unfold fill_empty_meta. destruct (Z.eqb_spec j c); [lia|reflexivity].
    + reflexivity.
    + reflexivity.
    + intros j Hj. cbn [fresh s_meta]. unfold fill_empty_meta. destruct (Z.eqb_spec j c); discriminate.
    + intros i e h Ei. discriminate.
    + cbn [fresh s_nodes]. rewrite collect_none by reflexivity. rewrite collect_0 by lia. constructor.
    + split; [rewrite zrange_0 by lia; reflexivity|]. split; [intros a b []|]. split; [constructor|].
      intros b Hb. exfalso. apply Hb. reflexivity.
  - intros i [t mv] Hi' [M N C S D P Perm (V1 & V2 & V3 & V4)]. cbn [fst snd] in *. assert (Hi : 0 <= i < s_cap s) by lia. clear Hi'.
    destruct Hwf as [H0|H1]; [rewrite (w0_cap _ H0) in Hi; lia|].
    pose proof (w_m _ _ _ _ s H1) as Ms. pose proof (w_n _ _ _ _ s H1) as Ns.
    unfold rehash_step. rewrite get_meta_ok by (apply (mw_buf f s Ms) || lia). cbn [bind].
    rewrite (ncons_occ s i Ns Hi). destruct (s_nodes s i) as [[e h]|] eqn:Ei.
    2:{ eexists. split; [reflexivity|]. constructor; cbn [fst snd]; auto.
        - rewrite collect_succ by lia. rewrite Ei, app_nil_r. exact Perm.
        - split; [|split; [exact V2|split; [exact V3|exact V4]]].
          rewrite zrange_succ by lia. rewrite filter_app. cbn [filter]. rewrite Ei, app_nil_r. exact V1. }
    rewrite (get_node_ok s i (e, h)) by (apply (mw_buf f s Ms) || exact Hi || exact Ei). cbn [bind snd].
    (* room *)
    assert (Hlen : n_occ t < s_size s).
    { rewrite <- (elems_length t N) by lia. unfold elems. rewrite map_length, C.
      rewrite (Permutation_length Perm). rewrite collect_length by lia.
      rewrite <- (wf1_elems_length s H1). unfold elems. rewrite map_length, collect_length by lia.
      set (o := fun i => match s_nodes s i with Some _ => true | None => false end).
      assert (cnt o i < cnt o (i + 1)) by (rewrite cnt_succ by lia; unfold o at 3; rewrite Ei; lia).
      assert (H2 : forall d, 0 <= d -> cnt o (i + 1) <= cnt o (i + 1 + d)).
      { apply (cnt_ind (fun d => cnt o (i + 1) <= cnt o (i + 1 + d))); [rewrite Z.add_0_r; lia|].
        intros d Hd IH. replace (i + 1 + (d + 1)) with ((i + 1 + d) + 1) by lia.
        rewrite (cnt_succ o (i + 1 + d)) by lia. destruct (o (i + 1 + d)); lia. }
      specialize (H2 (s_cap s - (i + 1)) ltac:(lia)). replace (i + 1 + (s_cap s - (i + 1))) with (s_cap s) in H2 by lia. lia. }
    assert (Hav : exists j, 0 <= j < s_cap t /\ is_available (s_meta t j) = true).
    { destruct (cnt_pos (fun i => negb (is_occupied (s_meta t i))) (s_cap t)) as (j & Hj & Ej).
      - pose proof (cnt_compl (fun i => is_occupied (s_meta t i)) (s_cap t) ltac:(lia)).
        unfold n_occ in Hlen. rewrite C in *. lia.
      - exists j. split; [exact Hj|].
        destruct (node_byte_cases _ (mw_bytes f t M j Hj)) as [(_ & Ea & _)|[(_ & Ea & _)|(_ & _ & Eo)]]; auto.
        rewrite Eo in Ej. discriminate. }
    destruct (find_available_ok f t M h (fun _ => Hav)) as (p & -> & Hsp). cbn [bind].
    assert (Hsp' : 0 <= p < s_cap t /\ is_available (s_meta t p) = true /\
      forall j, 0 <= j < s_cap t -> vis f (s_cap t) h j < vis f (s_cap t) h p -> is_available (s_meta t j) = false).
    { destruct Hsp as [Hsp|(_ & _ & Hall)]; [exact Hsp|]. exfalso.
      destruct Hav as (j & Hj & Ej). rewrite Hall in Ej by exact Hj. discriminate. }
    destruct Hsp' as (Hp & Hpa & Hfirst).
    assert (Hnone : s_nodes t p = None).
    { destruct N as [N1 _]. specialize (N1 p Hp). destruct (s_nodes t p) as [[e0 h0]|]; [|reflexivity].
      destruct N1 as [_ Em]. rewrite Em in Hpa. pose proof (occ_avail _ (occ_h2 h0)). congruence. }
    rewrite put_node_ok by (auto; apply (mw_buf f t M)). cbn [bind].
    set (t1 := mk _ _ _ _ _ _).
    destruct (set_metadata_ok t1 p (h2_of h)) as (t2 & -> & M2 & (B2 & C2 & N2 & S2 & E2) & Hm1 & Hm2).
    { eapply mwf_ext; [..|exact M]; reflexivity. }
    { exact Hp. }
    { apply node_byte_h2. }
    cbn [t1 s_buf s_cap s_meta s_nodes s_size s_nempty] in *. cbn [bind].
    destruct (node_hash f key_of hash s Ms Ns i e h Ei) as [Eh _].
    eexists. split; [reflexivity|]. constructor; cbn [fst snd].
    + exact M2.
    + destruct N as [Na Nb]. split; rewrite C2, N2.
      * intros j Hj. destruct (Z.eq_dec j p) as [->|Hjp].
        { rewrite upd_same. split; [exact Eh|exact Hm1]. }
        rewrite upd_other by exact Hjp. rewrite Hm2 by lia. apply Na. exact Hj.
      * intros j Hj. rewrite upd_other by lia. apply Nb. exact Hj.
    + congruence.
    + congruence.
    + intros j Hj. destruct (Z.eq_dec j p) as [->|Hjp].
      { rewrite Hm1. pose proof (h2_range h). unfold m_deleted. lia. }
      rewrite Hm2 by lia. apply D. exact Hj.
    + unfold SwissInv.probe_ok. rewrite C2, N2. intros i' e' h' Ei' j Hj Hv.
      destruct (Z.eq_dec j p) as [->|Hjp]; [rewrite Hm1; pose proof (h2_range h); unfold m_empty; lia|].
      rewrite Hm2 by lia. destruct (Z.eq_dec i' p) as [->|Hip].
      * rewrite upd_same in Ei'. injection Ei' as <- <-. specialize (Hfirst j Hj Hv).
        intros Ee. rewrite Ee in Hfirst. discriminate.
      * rewrite upd_other in Ei' by exact Hip. eapply P; eauto.
    + rewrite N2. rewrite collect_succ by lia. rewrite Ei.
      eapply Permutation_trans; [|apply Permutation_cons_append].
      eapply Permutation_trans; [|apply perm_skip; exact Perm].
      apply collect_put with p; [rewrite <- C; exact Hp|exact Hnone|apply upd_same|].
      intros j _ Hj. apply upd_other; exact Hj.
    + split; [|split; [|split]].
      * rewrite map_app, V1. cbn [map fst]. rewrite zrange_succ by lia. rewrite filter_app. cbn [filter].
        rewrite Ei. reflexivity.
      * intros a b Hab. rewrite N2. apply in_app_or in Hab. destruct Hab as [Hab|[Hab|[]]].
        -- assert (b <> p).
           { intros ->. specialize (V2 a p Hab). rewrite Hnone in V2.
             assert (In a (map fst mv)) as Hia by (change a with (fst (a, p)); apply in_map; exact Hab).
             rewrite V1 in Hia. apply filter_In in Hia. destruct Hia as [_ Hia]. rewrite <- V2 in Hia. discriminate. }
           rewrite upd_other by assumption. apply V2. exact Hab.
        -- injection Hab as <- <-. rewrite upd_same. symmetry. exact Ei.
      * rewrite map_app. cbn [map snd]. apply NoDup_app_intro; [exact V3|repeat constructor; intros []|].
        intros x Hx [<-|[]]. apply in_map_iff in Hx. destruct Hx as ((a & b) & <- & Hab). cbn [snd] in *.
        specialize (V2 a b Hab). rewrite Hnone in V2.
        assert (In a (map fst mv)) as Hia by (change a with (fst (a, b)); apply in_map; exact Hab).
        rewrite V1 in Hia. apply filter_In in Hia. destruct Hia as [_ Hia]. rewrite <- V2 in Hia. discriminate.
      * intros b Hb. rewrite N2 in Hb. rewrite map_app. apply in_or_app. destruct (Z.eq_dec b p) as [->|].
        -- right. left. reflexivity.
        -- left. apply V4. rewrite upd_other in Hb by assumption. exact Hb.
Qed.

Lemma do_rehash_ok : forall lim (s : swiss) c, wf s -> good_cap c -> s_size s <= capacity_to_max_size f c -> c <= lim ->
  exists s' mv, do_rehash f lim s c = Ok (s', Some [EvRehash c mv]) /\
    wf1 s' /\ s_cap s' = c /\ Permutation (elems s') (elems s) /\ s_size s' = s_size s /\
    s_nempty s' = capacity_to_max_size f c - s_size s /\
    (forall j, 0 <= j < c -> s_meta s' j <> m_deleted) /\ moves_ok s s' (s_cap s) mv.
Proof.
  intros lim s c Hwf Hc Hsz Hlim. unfold do_rehash.
  destruct (Z.ltb_spec lim c); [lia|]. pose proof (good_cap_bounds c Hc) as Hcb.
  destruct (Z.eqb_spec c 0); [lia|]. fold (fresh c (s_size s) (s_nempty s)).
  pose proof (max_size_bounds f c ltac:(lia)) as Hmx. pose proof (W_pos f) as HW.
  assert (Hfold : exists tm, foldM (rehash_step f s) (zrange (s_cap s)) (fresh c (s_size s) (s_nempty s), []) = Ok tm
     /\ rehash_inv s c (s_cap s) tm).
  { apply rehash_prefix; auto. destruct Hwf as [H0|H1]; [rewrite (w0_cap _ H0); lia|]. pose proof (cap_bounds f s (w_m _ _ _ _ s H1)). lia. }
  destruct Hfold as ([t mv] & -> & [M N C S D P Perm V]). cbn [fst snd bind] in *.
  exists (set_nempty t (sub64 (capacity_to_max_size f c) (s_size s))), mv.
  split; [reflexivity|].
  assert (Hsz0 : 0 <= s_size s).
  { destruct Hwf as [H0|H1]; [rewrite (w0_size _ H0); lia|]. apply wf1_size_max in H1. lia. }
  rewrite sub64_small by (rewrite two64_val; lia).
  assert (Hpe : Permutation (elems t) (elems s)).
  { unfold elems. rewrite C. apply Permutation_map. exact Perm. }
  assert (Hocc : n_occ t = s_size s).
  { rewrite <- (elems_length t N) by lia. rewrite (Permutation_length Hpe).
    destruct Hwf as [H0|H1]; [|apply wf1_elems_length; exact H1].
    unfold elems. rewrite (w0_cap _ H0), collect_0 by lia. rewrite (w0_size _ H0). reflexivity. }
  split.
  - constructor; cbn [set_nempty s_size s_nempty s_cap].
    + eapply mwf_ext; [..|exact M]; reflexivity.
    + exact N.
    + apply distinct_uniq; [cbn [set_nempty s_cap]; lia|apply N|].
      eapply distinct_perm; [apply Permutation_sym, Hpe|].
      destruct Hwf as [H0|H1].
      * unfold elems. rewrite (w0_cap _ H0), collect_0 by lia. constructor.
      * apply distinct_uniq; [pose proof (cap_bounds f s (w_m _ _ _ _ s H1)); lia|apply H1|apply H1].
    + exact P.
    + change (n_occ (set_nempty t (capacity_to_max_size f c - s_size s))) with (n_occ t). congruence.
    + change (n_emp (set_nempty t (capacity_to_max_size f c - s_size s))) with (n_emp t).
      pose proof (count_split t M) as Hs. rewrite (cnt_ext _ (fun _ => false)) in Hs.
      * rewrite C in *. assert (cnt (fun _ => false) c = 0) as Hz; [|lia].
        { pose proof (cnt_bounds (fun _ : Z => false) c ltac:(lia)).
          destruct (Z.eq_dec (cnt (fun _ : Z => false) c) 0); [assumption|].
          destruct (cnt_pos (fun _ => false) c) as (? & _ & ?); [lia|discriminate]. }
      * intros i Hi. pose proof (D i ltac:(lia)). lia.
    + lia.
  - split; [exact C|]. split; [exact Hpe|]. split; [exact S|]. split; [reflexivity|].
    split; [exact D|exact V].
Qed.

End Swiss.
