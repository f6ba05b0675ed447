(** Insertion, erasure, clearing, reserving and rehashing on well-formed tables. *)
From Coq Require Import ZArith List Bool Lia Permutation.
From Coq Require Import ZifyBool ZifyNat.
From Verif Require Import Base BaseLemmas BitsSpec Bits BitsProofs BitsFinal SwissModel SwissArith SwissCap MapSpec SwissInv SwissOps SwissClean SwissIter.
Import ListNotations.
Open Scope Z_scope.

Section Swiss.
Context {E K : Type}.
Variable f : simd.
Variable key_of : E -> K.
Variable hash : K -> Z.
Variable keq : K -> K -> bool.
Local Notation W := (W f).
Local Notation swiss := (@swiss E).
Local Notation mwf := (mwf f).
Local Notation ncons := (ncons key_of hash).
Local Notation wf1 := (wf1 f key_of hash keq).
Local Notation wf0 := (@wf0 E).
Local Notation wf := (wf f key_of hash keq).
Local Notation scans := (scans f).
Local Notation max_of := (capacity_to_max_size f).

(** How the nodes of [s'] come from those of [s]. *)
Definition traced (s : swiss) (tr : list ev) (s' : swiss) : Prop :=
  (tr = [] /\ s' = s) \/
  (exists c mv, tr = [EvRehash c mv] /\ s_cap s' = c /\ moves_ok s s' (s_cap s) mv) \/
  (s_cap s' = s_cap s /\ W < s_cap s /\ replay (s_cap s) (s_nodes s) tr (s_nodes s')).

Hypothesis KL : key_laws hash keq.

Lemma wf_cap_nonneg : forall s, wf s -> 0 <= s_cap s < 2 ^ 59.
Proof.
  intros s [H|H]; [rewrite (w0_cap s H); lia|]. pose proof (cap_bounds f s (w_m _ _ _ _ s H)). lia.
Qed.
Lemma wf_size : forall s, wf s -> s_size s = Z.of_nat (length (elems s)) /\ 0 <= s_size s <= max_of (s_cap s).
Proof.
  intros s [H|H].
  - unfold elems. rewrite (w0_cap s H), (w0_size s H), collect_0 by lia. split; [reflexivity|].
    pose proof (max_size_bounds f 0 ltac:(lia)). lia.
  - split; [symmetry; apply (wf1_elems_length f key_of hash keq s H)|apply (wf1_size_max f key_of hash keq s H)].
Qed.
Lemma wf_out : forall s, wf s -> forall i, ~ (0 <= i < s_cap s) -> s_nodes s i = None.
Proof. intros s [H|H] i Hi; [apply (w0_nodes s H)|apply (w_n _ _ _ _ s H); exact Hi]. Qed.
Lemma wf_distinct : forall s, wf s -> distinct key_of keq (elems s).
Proof.
  intros s H. pose proof (wf_cap_nonneg s H). pose proof (wf_out s H) as Ho. destruct H as [H|H].
  - unfold elems. rewrite (w0_cap s H), collect_0 by lia. constructor.
  - apply (distinct_uniq key_of hash keq KL); [lia|exact Ho|apply H].
Qed.
Lemma wf1_nempty : forall s, wf1 s -> 0 <= s_nempty s <= max_of (s_cap s) - s_size s.
Proof.
  intros s H. pose proof (w_m _ _ _ _ s H) as M. pose proof (count_split f s M) as Hs.
  pose proof (cap_bounds f s M) as Hcb.
  pose proof (cnt_bounds (fun i => s_meta s i =? m_deleted) (s_cap s) ltac:(lia)).
  pose proof (w_size _ _ _ _ s H). pose proof (w_nempty _ _ _ _ s H). pose proof (w_nempty0 _ _ _ _ s H). lia.
Qed.
Lemma wf_some : forall s i n, wf s -> s_nodes s i = Some n -> wf1 s /\ 0 <= i < s_cap s.
Proof.
  intros s i n H Hn. destruct H as [H|H]; [rewrite (w0_nodes s H) in Hn; discriminate|].
  split; [exact H|]. apply (some_unavail key_of hash s i n (w_n _ _ _ _ s H) Hn).
Qed.

(** Lookup on any well-formed table. *)
Lemma find_node_wf : forall s k, wf s -> exists r, find_node f key_of keq s k (hash k) = Ok r /\
  ((0 <= r < s_cap s /\ has_key key_of keq s k r) \/
   (r = s_cap s /\ forall x, In x (elems s) -> keq (key_of x) k = false)).
Proof.
  intros s k H. pose proof (wf_out s H) as Ho. destruct H as [H|H].
  - exists (s_cap s). unfold find_node. rewrite (w0_size s H). split; [reflexivity|]. right. split; [reflexivity|].
    unfold elems. rewrite (w0_cap s H), collect_0 by lia. intros x [].
  - destruct (find_node_ok f key_of hash keq KL s (w_m _ _ _ _ s H) (w_n _ _ _ _ s H) (w_p _ _ _ _ s H) k
      (w_size _ _ _ _ s H) (wf1_empty_slot f key_of hash keq s H)) as (r & Er & Hr).
    exists r. split; [exact Er|]. destruct Hr as [Hr|[Hr1 Hr2]]; [left; exact Hr|right].
    split; [exact Hr1|]. apply (elems_absent key_of hash keq s k Ho). exact Hr2.
Qed.

Lemma max_size_mono : forall c d, 0 <= c <= d -> max_of c <= max_of d.
Proof.
  intros c d H. unfold capacity_to_max_size.
  assert (Hc8 : c = 8 * (c / 8) + c mod 8 /\ 0 <= c mod 8 < 8).
  { split; [apply Z.div_mod; lia|apply Z.mod_pos_bound; lia]. }
  assert (Hd8 : d = 8 * (d / 8) + d mod 8 /\ 0 <= d mod 8 < 8).
  { split; [apply Z.div_mod; lia|apply Z.mod_pos_bound; lia]. }
  assert (c / 8 <= d / 8) by (apply Z.div_le_mono; lia).
  destruct (W =? 8); [destruct (Z.eqb_spec c 7), (Z.eqb_spec d 7)|]; lia.
Qed.

(** ** Making room. *)
Lemma after_rehash : forall (s s' : swiss) h, wf1 s' -> 0 < s_nempty s' ->
  exists p, find_available f s' h = Ok p /\ 0 <= p < s_cap s' /\ is_available (s_meta s' p) = true /\
    (forall j, 0 <= j < s_cap s' -> vis f (s_cap s') h j < vis f (s_cap s') h p -> is_available (s_meta s' j) = false).
Proof.
  intros s s' h H Hn. pose proof (w_m _ _ _ _ s' H) as M. pose proof (cap_bounds f s' M) as Hcb.
  pose proof (max_size_bounds f (s_cap s') ltac:(lia)) as Hmb.
  assert (He : exists j, 0 <= j < s_cap s' /\ is_available (s_meta s' j) = true).
  { pose proof (w_nempty _ _ _ _ s' H) as Hne. destruct (cnt_pos (fun i => s_meta s' i =? m_empty) (s_cap s')) as (j & Hj & Ej).
    { unfold n_emp in Hne. lia. }
    exists j. split; [exact Hj|]. apply Z.eqb_eq in Ej. rewrite Ej. reflexivity. }
  destruct (find_available_ok f s' M h (fun _ => He)) as (p & Ep & Hp). exists p. split; [exact Ep|].
  unfold avail_spec in Hp. destruct Hp as [Hp|(_ & _ & Hp)]; [exact Hp|].
  exfalso. destruct He as (j & Hj & Ej). rewrite Hp in Ej by exact Hj. discriminate.
Qed.

Lemma make_room_ok : forall lim (s : swiss) h, wf s -> lim < 2 ^ 59 ->
  exists s' o, make_room f lim s h = Ok (s', o) /\
    match o with
    | None => s' = s /\ (s_cap s = 0 /\ lim < 1 \/ lim < 2 * s_cap s + 1)
    | Some (p, tr) => wf1 s' /\ Permutation (elems s') (elems s) /\ s_size s' = s_size s /\ traced s tr s' /\
        0 <= p < s_cap s' /\ is_available (s_meta s' p) = true /\
        (forall j, 0 <= j < s_cap s' -> vis f (s_cap s') h j < vis f (s_cap s') h p -> is_available (s_meta s' j) = false) /\
        (0 < s_nempty s' \/ s_meta s' p = m_deleted) /\
        (s_cap s = 0 -> s_cap s' = 1)
    end /\
    (s_cap s <> 0 -> 0 < s_nempty s -> s' = s /\ exists p, o = Some (p, [])).
Proof.
  intros lim s h H Hlim. unfold make_room. pose proof (wf_size s H) as [Hsz Hszm].
  destruct (Z.eqb_spec (s_cap s) 0) as [C0|C0].
  - assert (Hsz0 : s_size s = 0).
    { rewrite C0 in Hszm. pose proof (max_size_bounds f 0 ltac:(lia)). lia. }
    destruct (Z_lt_dec lim 1) as [Hl|Hl].
    + unfold do_rehash. destruct (Z.ltb_spec lim 1); [|lia]. cbn [bind].
      eexists. exists None. split; [reflexivity|]. split; [auto|]. intros Hc. lia.
    + pose proof (max_size_pos f 1 good_cap_1).
      destruct (do_rehash_ok f key_of hash keq KL lim s 1 H good_cap_1 ltac:(lia) ltac:(lia))
        as (s1 & mv & -> & W1 & C1 & P1 & S1 & N1 & _ & Mv). cbn [bind].
      destruct (after_rehash s s1 h W1 ltac:(lia)) as (p & -> & Hp & Ha & Hfst). cbn [bind].
      eexists. eexists. split; [reflexivity|]. split; [|intros Hc; lia].
      split; [exact W1|]. split; [exact P1|]. split; [exact S1|]. split; [right; left; eauto|].
      split; [exact Hp|]. split; [exact Ha|]. split; [exact Hfst|]. split; [left; lia|]. auto.
  - assert (H1 : wf1 s) by (destruct H as [H|H]; [destruct C0; apply (w0_cap s H)|exact H]).
    pose proof (w_m _ _ _ _ s H1) as M. pose proof (cap_bounds f s M) as Hcb. pose proof (W_pos f) as HW.
    assert (He : W <= s_cap s + 1 -> exists j, 0 <= j < s_cap s /\ is_available (s_meta s j) = true).
    { intros Hw. destruct (wf1_empty_slot f key_of hash keq s H1 Hw) as (j & Hj & Ej). exists j. split; [exact Hj|]. rewrite Ej. reflexivity. }
    destruct (find_available_ok f s M h He) as (p & -> & Hp). cbn [bind].
    assert (Hp1 : 0 <= p <= s_cap s) by (unfold avail_spec in Hp; lia).
    rewrite get_meta_ok by ((apply (mw_buf f s M)) || lia). cbn [bind].
    destruct ((s_nempty s =? 0) && negb (s_meta s p =? m_deleted)) eqn:Eb.
    + apply andb_true_iff in Eb. destruct Eb as [En Ed].
      assert (Hn0 : s_nempty s = 0) by lia.
      rewrite (mul64_small (s_size s)), (mul64_small (s_cap s)) by (pose proof (max_size_bounds f (s_cap s) ltac:(lia)); rewrite two64_val; lia).
      destruct ((W <? s_cap s) && (s_size s * 32 <=? s_cap s * 25)) eqn:Ec.
      * destruct (rehash_deleted_ok f key_of hash keq KL s H1 ltac:(lia) ltac:(lia))
          as (s1 & tr & -> & W1 & C1 & P1 & S1 & N1 & Npos & _ & Rp). cbn [bind fst snd].
        destruct (after_rehash s s1 h W1 Npos) as (q & -> & Hq & Ha & Hfst). cbn [bind].
        eexists. eexists. split; [reflexivity|]. split; [|intros; lia].
        split; [exact W1|]. split; [exact P1|]. split; [exact S1|]. split; [right; right; split; [exact C1|split; [lia|exact Rp]]|].
        split; [exact Hq|]. split; [exact Ha|]. split; [exact Hfst|]. split; [left; lia|]. intros; lia.
      * destruct (Z_lt_dec (s_cap s) (2 ^ 58)) as [Hb|Hb].
        -- destruct (good_cap_double (s_cap s) (mw_cap f s M) Hb) as [-> Hg].
           pose proof (max_size_double f (s_cap s) (mw_cap f s M)) as Hmd.
           destruct (Z_lt_dec lim (2 * s_cap s + 1)) as [Hl|Hl].
           ++ unfold do_rehash. destruct (Z.ltb_spec lim (2 * s_cap s + 1)); [|lia]. cbn [bind].
              eexists. exists None. split; [reflexivity|]. split; [auto|]. intros Hc. lia.
           ++ destruct (do_rehash_ok f key_of hash keq KL lim s (2 * s_cap s + 1) H Hg ltac:(lia) ltac:(lia))
                as (s1 & mv & -> & W1 & C1 & P1 & S1 & N1 & _ & Mv). cbn [bind].
              destruct (after_rehash s s1 h W1 ltac:(lia)) as (q & -> & Hq & Ha & Hfst). cbn [bind].
              eexists. eexists. split; [reflexivity|]. split; [|intros Hc; lia].
              split; [exact W1|]. split; [exact P1|]. split; [exact S1|]. split; [right; left; eauto|].
              split; [exact Hq|]. split; [exact Ha|]. split; [exact Hfst|]. split; [left; lia|]. intros; lia.
        -- assert (Eq : sub64 (mul64 (add64 (s_cap s) 1) 2) 1 = 2 * s_cap s + 1).
           { rewrite add64_small, mul64_small, sub64_small by (rewrite ?two64_val; lia). lia. }
           rewrite Eq. unfold do_rehash. destruct (Z.ltb_spec lim (2 * s_cap s + 1)); [|lia]. cbn [bind].
           eexists. exists None. split; [reflexivity|]. split; [auto|]. intros Hc. lia.
    + eexists. eexists. split; [reflexivity|]. split; [|intros; eauto].
      assert (Hne : 0 < s_nempty s \/ s_meta s p = m_deleted).
      { pose proof (w_nempty0 _ _ _ _ s H1). lia. }
      assert (Hsp : 0 <= p < s_cap s /\ is_available (s_meta s p) = true /\
        (forall j, 0 <= j < s_cap s -> vis f (s_cap s) h j < vis f (s_cap s) h p -> is_available (s_meta s j) = false)).
      { unfold avail_spec in Hp. destruct Hp as [Hp|(Hw & Hpc & Hall)]; [exact Hp|]. exfalso.
        destruct Hne as [Hne|Hne]; [|subst p; rewrite (mw_sent f s M) in Hne; discriminate].
        pose proof (w_nempty _ _ _ _ s H1) as Hn. pose proof (max_size_small f (s_cap s) (mw_cap f s M) Hw) as Hms.
        destruct (cnt_pos (fun i => s_meta s i =? m_empty) (s_cap s)) as (j & Hj & Ej); [unfold n_emp in Hn; lia|].
        specialize (Hall j Hj). apply Z.eqb_eq in Ej. rewrite Ej in Hall. discriminate. }
      destruct Hsp as (Hq & Ha & Hfst).
      split; [exact H1|]. split; [apply Permutation_refl|]. split; [reflexivity|]. split; [left; auto|].
      split; [exact Hq|]. split; [exact Ha|]. split; [exact Hfst|]. split; [exact Hne|]. intros; lia.
Qed.

(** ** Insertion of a new key. *)
Lemma emplace_ok : forall lim ok (s : swiss) e, wf s -> lim < 2 ^ 59 ->
  (forall x, In x (elems s) -> keq (key_of x) (key_of e) = false) ->
  exists s' o, emplace_node f lim ok s (hash (key_of e)) e = Ok (s', o) /\
    match o with
    | None => wf s' /\ Permutation (elems s') (elems s)
    | Some (p, tr) => wf1 s' /\ Permutation (elems s') (e :: elems s) /\ ok = true /\
        (exists s1, traced s tr s1 /\ wf1 s1 /\ s_cap s1 = s_cap s' /\ Permutation (elems s1) (elems s) /\
           s_nodes s1 p = None /\ 0 <= p < s_cap s1 /\
           s_nodes s' = upd (s_nodes s1) p (Some (e, hash (key_of e))))
    end /\
    (o = None -> s' = s \/ (ok = false /\ wf1 s')) /\
    (s_cap s <> 0 -> 0 < s_nempty s -> ok = true ->
       o <> None /\ s_cap s' = s_cap s /\ s_nempty s - 1 <= s_nempty s' /\ s_size s' = s_size s + 1).
Proof.
  intros lim ok s e H Hlim Habs. unfold emplace_node.
  destruct (make_room_ok lim s (hash (key_of e)) H Hlim) as (s1 & o & -> & Ho & Hroom). cbn [bind].
  destruct o as [[p tr]|].
  - destruct Ho as (W1 & P1 & S1 & T1 & Hp & Ha & Hfst & Hne & _). destruct ok; cbn [negb].
    + assert (Habs1 : forall x, In x (elems s1) -> keq (key_of x) (key_of e) = false).
      { intros x Hx. apply Habs. apply (Permutation_in x P1). exact Hx. }
      destruct (place_ok f key_of hash keq KL s1 p e W1 Hp Ha Hfst Hne Habs1) as (s' & Es & W' & C' & P' & N' & S' & E').
      destruct (put_node s1 p (e, hash (key_of e))) as [s2|] eqn:Ep; [|discriminate]. cbn [bind] in Es |- *.
      destruct (get_meta f s2 p) as [tm|] eqn:Em; [|discriminate]. cbn [bind] in Es |- *.
      cbv zeta in Es |- *.
      destruct (set_metadata f _ p _) as [s4|] eqn:E4; [|discriminate]. cbn [bind] in Es |- *.
      injection Es as Es. eexists. eexists. split; [rewrite Es; reflexivity|].
      assert (Hnone : s_nodes s1 p = None) by (apply (avail_none key_of hash s1 p (w_n _ _ _ _ s1 W1) Hp Ha)).
      split.
      * split; [exact W'|]. split; [rewrite P', P1; reflexivity|]. split; [reflexivity|].
        exists s1. split; [exact T1|]. split; [exact W1|]. split; [auto|]. split; [exact P1|].
        split; [exact Hnone|]. split; [exact Hp|]. exact N'.
      * split; [discriminate|]. intros Hc Hn _. destruct (Hroom Hc Hn) as (-> & _).
        split; [discriminate|]. split; [exact C'|]. split; [|exact S']. rewrite E'.
        destruct (s_meta s p =? m_empty); lia.
    + eexists. exists None. split; [reflexivity|]. split; [split; [right; exact W1|exact P1]|].
      split; [auto|]. intros _ _ Hok. discriminate.
  - destruct Ho as (-> & Hl). eexists. exists None. split; [reflexivity|].
    split; [split; [exact H|apply Permutation_refl]|]. split; [auto|]. intros Hc Hn _.
    destruct (Hroom Hc Hn) as (_ & p & Ep). discriminate.
Qed.

(** Replacing an element by one with the same key. *)
Lemma replace_ok : forall (s : swiss) p e h e', wf1 s -> s_nodes s p = Some (e, h) -> key_of e' = key_of e ->
  wf1 (mk (s_buf s) (s_cap s) (s_meta s) (upd (s_nodes s) p (Some (e', h))) (s_size s) (s_nempty s)).
Proof.
  intros s p e h e' H Hp Hk. destruct H as [M N U P Sz Ne Ne0].
  assert (Hpr : 0 <= p < s_cap s) by apply (some_unavail key_of hash s p (e, h) N Hp).
  constructor; cbn [s_size s_nempty s_cap].
  - eapply mwf_ext; [..|exact M]; reflexivity.
  - destruct N as [N1 N2]. split; cbn [s_cap s_nodes s_meta].
    + intros i Hi. destruct (Z.eq_dec i p) as [->|Hne]; [rewrite upd_same|rewrite upd_other by exact Hne; apply N1; exact Hi].
      specialize (N1 p Hi). rewrite Hp in N1. rewrite Hk. exact N1.
    + intros i Hi. rewrite upd_other by lia. apply N2. exact Hi.
  - intros i j a b ha hb. cbn [s_nodes]. unfold upd.
    destruct (Z.eqb_spec i p) as [->|Hi], (Z.eqb_spec j p) as [->|Hj]; intros Ea Eb Ek; [reflexivity| | |].
    + injection Ea as <- <-. rewrite Hk in Ek. eapply U; eauto.
    + injection Eb as <- <-. rewrite Hk in Ek. eapply U; eauto.
    + eapply U; eauto.
  - intros i a ha. cbn [s_nodes s_cap s_meta]. unfold upd. destruct (Z.eqb_spec i p) as [->|Hi].
    + intros Ea. injection Ea as <- <-. eapply P; exact Hp.
    + apply P.
  - exact Sz.
  - exact Ne.
  - exact Ne0.
Qed.

(** Replacing an element by one with an equivalent key. *)
Lemma replace_eq_ok : forall (s : swiss) p e h e', wf1 s -> s_nodes s p = Some (e, h) -> keq (key_of e) (key_of e') = true ->
  wf1 (mk (s_buf s) (s_cap s) (s_meta s) (upd (s_nodes s) p (Some (e', h))) (s_size s) (s_nempty s)).
Proof.
  intros s p e h e' H Hp Hk. destruct H as [M N U P Sz Ne Ne0].
  assert (Hpr : 0 <= p < s_cap s) by apply (some_unavail key_of hash s p (e, h) N Hp).
  constructor; cbn [s_size s_nempty s_cap].
  - eapply mwf_ext; [..|exact M]; reflexivity.
  - destruct N as [N1 N2]. split; cbn [s_cap s_nodes s_meta].
    + intros i Hi. destruct (Z.eq_dec i p) as [->|Hne]; [rewrite upd_same|rewrite upd_other by exact Hne; apply N1; exact Hi].
      specialize (N1 p Hi). rewrite Hp in N1. rewrite <- (kl_hash _ _ KL _ _ Hk). exact N1.
    + intros i Hi. rewrite upd_other by lia. apply N2. exact Hi.
  - intros i j a b ha hb. cbn [s_nodes]. unfold upd.
    destruct (Z.eqb_spec i p) as [->|Hi], (Z.eqb_spec j p) as [->|Hj]; intros Ea Eb Ek; [reflexivity| | |].
    + injection Ea as <- <-. apply (U p j e b h hb Hp Eb). apply (kl_trans _ _ KL _ _ _ Hk Ek).
    + injection Eb as <- <-. apply (U i p a e ha h Ea Hp). apply (kl_trans _ _ KL _ _ _ Ek). apply (kl_sym _ _ KL). exact Hk.
    + eapply U; eauto.
  - intros i a ha. cbn [s_nodes s_cap s_meta]. unfold upd. destruct (Z.eqb_spec i p) as [->|Hi].
    + intros Ea. injection Ea as <- <-. eapply P; exact Hp.
    + apply P.
  - exact Sz.
  - exact Ne.
  - exact Ne0.
Qed.

(** ** Erasure. *)
(** The state after erasing slot p, and the position the returned iterator has. *)
Lemma do_erase_ok : forall (s : swiss) p n, wf1 s -> s_nodes s p = Some n ->
  scans (do_erase f s p) (fun r => let '(s', q) := r in
    wf1 s' /\ s_cap s' = s_cap s /\ s_nodes s' = upd (s_nodes s) p None /\
    s_size s' = s_size s - 1 /\ s_nempty s' = s_nempty s /\ p < q /\ stops s' (p + 1) q /\
    (forall j, 0 <= j <= s_cap s -> j <> p -> s_meta s' j = s_meta s j)).
Proof.
  intros s p n H Hn. destruct (erase_core f key_of hash keq KL s p n H Hn)
    as (Hp & s1 & s2 & E1 & E2 & M1 & N1 & C1 & Md & Mo & W2 & C2 & N2 & Ms & B1 & B2 & P2 & S2 & Ne2).
  unfold do_erase. rewrite E1. cbn [bind].
  eapply scans_bind; [apply to_iter_ok; [exact M1|lia]|]. intros q (Hq1 & Hq2 & Hq3).
  rewrite E2. cbn [bind]. apply scans_Ok.
  assert (Hpq : p < q).
  { destruct (Z.eq_dec q p) as [->|]; [|lia]. rewrite Md in Hq3. discriminate. }
  split; [exact W2|]. split; [exact C2|]. split; [exact N2|]. split; [exact S2|]. split; [exact Ne2|].
  split; [exact Hpq|]. split.
  - split; [rewrite C2; rewrite C1 in Hq1; lia|]. rewrite Ms. split; [intros j Hj; apply Hq2; lia|exact Hq3].
  - intros j Hj Hne. rewrite Ms. apply Mo; assumption.
Qed.

Lemma erase_elems : forall (s s' : swiss) p n, 0 <= p < s_cap s -> s_cap s' = s_cap s ->
  s_nodes s' = upd (s_nodes s) p None -> s_nodes s p = Some n ->
  elems s = map fst (collect (s_nodes s) p) ++ fst n :: map fst (rest (s_nodes s) (p + 1) (s_cap s)) /\
  elems s' = map fst (collect (s_nodes s) p) ++ map fst (rest (s_nodes s) (p + 1) (s_cap s)) /\
  rest (s_nodes s') (p + 1) (s_cap s') = rest (s_nodes s) (p + 1) (s_cap s).
Proof.
  intros s s' p n Hp C N Hn. split; [apply elems_at; assumption|]. split.
  - unfold elems. rewrite C, N, collect_upd_none by exact Hp. apply map_app.
  - rewrite C, N. apply rest_ext. intros i Hi. apply upd_other. lia.
Qed.

(** The element at a stopping position is the first of the rest. *)
Lemma stop_head : forall (s : swiss) p q, mwf s -> ncons s -> 0 <= p -> stops s p q ->
  (q = s_cap s /\ map fst (rest (s_nodes s) p (s_cap s)) = []) \/
  (q < s_cap s /\ exists n, s_nodes s q = Some n /\ get_node s q = Ok n /\
     hd_error (map fst (rest (s_nodes s) p (s_cap s))) = Some (fst n)).
Proof.
  intros s p q M N Hp Hs. pose proof Hs as (Hq & _ & _). destruct (stops_rest key_of hash s p q N Hp Hs) as [Hr Hn].
  rewrite Hr. destruct (Z.eq_dec q (s_cap s)) as [->|Hne].
  - left. rewrite rest_end by lia. auto.
  - right. split; [lia|]. destruct (Hn ltac:(lia)) as [n En]. exists n. split; [exact En|].
    split; [apply get_node_ok; ((apply (mw_buf f s M)) || lia || exact En)|].
    rewrite rest_cons by lia. rewrite En. reflexivity.
Qed.

(** ** Clear. *)
Lemma erase_nodes_ok : forall (s : swiss), wf s -> exists s', erase_nodes f s = Ok s' /\
  s_buf s' = s_buf s /\ s_cap s' = s_cap s /\ s_meta s' = s_meta s /\ s_nempty s' = s_nempty s /\ s_size s' = 0 /\
  (forall i, s_nodes s' i = None).
Proof.
  intros s H. pose proof (wf_cap_nonneg s H) as Hc. pose proof (wf_out s H) as Ho. unfold erase_nodes.
  destruct (foldM_zrange_inv _ (fun t i => let* b := get_meta f t i in if is_occupied b then kill_node t i else Ok t)
    (fun i t => s_buf t = s_buf s /\ s_cap t = s_cap s /\ s_meta t = s_meta s /\ s_nempty t = s_nempty s /\
       (forall j, 0 <= j < i -> s_nodes t j = None) /\ (forall j, i <= j -> s_nodes t j = s_nodes s j) /\
       (forall j, j < 0 -> s_nodes t j = None)) (s_cap s) s) as (t & -> & B & C & M' & Ne & N1 & N2 & N3).
  - lia.
  - repeat (split; [reflexivity|]). split; [intros; lia|]. split; [auto|]. intros; apply Ho; lia.
  - intros i t Hi (B & C & M' & Ne & N1 & N2 & N3).
    destruct H as [H|H]; [rewrite (w0_cap s H) in Hi; lia|].
    pose proof (w_m _ _ _ _ s H) as M. pose proof (W_pos f).
    rewrite get_meta_ok by (rewrite ?B, ?C; ((apply (mw_buf f s M)) || lia)). cbn [bind]. rewrite M'.
    rewrite (ncons_occ key_of hash s i (w_n _ _ _ _ s H) Hi).
    destruct (s_nodes s i) as [n|] eqn:En.
    + rewrite (kill_node_ok t i n); [|rewrite B; apply (mw_buf f s M)|lia|rewrite N2 by lia; exact En].
      eexists. split; [reflexivity|]. cbn [s_buf s_cap s_meta s_nempty s_nodes].
      repeat (split; [assumption|]).
      split; [|split].
      * intros j Hj. destruct (Z.eq_dec j i) as [->|]; [apply upd_same|rewrite upd_other by assumption; apply N1; lia].
      * intros j Hj. rewrite upd_other by lia. apply N2. lia.
      * intros j Hj. rewrite upd_other by lia. apply N3. lia.
    + eexists. split; [reflexivity|]. repeat (split; [assumption|]). split; [|split].
      * intros j Hj. destruct (Z.eq_dec j i) as [->|]; [rewrite N2 by lia; exact En|apply N1; lia].
      * intros j Hj. apply N2. lia.
      * exact N3.
  - cbn [bind]. eexists. split; [reflexivity|]. cbn [set_size s_buf s_cap s_meta s_nempty s_nodes s_size].
    repeat (split; [assumption || reflexivity|]). intros i.
    destruct (Z_lt_dec i 0); [apply N3; lia|]. destruct (Z_lt_dec i (s_cap s)); [apply N1; lia|].
    rewrite N2 by lia. apply Ho. lia.
Qed.

Lemma fresh_wf1 : forall c, good_cap c -> wf1 (fresh c 0 (max_of c)).
Proof.
  intros c Hg. pose proof (good_cap_bounds c Hg) as Hcb.
  constructor; cbn [fresh s_size s_nempty s_cap].
  - apply fresh_mwf. exact Hg.
  - split; cbn [fresh s_nodes s_meta s_cap]; [|reflexivity]. intros i Hi. unfold fill_empty_meta.
    destruct (Z.eqb_spec i c); [lia|reflexivity].
  - intros i j e e' h h' Hi. discriminate.
  - intros i e h Hi. discriminate.
  - unfold n_occ. cbn [fresh s_meta s_cap]. rewrite (cnt_ext _ (fun _ => false)).
    + destruct (Z.eq_dec (cnt (fun _ => false) c) 0) as [->|Hne]; [reflexivity|].
      pose proof (cnt_bounds (fun _ => false) c ltac:(lia)).
      destruct (cnt_pos (fun _ => false) c) as (? & _ & ?); [lia|discriminate].
    + intros i Hi. unfold fill_empty_meta. destruct (Z.eqb_spec i c); [lia|reflexivity].
  - unfold n_emp. cbn [fresh s_meta s_cap]. rewrite cnt_all; [lia|lia|].
    intros i Hi. unfold fill_empty_meta. destruct (Z.eqb_spec i c); [lia|reflexivity].
  - pose proof (max_size_bounds f c ltac:(lia)). lia.
Qed.

(** [wf1] only depends on the nodes pointwise. *)
Lemma wf1_ext : forall (s t : swiss), wf1 s -> s_buf t = s_buf s -> s_cap t = s_cap s ->
  (forall i, s_meta t i = s_meta s i) -> (forall i, s_nodes t i = s_nodes s i) ->
  s_size t = s_size s -> s_nempty t = s_nempty s -> wf1 t.
Proof.
  intros s t [M [N1 N2] U P Sz Ne Ne0] B C Me Nd S1 S2. constructor.
  - destruct M as [M1 M2 M3 M4 M5]. constructor; rewrite ?B, ?C; try assumption.
    + intros i Hi. rewrite Me. apply M3. exact Hi.
    + rewrite Me. exact M4.
    + intros j Hj. rewrite !Me. apply M5. exact Hj.
  - split; rewrite C.
    + intros i Hi. rewrite Nd, Me. apply N1. exact Hi.
    + intros i Hi. rewrite Nd. apply N2. exact Hi.
  - intros i j e e' h h'. rewrite !Nd. apply U.
  - intros i e h. rewrite C, Nd. intros Hi j Hj. rewrite Me. eapply P; eauto.
  - rewrite S1, Sz. unfold n_occ. rewrite C. apply cnt_ext. intros i _. rewrite Me. reflexivity.
  - rewrite S2, Ne, C. f_equal. unfold n_emp. rewrite C. apply cnt_ext. intros i _. rewrite Me. reflexivity.
  - rewrite S2. exact Ne0.
Qed.

Lemma clear_ok : forall (s : swiss), wf s -> exists s', clear f s = Ok s' /\ wf s' /\ elems s' = [] /\
  s_cap s' = s_cap s /\ s_size s' = 0 /\ (s_cap s = 0 -> s' = s).
Proof.
  intros s H. pose proof (wf_size s H) as [Hsz Hb]. unfold clear.
  destruct (Z.eqb_spec (s_size s) 0) as [E0|E0].
  - exists s. split; [reflexivity|]. split; [exact H|]. split; [|auto].
    apply length_zero_iff_nil. lia.
  - assert (H1 : wf1 s) by (destruct H as [H|H]; [destruct E0; apply (w0_size s H)|exact H]).
    destruct (erase_nodes_ok s H) as (t & -> & B & C & M' & Ne & S' & N'). cbn [bind].
    pose proof (w_m _ _ _ _ s H1) as M. pose proof (cap_bounds f s M) as Hcb.
    unfold fill_empty, check_buf. rewrite B, (mw_buf f s M). cbn [bind].
    eexists. split; [reflexivity|]. cbn [set_nempty set_size s_cap s_buf s_meta s_nodes s_size s_nempty].
    rewrite C. split; [|split; [|split; [reflexivity|split; [reflexivity|intros; lia]]]].
    + right. apply (wf1_ext (fresh (s_cap s) 0 (max_of (s_cap s)))); cbn [fresh s_cap s_buf s_meta s_nodes s_size s_nempty];
        try reflexivity; [apply fresh_wf1, (mw_cap f s M)|exact N'].
    + unfold elems. cbn [s_nodes s_cap]. rewrite collect_none; [reflexivity|]. intros i _. apply N'.
Qed.

(** ** Reserve and rehash. *)
Lemma align_capacity_huge : forall m, 2 ^ 62 <= m < two64 -> exists c, align_capacity m = Ok c /\ 2 ^ 59 <= c.
Proof.
  intros m Hm. destruct (Z_lt_dec m (2 ^ 63)) as [Hl|Hl].
  - destruct (align_capacity_spec m ltac:(lia)) as (k & -> & _ & Hk & _). eexists. split; [reflexivity|]. lia.
  - unfold align_capacity. destruct (Z.eqb_spec m 0); [lia|].
    destruct (gnu_clz_lz m ltac:(rewrite two64_val in Hm; lia)) as (c & Ec & Hc & Hc2).
    rewrite Ec. cbn [bind]. eexists. split; [reflexivity|].
    assert (c = 0).
    { destruct (Z.eq_dec c 0); [assumption|]. assert (2 ^ (64 - c) <= 2 ^ 63) by (apply Z.pow_le_mono_r; lia). lia. }
    subst c. vm_compute. discriminate.
Qed.

Lemma size_to_min_capacity_huge : forall n, 2 ^ 62 <= n < two64 -> 2 ^ 62 <= size_to_min_capacity f n < two64.
Proof.
  intros n Hn. unfold size_to_min_capacity, add64.
  rewrite two64_val in *.
  assert (Hgoal : 2 ^ 62 <= (n + Z.quot (to_s64 n - 1) 7 mod 2 ^ 64) mod 2 ^ 64 < 2 ^ 64).
  { split; [|apply Z.mod_pos_bound; lia].
    rewrite Z.add_mod_idemp_r by lia. unfold to_s64. rewrite two64_val.
    destruct (Z.ltb_spec n (2 ^ 63)).
    - rewrite Z.quot_div_nonneg by lia. assert (0 <= (n - 1) / 7 <= n) by (split; [apply Z.div_pos|apply Z.div_le_upper_bound]; lia).
      rewrite Z.mod_small by lia. lia.
    - set (m := 2 ^ 64 - n). replace (n - 2 ^ 64 - 1) with (- (m + 1)) by lia.
      rewrite Z.quot_opp_l by lia. rewrite Z.quot_div_nonneg by lia.
      assert (0 <= (m + 1) / 7 <= m) by (split; [apply Z.div_pos|apply Z.div_le_upper_bound]; lia).
      assert (7 * ((m + 1) / 7) <= m + 1) by (apply Z.mul_div_le; lia).
      replace (n + - ((m + 1) / 7)) with (n - (m + 1) / 7) by lia.
      assert (m <= 2 ^ 63) by lia.
      rewrite Z.mod_small by lia. lia. }
  destruct (W =? 8); [|exact Hgoal]. destruct (Z.eqb_spec n 7); [lia|exact Hgoal].
Qed.

(** What reserve and rehash do. *)
Definition resized (lim : Z) (s s' : swiss) (o : option (list ev)) : Prop :=
  match o with
  | None => s' = s
  | Some tr => wf s' /\ Permutation (elems s') (elems s) /\ s_size s' = s_size s /\ traced s tr s' /\ (s_cap s' <> 0 \/ s' = s)
  end.

Lemma do_rehash_resized : forall lim (s : swiss) c, wf s -> lim < 2 ^ 59 -> (c < 2 ^ 59 -> good_cap c /\ s_size s <= max_of c) ->
  exists s' o, do_rehash f lim s c = Ok (s', o) /\ resized lim s s' o /\ (o <> None -> s_cap s' = c /\ s_nempty s' = max_of c - s_size s) /\
    (o = None -> lim < c).
Proof.
  intros lim s c H Hlim Hc. destruct (Z_lt_dec lim c) as [Hl|Hl].
  - unfold do_rehash. destruct (Z.ltb_spec lim c); [|lia]. exists s, None.
    split; [reflexivity|]. split; [reflexivity|]. split; [intros Hn; destruct (Hn eq_refl)|auto].
  - destruct (Hc ltac:(lia)) as [Hg Hs].
    destruct (do_rehash_ok f key_of hash keq KL lim s c H Hg Hs ltac:(lia)) as (s' & mv & -> & W' & C' & P' & S' & N' & _ & Mv).
    eexists. eexists. split; [reflexivity|]. pose proof (good_cap_bounds c Hg). split; [|split; [auto|discriminate]].
    split; [right; exact W'|]. split; [exact P'|]. split; [exact S'|]. split; [right; left; eauto|]. left. lia.
Qed.

Lemma good_cap_of_pow : forall k, 1 <= k -> 2 ^ k - 1 < 2 ^ 59 -> good_cap (2 ^ k - 1).
Proof.
  intros k Hk Hl. exists k. split; [|reflexivity]. split; [exact Hk|].
  destruct (Z_le_dec k 59); [assumption|]. assert (2 ^ 60 <= 2 ^ k) by (apply Z.pow_le_mono_r; lia). lia.
Qed.

Lemma min_capacity_bound : forall n, 1 <= n < 2 ^ 62 -> n <= size_to_min_capacity f n < 2 ^ 63.
Proof.
  intros n Hn. rewrite size_to_min_capacity_pos by exact Hn.
  assert (0 <= (n - 1) / 7 <= n) by (split; [apply Z.div_pos|apply Z.div_le_upper_bound]; lia).
  destruct ((W =? 8) && (n =? 7)) eqn:Eb; lia.
Qed.

Lemma reserve_ok : forall lim (s : swiss) n, wf s -> lim < 2 ^ 59 -> 0 <= n < two64 ->
  exists s' o, reserve f lim s n = Ok (s', o) /\ resized lim s s' o /\
    (o <> None -> n <= s_size s' + s_nempty s' /\ (s_nempty s < n -> s_size s + s_nempty s < n -> s_cap s' <> 0)).
Proof.
  intros lim s n H Hlim Hn. unfold reserve. pose proof (wf_size s H) as [Hsz Hb]. pose proof (wf_cap_nonneg s H) as Hc.
  pose proof (max_size_bounds f (s_cap s) ltac:(lia)) as Hmb.
  assert (Hne : 0 <= s_nempty s < 2 ^ 59).
  { destruct H as [H|H]; [apply (w0_nempty s H)|]. pose proof (wf1_nempty s H). lia. }
  rewrite add64_small by (rewrite two64_val; lia).
  destruct (Z.ltb_spec (s_size s + s_nempty s) n) as [Hlt|Hge].
  - destruct (Z_lt_dec n (2 ^ 62)) as [Hs|Hs].
    + pose proof (min_capacity_bound n ltac:(lia)) as Hmc.
      destruct (align_capacity_spec (size_to_min_capacity f n) ltac:(lia)) as (k & -> & Hk & Hk2 & _). cbn [bind].
      pose proof (max_size_sufficient f n (2 ^ k - 1) ltac:(lia) Hk2) as Hsuf.
      destruct (do_rehash_resized lim s (2 ^ k - 1) H Hlim) as (s' & o & -> & Hr & Hc' & Hl').
      { intros Hl. split; [apply good_cap_of_pow; lia|lia]. }
      eexists. eexists. split; [reflexivity|]. split; [exact Hr|]. intros Ho. destruct (Hc' Ho) as [C' N'].
      assert (S' : s_size s' = s_size s) by (destruct o; [apply Hr|congruence]). split; [lia|]. intros. lia.
    + destruct (align_capacity_huge _ (size_to_min_capacity_huge n ltac:(lia))) as (c & -> & Hc59). cbn [bind].
      destruct (do_rehash_resized lim s c H Hlim) as (s' & o & Er & Hr & Hc' & Hl'); [lia|].
      rewrite Er. eexists. eexists. split; [reflexivity|]. split; [exact Hr|]. intros Ho.
      unfold do_rehash in Er. destruct (Z.ltb_spec lim c); [|lia]. injection Er as <- <-. congruence.
  - exists s, (Some []). split; [reflexivity|]. split; [|intros _; split; lia].
    split; [exact H|]. split; [apply Permutation_refl|]. split; [reflexivity|]. split; [left; auto|auto].
Qed.

Lemma le_lor : forall a b, 0 <= a -> 0 <= b -> a <= Z.lor a b.
Proof.
  intros a b Ha Hb. assert (Hz : Z.land a (Z.ldiff b a) = 0).
  { apply Z.bits_inj'. intros i Hi. rewrite Z.land_spec, Z.ldiff_spec, Z.bits_0. destruct (Z.testbit a i), (Z.testbit b i); reflexivity. }
  assert (E1 : Z.lor a b = a + Z.ldiff b a).
  { rewrite Z.add_nocarry_lxor, Z.lxor_lor by exact Hz. apply Z.bits_inj'. intros i Hi.
    rewrite !Z.lor_spec, Z.ldiff_spec. destruct (Z.testbit a i), (Z.testbit b i); reflexivity. }
  assert (0 <= Z.ldiff b a) by (apply Z.ldiff_nonneg; lia). lia.
Qed.

Lemma lor_bounds : forall a b k, 0 <= k -> 0 <= a < 2 ^ k -> 0 <= b < 2 ^ k -> Z.max a b <= Z.lor a b < 2 ^ k.
Proof.
  intros a b k Hk Ha Hb. split.
  - apply Z.max_lub; [apply le_lor; lia|rewrite Z.lor_comm; apply le_lor; lia].
  - assert (Hn : 0 <= Z.lor a b) by (apply Z.lor_nonneg; lia).
    destruct (Z.eq_dec (Z.lor a b) 0) as [->|Hz]; [apply Z.pow_pos_nonneg; lia|].
    apply Z.log2_lt_pow2; [lia|]. rewrite Z.log2_lor by lia. apply Z.max_lub_lt.
    + destruct (Z.eq_dec a 0) as [->|]; [rewrite Z.log2_nonpos by lia|apply Z.log2_lt_pow2; lia].
      destruct (Z.eq_dec k 0) as [->|]; [|lia]. change (2 ^ 0) with 1 in *. assert (b = 0) by lia. subst. rewrite Z.lor_0_r in Hz. lia.
    + destruct (Z.eq_dec b 0) as [->|]; [rewrite Z.log2_nonpos by lia|apply Z.log2_lt_pow2; lia].
      destruct (Z.eq_dec k 0) as [->|]; [|lia]. change (2 ^ 0) with 1 in *. assert (a = 0) by lia. subst. cbn in Hz. lia.
Qed.

(** rehash(n) for n > 0, and rehash(0) on tables with at most one element. *)
Lemma rehash_ok : forall lim (s : swiss) n, wf s -> lim < 2 ^ 59 -> 0 <= n < two64 -> 0 < n \/ s_size s <= 1 ->
  exists s' o, rehash f lim s n = Ok (s', o) /\ resized lim s s' o /\ (o <> None -> n <= s_cap s' /\ (0 < n -> n <= max_of (s_cap s'))).
Proof.
  intros lim s n H Hlim Hn Hd. unfold rehash. pose proof (wf_size s H) as [Hsz Hb]. pose proof (wf_cap_nonneg s H) as Hc.
  assert (Hself : resized lim s s (Some [])).
  { split; [exact H|]. split; [apply Permutation_refl|]. split; [reflexivity|]. split; [left; auto|auto]. }
  destruct ((n =? 0) && (s_size s =? 0)) eqn:Eb.
  - exists s, (Some []). split; [reflexivity|]. split; [exact Hself|]. intros _. lia.
  - destruct (Z_lt_dec n (2 ^ 62)) as [Hs|Hs].
    + assert (Hm : exists m, Z.lor n (size_to_min_capacity f n) = m /\ n <= m < 2 ^ 63 /\ size_to_min_capacity f n <= m).
      { eexists. split; [reflexivity|]. destruct (Z.eq_dec n 0) as [->|Hn0].
        - rewrite size_to_min_capacity_0. cbn. lia.
        - pose proof (min_capacity_bound n ltac:(lia)). pose proof (lor_bounds n (size_to_min_capacity f n) 63 ltac:(lia) ltac:(lia) ltac:(lia)). lia. }
      destruct Hm as (m & -> & Hm & Hm2).
      destruct (align_capacity_spec m ltac:(lia)) as (k & -> & Hk & Hk2 & _). cbn [bind].
      destruct ((n =? 0) || (s_cap s <? 2 ^ k - 1)) eqn:Ec.
      * destruct (do_rehash_resized lim s (2 ^ k - 1) H Hlim) as (s' & o & -> & Hr & Hc' & Hl').
        { intros Hl. split; [apply good_cap_of_pow; lia|]. destruct (Z.eq_dec n 0) as [->|Hn0].
          - assert (s_size s <= 1) by lia. pose proof (max_size_pos f (2 ^ k - 1) (good_cap_of_pow k ltac:(lia) Hl)). lia.
          - pose proof (max_size_mono (s_cap s) (2 ^ k - 1) ltac:(lia)). lia. }
        eexists. eexists. split; [reflexivity|]. split; [exact Hr|]. intros Ho. destruct (Hc' Ho) as [-> _]. split; [lia|].
        intros Hn0. apply max_size_sufficient; lia.
      * exists s, (Some []). split; [reflexivity|]. split; [exact Hself|]. intros _. split; [lia|].
        intros Hn0. apply max_size_sufficient; lia.
    + pose proof (size_to_min_capacity_huge n ltac:(lia)) as Hmc.
      pose proof (lor_bounds n (size_to_min_capacity f n) 64 ltac:(lia) ltac:(rewrite two64_val in *; lia) ltac:(rewrite two64_val in *; lia)) as Hlor.
      destruct (align_capacity_huge (Z.lor n (size_to_min_capacity f n)) ltac:(rewrite two64_val; lia)) as (c & -> & Hc59). cbn [bind].
      destruct ((n =? 0) || (s_cap s <? c)) eqn:Ec; [|lia].
      destruct (do_rehash_resized lim s c H Hlim) as (s' & o & Er & Hr & Hc' & Hl'); [lia|].
      rewrite Er. eexists. eexists. split; [reflexivity|]. split; [exact Hr|]. intros Ho.
      unfold do_rehash in Er. destruct (Z.ltb_spec lim c); [|lia]. injection Er as <- <-. congruence.
Qed.

End Swiss.
