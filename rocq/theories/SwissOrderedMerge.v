(** Extraction, insertion of node handles and merge on ordered swiss tables. *)
From Coq Require Import ZArith List Bool Lia Permutation Arith.
From Verif Require Import Base BaseLemmas Bits BitsProofs SwissModel SwissArith SwissCap SwissInv SwissOps SwissClean SwissIter SwissRoom MapSpec WorldSpec SwissRun SwissRefine SwissFinal SwissMore
  LinkModel LinkProofs OrderedLinks OrderedMoves SwissOrderedSpec SwissOrdered SwissOrderedRun SwissOrderedLinks SwissOrderedProofs SwissOrderedOps SwissOrderedRefine SwissOrderedStep SwissOrderedWorld SwissOrderedMoves.
Import ListNotations.
Open Scope Z_scope.

Section Merge.
Context {E K : Type}.
Variable f : simd.
Variable sz : Z.
Variable key_of : E -> K.
Variable hash : K -> Z.
Variable keq : K -> K -> bool.
Hypothesis Hsz : 0 < sz.
Hypothesis KL : key_laws hash keq.
Notation swiss := (@swiss E).
Notation oswiss := (oswiss E).
Notation wf1 := (wf1 f key_of hash keq).
Notation wf := (wf f key_of hash keq).
Notation inv := (inv f key_of hash keq).
Notation absent := (absent key_of keq). Notation present := (present key_of keq).
Notation zinv := (zinv f sz key_of hash keq).
Notation sfr := (sfr sz). Notation mine := (mine sz).
Notation slot s := (fun i => os_base s + i * sz).

Lemma zinv_same : forall h h' s ord, zinv h s ord -> (forall a, mine s a -> h' a = h a) -> zinv h' s ord.
Proof. intros h h' s ord [W L T] H. constructor; [exact W| |exact T]. apply (rl_same sz h); assumption. Qed.

(** ** extract *)
Lemma extract_of : forall h (s : oswiss) pos h' s' nx n, s_do_erase f sz h s pos = Ok (h', s', nx) -> get_node (os_t s) pos = Ok n ->
  s_do_extract f sz h s pos = Ok (h', s', fst n).
Proof.
  intros h s pos h' s' nx n H Hn. unfold s_do_erase in H. unfold s_do_extract. rewrite Hn. cbn [bind].
  apply bind_Ok in H. destruct H as (((h1 & s1) & nx1) & -> & H). cbn [bind]. apply bind_Ok in H. destruct H as (t2 & -> & H). cbn [bind]. injection H as <- <- _. reflexivity.
Qed.
Lemma extract_key_links : forall h s ord k, zinv h s ord ->
  exists h' s' o ord', s_extract_key f sz key_of hash keq h s k = Ok (h', s', o) /\ zinv h' s' ord' /\ sfr h s h' s' /\ (s_cap (os_t s') = 0 -> s' = s) /\
    match o with
    | None => s' = s /\ ord' = ord /\ absent k (cont s ord)
    | Some x => exists a b, located key_of keq k (cont s ord) a x b /\ cont s' ord' = a ++ b
    end.
Proof.
  intros h s ord k H. unfold s_extract_key. destruct (find_zinv f sz key_of hash keq (fun a _ => a) KL (fun _ _ _ => eq_refl) h s ord k H) as (r & -> & [(-> & Ha & _)|(Hne & e & hh & o1 & o2 & W & -> & Hn & Hg & Hk & Hl)]); cbn [bind].
  - rewrite Z.eqb_refl. exists h, s, None, ord. split; [reflexivity|]. split; [exact H|]. split; [apply sfr_refl|]. auto.
  - destruct (Z.eqb_spec r (s_cap (os_t s))); [contradiction|]. destruct (do_erase_ok f sz key_of hash keq Hsz KL h s o1 r o2 H) as (h' & s' & He & H' & F & Hu & Hb & Hc & Hnm & Hsl).
    rewrite (extract_of _ _ _ _ _ _ _ He Hg). cbn [bind fst]. exists h', s', (Some e), (o1 ++ o2). split; [reflexivity|]. split; [exact H'|]. split; [exact F|]. split.
    + intros H0. exfalso. rewrite Hc in H0. pose proof (zi_slot f sz key_of hash keq Hsz _ _ _ r H ltac:(apply in_or_app; right; left; reflexivity)) as (X & _). lia.
    + exists (cont s o1), (cont s o2). split; [exact Hl|]. rewrite (erased_cont f sz key_of hash keq _ _ _ _ _ _ _ H Hu) by auto. unfold cont. apply seqn_app.
Qed.

(** ** Insertion of a node. *)
Lemma insert_node_links : forall v h s ord e, zinv h s ord -> env_ok (sv_e v) ->
  zswaps f key_of hash keq v s e \/ s_insert_node f sz key_of hash keq v h s (Some e) = Err BadPlacement \/
  exists h' s' o ord', s_insert_node f sz key_of hash keq v h s (Some e) = Ok (h', s', o) /\ zinv h' s' ord' /\ sfr h s h' s' /\ (s_cap (os_t s') = 0 -> os_t s' = os_t s) /\
    match o with
    | None => cont s' ord' = cont s ord /\ absent (key_of e) (cont s ord)
    | Some (a, true, hd) => hd = None /\ absent (key_of e) (cont s ord) /\ cont s' ord' = cont s ord ++ [e] /\ s_value sz s' a = Ok e
    | Some (a, false, hd) => hd = Some e /\ s' = s /\ ord' = ord /\ exists l1 x l2, located key_of keq (key_of e) (cont s ord) l1 x l2 /\ s_value sz s' a = Ok x
    end.
Proof.
  intros v h s ord e H V. cbn [s_insert_node]. unfold s_insert_node.
  destruct (find_zinv f sz key_of hash keq (fun a _ => a) KL (fun _ _ _ => eq_refl) h s ord (key_of e) H) as (r & Hf & [(-> & Ha & Ha')|(Hne & x & hh & o1 & o2 & W & -> & Hn & Hg & Hk & Hl)]); rewrite Hf; cbn [bind].
  - rewrite Z.eqb_refl. destruct (swaps_dec f key_of hash keq v s e Hf) as [Hs|Hs]; [left; exact Hs|right].
    destruct (emplace_ok f sz key_of hash keq Hsz KL v true h s ord [] 0 e) as [(-> & _)|(h' & s' & o & ord' & -> & H' & F & Hz & Ho & _)].
    + rewrite app_nil_r. exact H.
    + exact V.
    + exact Ha'.
    + intros t p tr Hm. split; [apply (Hs _ _ _ Hm)|left; auto].
    + left. reflexivity.
    + right. rewrite app_nil_r in Ho. cbn [bind]. destruct o as [p|].
      * destruct Ho as (_ & Hp & Hc & _). cbn [cont seqn flat_map] in Hc. eexists _, _, _, ord'. split; [reflexivity|]. split; [exact H'|]. split; [exact F|]. split; [exact Hz|]. split; [reflexivity|]. split; [exact Ha|]. split; [exact Hc|].
        destruct (value_ok f sz key_of hash keq Hsz h' s' ord' p _ H' Hp) as (-> & -> & _). reflexivity.
      * eexists _, _, _, ord'. split; [reflexivity|]. split; [exact H'|]. split; [exact F|]. split; [exact Hz|]. split; [exact Ho|exact Ha].
  - right. right. destruct (Z.eqb_spec r (s_cap (os_t s))); [contradiction|]. eexists _, _, _, _. split; [reflexivity|]. split; [exact H|]. split; [apply sfr_refl|]. split; [reflexivity|]. split; [reflexivity|]. split; [reflexivity|]. split; [reflexivity|].
    exists (cont s o1), x, (cont s o2). split; [exact Hl|]. destruct (value_ok f sz key_of hash keq Hsz h s _ r _ H Hn) as (-> & -> & _). reflexivity.
Qed.

(** ** Replacement by a node. *)
Lemma assign_node_links : forall v h s ord e, zinv h s ord -> env_ok (sv_e v) ->
  zswaps f key_of hash keq v s e \/ s_assign_node f sz key_of hash keq v h s (Some e) = Err BadPlacement \/
  exists h' s' o ord', s_assign_node f sz key_of hash keq v h s (Some e) = Ok (h', s', o) /\ zinv h' s' ord' /\ sfr h s h' s' /\ (s_cap (os_t s') = 0 -> os_t s' = os_t s) /\
    match o with
    | None => cont s' ord' = cont s ord /\ absent (key_of e) (cont s ord)
    | Some (a, true) => absent (key_of e) (cont s ord) /\ cont s' ord' = cont s ord ++ [e] /\ s_value sz s' a = Ok e
    | Some (a, false) => h' = h /\ ord' = ord /\ exists l1 x l2, located key_of keq (key_of e) (cont s ord) l1 x l2 /\ cont s' ord' = l1 ++ e :: l2 /\ s_value sz s a = Ok x /\ s_value sz s' a = Ok e
    end.
Proof.
  intros v h s ord e H V. unfold s_assign_node.
  destruct (find_zinv f sz key_of hash keq (fun a _ => a) KL (fun _ _ _ => eq_refl) h s ord (key_of e) H) as (r & Hf & [(-> & Ha & Ha')|(Hne & x & hh & o1 & o2 & W & -> & Hn & Hg & Hk & Hl)]); rewrite Hf; cbn [bind].
  - rewrite Z.eqb_refl. destruct (swaps_dec f key_of hash keq v s e Hf) as [Hs|Hs]; [left; exact Hs|right].
    destruct (emplace_ok f sz key_of hash keq Hsz KL v true h s ord [] 0 e) as [(-> & _)|(h' & s' & o & ord' & -> & H' & F & Hz & Ho & _)].
    + rewrite app_nil_r. exact H.
    + exact V.
    + exact Ha'.
    + intros t p tr Hm. split; [apply (Hs _ _ _ Hm)|left; auto].
    + left. reflexivity.
    + right. rewrite app_nil_r in Ho. cbn [bind]. destruct o as [p|].
      * destruct Ho as (_ & Hp & Hc & _). cbn [cont seqn flat_map] in Hc. eexists _, _, _, ord'. split; [reflexivity|]. split; [exact H'|]. split; [exact F|]. split; [exact Hz|]. split; [exact Ha|]. split; [exact Hc|].
        destruct (value_ok f sz key_of hash keq Hsz h' s' ord' p _ H' Hp) as (-> & -> & _). reflexivity.
      * eexists _, _, _, ord'. split; [reflexivity|]. split; [exact H'|]. split; [exact F|]. split; [exact Hz|]. split; [exact Ho|exact Ha].
  - right. right. destruct (Z.eqb_spec r (s_cap (os_t s))); [contradiction|]. rewrite Hg. cbn [bind snd]. cbv zeta.
    pose proof (replace_eq_ok f key_of hash keq KL (os_t s) r x hh e W Hn Hk) as W'. pose proof (zi_rl _ _ _ _ _ _ _ _ H) as L.
    set (t' := mk (s_buf (os_t s)) (s_cap (os_t s)) (s_meta (os_t s)) (upd (s_nodes (os_t s)) r (Some (e, hh))) (s_size (os_t s)) (s_nempty (os_t s))) in *.
    assert (I' : zinv h (with_t s t') (o1 ++ r :: o2)).
    { constructor; cbn [with_t os_t]; [right; exact W'|exact L|]. intros i. unfold t'. cbn [s_nodes]. destruct (Z.eq_dec i r) as [->|Hir]; [rewrite upd_same|rewrite upd_other by exact Hir; apply (zi_tied _ _ _ _ _ _ _ _ H)].
      split; [discriminate|]. intros _. apply (zi_tied _ _ _ _ _ _ _ _ H). congruence. }
    assert (Hn' : s_nodes (os_t (with_t s t')) r = Some (e, hh)) by (cbn [with_t os_t]; unfold t'; cbn [s_nodes]; apply upd_same).
    destruct (value_ok f sz key_of hash keq Hsz _ _ _ _ _ I' Hn') as (Ei & Ev & _ & _). destruct (value_ok f sz key_of hash keq Hsz _ _ _ _ _ H Hn) as (Ei0 & Ev0 & _ & _).
    exists h, (with_t s t'), (Some (s_iter sz s r, false)), (o1 ++ r :: o2). split; [reflexivity|]. split; [exact I'|]. split; [split; [reflexivity|apply frame_refl]|].
    split; [intros H0; exfalso; cbn [with_t os_t] in H0; unfold t' in H0; cbn [s_cap] in H0; pose proof (zi_slot f sz key_of hash keq Hsz _ _ _ r H ltac:(apply in_or_app; right; left; reflexivity)) as (X & _); lia|].
    split; [reflexivity|]. split; [reflexivity|]. exists (cont s o1), x, (cont s o2). split; [exact Hl|]. split.
    + rewrite (cont_split (with_t s t') o1 r o2 _ Hn'). assert (Hnd : ~ In r (o1 ++ o2)) by (apply NoDup_remove_2; apply (rl_nd _ _ _ _ _ _ L)).
      assert (Ex : forall o, (forall i, In i o -> In i (o1 ++ o2)) -> cont (with_t s t') o = cont s o) by (intros o Hio; unfold cont; cbn [with_t os_t]; apply seqn_ext; intros i Hi; unfold t'; cbn [s_nodes]; apply upd_other; intros ->; apply Hnd; apply Hio; exact Hi).
      rewrite (Ex o1), (Ex o2) by (intros i Hi; apply in_or_app; tauto). reflexivity.
    + rewrite Ei0. split; [exact Ev0|]. change (s_iter sz s r) with (s_iter sz (with_t s t') r) in Ei0. rewrite Ei in *. exact Ev.
Qed.

(** ** merge *)
Lemma pairs_before : forall A (R : A -> A -> Prop) a x b, ForallOrdPairs R (a ++ x :: b) -> forall y, In y a -> R y x.
Proof.
  induction a as [|z a IH]; cbn [app]; intros x b H y Hy; [destruct Hy|]. inversion H as [|? ? H1 H2]; subst. destruct Hy as [<-|Hy].
  - rewrite Forall_forall in H1. apply H1. apply in_or_app. right. left. reflexivity.
  - eapply IH; eauto.
Qed.
Lemma contains_zinv : forall h s ord e, zinv h s ord -> contains f key_of hash keq (os_t s) (key_of e) = Ok (present (cont s ord) e).
Proof.
  intros h s ord e H. unfold contains. destruct (find_zinv f sz key_of hash keq (fun a _ => a) KL (fun _ _ _ => eq_refl) h s ord (key_of e) H) as (r & -> & [(-> & Ha & _)|(Hne & x & hh & o1 & o2 & W & -> & Hn & Hg & Hk & Hl)]); cbn [bind].
  - rewrite Z.eqb_refl. apply present_false in Ha. rewrite Ha. reflexivity.
  - destruct (Z.eqb_spec r (s_cap (os_t s))); [contradiction|]. destruct (present (cont s (o1 ++ r :: o2)) e) eqn:Ep; [reflexivity|]. exfalso. apply present_false in Ep. rewrite (cont_split s o1 r o2 _ Hn) in Ep.
    cbn [fst] in Ep. rewrite (Ep x) in Hk; [discriminate|apply in_or_app; right; left; reflexivity].
Qed.
Lemma distinct_zinv : forall h s ord, zinv h s ord -> distinct key_of keq (cont s ord).
Proof.
  intros h s ord H. apply (distinct_perm key_of hash keq KL (elems (os_t s))); [apply Permutation_sym, (zi_perm _ _ _ _ _ _ _ _ H)|]. apply (wf_distinct f key_of hash keq KL). apply (zi_wf _ _ _ _ _ _ _ _ H).
Qed.
Lemma find_present : forall h s ord e, zinv h s ord -> exists r, find_node f key_of keq (os_t s) (key_of e) (hash (key_of e)) = Ok r /\
  ((r = s_cap (os_t s) /\ present (cont s ord) e = false /\ absent (key_of e) (elems (os_t s))) \/ (r <> s_cap (os_t s) /\ present (cont s ord) e = true)).
Proof.
  intros h s ord e H. pose proof (contains_zinv h s ord e H) as Hc. unfold contains in Hc.
  destruct (find_zinv f sz key_of hash keq (fun a _ => a) KL (fun _ _ _ => eq_refl) h s ord (key_of e) H) as (r & Hf & Hr). exists r. split; [exact Hf|]. rewrite Hf in Hc. cbn [bind] in Hc. injection Hc as Hc.
  destruct Hr as [(-> & Ha & Ha')|(Hne & _)]; [left|right].
  - split; [reflexivity|]. split; [apply present_false; exact Ha|exact Ha'].
  - split; [exact Hne|]. rewrite <- Hc. destruct (Z.eqb_spec r (s_cap (os_t s))); [contradiction|reflexivity].
Qed.

Definition both (h : heap) (s o : oswiss) (h' : heap) (s' o' : oswiss) : Prop :=
  os_hdr s' = os_hdr s /\ os_hdr o' = os_hdr o /\
  (forall a, mine s' a <-> mine s a) /\ (forall a, mine o' a <-> mine o a) /\ (forall a, ~ mine s a -> ~ mine o a -> has h a -> h' a = h a).
Lemma mine_like : forall s s' : oswiss, os_hdr s' = os_hdr s -> os_base s' = os_base s -> s_cap (os_t s') = s_cap (os_t s) -> forall a, mine s' a <-> mine s a.
Proof. intros s s' H1 H2 H3 a. unfold SwissOrderedMoves.mine, sslot. rewrite H1, H2, H3. reflexivity. Qed.

Lemma merge_loop_ok : forall m fuel v h s o os x0 kept pos, zinv h s os -> zinv h o (x0 :: m ++ kept) -> (forall a, mine s a -> ~ mine o a) -> ev_lim (sv_e v) < 2 ^ 59 ->
  prev_link h pos = Ok (last (map (slot o) (x0 :: m)) 0) -> (length m < fuel)%nat -> (m = [] \/ (s_cap (os_t s) <> 0 /\ Z.of_nat (length m) <= s_nempty (os_t s))) ->
  s_merge_loop f sz key_of hash keq fuel v h s o pos (os_base o + x0 * sz) = Err BadPlacement \/
  exists h' s' o' os' ok', s_merge_loop f sz key_of hash keq fuel v h s o pos (os_base o + x0 * sz) = Ok (h', s', o', true) /\
    zinv h' s' os' /\ zinv h' o' (x0 :: ok') /\ both h s o h' s' o' /\ (s_cap (os_t s') = 0 -> os_t s' = os_t s) /\ s_nempty (os_t o') = s_nempty (os_t o) /\
    cont s' os' = cont s os ++ rev (filter (fun x => negb (present (cont s os) x)) (cont o m)) /\
    cont o' (x0 :: ok') = cont o [x0] ++ filter (present (cont s os)) (cont o m) ++ cont o kept.
Proof.
  induction m as [|i m IH] using rev_ind; intros fuel v h s o os x0 kept pos Hs Ho Hdis V Hp Hfuel Hroom.
  - right. destruct fuel as [|fuel]; [cbn [length] in Hfuel; lia|]. cbn [s_merge_loop map last] in *. rewrite Hp. cbn [bind]. rewrite Z.eqb_refl. exists h, s, o, os, kept. split; [reflexivity|]. split; [exact Hs|]. split; [exact Ho|].
    split; [repeat split; auto|]. split; [reflexivity|]. split; [reflexivity|]. split; [cbn; rewrite app_nil_r; reflexivity|]. exact (seqn_app (s_nodes (os_t o)) [x0] kept).
  - destruct fuel as [|fuel]; [lia|]. cbn [s_merge_loop]. rewrite Hp. cbn [bind]. replace (x0 :: m ++ [i]) with ((x0 :: m) ++ [i]) by reflexivity. rewrite map_app. cbn [map]. rewrite last_last.
    rewrite <- app_assoc in Ho. cbn [app] in Ho. assert (Ho' : zinv h o ((x0 :: m) ++ i :: kept)) by exact Ho.
    pose proof (rl_nd sz _ _ _ _ _ (zi_rl _ _ _ _ _ _ _ _ Ho)) as Hnd. pose proof (rl_in _ _ _ _ _ _ (zi_rl _ _ _ _ _ _ _ _ Ho)) as Hin.
    assert (Hne : i <> x0) by (intros ->; inversion Hnd as [|? ? X _]; apply X; apply in_or_app; right; left; reflexivity).
    destruct (Z.eqb_spec (os_base o + i * sz) (os_base o + x0 * sz)) as [X|_]; [exfalso; apply (slot_ne sz Hsz o i x0 Hne X)|].
    destruct (zi_slot f sz key_of hash keq Hsz h o _ i Ho' ltac:(apply in_or_app; right; left; reflexivity)) as (Hi & Hhd & Hix & (e & hh) & Hn & Hg).
    destruct (value_ok f sz key_of hash keq Hsz h o _ i _ Ho' Hn) as (_ & Hv & _). unfold sslot in Hv, Hix, Hhd. rewrite Hv. cbn [bind fst].
    assert (Hkeys : forall y, In y (cont o m) -> keq (key_of e) (key_of y) = false).
    { intros y Hy. pose proof (distinct_zinv h o _ Ho') as D. rewrite (cont_split o (x0 :: m) i kept _ Hn) in D. apply (keq_sym_false hash keq KL). apply (pairs_before _ _ _ _ _ D y). change (x0 :: m) with ([x0] ++ m). unfold cont. rewrite seqn_app. apply in_or_app. right. exact Hy. }
    assert (Hom : forall q : oswiss, cont q (m ++ [i]) = cont q m ++ cont q [i]) by (intros q; unfold cont; apply seqn_app).
    assert (Hoi : cont o [i] = [e]) by (unfold cont, seqn, look; cbn [flat_map]; rewrite Hn; reflexivity).
    assert (Hprev : prev_link h (os_base o + i * sz) = Ok (last (map (slot o) (x0 :: m)) 0)).
    { rewrite (prev_of sz h _ _ _ (x0 :: m) i kept (zi_rl _ _ _ _ _ _ _ _ Ho')). f_equal. destruct (exists_last (l := map (slot o) (x0 :: m)) ltac:(discriminate)) as (l & z & ->). change (os_hdr o :: l ++ [z]) with ((os_hdr o :: l) ++ [z]). rewrite !last_last. reflexivity. }
    destruct (find_present h s os e Hs) as (r & -> & [(-> & Hpr & Ha)|(Hr & Hpr)]); cbn [bind].
    + rewrite Z.eqb_refl.
      destruct (do_erase_ok f sz key_of hash keq Hsz KL h o (x0 :: m) i kept Ho') as (h1 & o1 & He & Ho1 & Fo & Hu & Hb & Hc & Hnm & Hsl).
      assert (Hex : s_extract_at f sz h o (os_base o + i * sz) = Ok (h1, o1, Some e)).
      { unfold s_extract_at. destruct (Z.eqb_spec (os_base o + i * sz) (os_hdr o)); [contradiction|]. rewrite Hix. cbn [bind]. rewrite (extract_of _ _ _ _ _ _ _ He Hg). reflexivity. }
      rewrite Hex. cbn [bind]. pose proof (sfr_keeps sz Hsz _ _ _ _ Fo) as Ko.
      assert (Hmo : forall a, mine o1 a <-> mine o a) by (apply mine_like; [apply Fo|exact Hb|exact Hc]).
      assert (Hs1 : zinv h1 s os) by (apply (zinv_same h); [exact Hs|]; intros a Ha1; apply Ko; [apply Hdis; exact Ha1|apply (mine_has sz _ _ _ a (zi_rl _ _ _ _ _ _ _ _ Hs) Ha1)]).
      destruct Hroom as [Hroom|(Hcap & Hroom)]; [destruct m; discriminate|]. rewrite app_length in Hroom. cbn [length] in Hroom. assert (Hpos : 0 < s_nempty (os_t s)) by lia.
      destruct (emplace_ok f sz key_of hash keq Hsz KL v true h1 s os [] 0 e) as [(-> & _)|(h2 & s2 & oo & os2 & -> & Hs2 & Fs & Hz & Hoo & Hroom2)].
      * rewrite app_nil_r. exact Hs1.
      * exact V.
      * exact Ha.
      * intros t p tr Hm. destruct (make_room_ok f key_of hash keq KL (ev_lim (sv_e v)) (os_t s) (hash (key_of e)) (zi_wf _ _ _ _ _ _ _ _ Hs) V) as (t' & o' & Hm' & _ & Hx). destruct (Hx Hcap Hpos) as (_ & p' & ->). rewrite Hm in Hm'. injection Hm' as _ _ ->.
        split; [intros a b []|left; auto].
      * left. reflexivity.
      * cbn [bind]. destruct (Hroom2 Hcap Hpos eq_refl) as (Hoo1 & Hc2 & Hb2 & Hn2 & Hsz2). destruct oo as [q|]; [|contradiction]. destruct Hoo as (_ & Hq & Hcs & _). cbn [cont seqn flat_map] in Hcs.
        pose proof (sfr_keeps sz Hsz _ _ _ _ Fs) as Ks.
        assert (Hms : forall a, mine s2 a <-> mine s a) by (apply mine_like; [apply Fs|exact Hb2|exact Hc2]).
        assert (Ho2h : forall a, mine o a -> h2 a = h1 a).
        { intros a Ha1. apply Ks; [intros X; apply (Hdis a X Ha1)|]. apply (mine_has sz _ _ _ a (zi_rl _ _ _ _ _ _ _ _ Ho1)). apply Hmo. exact Ha1. }
        assert (Ho2 : zinv h2 o1 (x0 :: m ++ kept)) by (apply (zinv_same h1); [exact Ho1|]; intros a Ha1; apply Ho2h; apply Hmo; exact Ha1).
        assert (Hmap : map (slot o1) (x0 :: m) = map (slot o) (x0 :: m)) by (apply map_ext; intros z; rewrite Hb; reflexivity).
        assert (Hx0 : os_base o1 + x0 * sz = os_base o + x0 * sz) by (rewrite Hb; reflexivity).
        specialize (IH fuel v h2 s2 o1 os2 x0 kept (os_base o + i * sz) Hs2 Ho2). rewrite Hx0, Hmap in IH.
        destruct IH as [->|(h' & s' & o' & os' & ok' & -> & R1 & R2 & (Rh1 & Rh2 & R3a & R3b & R3c) & R4 & R4' & R5 & R6)].
        -- intros a Ha1 Ha2. apply Hms in Ha1. apply Hmo in Ha2. apply (Hdis a Ha1 Ha2).
        -- exact V.
        -- rewrite <- Hprev. unfold prev_link. unfold get_link. rewrite (Ho2h (os_base o + i * sz)) by (right; exists i; split; [exact Hi|reflexivity]). unfold sslot in Hsl. rewrite Hsl. reflexivity.
        -- rewrite app_length in Hfuel. cbn [length] in Hfuel. lia.
        -- right. split; [rewrite Hc2; exact Hcap|lia].
        -- left. reflexivity.
        -- right. exists h', s', o', os', ok'. split; [reflexivity|]. split; [exact R1|]. split; [exact R2|]. split; [|split; [|split; [|split]]].
           ++ split; [rewrite Rh1; apply Fs|]. split; [rewrite Rh2; apply Fo|]. split; [intros a; rewrite R3a; apply Hms|]. split; [intros a; rewrite R3b; apply Hmo|]. intros a A1 A2 Ah. destruct (Ko a A2 Ah) as (K1 & _). assert (Ah1 : has h1 a) by (unfold has; rewrite K1; exact Ah). destruct (Ks a A1 Ah1) as (K2 & _).
              rewrite R3c; [congruence|rewrite Hms; exact A1|rewrite Hmo; exact A2|unfold has; rewrite K2; exact Ah1].
           ++ intros H0. rewrite (R4 H0). apply Hz. rewrite <- (R4 H0). exact H0.
           ++ congruence.
           ++ assert (Hcm : cont o1 m = cont o m) by (apply (erased_cont f sz key_of hash keq h o (x0 :: m) i kept o1 m Ho' Hu); intros z Hz1; apply in_or_app; left; right; exact Hz1).
              rewrite R5, Hcs, Hom, Hoi, Hcm, filter_app, rev_app_distr. cbn [filter]. rewrite Hpr. cbn [negb rev app]. rewrite <- app_assoc. cbn [app]. do 3 f_equal. apply filter_ext_in. intros y Hy. f_equal.
              unfold WorldSpec.present. rewrite existsb_app. cbn [existsb]. rewrite (Hkeys y Hy). rewrite !orb_false_r. reflexivity.
           ++ assert (Hco : forall z, (forall k, In k z -> In k ((x0 :: m) ++ kept)) -> cont o1 z = cont o z) by (intros z Hz1; apply (erased_cont f sz key_of hash keq h o (x0 :: m) i kept o1 z Ho' Hu Hz1)).
              rewrite R6, Hom, Hoi, filter_app. cbn [filter]. rewrite Hpr, app_nil_r. rewrite !Hco; [|intros z Hk; apply in_or_app; right; exact Hk|intros z Hk; apply in_or_app; left; right; exact Hk|intros z [->|[]]; left; reflexivity].
              f_equal. f_equal. apply filter_ext_in. intros y Hy. rewrite Hcs.
              unfold WorldSpec.present. rewrite existsb_app. cbn [existsb]. rewrite (Hkeys y Hy). rewrite !orb_false_r. reflexivity.
    + destruct (Z.eqb_spec r (s_cap (os_t s))); [contradiction|].
      destruct (IH fuel v h s o os x0 (i :: kept) (os_base o + i * sz) Hs Ho Hdis V Hprev) as [->|(h' & s' & o' & os' & ok' & -> & R1 & R2 & R3 & R4 & R4' & R5 & R6)].
      * rewrite app_length in Hfuel. cbn [length] in Hfuel. lia.
      * destruct Hroom as [Hroom|(Hcap & Hroom)]; [destruct m; discriminate|]. rewrite app_length in Hroom. right. split; [exact Hcap|lia].
      * left. reflexivity.
      * right. exists h', s', o', os', ok'. split; [reflexivity|]. split; [exact R1|]. split; [exact R2|]. split; [exact R3|]. split; [exact R4|]. split; [exact R4'|]. rewrite Hom, Hoi, !filter_app. cbn [filter]. rewrite Hpr. cbn [negb]. rewrite app_nil_r. split; [exact R5|].
        rewrite R6. rewrite <- !app_assoc. do 2 f_equal. unfold cont, seqn. cbn [flat_map]. unfold look at 1. rewrite Hn. reflexivity.
Qed.

Lemma merge_links : forall v h s o os oo, zinv h s os -> zinv h o oo -> (forall a, mine s a -> ~ mine o a) -> ev_lim (sv_e v) < 2 ^ 59 -> (s_cap (os_t s) = 0 -> s_nempty (os_t s) = 0) ->
  s_merge f sz key_of hash keq v h s o = Err BadPlacement \/
  exists h' s' o' os' oo' b, s_merge f sz key_of hash keq v h s o = Ok (h', s', o', b) /\ zinv h' s' os' /\ zinv h' o' oo' /\
    os_hdr s' = os_hdr s /\ os_hdr o' = os_hdr o /\
    (forall a, mine o' a <-> mine o a) /\ (forall a, mine s' a -> ~ mine o a) /\ (forall a, ~ mine s a -> ~ mine o a -> has h a -> h' a = h a /\ ~ mine s' a) /\
    (s_cap (os_t s') = 0 -> os_t s' = os_t s) /\ s_nempty (os_t o') = s_nempty (os_t o) /\
    (if b then cont s' os' = cont s os ++ rev (filter (fun x => negb (present (cont s os) x)) (tl (cont o oo))) /\
               cont o' oo' = firstn 1 (cont o oo) ++ filter (present (cont s os)) (tl (cont o oo))
     else cont s' os' = cont s os /\ o' = o /\ oo' = oo).
Proof.
  intros v h s o os oo Hs Ho Hdis V H0. unfold s_merge, s_reserve.
  destruct (zi_len _ _ _ _ _ _ _ _ Hs) as (_ & Ls). destruct (zi_len _ _ _ _ _ _ _ _ Ho) as (_ & Lo).
  destruct (wf_size f key_of hash keq _ (zi_wf _ _ _ _ _ _ _ _ Hs)) as (_ & Bs). destruct (wf_size f key_of hash keq _ (zi_wf _ _ _ _ _ _ _ _ Ho)) as (_ & Bo).
  pose proof (wf_cap_nonneg f key_of hash keq _ (zi_wf _ _ _ _ _ _ _ _ Hs)) as Cs. pose proof (wf_cap_nonneg f key_of hash keq _ (zi_wf _ _ _ _ _ _ _ _ Ho)) as Co.
  pose proof (max_size_bounds f (s_cap (os_t s)) ltac:(lia)) as Ms. pose proof (max_size_bounds f (s_cap (os_t o)) ltac:(lia)) as Mo.
  assert (Ns : 0 <= s_nempty (os_t s) < 2 ^ 59).
  { destruct (zi_wf _ _ _ _ _ _ _ _ Hs) as [X|X]; [apply (w0_nempty _ X)|]. pose proof (wf1_nempty f key_of hash keq _ X). lia. }
  rewrite add64_small by (rewrite two64_val; lia). set (n := s_size (os_t s) + s_size (os_t o)).
  destruct (SwissRoom.reserve_ok f key_of hash keq KL (ev_lim (sv_e v)) (os_t s) n (zi_wf _ _ _ _ _ _ _ _ Hs) V ltac:(rewrite two64_val; lia)) as (t1 & r & Er & R & Rn). rewrite Er. cbn [bind].
  destruct (resized_ok f sz key_of hash keq Hsz v h s os t1 r Hs R) as [->|(h1 & s1 & os1 & -> & Et & Hs1 & Hc1 & F)].
  - intros tr ->. apply (reserve_swapless f _ _ _ _ _ Er).
  - left. reflexivity.
  - cbn [bind]. pose proof (sfr_keeps sz Hsz _ _ _ _ F) as Kp. destruct F as (Fh & _).
    assert (Ho1h : forall a, mine o a -> h1 a = h a) by (intros a Ha; apply Kp; [intros X; apply (Hdis a X Ha)|apply (mine_has sz _ _ _ a (zi_rl _ _ _ _ _ _ _ _ Ho) Ha)]).
    assert (Ho1 : zinv h1 o oo) by (apply (zinv_same h); assumption).
    assert (Hdis1 : forall a, mine s1 a -> ~ mine o a) by (intros a Ha Ha2; destruct (Kp a ltac:(intros X; apply (Hdis a X Ha2)) ltac:(apply (mine_has sz _ _ _ a (zi_rl _ _ _ _ _ _ _ _ Ho) Ha2))) as (_ & X); exact (X Ha)).
    destruct r as [tr|].
    + destruct (Rn ltac:(discriminate)) as (Rn1 & Rn2). rewrite <- Et in Rn1, Rn2.
      assert (Hz1 : s_cap (os_t s1) = 0 -> os_t s1 = os_t s).
      { intros Hz. rewrite Et in *. unfold reserve in Er. rewrite add64_small in Er by (rewrite two64_val; lia). destruct (Z.ltb_spec (s_size (os_t s) + s_nempty (os_t s)) n) as [Hlt|Hge]; [exfalso; apply Rn2; [lia|exact Hlt|exact Hz]|]. injection Er as <- _. reflexivity. }
      rewrite (begin_at sz _ _ _ _ _ (zi_rl _ _ _ _ _ _ _ _ Ho1)). cbn [bind].
      destruct oo as [|x0 m].
      * right. cbn [place_at]. unfold iter_fuel. cbn [s_merge_loop]. assert (Hp : prev_link h1 (os_hdr o) = Ok (os_hdr o)) by (apply prev_link_ok; pose proof (rl_ring _ _ _ _ _ _ (zi_rl _ _ _ _ _ _ _ _ Ho1)) as Rg; destruct Rg as (Rg & _); cbn [map path] in Rg; apply Rg).
        rewrite Hp. cbn [bind]. rewrite Z.eqb_refl. exists h1, s1, o, os1, [], true. split; [reflexivity|]. split; [exact Hs1|]. split; [exact Ho1|]. split; [exact Fh|]. split; [reflexivity|]. split; [reflexivity|]. split; [exact Hdis1|]. split; [intros a A1 _ A3; apply Kp; assumption|]. split; [exact Hz1|]. split; [reflexivity|]. cbn. rewrite app_nil_r. split; [exact Hc1|reflexivity].
      * cbn [place_at]. destruct (zi_len _ _ _ _ _ _ _ _ Hs1) as (_ & Ls1). destruct (zi_len _ _ _ _ _ _ _ _ Hs) as (Ll & _). destruct (zi_len _ _ _ _ _ _ _ _ Hs1) as (Ll1 & _).
        assert (Hlen : length os1 = length os) by congruence.
        assert (Hroom : s_cap (os_t s1) <> 0 /\ Z.of_nat (length m) <= s_nempty (os_t s1)).
        { cbn [length] in Lo. split; [|lia]. intros Hz. pose proof (Hz1 Hz) as E1. rewrite E1 in Hz. assert (s_nempty (os_t s1) = 0) by (rewrite E1; auto). lia. }
        destruct (merge_loop_ok m (iter_fuel (os_t o)) v h1 s1 o os1 x0 [] (os_hdr o) Hs1) as [->|(h' & s' & o' & os' & ok' & -> & R1 & R2 & (Rh1 & Rh2 & R3a & R3b & R3c) & R4 & R4' & R5 & R6)].
        -- rewrite app_nil_r. exact Ho1.
        -- exact Hdis1.
        -- exact V.
        -- destruct (exists_last (l := x0 :: m) ltac:(discriminate)) as (l & z & Ez). rewrite Ez, map_app. cbn [map]. rewrite last_last. pose proof (zi_rl _ _ _ _ _ _ _ _ Ho1) as L. rewrite Ez in L. apply (prev_at sz _ _ _ _ _ _ _ L).
        -- unfold iter_fuel. cbn [length] in Lo. lia.
        -- right. exact Hroom.
        -- left. reflexivity.
        -- right. exists h', s', o', os', (x0 :: ok'), true. split; [reflexivity|]. split; [exact R1|]. split; [exact R2|].
           split; [|split; [|split; [exact R3b|split; [|split; [|split; [|split; [exact R4'|]]]]]]].
           ++ congruence.
           ++ exact Rh2.
           ++ intros a Ha. apply Hdis1. apply R3a. exact Ha.
           ++ intros a A1 A2 A3. destruct (Kp a A1 A3) as (K1 & K2). split; [|rewrite R3a; exact K2]. rewrite R3c; [exact K1|exact K2|exact A2|unfold has; rewrite K1; exact A3].
           ++ intros Hz. rewrite (R4 Hz). apply Hz1. rewrite <- (R4 Hz). exact Hz.
           ++ rewrite Hc1 in R5, R6. assert (Ecs : cont o (x0 :: m) = cont o [x0] ++ cont o m) by exact (seqn_app (s_nodes (os_t o)) [x0] m).
              destruct (zi_slot f sz key_of hash keq Hsz h o _ x0 Ho ltac:(left; reflexivity)) as (_ & _ & _ & (e & hh) & Hn & _).
              assert (Hoi : cont o [x0] = [e]) by (unfold cont, seqn, look; cbn [flat_map]; rewrite Hn; reflexivity). rewrite Ecs, Hoi. cbn [app tl firstn]. rewrite Hoi in R6. cbn [app] in R6. unfold cont at 3 in R6. cbn [seqn flat_map] in R6. rewrite app_nil_r in R6. auto.
    + right. exists h1, s1, o, os1, oo, false. split; [reflexivity|]. split; [exact Hs1|]. split; [exact Ho1|]. split; [exact Fh|]. split; [reflexivity|]. split; [reflexivity|]. split; [exact Hdis1|]. split; [intros a A1 _ A3; apply Kp; assumption|]. split; [intros _; rewrite Et; exact R|]. split; [reflexivity|]. split; [exact Hc1|]. split; reflexivity.
Qed.
End Merge.
