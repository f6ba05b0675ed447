(** Ordered sparse and stable containers use the slots of unordered ones. *)
From Coq Require Import ZArith List Bool Lia.
From Verif Require Import Base BaseLemmas OrderedLinks Bits BitsProofs SwissModel SwissArith SwissCap SwissInv SwissOps SwissIter
  SwissRoom MapSpec SwissRun SwissRefine LinkModel SwissOrderedSpec SwissOrdered SwissOrderedRun SwissOrderedLinks SwissOrderedProofs SwissOrderedRefine SwissOrderedStep SlotsSpec SlotsModel.
From Verif Require SwissOrderedWorldProofs.
Import ListNotations.
Open Scope Z_scope.

Section Slots.
Context {E K : Type}.
Variable f : simd.
Variable sz : Z.
Variable key_of : E -> K.
Variable hash : K -> Z.
Variable keq : K -> K -> bool.
Hypothesis Hsz : 0 < sz.
Hypothesis KL : key_laws hash keq.
Variable rep : E -> E -> E.
Hypothesis Rep : forall a b, keq (key_of a) (key_of b) = true -> key_of (rep a b) = key_of a.
Notation swiss := (@swiss E).
Notation oswiss := (oswiss E).
Notation wf := (wf f key_of hash keq).
Notation zinv := (zinv f sz key_of hash keq).
Notation exec := (exec f key_of hash keq rep).
Notation run := (run f key_of hash keq rep).
Notation zexec := (zexec f sz key_of hash keq rep).
Notation zrun := (zrun f sz key_of hash keq rep).

Ltac ok H := match type of H with
  | bind ?m _ = Ok _ => let x := fresh "x" in let Ex := fresh "Ex" in destruct m as [x|] eqn:Ex; [cbn [bind] in H|discriminate H]
  end.
Lemma put_inv : forall (s t : swiss) i n, put_node s i n = Ok t -> 0 <= i < s_cap s /\ s_nodes t i = Some n /\ s_cap t = s_cap s.
Proof.
  intros s t i n H. unfold put_node in H. ok H. unfold guard in H. destruct (Z.leb_spec 0 i), (Z.ltb_spec i (s_cap s)); cbn [andb bind] in H; try discriminate H.
  destruct (s_nodes s i); [discriminate H|]. injection H as <-. cbn [s_nodes s_cap]. unfold upd. rewrite Z.eqb_refl. auto.
Qed.
Lemma putm_inv : forall (s t : swiss) i b, put_meta f s i b = Ok t -> s_nodes t = s_nodes s /\ s_cap t = s_cap s.
Proof. intros s t i b H. unfold put_meta in H. ok H. ok H. injection H as <-. auto. Qed.
Lemma setm_inv : forall (s t : swiss) i b, set_metadata f s i b = Ok t -> s_nodes t = s_nodes s /\ s_cap t = s_cap s.
Proof. intros s t i b H. unfold set_metadata in H. ok H. destruct (putm_inv _ _ _ _ Ex) as (A & B). destruct (putm_inv _ _ _ _ H) as (C & D). split; congruence. Qed.
(** Where an element is, the iterator made from its position stays there. *)
Lemma here : forall (t : swiss) q n, wf t -> 0 <= q < s_cap t -> s_nodes t q = Some n -> to_iter f t q = Ok q /\ get_node t q = Ok n.
Proof.
  intros t q n [W|W] Hq Hn; [rewrite (w0_cap _ W) in Hq; lia|]. pose proof (w_m _ _ _ _ t W) as M. split; [|apply get_node_ok; auto; apply (mw_buf _ _ M)].
  apply to_iter_here; [exact M|lia|]. destruct (w_n _ _ _ _ t W) as (N & _). specialize (N q Hq). rewrite Hn in N. destruct n as (e, h). destruct N as (_ & ->). apply occ_avail, occ_h2.
Qed.
(** The header is a link outside of the node array. *)
Definition apart (h : heap) (hdr base cap : Z) : Prop := h hdr <> None /\ slot_ix base sz cap hdr = None.
Definition tied0 (h : heap) (s : oswiss) : Prop := wf (os_t s) /\ apart h (os_hdr s) (os_base s) (s_cap (os_t s)).
Lemma value0 : forall h s i n, tied0 h s -> s_nodes (os_t s) i = Some n -> s_iter sz s i = sslot sz s i /\ s_value sz s (sslot sz s i) = Ok (fst n) /\ s_at sz s (sslot sz s i) = Ok (Some (fst n)).
Proof.
  intros h s i n (Wf & _ & Ha) Hn. destruct (wf_some f key_of hash keq _ _ _ Wf Hn) as (_ & Hr). destruct (here _ _ _ Wf Hr Hn) as (_ & Hg).
  assert (Hx : s_index sz s (sslot sz s i) = Ok i) by (unfold s_index, sslot; rewrite slot_ix_of by (exact Hsz || exact Hr); reflexivity).
  split; [unfold s_iter; destruct (Z.ltb_spec i (s_cap (os_t s))); [reflexivity|lia]|]. split; [unfold s_value; rewrite Hx; cbn [bind]; rewrite Hg; reflexivity|].
  unfold s_at. destruct (Z.eqb_spec (sslot sz s i) (os_hdr s)) as [He|_]; [exfalso; apply (slot_ix_none _ _ _ _ Hsz Ha i Hr); symmetry; exact He|]. rewrite Hx. cbn [bind]. rewrite Hg. reflexivity.
Qed.
(** Links are written, never removed. *)
Lemma upd_has : forall (h : heap) a x b, h b <> None -> upd h a (Some x) b <> None.
Proof. intros h a x b H. unfold upd. destruct (b =? a); [discriminate|exact H]. Qed.
Ltac oks H := repeat ok H.
Lemma set_next_has : forall (h h1 : heap) a n b, set_next h a n = Ok h1 -> h b <> None -> h1 b <> None.
Proof. intros h h1 a n b H Hb. unfold set_next in H. ok H. injection H as <-. apply upd_has. exact Hb. Qed.
Lemma set_prev_has : forall (h h1 : heap) a n b, set_prev h a n = Ok h1 -> h b <> None -> h1 b <> None.
Proof. intros h h1 a n b H Hb. unfold set_prev in H. ok H. injection H as <-. apply upd_has. exact Hb. Qed.
Ltac keep := repeat match goal with
  | H1 : set_next ?h _ _ = Ok ?h1, H2 : ?h ?b <> None |- _ => apply (set_next_has _ _ _ _ b H1) in H2
  | H1 : set_prev ?h _ _ = Ok ?h1, H2 : ?h ?b <> None |- _ => apply (set_prev_has _ _ _ _ b H1) in H2
  end.
Lemma link_after_has : forall (h h1 : heap) a p b, link_after h a p = Ok h1 -> h b <> None -> h1 b <> None.
Proof. intros h h1 a p b H Hb. unfold link_after, link2 in H. oks H. keep. exact Hb. Qed.
Lemma unlink_has : forall (h h1 : heap) a b, unlink h a = Ok h1 -> h b <> None -> h1 b <> None.
Proof. intros h h1 a b H Hb. unfold unlink in H. oks H. keep. exact Hb. Qed.
Lemma reset_has : forall (h h1 : heap) a b, reset_link h a = Ok h1 -> h b <> None -> h1 b <> None.
Proof. intros h h1 a b H Hb. unfold reset_link in H. oks H. injection H as <-. apply upd_has. exact Hb. Qed.
Lemma swap_raw_has : forall (h h1 : heap) a a' b, swap_raw h a a' = Ok h1 -> h b <> None -> h1 b <> None.
Proof. intros h h1 a a' b H Hb. unfold swap_raw in H. oks H. injection H as <-. apply upd_has, upd_has. exact Hb. Qed.
Lemma relink_has : forall (h h1 : heap) a o b, relink_from h a o = Ok h1 -> h b <> None -> h1 b <> None.
Proof.
  intros h h1 a o b H Hb. unfold relink_from in H. do 3 ok H. keep.
  match type of H with bind ?m _ = _ => destruct m as [h3|] eqn:E3; [cbn [bind] in H|discriminate H] end.
  assert (H3 : h3 b <> None). { destruct (fst x1 =? 0); [injection E3 as <-; exact Hb|]. oks E3. keep. exact Hb. }
  clear E3 Hb. ok H. destruct (snd x2 =? 0); [injection H as <-; exact H3|]. oks H. keep. exact H3.
Qed.
Lemma relinks_has : forall nb ob mv (h h1 : heap) b, foldM (relink_move sz nb ob) mv h = Ok h1 -> h b <> None -> h1 b <> None.
Proof.
  intros nb ob. induction mv as [|m mv IH]; intros h h1 b H Hb; cbn [foldM] in H; [injection H as <-; exact Hb|]. ok H. apply (IH _ _ _ H). unfold relink_move in Ex. apply (relink_has _ _ _ _ _ Ex Hb).
Qed.
Lemma event_apart : forall v hdr h base cap e h1 base1 cap1, s_event sz v (h, base, cap) e = Ok (h1, base1, cap1) -> apart h hdr base cap ->
  apart h1 hdr base1 cap1 /\ cap1 = match e with EvRehash c _ => c | _ => cap end.
Proof.
  intros v hdr h base cap e h1 base1 cap1 H (Ha & Hb). destruct e as [c mv|a b|a b]; cbn [s_event] in H.
  - destruct (place_cases (sv_junk v) h (sv_base v) sz c Hsz) as [Ep|(h2 & Ep & P1 & P2 & P3)]; rewrite Ep in H; [discriminate H|]. cbn [bind] in H. ok H. injection H as <- <- <-. split; [|reflexivity].
    assert (Hn : slot_ix (sv_base v) sz c hdr = None) by (apply slot_ix_none_intro; [exact Hsz|]; intros i Hi ->; apply Ha; apply P1; exact Hi).
    split; [|exact Hn]. unfold unplace. rewrite Hb. apply (relinks_has _ _ _ _ _ _ Ex). rewrite (P3 _ Hn). exact Ha.
  - ok H. injection H as <- <- <-. split; [split; [apply (relink_has _ _ _ _ _ Ex Ha)|exact Hb]|reflexivity].
  - ok H. injection H as <- <- <-. split; [split; [apply (swap_raw_has _ _ _ _ _ Ex Ha)|exact Hb]|reflexivity].
Qed.
Lemma fold_apart : forall v hdr tr h base cap h1 base1 cap1, foldM (s_event sz v) tr (h, base, cap) = Ok (h1, base1, cap1) -> apart h hdr base cap ->
  apart h1 hdr base1 cap1 /\ cap1 = fold_left (fun c e => match e with EvRehash c' _ => c' | _ => c end) tr cap.
Proof.
  intros v hdr. induction tr as [|e tr IH]; intros h base cap h1 base1 cap1 H Ha; cbn [foldM] in H; [injection H as <- <- <-; auto|]. ok H. destruct x as ((h2, base2), cap2).
  destruct (event_apart _ _ _ _ _ _ _ _ _ Ex Ha) as (Ha2 & ->). cbn [fold_left]. apply (IH _ _ _ _ _ _ H Ha2).
Qed.
Lemma traced_cap : forall (t t' : swiss) tr, traced f t tr t' -> fold_left (fun c e => match e with EvRehash c' _ => c' | _ => c end) tr (s_cap t) = s_cap t'.
Proof.
  intros t t' tr [(-> & ->)|[(c & mv & -> & Hc & _)|(Hc & _ & R)]]; [reflexivity|symmetry; exact Hc|]. rewrite Hc. clear Hc. induction R; [reflexivity|rewrite fold_left_app, IHR; reflexivity|rewrite fold_left_app, IHR; reflexivity].
Qed.
Lemma events_apart : forall v h s tr t h1 s1, s_events sz v h s tr t = Ok (h1, s1) -> traced f (os_t s) tr t -> tied0 h s -> apart h1 (os_hdr s1) (os_base s1) (s_cap t) /\ os_t s1 = t.
Proof.
  intros v h s tr t h1 s1 H T (_ & Ha). unfold s_events in H. ok H. destruct x as ((h2, base2), cap2). injection H as <- <-. cbn [os_hdr os_base os_t]. split; [|reflexivity].
  destruct (fold_apart _ _ _ _ _ _ _ _ _ Ex Ha) as (Hb & Hc). rewrite (traced_cap _ _ _ T) in Hc. subst cap2. exact Hb.
Qed.
Lemma events_t : forall v h (s : oswiss) tr t h1 s1, s_events sz v h s tr t = Ok (h1, s1) -> os_t s1 = t.
Proof. intros v h s tr t h1 s1 H. unfold s_events in H. ok H. destruct x as ((x1 & x2) & x3). injection H as _ <-. reflexivity. Qed.
(** What both forms of emplace_node do to the slots. *)
Lemma emplace_same : forall v ctor h (s : oswiss) hint hh e h1 s1 o, tied0 h s -> env_ok (sv_e v) -> s_emplace_node f sz v ctor h s hint hh e = Ok (h1, s1, o) ->
  (exists tr, emplace_node f (ev_lim (sv_e v)) ctor (os_t s) hh e = Ok (os_t s1, match o with Some q => Some (q, tr) | None => None end)) /\
  (forall q, o = Some q -> 0 <= q < s_cap (os_t s1) /\ s_nodes (os_t s1) q = Some (e, hh)) /\ apart h1 (os_hdr s1) (os_base s1) (s_cap (os_t s1)).
Proof.
  intros v ctor h s hint hh e h1 s1 o T Hv H. unfold s_emplace_node in H. unfold emplace_node. destruct (make_room_ok f key_of hash keq KL (ev_lim (sv_e v)) (os_t s) hh (proj1 T) Hv) as (t1 & m & Em & Hm & _). rewrite Em in *. cbn [bind] in *.
  destruct m as [(p, tr)|].
  2:{ injection H as <- <- <-. destruct Hm as (-> & _). cbn [with_t os_t os_hdr os_base]. split; [exists []; reflexivity|]. split; [discriminate|exact (proj2 T)]. }
  destruct Hm as (_ & _ & _ & Tr & _). ok H. destruct x as (h2, s2). destruct (events_apart _ _ _ _ _ _ _ Ex Tr T) as (Ha & Ht). destruct ctor; cbn [negb] in *.
  2:{ injection H as <- <- <-. rewrite Ht. split; [exists []; reflexivity|]. split; [discriminate|exact Ha]. }
  ok H. rename x into t2. ok H. ok H. ok H. ok H. rename x2 into t4. injection H as <- <- <-. cbn [with_t os_t os_hdr os_base bind]. rewrite Ex3. cbn [bind]. rewrite Ex4. cbn [bind]. split; [exists tr; reflexivity|].
  destruct (put_inv _ _ _ _ Ex0) as (A & B & C). destruct (setm_inv _ _ _ _ Ex4) as (D & F). cbn [set_size set_nempty s_cap s_nodes] in *. rewrite F, D, C. split; [intros q [= <-]; auto|].
  destruct Ha as (Ha & Hb). split; [apply (link_after_has _ _ _ _ _ Ex2 Ha)|exact Hb].
Qed.
Lemma erase_same : forall h (s : oswiss) p h1 s1 a t q, s_do_erase f sz h s p = Ok (h1, s1, a) -> do_erase f (os_t s) p = Ok (t, q) -> t = os_t s1 /\ (tied0 h s -> apart h1 (os_hdr s1) (os_base s1) (s_cap (os_t s1))).
Proof.
  intros h s p h1 s1 a t q H1 H2. unfold s_do_erase, s_erase_node in H1. unfold do_erase in H2. destruct (erase_node f (os_t s) p) as [t1|] eqn:Et; [|discriminate H1]. cbn [bind] in *.
  destruct (next_link h (sslot sz s p)) as [n|]; [|discriminate H1]. cbn [bind] in H1. destruct (unlink h (sslot sz s p)) as [h2|] eqn:Eu; [|discriminate H1]. cbn [bind with_t os_t] in H1.
  ok H2. destruct (kill_node t1 p) as [t2|] eqn:Ek; [|discriminate H1]. cbn [bind] in *. injection H1 as <- <- _. injection H2 as <- _. cbn [with_t os_t os_hdr os_base]. split; [reflexivity|]. intros (_ & Ha & Hb).
  assert (Hc : s_cap t2 = s_cap (os_t s)).
  { unfold kill_node in Ek. oks Ek. injection Ek as <-. cbn [s_cap]. unfold erase_node in Et. oks Et. injection Et as <-. cbn [set_size s_cap]. match goal with X : set_metadata _ _ _ _ = Ok _ |- _ => apply (setm_inv _ _ _ _ X) end. }
  rewrite Hc. split; [apply (unlink_has _ _ _ _ Eu Ha)|exact Hb].
Qed.
Lemma resized_same : forall v h (s : oswiss) t o h1 s1 u lim, tied0 h s -> resized f key_of hash keq lim (os_t s) t o -> s_resized sz v h s (t, o) = Ok (h1, s1, u) ->
  os_t s1 = t /\ apart h1 (os_hdr s1) (os_base s1) (s_cap t) /\ u = match o with Some _ => Some tt | None => None end.
Proof.
  intros v h s t o h1 s1 u lim T R H. unfold s_resized in H. destruct o as [tr|].
  - ok H. destruct x as (h2, s2). injection H as <- <- <-. destruct R as (_ & _ & _ & Tr & _). destruct (events_apart _ _ _ _ _ _ _ Ex Tr T). auto.
  - injection H as <- <- <-. cbn in R. subst t. split; [reflexivity|]. split; [exact (proj2 T)|reflexivity].
Qed.

Lemma step_same : forall v h s c, tied0 h s -> env_ok (sv_e v) -> zcall_ok c -> forall c', plain c = Some [c'] ->
  forall h' s' r, zexec v (h, s) c = Ok (h', s', r) ->
  (exists r', exec (sv_e v) (os_t s) c' = Ok (os_t s', r') /\ agrees r r' /\ tied0 h' s') \/ (narrow f /\ exec (sv_e v) (os_t s) c' = Err BitScanZero).
Proof.
  intros v h s c H Hv Hc c' Hp h' s' r Hz. pose proof (proj1 H) as W.
  assert (Hc' : call_ok c') by (destruct c; try discriminate Hp; injection Hp as <-; exact Hc).
  destruct (exec_ok f key_of hash keq KL rep Rep (sv_e v) (os_t s) c' W Hv Hc') as [(t' & r' & Hx & (W1 & _) & _)|(Hn & _ & Hx)]; [left|right; auto].
  exists r'. rewrite Hx. assert (G : t' = os_t s' /\ agrees r r' /\ apart h' (os_hdr s') (os_base s') (s_cap (os_t s'))); [|destruct G as (-> & G1 & G2); unfold tied0; auto].
  destruct c; try discriminate Hp; injection Hp as <-; cbn [SwissOrderedRun.zexec SwissRun.exec] in Hz, Hx.
  - ok Hz. unfold s_do_insert in Ex. unfold do_insert in Hx. ok Ex. cbn [bind] in Hx. destruct (Z.eqb_spec x0 (s_cap (os_t s))) as [->|Hne].
    + ok Ex. destruct x0 as ((h1, s1), o). injection Ex as <-. destruct (emplace_same _ _ _ _ _ _ _ _ _ _ H Hv Ex1) as ((tr & Hy) & Ho & Ha). rewrite Hy in Hx. cbn [bind] in Hx. unfold z_give in Hz. unfold give_inserted in Hx. destruct o as [q|].
      * ok Hz. injection Hz as <- <- <-. destruct (Ho q eq_refl) as (Hq & Hnq). assert (W' : wf (os_t s1)) by (apply bind_Ok in Hx; destruct Hx as (? & _ & Hx); apply bind_Ok in Hx; destruct Hx as (? & _ & Hx); injection Hx as <- _; exact W1).
        destruct (here _ _ _ W' Hq Hnq) as (Hi & Hg). rewrite Hi in Hx. cbn [bind] in Hx. rewrite Hg in Hx. cbn [bind] in Hx. injection Hx as <- <-.
        destruct (value0 _ _ _ _ (conj W' Ha) Hnq) as (Hs1 & Hs2 & _). rewrite Hs1, Hs2 in Ex. injection Ex as <-. split; [reflexivity|]. split; [reflexivity|exact Ha].
      * injection Hz as <- <- <-. injection Hx as <- <-. split; [reflexivity|]. split; [reflexivity|exact Ha].
    + injection Ex as <-. cbn [bind] in Hx. unfold z_give in Hz. ok Hz. injection Hz as <- <- <-. unfold give_inserted in Hx.
      destruct (find_node_wf f key_of hash keq KL _ (key_of e) W) as (q & Hq & Hr); assert (q = x0) by congruence; subst q; destruct Hr as [(Hr & (e0 & h0 & Hn0 & _))|(Hc0 & _)]; [|contradiction].
      destruct (here _ _ _ W Hr Hn0) as (Hi & Hg). rewrite Hi in Hx. cbn [bind] in Hx. rewrite Hg in Hx. cbn [bind] in Hx. injection Hx as <- <-.
      destruct (value0 _ _ _ _ H Hn0) as (Hs1 & Hs2 & _). rewrite Hs1, Hs2 in Ex. injection Ex as <-. split; [reflexivity|]. split; [reflexivity|exact (proj2 H)].
  - ok Hz. unfold s_do_insert_or_assign in Ex. unfold do_insert_or_assign in Hx. ok Ex. cbn [bind] in Hx. destruct (Z.eqb_spec x0 (s_cap (os_t s))) as [->|Hne].
    + ok Ex. destruct x0 as ((h1, s1), o). injection Ex as <-. destruct (emplace_same _ _ _ _ _ _ _ _ _ _ H Hv Ex1) as ((tr & Hy) & Ho & Ha). rewrite Hy in Hx. cbn [bind] in Hx. unfold z_give in Hz. unfold give_inserted in Hx. destruct o as [q|].
      * ok Hz. injection Hz as <- <- <-. destruct (Ho q eq_refl) as (Hq & Hnq). assert (W' : wf (os_t s1)) by (apply bind_Ok in Hx; destruct Hx as (? & _ & Hx); apply bind_Ok in Hx; destruct Hx as (? & _ & Hx); injection Hx as <- _; exact W1).
        destruct (here _ _ _ W' Hq Hnq) as (Hi & Hg). rewrite Hi in Hx. cbn [bind] in Hx. rewrite Hg in Hx. cbn [bind] in Hx. injection Hx as <- <-.
        destruct (value0 _ _ _ _ (conj W' Ha) Hnq) as (Hs1 & Hs2 & _). rewrite Hs1, Hs2 in Ex. injection Ex as <-. split; [reflexivity|]. split; [reflexivity|exact Ha].
      * injection Hz as <- <- <-. injection Hx as <- <-. split; [reflexivity|]. split; [reflexivity|exact Ha].
    + ok Ex. cbn [bind] in Hx. injection Ex as <-. unfold z_give in Hz. ok Hz. injection Hz as <- <- <-. unfold give_inserted in Hx. cbn [with_t os_t os_hdr os_base] in *.
      destruct (find_node_wf f key_of hash keq KL _ (key_of e) W) as (q & Hq & Hr); assert (q = x0) by congruence; subst q; destruct Hr as [(Hr & _)|(Hc0 & _)]; [|contradiction].
      match type of Hx with context [to_iter f ?t _] => set (t2 := t) in *; assert (Hn0 : s_nodes t2 x0 = Some (rep (fst x1) e, snd x1)) by (cbn [t2 s_nodes]; unfold upd; rewrite Z.eqb_refl; reflexivity) end.
      assert (W' : wf t2) by (apply bind_Ok in Hx; destruct Hx as (? & _ & Hx); apply bind_Ok in Hx; destruct Hx as (? & _ & Hx); injection Hx as <- _; exact W1).
      destruct (here _ _ _ W' Hr Hn0) as (Hi & Hg). rewrite Hi in Hx. cbn [bind] in Hx. rewrite Hg in Hx. cbn [bind] in Hx. injection Hx as <- <-.
      destruct (value0 h (mkos t2 (os_hdr s) (os_base s)) x0 _ (conj W' (proj2 H)) Hn0) as (Hs1 & Hs2 & _). unfold with_t in Ex. change (s_iter sz s x0) with (s_iter sz (mkos t2 (os_hdr s) (os_base s)) x0) in Ex. rewrite Hs1, Hs2 in Ex. injection Ex as <-. split; [reflexivity|]. split; [reflexivity|exact (proj2 H)].
  - ok Hz. unfold s_erase_key in Ex. unfold erase_key in Hx. ok Ex. cbn [bind] in Hx. destruct (Z.eqb_spec x0 (s_cap (os_t s))) as [->|Hne].
    + injection Ex as <-. unfold z_erased in Hz. cbn [fst snd] in Hz. ok Hz. injection Hz as <- <- <-. rewrite (end_iter_ok f key_of hash keq _ W) in Hx. cbn [bind] in Hx. ok Hx. injection Hx as <- <-. split; [reflexivity|]. split; [reflexivity|exact (proj2 H)].
    + ok Ex. injection Ex as <-. destruct (do_erase f (os_t s) x0) as [(t7, p7)|] eqn:Ed; [|discriminate Hx]. cbn [bind] in Hx. ok Hx. injection Hx as <- <-. destruct x1 as ((h1, s1), a1).
      destruct (erase_same _ _ _ _ _ _ _ _ Ex1 Ed) as (-> & Ha). unfold z_erased in Hz. cbn [fst snd] in Hz. ok Hz. injection Hz as <- <- <-. split; [reflexivity|]. split; [reflexivity|exact (Ha H)].
  - ok Hz. ok Hz. injection Hz as <- <- <-. ok Hx. injection Hx as <- <-. split; [reflexivity|]. split; [|exact (proj2 H)]. unfold find in Ex1. rewrite Ex in Ex1. cbn [bind] in Ex1. rewrite (end_iter_ok f key_of hash keq _ W) in Ex1.
    destruct (find_node_wf f key_of hash keq KL _ k W) as (q & Hq & Hr); assert (q = x) by congruence; subst q; destruct Hr as [(Hr & (e0 & h0 & Hn0 & _))|(-> & _)].
    + destruct (here _ _ _ W Hr Hn0) as (Hi & Hg). rewrite Hi in Ex1. cbn [bind] in Ex1. destruct (Z.eqb_spec x (s_cap (os_t s))); [lia|]. rewrite Hg in Ex1. cbn [bind] in Ex1. injection Ex1 as <-.
      destruct (value0 _ _ _ _ H Hn0) as (Hs1 & _ & Hs2). rewrite Hs1, Hs2 in Ex0. injection Ex0 as <-. reflexivity.
    + pose proof (end_iter_ok f key_of hash keq _ W) as He. unfold end_iter in He. rewrite He in Ex1. cbn [bind] in Ex1. rewrite Z.eqb_refl in Ex1. injection Ex1 as <-.
      unfold s_iter in Ex0. rewrite Z.ltb_irrefl in Ex0. unfold s_at in Ex0. rewrite Z.eqb_refl in Ex0. injection Ex0 as <-. reflexivity.
  - ok Hz. injection Hz as <- <- <-. unfold contains in Hx. rewrite Ex in Hx. cbn [bind] in Hx. injection Hx as <- <-. split; [reflexivity|]. split; [reflexivity|exact (proj2 H)].
  - ok Hz. destruct x as (h1, s1). injection Hz as <- <- <-. destruct (SwissRoom.clear_ok f key_of hash keq _ W) as (t1 & Et & _ & _ & Hcap & _). unfold s_clear in Ex. ok Ex. rewrite Et in *. cbn [bind] in *. injection Ex as <- <-. injection Hx as <- <-. cbn [with_t os_t os_hdr os_base]. split; [reflexivity|]. split; [reflexivity|]. rewrite Hcap.
    destruct H as (_ & Ha & Hb). split; [|exact Hb]. destruct (s_size (os_t s) =? 0); [injection Ex0 as <-; exact Ha|apply (reset_has _ _ _ _ Ex0 Ha)].
  - ok Hz. unfold s_reserve in Ex. cbn [zcall_ok] in Hc. destruct (SwissRoom.reserve_ok f key_of hash keq KL (ev_lim (sv_e v)) (os_t s) n W Hv Hc) as (t1 & o & Er & Rs & _). rewrite Er in *. cbn [bind give_unit] in Ex, Hx. injection Hx as <- <-.
    destruct x as ((h1, s1), u). injection Hz as <- <- <-. destruct (resized_same _ _ _ _ _ _ _ _ _ H Rs Ex) as (-> & Ha & ->). split; [reflexivity|]. split; [destruct o; reflexivity|exact Ha].
  - ok Hz. unfold s_rehash in Ex. cbn [zcall_ok] in Hc. destruct (SwissRoom.rehash_ok f key_of hash keq KL (ev_lim (sv_e v)) (os_t s) n W Hv ltac:(unfold two64; lia) ltac:(left; lia)) as (t1 & o & Er & Rs & _). rewrite Er in *. cbn [bind give_unit] in Ex, Hx. injection Hx as <- <-.
    destruct x as ((h1, s1), u). injection Hz as <- <- <-. destruct (resized_same _ _ _ _ _ _ _ _ _ H Rs Ex) as (-> & Ha & ->). split; [reflexivity|]. split; [destruct o; reflexivity|exact Ha].
  - injection Hz as <- <- <-. injection Hx as <- <-. split; [reflexivity|]. split; [reflexivity|exact (proj2 H)].
Qed.
(** Calls that only read the order change nothing. *)
Lemma reads_same : forall v h s c, plain c = Some [] -> forall h' s' r, zexec v (h, s) c = Ok (h', s', r) -> h' = h /\ s' = s.
Proof. intros v h s c Hp h' s' r H. destruct c; try discriminate Hp; cbn [SwissOrderedRun.zexec] in H; ok H; injection H as <- <- _; auto. Qed.


(** Whole programs: whatever the ordered container does without undefined behaviour. *)
Lemma run_same : forall hist h s, tied0 h s -> zhistory_ok hist -> paired hist -> forall h' s' rs, zrun (h, s) hist = Ok ((h', s'), rs) ->
  (exists rs', run (os_t s) (unlinked hist) = Ok (os_t s', rs') /\ agree_all (map snd hist) rs rs') \/ (narrow f /\ run (os_t s) (unlinked hist) = Err BitScanZero).
Proof.
  induction hist as [|(v, c) hist IH]; intros h s H Hok Hp h' s' rs Hr.
  - left. injection Hr as <- <- <-. exists []. split; reflexivity.
  - inversion Hok as [|? ? (Hv & Hc) Hok']; subst. inversion Hp as [|? ? Hpc Hp']; subst. cbn [fst snd SwissOrderedRun.zrun] in *. ok Hr. destruct x as ((h1, s1), r). ok Hr. destruct x as ((h2, s2), rs1). injection Hr as <- <- <-.
    cbn [unlinked flat_map fst snd map agree_all].
    destruct (plain c) as [[|c' [|c'' l]]|] eqn:Ep; try (destruct c; discriminate Ep); try contradiction.
    + destruct (reads_same _ _ _ _ Ep _ _ _ Ex) as (-> & ->). cbn [map app]. apply (IH h s H Hok' Hp' _ _ _ Ex0).
    + cbn [map app]. destruct (step_same v h s c H Hv Hc c' Ep h1 s1 r Ex) as [(r' & E2 & Ar & H1)|(Hn & E2)]; cbn [SwissRun.run]; rewrite E2; cbn [bind]; [|right; auto].
      destruct (IH h1 s1 H1 Hok' Hp' _ _ _ Ex0) as [(rs' & B & C)|(Hn & B)]; unfold unlinked in B; rewrite B; cbn [bind]; [left; exists (r' :: rs'); auto|right; auto].
Qed.
Lemma new_tied0 : forall (h : heap) a, h a = Some (0, 0) -> tied0 h (s_new a).
Proof.
  intros h a Ha. split; [exact (proj1 (empty_inv f key_of hash keq))|]. split; cbn [s_new os_t os_hdr os_base empty_swiss s_cap]; [congruence|]. apply slot_ix_none_intro; [exact Hsz|]. intros i Hi. lia.
Qed.
Lemma run_same_new : forall h0 a hist h' s' rs, h0 a = Some (0, 0) -> zhistory_ok hist -> paired hist -> zrun (h0, s_new a) hist = Ok ((h', s'), rs) ->
  (exists rs', run empty_swiss (unlinked hist) = Ok (os_t s', rs') /\ agree_all (map snd hist) rs rs') \/ (narrow f /\ run empty_swiss (unlinked hist) = Err BitScanZero).
Proof. intros h0 a hist h' s' rs Ha Hok Hp Hr. exact (run_same hist h0 (s_new a) (new_tied0 h0 a Ha) Hok Hp h' s' rs Hr). Qed.
Lemma run_same_wide : f = SSE2 \/ f = SSSE3 -> forall (h0 : heap) a hist h' s' rs, h0 a = Some (0, 0) -> zhistory_ok hist -> paired hist -> zrun (h0, s_new a) hist = Ok ((h', s'), rs) ->
  exists rs', run empty_swiss (unlinked hist) = Ok (os_t s', rs') /\ agree_all (map snd hist) rs rs'.
Proof.
  intros F h0 a hist h' s' rs Ha Hh Hp Hr. destruct (run_same_new h0 a hist h' s' rs Ha Hh Hp Hr) as [X|(Hn & _)]; [exact X|]. exfalso. destruct F as [F|F], Hn as [Hn|Hn]; congruence.
Qed.
End Slots.
