(** Ordered dense containers use the slots of unordered ones. *)
From Coq Require Import ZArith List Bool Lia.
From Verif Require Import Base BaseLemmas MapSpec Float32 DenseSpec DenseModel DenseRun
  LinkModel OrderedSpec OrderedDense OrderedRun OrderedLinks SlotsSpec SlotsModel.
From Verif Require SlotsProofs.
Import ListNotations.
Open Scope Z_scope.

Ltac ok H := match type of H with
  | bind ?m _ = Ok _ => let x := fresh "x" in let Ex := fresh "Ex" in destruct m as [x|] eqn:Ex; [cbn [bind] in H|discriminate H]
  end.
Ltac oks H := repeat ok H.

Section Slots.
Context {E K : Type}.
Variable sz : Z.
Variable nk : nat.
Variable key_of : nat -> E -> K.
Variable hash : K -> Z.
Variable keq : K -> K -> bool.
Variable rep : E -> E -> E.
Hypothesis Hsz : 0 < sz.
Notation odense := (odense E).
Notation dense := (dense E).
Notation dexec := (dexec nk key_of hash keq rep). Notation drun := (drun nk key_of hash keq rep).
Notation oexec := (oexec sz nk key_of hash keq rep). Notation orun := (orun sz nk key_of hash keq rep).

(** The size, the capacity and the validity of the element array through the functions. *)
Definition arr (d d' : dense) : Prop := d_cap d' = d_cap d /\ d_dok d' = d_dok d /\ d_size d' = d_size d.
Lemma arr_refl : forall d, arr d d. Proof. repeat split. Qed.
Lemma arr_trans : forall a b c, arr a b -> arr b c -> arr a c. Proof. unfold arr. intuition congruence. Qed.
Lemma put_arr : forall (d d' : dense) i n, put_node d i n = Ok d' -> arr d d'.
Proof. intros d d' i n H. unfold put_node in H. ok H. injection H as <-. repeat split. Qed.
Lemma kill_arr : forall (d d' : dense) i, kill_node d i = Ok d' -> arr d d'.
Proof. intros d d' i H. unfold kill_node in H. ok H. injection H as <-. repeat split. Qed.
Lemma store_arr : forall (d d' : dense) j p v, store d j p v = Ok d' -> arr d d'.
Proof. intros d d' j p v H. unfold store in H. destruct p; ok H; [injection H as <-; repeat split|apply (put_arr _ _ _ _ H)]. Qed.
Lemma fold_arr : forall A (g : dense -> A -> res dense), (forall d x d', g d x = Ok d' -> arr d d') -> forall l d d', foldM g l d = Ok d' -> arr d d'.
Proof. intros A g Hg. induction l as [|x l IH]; intros d d' H; cbn [foldM] in H; [injection H as <-; apply arr_refl|]. ok H. apply (arr_trans _ _ _ (Hg _ _ _ Ex) (IH _ _ H)). Qed.
Lemma insert_node_arr : forall pos (d : dense) j d', insert_node pos d j = Ok d' -> arr d d'.
Proof. intros pos d j d' H. unfold insert_node in H. oks H. apply (arr_trans _ _ _ (put_arr _ _ _ _ Ex2) (store_arr _ _ _ _ _ H)). Qed.
Lemma move_chain_arr : forall a b (d : dense) j d', move_chain a b d j = Ok d' -> arr d d'.
Proof. intros a b d j d' H. unfold move_chain in H. oks H. apply (store_arr _ _ _ _ _ H). Qed.
Lemma commit_arr : forall (d d' : dense) pos sl hs, commit_node d pos sl hs = Ok d' -> arr d d'.
Proof. intros d d' pos sl hs H. unfold commit_node in H. oks H. refine (arr_trans _ _ _ (fold_arr _ _ _ _ _ _ Ex) (put_arr _ _ _ _ H)). intros d1 x1 d1' H1. apply (store_arr _ _ _ _ _ H1). Qed.
Lemma push_cap : forall c (d d' : dense) e o, push_node c d e = Ok (d', o) -> d_cap d' = d_cap d.
Proof.
  intros c d d' e o H. unfold push_node in H. destruct c; [|injection H as <- _; reflexivity]. ok H. injection H as <- _. unfold new_node in Ex. oks Ex.
  match type of Ex with match ?m with _ => _ end = _ => destruct m; [discriminate Ex|] end. injection Ex as <-. reflexivity.
Qed.
Lemma pop_cap : forall (d d' : dense), pop_node d = Ok d' -> d_cap d' = d_cap d.
Proof. intros d d' H. unfold pop_node in H. apply kill_arr in H. exact (proj1 H). Qed.
Lemma fill_arr : forall (d d' : dense), fill_sparse d = Ok d' -> arr d d'.
Proof. intros d d' H. unfold fill_sparse in H. destruct (d_bc d =? 0); [injection H as <-; apply arr_refl|]. ok H. injection H as <-. repeat split. Qed.
Lemma do_rehash_arr : forall lim (d d' : dense) n o, do_rehash nk lim d n = Ok (d', o) -> arr d d'.
Proof.
  intros lim d d' n o H. unfold do_rehash in H. assert (Ha : forall d1 b, realloc_sparse lim d n = (d1, b) -> arr d d1).
  { intros d1 b H1. unfold realloc_sparse in H1. destruct (d_bc d <? n); [destruct (lim <? n)|]; injection H1 as <- _; repeat split. }
  destruct (realloc_sparse lim d n) as (d1, b). specialize (Ha _ _ eq_refl). destruct b; cbn [negb] in H.
  - oks H. injection H as <- _. apply (arr_trans _ _ _ Ha). apply (arr_trans _ _ _ (fill_arr _ _ Ex)). refine (fold_arr _ _ _ _ _ _ Ex0). intros d2 x2 d2' H2. unfold DenseModel.insert_step in H2. refine (fold_arr _ _ _ _ _ _ H2). intros d3 x3 d3' H3. apply (insert_node_arr _ _ _ _ H3).
  - injection H as <- _. exact Ha.
Qed.
Lemma rehash_arr : forall lim (d d' : dense) n o, rehash nk lim d n = Ok (d', o) -> arr d d'.
Proof.
  intros lim d d' n o H. unfold rehash in H. destruct ((n =? 0) && (d_size d =? 0)); [injection H as <- _; apply arr_refl|]. ok H.
  match type of H with (if ?b then _ else _) = _ => destruct b end; [apply (do_rehash_arr _ _ _ _ _ H)|injection H as <- _; apply arr_refl].
Qed.
Lemma maybe_rehash_arr : forall lim (d d' : dense) o, maybe_rehash nk lim d = Ok (d', o) -> arr d d'.
Proof.
  intros lim d d' o H. unfold maybe_rehash in H. destruct (d_bc d =? 0); [apply (rehash_arr _ _ _ _ _ H)|]. destruct (overloaded d); [apply (rehash_arr _ _ _ _ _ H)|injection H as <- _; apply arr_refl].
Qed.
(** After an erasure the erased position is the end or holds an element. *)
Lemma erase_node_at : forall (d d' : dense) pos sl q, erase_node d pos sl = Ok (d', q) -> d_cap d' = d_cap d /\ exists o, at_pos d' q = Ok o.
Proof.
  intros d d' pos sl q H. unfold erase_node in H. ok H. ok H.
  assert (A1 : arr d x0) by (refine (fold_arr _ _ _ _ _ _ Ex0); intros d1 y d1' H1; cbn beta in H1; ok H1; apply (store_arr _ _ _ _ _ H1)).
  match type of H with bind ?m _ = _ => destruct m as [s2|] eqn:E2; [cbn [bind] in H|discriminate H] end. ok H. rename x1 into s3. injection H as <- <-. pose proof (pop_cap _ _ Ex1) as A3.
  unfold pop_node, kill_node in Ex1. ok Ex1. injection Ex1 as <-. cbn [set_nodes set_size d_size d_cap] in *. unfold at_pos. cbn [set_nodes set_size d_size d_cap] in *. destruct (Z.eqb_spec pos (d_size x0 - 1)) as [He|He].
  - injection E2 as <-. split; [apply A1|]. exists None. cbn [set_nodes set_size d_size]. rewrite He, Z.eqb_refl. reflexivity.
  - ok E2. assert (A2 : arr x0 x2) by (refine (fold_arr _ _ _ _ _ _ Ex1); intros d1 y d1' H1; apply (move_chain_arr _ _ _ _ _ H1)). ok E2. pose proof (put_arr _ _ _ _ E2) as A4.
    pose proof (arr_trans _ _ _ A2 A4) as A5. split; [rewrite (proj1 A5); apply A1|].
    unfold put_node in E2. ok E2. injection E2 as <-. cbn [set_nodes set_size d_size d_cap d_nodes] in *. destruct A5 as (_ & _ & A5). cbn [set_nodes d_size] in A5. rewrite A5. destruct (Z.eqb_spec pos (d_size x0 - 1)) as [|_]; [contradiction|].
    unfold get_node in *. cbn [set_nodes set_size d_size d_cap d_nodes d_dok] in *. unfold upd at 1. destruct (Z.eqb_spec pos (d_size x0 - 1)) as [|_]; [contradiction|]. unfold upd. rewrite Z.eqb_refl. oks Ex4. cbn [bind]. eauto.
Qed.
Lemma clear_cap : forall (d d' : dense), clear d = Ok d' -> d_cap d' = d_cap d.
Proof.
  intros d d' H. unfold clear, clear_data in H. ok H. rewrite <- (proj1 (fill_arr _ _ Ex)). assert (A : arr (set_size x 0) d') by (refine (fold_arr _ _ _ _ _ _ H); intros d1 y d1' H1; apply (kill_arr _ _ _ H1)). exact (proj1 A).
Qed.
(** A position found holds an element. *)
Lemma find_loop_at : forall fu (d : dense) j k h p q o, find_loop key_of keq fu d j k h p = Ok (q, o) -> q = d_size d \/ exists n, get_node d q = Ok n.
Proof.
  induction fu as [|fu IH]; intros d j k h p q o H; cbn [find_loop] in H; [discriminate H|]. ok H. destruct (x =? npos); [injection H as <- _; auto|]. ok H. destruct ((n_hash x0 j =? h) && keq k (key_of j (n_val x0))); [injection H as <- _; eauto|apply (IH _ _ _ _ _ _ _ H)].
Qed.
Lemma find_node_at : forall (d : dense) j k h q o, find_node key_of keq d j k h = Ok (q, o) -> q = d_size d \/ exists n, get_node d q = Ok n.
Proof. intros d j k h q o H. unfold find_node in H. destruct (get_chain d h); [|injection H as <- _; auto]. ok H. destruct x as (q1, o1). injection H as <- _. apply (find_loop_at _ _ _ _ _ _ _ _ Ex). Qed.
Lemma get_node_range : forall (d : dense) i n, get_node d i = Ok n -> 0 <= i < d_cap d.
Proof. intros d i n H. unfold get_node in H. oks H. unfold guard in Ex1. destruct (Z.leb_spec 0 i), (Z.ltb_spec i (d_cap d)); cbn [andb] in Ex1; try discriminate Ex1. lia. Qed.

(** The header is a link outside of the element array. *)
Notation apart := (SlotsProofs.apart sz).
Definition dtied (h : heap) (s : odense) : Prop := apart h (o_hdr s) (o_base s) (d_cap (o_d s)).
Lemma slot_hdr : forall h s i n, dtied h s -> get_node (o_d s) i = Ok n -> slot sz s i <> o_hdr s /\ o_at sz s (slot sz s i) = Ok (Some (n_val n)).
Proof.
  intros h s i n (_ & Ha) Hg. pose proof (get_node_range _ _ _ Hg) as Hr. assert (Hne : slot sz s i <> o_hdr s) by (intros He; apply (slot_ix_none _ _ _ _ Hsz Ha i Hr); symmetry; exact He).
  split; [exact Hne|]. unfold o_at. apply Z.eqb_neq in Hne. rewrite Hne. unfold index_of, slot. rewrite slot_ix_of by (exact Hsz || exact Hr). cbn [bind]. rewrite Hg. reflexivity.
Qed.
Lemma at_slot_inv : forall (s : odense) i e, o_at sz s (slot sz s i) = Ok (Some e) -> exists n, get_node (o_d s) i = Ok n /\ n_val n = e.
Proof.
  intros s i e H. unfold o_at in H. destruct (slot sz s i =? o_hdr s); [discriminate H|]. unfold index_of in H. destruct (slot_ix (o_base s) sz (d_cap (o_d s)) (slot sz s i)) as [i1|] eqn:Ei; [|discriminate H]. cbn [bind] in H.
  apply slot_ix_inv in Ei; [|exact Hsz]. destruct Ei as (Ei & _). unfold slot in Ei. assert (i1 = i) by nia. subst i1. ok H. injection H as <-. eauto.
Qed.
Lemma relinks_has : forall nb ob l (h h1 : heap) b, foldM (relink_step sz nb ob) l h = Ok h1 -> h b <> None -> h1 b <> None.
Proof.
  intros nb ob. induction l as [|m l IH]; intros h h1 b H Hb; cbn [foldM] in H; [injection H as <-; exact Hb|]. ok H. apply (IH _ _ _ H). apply (SlotsProofs.relink_has _ _ _ _ _ Ex Hb).
Qed.
Lemma resize_same : forall v h s cap h1 s1 o, dtied h s -> o_resize_data sz v h s cap = Ok (h1, s1, o) -> resize_data (dv_dlim (ov_d v)) (o_d s) cap = Ok (o_d s1, o) /\ dtied h1 s1.
Proof.
  intros v h s cap h1 s1 o (Ha & Hb) H. unfold o_resize_data in H. ok H. destruct x as (d1, [u|]).
  - destruct (place_cases (ov_junk v) h (ov_base v) sz cap Hsz) as [Ep|(h2 & Ep & P1 & P2 & P3)]; rewrite Ep in H; [discriminate H|]. cbn [bind] in H. ok H. injection H as <- <- <-. cbn [o_d]. destruct u. split; [reflexivity|].
    assert (Hc : d_cap d1 = cap) by (unfold resize_data in Ex; destruct (dv_dlim (ov_d v) <? cap); [discriminate Ex|]; ok Ex; injection Ex as <-; reflexivity).
    assert (Hn : slot_ix (ov_base v) sz cap (o_hdr s) = None) by (apply slot_ix_none_intro; [exact Hsz|]; intros i Hi He; apply Ha; rewrite He; apply P1; exact Hi).
    unfold dtied. cbn [o_hdr o_base o_d]. rewrite Hc. split; [|exact Hn]. unfold unplace. rewrite Hb. apply (relinks_has _ _ _ _ _ _ Ex0). rewrite (P3 _ Hn). exact Ha.
  - injection H as <- <- <-. cbn [with_d o_d]. split; [reflexivity|]. unfold resize_data in Ex. destruct (dv_dlim (ov_d v) <? cap); [|ok Ex; discriminate Ex]. injection Ex as <-. split; assumption.
Qed.
Lemma with_tied : forall h s d h1, dtied h s -> d_cap d = d_cap (o_d s) -> (h (o_hdr s) <> None -> h1 (o_hdr s) <> None) -> dtied h1 (with_d s d).
Proof. intros h s d h1 (Ha & Hb) Hc Hh. unfold dtied. cbn [with_d o_hdr o_base o_d]. rewrite Hc. split; [apply Hh; exact Ha|exact Hb]. Qed.
Lemma room_same : forall v h s hint h1 s1 hint1 o, dtied h s -> o_make_room sz nk v h s hint = Ok (h1, s1, hint1, o) ->
  make_room nk (dv_dlim (ov_d v)) (dv_slim (ov_d v)) (o_d s) = Ok (o_d s1, o) /\ dtied h1 s1.
Proof.
  intros v h s hint h1 s1 hint1 o T H. unfold o_make_room in H. unfold make_room. ok H. destruct x as (((h2, s2), hint2), o2).
  assert (G : maybe_resize (dv_dlim (ov_d v)) (o_d s) = Ok (o_d s2, o2) /\ dtied h2 s2).
  { unfold o_maybe_resize in Ex. unfold maybe_resize. destruct (d_cap (o_d s) =? d_size (o_d s)); [|injection Ex as <- <- _ <-; auto]. ok Ex. destruct x as ((h3, s3), o3). injection Ex as <- <- _ <-. apply (resize_same _ _ _ _ _ _ _ T Ex0). }
  destruct G as (G1 & G2). rewrite G1. cbn [bind]. destruct o2 as [u|]; [|injection H as <- <- _ <-; auto]. ok H. destruct x as (d3, o3). injection H as <- <- _ <-. cbn [with_d o_d]. split; [reflexivity|].
  apply (with_tied _ _ _ _ G2 (proj1 (maybe_rehash_arr _ _ _ _ Ex0))). auto.
Qed.
Lemma commit_same : forall h s hint pos sl hs h1 s1, dtied h s -> o_commit sz h s hint pos sl hs = Ok (h1, s1) -> commit_node (o_d s) pos sl hs = Ok (o_d s1) /\ dtied h1 s1.
Proof.
  intros h s hint pos sl hs h1 s1 T H. unfold o_commit in H. oks H. injection H as <- <-. cbn [with_d o_d]. split; [reflexivity|]. apply (with_tied _ _ _ _ T (proj1 (commit_arr _ _ _ _ _ Ex1))). apply (SlotsProofs.link_after_has _ _ _ _ _ Ex0).
Qed.
Lemma emplace_same : forall h s hint sl hs e h1 s1 o, dtied h s -> o_emplace_node sz true h s hint sl hs e = Ok (h1, s1, o) -> emplace_node true (o_d s) sl hs e = Ok (o_d s1, o) /\ dtied h1 s1.
Proof.
  intros h s hint sl hs e h1 s1 o T H. unfold o_emplace_node in H. unfold emplace_node. ok H. destruct x as (d1, p). cbn [bind]. pose proof (push_cap _ _ _ _ _ Ex) as Hc. pose proof (with_tied _ _ _ h T Hc (fun x => x)) as T1.
  destruct p as [p|]; [|injection H as <- <- <-; auto]. ok H. destruct x as (h2, s2). injection H as <- <- <-. destruct (commit_same _ _ _ _ _ _ _ _ T1 Ex0) as (C & T2). cbn [with_d o_d] in C. rewrite C. auto.
Qed.
(** The results of the insertions. *)
Lemma give_same : forall h (s : odense) (q : ins_result) o h' s' r, (forall a b, o = Some (a, b) -> exists p, q = Some (p, b) /\ (a = slot sz s p \/ a = iter_of sz s p)) -> (o = None -> q = None) ->
  o_give sz (h, s, o) = Ok (h', s', r) -> h' = h /\ s' = s /\ exists r', give_inserted (o_d s, q) = Ok (o_d s, r') /\ dagrees r r'.
Proof.
  intros h s q o h' s' r Hq Hn H. unfold o_give in H. destruct o as [(a, b)|].
  - ok H. destruct x as [e|]; [|discriminate H]. injection H as <- <- <-. split; [reflexivity|]. split; [reflexivity|]. destruct (Hq a b eq_refl) as (p & -> & Ha). assert (Hs : o_at sz s (slot sz s p) = Ok (Some e)).
    { destruct Ha as [->| ->]; [exact Ex|]. unfold iter_of in Ex. destruct (p =? d_size (o_d s)); [|exact Ex]. unfold o_at in Ex. rewrite Z.eqb_refl in Ex. discriminate Ex. }
    destruct (at_slot_inv _ _ _ Hs) as (n & Hg & <-). cbn [give_inserted]. rewrite Hg. cbn [bind]. eexists. split; reflexivity.
  - injection H as <- <- <-. rewrite (Hn eq_refl). split; [reflexivity|]. split; [reflexivity|]. eexists. split; reflexivity.
Qed.
Ltac gives := let a := fresh in let b := fresh in let X := fresh in intros a b X; (discriminate X || (injection X as <- <-; eexists; (split; [reflexivity|auto]))).

Lemma erase_loop_same : forall fu h s j k hk p h1 s1 a, dtied h s -> o_erase_loop sz nk key_of keq fu h s j k hk p = Ok (h1, s1, a) ->
  exists pos, erase_loop nk key_of keq fu (o_d s) j k hk p = Ok (o_d s1, pos) /\ (exists o, at_pos (o_d s1) pos = Ok o) /\ dtied h1 s1.
Proof.
  induction fu as [|fu IH]; intros h s j k hk p h1 s1 a T H; cbn [o_erase_loop] in H; [discriminate H|]. cbn [erase_loop]. ok H. cbn [bind]. destruct (x =? npos).
  - injection H as <- <- _. eexists. split; [reflexivity|]. split; [exists None; unfold at_pos; rewrite Z.eqb_refl; reflexivity|exact T].
  - ok H. cbn [bind]. destruct ((n_hash x0 j =? hk) && keq k (key_of j (n_val x0))); [|apply (IH _ _ _ _ _ _ _ _ _ T H)]. ok H. cbn [bind].
    unfold o_erase_node in H. ok H. ok H. ok H. destruct x4 as (d4, p4). ok H. injection H as <- <- _. cbn [fst with_d o_d] in *. destruct (erase_node_at _ _ _ _ _ Ex4) as (Hc & Hat). exists p4. split; [reflexivity|]. split; [exact Hat|].
    apply (with_tied _ _ _ _ T Hc). intros Hh. apply (SlotsProofs.unlink_has _ _ _ _ Ex3) in Hh. destruct (x =? d_size (o_d s) - 1); [injection Ex5 as <-; exact Hh|apply (SlotsProofs.relink_has _ _ _ _ _ Ex5 Hh)].
Qed.

Lemma dstep_same : forall v h s c, dtied h s -> forall c', dplain c = Some [c'] -> forall h' s' r, oexec v (h, s) c = Ok (h', s', r) ->
  (exists r', dexec (ov_d v) (o_d s) c' = Ok (o_d s', r') /\ dagrees r r') /\ dtied h' s'.
Proof.
  intros v h s c T c' Hp h' s' r Hz. destruct c; try discriminate Hp; injection Hp as <-; cbn [OrderedRun.oexec] in Hz; cbn [DenseRun.dexec].
  - ok Hz. unfold o_do_insert in Ex. unfold do_insert. ok Ex. cbn [bind]. destruct x0 as (((h1, s1), hint1), o1). destruct (room_same _ _ _ _ _ _ _ _ T Ex0) as (R & T1). rewrite R. cbn [bind]. destruct o1 as [u|].
    + ok Ex. cbn [bind]. ok Ex. cbn [bind]. destruct x1 as [i|].
      * injection Ex as <-. match type of Hz with o_give sz (?a, ?b, ?o) = _ => destruct (give_same a b (Some (i, false)) o _ _ _ ltac:(gives) ltac:(discriminate) Hz) as (-> & -> & G) end. auto.
      * ok Ex. cbn [bind]. ok Ex. cbn [bind]. destruct x2 as ((h2, s2), o2). destruct (emplace_same _ _ _ _ _ _ _ _ _ T1 Ex4) as (Em & T2). rewrite Em. cbn [bind]. injection Ex as <-.
        destruct o2 as [pos|].
        -- match type of Hz with o_give sz (?a, ?b, ?o) = _ => destruct (give_same a b (Some (pos, true)) o _ _ _ ltac:(gives) ltac:(discriminate) Hz) as (-> & -> & G) end. auto.
        -- match type of Hz with o_give sz (?a, ?b, ?o) = _ => destruct (give_same a b None o _ _ _ ltac:(gives) ltac:(reflexivity) Hz) as (-> & -> & G) end. auto.
    + injection Ex as <-. match type of Hz with o_give sz (?a, ?b, ?o) = _ => destruct (give_same a b None o _ _ _ ltac:(gives) ltac:(reflexivity) Hz) as (-> & -> & G) end. auto.
  - ok Hz. unfold o_do_emplace in Ex. unfold do_emplace. ok Ex. cbn [bind]. destruct x0 as (((h1, s1), hint1), o1). destruct (room_same _ _ _ _ _ _ _ _ T Ex0) as (R & T1). rewrite R. cbn [bind]. destruct o1 as [u|].
    + ok Ex. cbn [bind]. destruct x0 as (d2, o2). cbn [bind]. pose proof (push_cap _ _ _ _ _ Ex1) as Hc. pose proof (with_tied _ _ _ h1 T1 Hc (fun x => x)) as T2. destruct o2 as [pos|].
      * ok Ex. cbn [bind]. ok Ex. cbn [bind]. ok Ex. cbn [bind]. destruct x2 as [i|].
        -- ok Ex. cbn [bind]. injection Ex as <-. pose proof (with_tied h1 (with_d s1 d2) x2 h1 T2 (pop_cap _ _ Ex5) (fun x => x)) as T3.
           match type of Hz with o_give sz (?a, ?b, ?o) = _ => destruct (give_same a b (Some (i, false)) o _ _ _ ltac:(gives) ltac:(discriminate) Hz) as (-> & -> & G) end. auto.
        -- ok Ex. cbn [bind]. ok Ex. cbn [bind]. destruct x3 as (h3, s3). destruct (commit_same _ _ _ _ _ _ _ _ T2 Ex6) as (Cm & T3). cbn [with_d o_d] in Cm. rewrite Cm. cbn [bind]. injection Ex as <-.
           match type of Hz with o_give sz (?a, ?b, ?o) = _ => destruct (give_same a b (Some (pos, true)) o _ _ _ ltac:(gives) ltac:(discriminate) Hz) as (-> & -> & G) end. auto.
      * injection Ex as <-. match type of Hz with o_give sz (?a, ?b, ?o) = _ => destruct (give_same a b None o _ _ _ ltac:(gives) ltac:(reflexivity) Hz) as (-> & -> & G) end. auto.
    + injection Ex as <-. match type of Hz with o_give sz (?a, ?b, ?o) = _ => destruct (give_same a b None o _ _ _ ltac:(gives) ltac:(reflexivity) Hz) as (-> & -> & G) end. auto.
  - ok Hz. unfold o_do_insert_or_assign in Ex. unfold do_insert_or_assign. ok Ex. cbn [bind]. destruct x0 as (((h1, s1), hint1), o1). destruct (room_same _ _ _ _ _ _ _ _ T Ex0) as (R & T1). rewrite R. cbn [bind]. destruct o1 as [u|].
    + ok Ex. cbn [bind]. destruct x0 as (i, op). cbn [bind]. ok Ex. cbn [bind]. destruct x0.
      * ok Ex. cbn [bind]. ok Ex. cbn [bind]. destruct x1 as ((h2, s2), o2). destruct (emplace_same _ _ _ _ _ _ _ _ _ T1 Ex4) as (Em & T2). rewrite Em. cbn [bind]. injection Ex as <-.
        destruct o2 as [pos|].
        -- match type of Hz with o_give sz (?a, ?b, ?o) = _ => destruct (give_same a b (Some (pos, true)) o _ _ _ ltac:(gives) ltac:(discriminate) Hz) as (-> & -> & G) end. auto.
        -- match type of Hz with o_give sz (?a, ?b, ?o) = _ => destruct (give_same a b None o _ _ _ ltac:(gives) ltac:(reflexivity) Hz) as (-> & -> & G) end. auto.
      * ok Ex. cbn [bind]. ok Ex. cbn [bind]. injection Ex as <-. pose proof (with_tied _ _ _ h1 T1 (proj1 (put_arr _ _ _ _ Ex4)) (fun x => x)) as T2.
        match type of Hz with o_give sz (?a, ?b, ?o) = _ => destruct (give_same a b (Some (i, false)) o _ _ _ ltac:(gives) ltac:(discriminate) Hz) as (-> & -> & G) end. auto.
    + injection Ex as <-. match type of Hz with o_give sz (?a, ?b, ?o) = _ => destruct (give_same a b None o _ _ _ ltac:(gives) ltac:(reflexivity) Hz) as (-> & -> & G) end. auto.
  - ok Hz. destruct x as ((h1, s1), a). injection Hz as <- <- <-. unfold o_erase_key in Ex. unfold erase_key. ok Ex. cbn [bind].
    destruct (erase_loop_same _ _ _ _ _ _ _ _ _ _ T Ex) as (pos & El & (o & Hat) & T1). rewrite El. cbn [bind give_next]. rewrite Hat. cbn [bind]. split; [eexists; split; [reflexivity|exact I]|exact T1].
  - ok Hz. ok Hz. injection Hz as <- <- <-. unfold find. rewrite Ex. cbn [bind]. split; [|exact T]. destruct x as (q, op). cbn [fst] in *. unfold iter_of in Ex0. destruct (Z.eqb_spec q (d_size (o_d s))) as [->|Hne].
    + unfold o_at in Ex0. rewrite Z.eqb_refl in Ex0. injection Ex0 as <-. eexists. split; reflexivity.
    + destruct (find_node_at _ _ _ _ _ _ Ex) as [|(n & Hg)]; [contradiction|]. destruct (slot_hdr _ _ _ _ T Hg) as (_ & Ha). rewrite Ha in Ex0. injection Ex0 as <-. rewrite Hg. cbn [bind]. eexists. split; reflexivity.
  - ok Hz. injection Hz as <- <- <-. unfold contains. rewrite Ex. cbn [bind]. split; [|exact T]. eexists. split; [reflexivity|]. cbn [dagrees]. f_equal. f_equal. destruct x as (q, op). cbn [fst]. unfold iter_of. destruct (Z.eqb_spec q (d_size (o_d s))) as [->|Hne]; [apply Z.eqb_refl|].
    destruct (find_node_at _ _ _ _ _ _ Ex) as [|(n & Hg)]; [contradiction|]. destruct (slot_hdr _ _ _ _ T Hg) as (Hn & _). apply Z.eqb_neq. exact Hn.
  - ok Hz. destruct x as (h1, s1). injection Hz as <- <- <-. unfold o_clear in Ex. ok Ex. cbn [bind]. ok Ex. cbn [bind]. injection Ex as <- <-. cbn [bind with_d o_d]. split; [eexists; split; reflexivity|]. apply (with_tied _ _ _ _ T (clear_cap _ _ Ex1)). apply (SlotsProofs.reset_has _ _ _ _ Ex0).
  - ok Hz. unfold o_reserve in Ex. unfold reserve. ok Ex. cbn [bind]. destruct x0 as ((h1, s1), o1).
    assert (G : (if d_cap (o_d s) <? n then resize_data (dv_dlim (ov_d v)) (o_d s) n else Ok (o_d s, Some tt)) = Ok (o_d s1, o1) /\ dtied h1 s1).
    { destruct (d_cap (o_d s) <? n); [apply (resize_same _ _ _ _ _ _ _ T Ex0)|injection Ex0 as <- <- <-; auto]. }
    destruct G as (G1 & T1). rewrite G1. cbn [bind]. destruct o1 as [u|].
    + ok Ex. cbn [bind]. ok Ex. cbn [bind]. destruct x1 as (d2, o2). cbn [bind]. injection Ex as <-. cbn [o_unit] in Hz. injection Hz as <- <- <-. cbn [with_d o_d give_unit]. split; [eexists; split; [reflexivity|destruct o2; reflexivity]|]. apply (with_tied _ _ _ _ T1 (proj1 (rehash_arr _ _ _ _ _ Ex2))). auto.
    + injection Ex as <-. injection Hz as <- <- <-. cbn [give_unit]. split; [eexists; split; reflexivity|exact T1].
  - ok Hz. destruct x as (d2, o2). cbn [fst snd o_unit bind give_unit] in *. injection Hz as <- <- <-. cbn [with_d o_d]. split; [eexists; split; [reflexivity|destruct o2; reflexivity]|]. apply (with_tied _ _ _ _ T (proj1 (rehash_arr _ _ _ _ _ Ex))). auto.
  - injection Hz as <- <- <-. cbn [with_d o_d]. split; [eexists; split; reflexivity|]. apply (with_tied _ _ _ _ T eq_refl). auto.
  - injection Hz as <- <- <-. split; [eexists; split; reflexivity|exact T].
Qed.
Lemma dreads_same : forall v h s c, dplain c = Some [] -> forall h' s' r, oexec v (h, s) c = Ok (h', s', r) -> h' = h /\ s' = s.
Proof. intros v h s c Hp h' s' r H. destruct c; try discriminate Hp; cbn [OrderedRun.oexec] in H; ok H; injection H as <- <- _; auto. Qed.

(** Whole programs: whatever the ordered container does without undefined behaviour. *)
Lemma drun_same : forall hist h s, dtied h s -> dpaired hist -> forall h' s' rs, orun (h, s) hist = Ok ((h', s'), rs) ->
  exists rs', drun (o_d s) (dunlinked hist) = Ok (o_d s', rs') /\ dagree_all (map snd hist) rs rs'.
Proof.
  induction hist as [|(v, c) hist IH]; intros h s T Hp h' s' rs Hr.
  - injection Hr as <- <- <-. exists []. split; reflexivity.
  - inversion Hp as [|? ? Hpc Hp']; subst. cbn [fst snd OrderedRun.orun] in *. ok Hr. destruct x as ((h1, s1), r). ok Hr. destruct x as ((h2, s2), rs1). injection Hr as <- <- <-.
    cbn [dunlinked flat_map fst snd map dagree_all].
    destruct (dplain c) as [[|c' [|c'' l]]|] eqn:Ep; try (destruct c; discriminate Ep); try contradiction.
    + destruct (dreads_same _ _ _ _ Ep _ _ _ Ex) as (-> & ->). cbn [map app]. apply (IH h s T Hp' _ _ _ Ex0).
    + cbn [map app]. destruct (dstep_same v h s c T c' Ep h1 s1 r Ex) as ((r' & E2 & Ar) & T1). cbn [DenseRun.drun]. rewrite E2. cbn [bind].
      destruct (IH h1 s1 T1 Hp' _ _ _ Ex0) as (rs' & B & C). unfold dunlinked in B. rewrite B. cbn [bind]. exists (r' :: rs'). auto.
Qed.
Lemma drun_same_new : forall (h0 : heap) a hist h' s' rs, h0 a = Some (0, 0) -> dpaired hist -> orun (h0, o_new a) hist = Ok ((h', s'), rs) ->
  exists rs', drun empty_dense (dunlinked hist) = Ok (o_d s', rs') /\ dagree_all (map snd hist) rs rs'.
Proof.
  intros h0 a hist h' s' rs Ha Hp Hr. refine (drun_same hist h0 (o_new a) _ Hp h' s' rs Hr). split; cbn [o_new o_d o_hdr o_base empty_dense d_cap]; [congruence|]. apply slot_ix_none_intro; [exact Hsz|]. intros i Hi. lia.
Qed.
End Slots.
