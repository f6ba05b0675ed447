(** Programs over several ordered dense containers refine lists. *)
From Coq Require Import ZArith List Bool Lia Permutation Arith.
From Verif Require Import Base BaseLemmas MapSpec Float32 DenseSpec World WorldProofs DenseModel DenseRun DenseChain DenseInv DenseOps DenseEdit DenseErase DenseRefine DenseMore
  LinkModel LinkProofs OrderedSpec OrderedWorldSpec OrderedDense OrderedRun OrderedWorld OrderedLinks OrderedProofs OrderedRefine OrderedMoves.
Import ListNotations.
Open Scope Z_scope.

Lemma pick_map : forall A B (f : A -> B) l ord, pick (map f l) ord = map f (pick l ord).
Proof.
  intros A B f l ord. induction ord as [|i o IH]; [reflexivity|]. unfold pick in *. cbn [flat_map]. rewrite IH, map_app, nth_error_map. destruct (nth_error l (Z.to_nat i)); reflexivity.
Qed.

(** ** Capacity after copying. *)
Section Cap.
Context {E K : Type}.
Notation dense := (dense E).
Lemma put_cap : forall (s s' : dense) i n, put_node s i n = Ok s' -> d_cap s' = d_cap s.
Proof. intros s s' i n H. unfold put_node in H. apply bind_Ok in H. destruct H as (u & _ & H). injection H as <-. reflexivity. Qed.
Lemma new_cap : forall (s s' : dense) i n, new_node s i n = Ok s' -> d_cap s' = d_cap s.
Proof. intros s s' i n H. unfold new_node in H. do 3 (apply bind_Ok in H; destruct H as (?u & _ & H)). destruct (d_nodes s i); [discriminate H|]. injection H as <-. reflexivity. Qed.
Lemma foldM_cap : forall {A} (f : dense -> A -> res dense) l (s s' : dense), (forall t x t', f t x = Ok t' -> d_cap t' = d_cap t) -> foldM f l s = Ok s' -> d_cap s' = d_cap s.
Proof.
  intros A f l. induction l as [|x l IH]; intros s s' Hf H; cbn [foldM] in H.
  - injection H as <-. reflexivity.
  - apply bind_Ok in H. destruct H as (t & H1 & H2). rewrite (IH _ _ Hf H2). apply (Hf _ _ _ H1).
Qed.
Lemma insert_step_cap : forall nk (s s' : dense) i, DenseModel.insert_step nk s i = Ok s' -> d_cap s' = d_cap s.
Proof.
  intros nk s s' i H. unfold DenseModel.insert_step in H. apply (foldM_cap _ _ _ _) in H; [exact H|]. intros t j t' Ht. unfold insert_node in Ht. apply bind_Ok in Ht; destruct Ht as (u1 & G1 & Ht); apply bind_Ok in Ht; destruct Ht as (u2 & G2 & Ht); apply bind_Ok in Ht; destruct Ht as (u3 & G3 & Ht); apply bind_Ok in Ht; destruct Ht as (u4 & G4 & Ht).
  destruct (store_dims _ _ _ _ _ Ht) as (_ & X). rewrite X. apply (put_cap _ _ _ _ G4).
Qed.
Lemma copy_data_cap : forall nk clone dlim slim (s o d1 : dense), copy_data nk clone dlim slim s o = Ok (d1, true) -> d_size o <> 0 ->
  d_cap d1 = if d_cap s <? d_size o then d_size o else d_cap s.
Proof.
  intros nk clone dlim slim s o d1 H Ho. unfold copy_data in H. apply bind_Ok in H. destruct H as (u & _ & H). destruct (Z.eqb_spec (d_size o) 0) as [|_]; [contradiction|].
  assert (Hc : d_cap (fst (realloc_sparse slim s (d_bc o))) = d_cap s) by (unfold realloc_sparse; destruct (d_bc s <? d_bc o); [destruct (slim <? d_bc o)|]; reflexivity).
  destruct (realloc_sparse slim s (d_bc o)) as (s1, ok1). cbn [fst] in Hc. destruct ok1; cbn [negb] in H; [|discriminate H].
  destruct (realloc_dense dlim s1 (d_size o)) as (s2, ok2) eqn:Er. destruct ok2; cbn [negb] in H; [|discriminate H].
  apply bind_Ok in H. destruct H as (s3 & Hf & H). apply bind_Ok in H. destruct H as (s4 & Hg & H). injection H as <-.
  assert (Hg' : d_cap s4 = d_cap s3).
  { apply (foldM_cap _ _ _ _) in Hg; [exact Hg|]. intros t i t' Ht. unfold copy_step in Ht. apply bind_Ok in Ht; destruct Ht as (u1 & G1 & Ht); apply bind_Ok in Ht; destruct Ht as (u2 & G2 & Ht); apply bind_Ok in Ht; destruct Ht as (u3 & G3 & Ht). injection Ht as <-. cbn [set_size d_cap].
    rewrite (insert_step_cap _ _ _ _ G3). apply (new_cap _ _ _ _ G2). }
  assert (Hf' : d_cap s3 = d_cap s2) by (unfold fill_sparse in Hf; destruct (d_bc s2 =? 0); [injection Hf as <-; reflexivity|]; apply bind_Ok in Hf; destruct Hf as (u' & _ & Hf); injection Hf as <-; reflexivity).
  rewrite Hg', Hf', <- Hc. unfold realloc_dense in Er. destruct (d_cap s1 <? d_size o); [destruct (dlim <? d_size o); [discriminate Er|]|]; injection Er as <-; reflexivity.
Qed.
Lemma copy_data_fail : forall nk clone dlim slim (s o d1 : dense), copy_data nk clone dlim slim s o = Ok (d1, false) -> d_size o <> 0 -> d_cap s = 0 -> d_dok d1 = d_dok s.
Proof.
  intros nk clone dlim slim s o d1 H Ho H0. unfold copy_data in H. apply bind_Ok in H. destruct H as (u & _ & H). destruct (Z.eqb_spec (d_size o) 0) as [|_]; [contradiction|].
  assert (Hc : d_cap (fst (realloc_sparse slim s (d_bc o))) = d_cap s /\ d_dok (fst (realloc_sparse slim s (d_bc o))) = d_dok s) by (unfold realloc_sparse; destruct (d_bc s <? d_bc o); [destruct (slim <? d_bc o)|]; split; reflexivity).
  destruct (realloc_sparse slim s (d_bc o)) as (s1, ok1). cbn [fst] in Hc. destruct Hc as (Hc & Hk). destruct ok1; cbn [negb] in H; [|injection H as <-; exact Hk].
  destruct (realloc_dense dlim s1 (d_size o)) as (s2, ok2) eqn:Er. destruct ok2; cbn [negb] in H.
  - do 2 (apply bind_Ok in H; destruct H as (?u & _ & H)). discriminate H.
  - injection H as <-. unfold realloc_dense in Er. rewrite Hc, H0 in Er. destruct (0 <? d_size o); [|discriminate Er]. destruct (dlim <? d_size o); [|discriminate Er]. injection Er as <-. exact Hk.
Qed.
End Cap.

Section Links.
Context {E : Type}.
Variable sz : Z.
Hypothesis Hsz : 0 < sz.
Notation odense := (odense E).
Notation dense := (dense E).
Notation lnk := (lnk sz). Notation slot := (slot sz).

(** The addresses of a container. *)
Definition mine (s : odense) (a : Z) : Prop := a = o_hdr s \/ exists i, 0 <= i < d_cap (o_d s) /\ a = slot s i.
Lemma outside_iff : forall (s : odense) a, outside sz (o_hdr s) (o_base s) (d_cap (o_d s)) a <-> ~ mine s a.
Proof. clear - Hsz.
  intros s a. unfold outside, mine. split.
  - intros (H1 & H2) [H|(i & Hi & H)]; [contradiction|]. apply (slot_ix_none _ _ _ _ Hsz H2 i Hi H).
  - intros H. split; [intros X; apply H; left; exact X|]. apply slot_ix_none_intro; [exact Hsz|]. intros i Hi X. apply H. right. exists i. auto.
Qed.
Lemma slot_ix_mine : forall (s : odense) a, ~ mine s a -> slot_ix (o_base s) sz (d_cap (o_d s)) a = None.
Proof. clear - Hsz. intros s a H. apply outside_iff in H. apply H. Qed.
Definition keeps (h : heap) (s : odense) (h' : heap) (s' : odense) : Prop := forall a, ~ mine s a -> has h a -> h' a = h a /\ ~ mine s' a.
Lemma ofr_keeps : forall h s h' s', ofr sz h s h' s' -> keeps h s h' s'.
Proof. clear - Hsz. intros h s h' s' (_ & F) a Ha Hh. destruct (F a) as (H1 & H2); [apply outside_iff; exact Ha|exact Hh|]. split; [exact H1|]. apply outside_iff. exact H2. Qed.
Lemma mine_has : forall h s ord a, lnk h s ord -> mine s a -> has h a.
Proof. clear. intros h s ord a L [->|(i & Hi & ->)]; [apply (olinks_hdr _ _ _ _ _ _ _ L)|apply (ol_has _ _ _ _ _ _ _ L); exact Hi]. Qed.
Lemma ring_mine : forall h (s : odense) ord y, lnk h s ord -> In y (o_hdr s :: map (slot s) ord) -> mine s y.
Proof. clear. intros h s ord y L Hy. destruct (ring_slots sz h _ _ _ _ _ y L Hy) as [->|(i & Hi & ->)]; [left; reflexivity|right; exists i; auto]. Qed.
Lemma lnk_same : forall h h' s ord, lnk h s ord -> (forall a, mine s a -> h' a = h a) -> lnk h' s ord.
Proof. clear - Hsz.
  intros h h' s ord L H. pose proof L as [R Nd Hin Hle Hhas Hhd]. constructor; try assumption.
  - apply (ring_frame h); [| |exact R]; intros y Hy; (unfold nx, pv; rewrite H; [reflexivity|]; apply (ring_mine h s ord y L Hy)).
  - intros i Hi. unfold has. rewrite H by (right; exists i; auto). apply Hhas. exact Hi.
Qed.
(** ** Copying. *)
Record area (h : heap) (s : odense) : Prop := {
  ar_hdr : has h (o_hdr s);
  ar_slot : forall i, 0 <= i < d_cap (o_d s) -> has h (slot s i);
  ar_ne : forall i, 0 <= i < d_cap (o_d s) -> slot s i <> o_hdr s;
  ar_cap : 0 <= d_cap (o_d s)
}.
Lemma lnk_area : forall h (s : odense) ord, lnk h s ord -> area h s.
Proof. intros h s ord L. constructor; [apply (olinks_hdr _ _ _ _ _ _ _ L)|apply (ol_has _ _ _ _ _ _ _ L)|apply (ol_hdr _ _ _ _ _ _ _ L)|apply (olinks_cap _ _ _ _ _ _ _ L)]. Qed.
Lemma empty_link : forall h (s : odense), lnk h s [] -> h (o_hdr s) = Some (0, 0).
Proof.
  intros h s L. pose proof (ol_ring _ _ _ _ _ _ _ L) as ((H1 & H2) & _). cbn [map] in *. unfold nx, pv in *. destruct (h (o_hdr s)) as [[x y]|]; [|discriminate]. cbn [option_map fst snd] in *.
  injection H1 as H1. injection H2 as H2. f_equal. f_equal; lia.
Qed.
Lemma ord_nil : forall h (s : odense) ord, lnk h s ord -> d_size (o_d s) = 0 -> ord = [].
Proof. intros h s ord L H0. pose proof (olinks_len _ _ _ _ _ _ _ L) as Hl. rewrite H0 in Hl. destruct ord; [reflexivity|discriminate Hl]. Qed.
Lemma ord_ne : forall h (s : odense) ord, lnk h s ord -> d_size (o_d s) <> 0 -> ord <> [].
Proof. intros h s ord L H0 ->. pose proof (olinks_len _ _ _ _ _ _ _ L) as Hl. pose proof (ol_le _ _ _ _ _ _ _ L). cbn [length] in Hl. lia. Qed.
Lemma mine_dec : forall (s : odense) a, {mine s a} + {~ mine s a}.
Proof. clear - Hsz.
  intros s a. destruct (Z.eq_dec a (o_hdr s)) as [->|Hne]; [left; left; reflexivity|]. destruct (slot_ix (o_base s) sz (d_cap (o_d s)) a) as [i|] eqn:Ei.
  - left. right. exists i. apply slot_ix_inv in Ei; [|exact Hsz]. unfold OrderedDense.slot. tauto.
  - right. apply outside_iff. split; assumption.
Qed.

Lemma o_copy_data_ok : forall nk clone v h (s o : odense) ord d1 b,
  copy_data nk clone (dv_dlim (ov_d v)) (dv_slim (ov_d v)) (o_d s) (o_d o) = Ok (d1, b) ->
  lnk h o ord -> area h s -> d_size (o_d s) = 0 -> d_dok (o_d s) = true -> (forall a, mine s a -> ~ mine o a) -> h (o_hdr s) = h (o_hdr o) -> (b = true -> d_size d1 = d_size (o_d o)) ->
  o_copy_data sz nk clone v h s o = Err BadPlacement \/
  exists h' s', o_copy_data sz nk clone v h s o = Ok (h', s', b) /\ o_d s' = d1 /\ o_hdr s' = o_hdr s /\
    (b = true -> lnk h' s' ord /\ keeps h s h' s') /\ (b = false -> d_cap (o_d s) = 0 -> h' = h).
Proof.
  intros nk clone v h s o ord d1 b Hd L A H0 Hok Hdis Hhd Hsize. unfold o_copy_data. rewrite Hd. cbn [bind].
  destruct (Z.eqb_spec (d_size (o_d o)) 0) as [Ho|Ho].
  - right. exists h, (with_d s d1). split; [reflexivity|]. split; [reflexivity|]. split; [reflexivity|].
    assert (Hx : d1 = set_size (o_d s) 0 /\ b = true).
    { unfold copy_data in Hd. apply bind_Ok in Hd. destruct Hd as (u & _ & Hd). destruct (Z.eqb_spec (d_size (o_d o)) 0) as [_|]; [|contradiction]. injection Hd as <- <-. auto. }
    destruct Hx as (-> & ->). split; [intros _|discriminate]. pose proof (ord_nil _ _ _ L Ho) as ->. split.
    + unfold OrderedProofs.lnk. cbn [with_d o_d o_hdr o_base set_size d_cap d_size]. apply olinks_empty; [apply A|rewrite Hhd; apply empty_link; exact L|apply A|apply A].
    + intros a Ha _. split; [reflexivity|exact Ha].
  - destruct b; cbn [negb andb].
    + specialize (Hsize eq_refl). pose proof (copy_data_cap _ _ _ _ _ _ _ Hd Ho) as Hcap. pose proof (ol_le _ _ _ _ _ _ _ L) as Hle.
      assert (Hnb : o_realloc sz v h s (d_size (o_d o)) false = Err BadPlacement \/
        exists h1 nb, o_realloc sz v h s (d_size (o_d o)) false = Ok (h1, nb) /\ (forall i, 0 <= i < d_cap d1 -> has h1 (nb + i * sz) /\ nb + i * sz <> o_hdr s /\ ~ mine o (nb + i * sz)) /\
          (forall a, mine o a -> h1 a = h a) /\ h1 (o_hdr s) = h (o_hdr s) /\ d_size (o_d o) <= d_cap d1 /\
          (forall a, ~ mine s a -> has h a -> h1 a = h a /\ forall i, 0 <= i < d_cap d1 -> a <> nb + i * sz)).
      { rewrite Hcap. unfold o_realloc. destruct (Z.ltb_spec (d_cap (o_d s)) (d_size (o_d o))) as [Hlt|Hge].
        - set (h0 := unplace h (o_base s) sz (d_cap (o_d s))). assert (Hh0 : forall a, (a = o_hdr s \/ ~ mine s a) -> h0 a = h a).
          { intros a Ha. unfold h0, unplace. assert (Hn : slot_ix (o_base s) sz (d_cap (o_d s)) a = None); [|rewrite Hn; reflexivity]. destruct Ha as [->|Ha]; [|apply slot_ix_mine; exact Ha].
            apply slot_ix_none_intro; [exact Hsz|]. intros i Hi X. apply (ar_ne _ _ A i Hi). symmetry. exact X. }
          destruct (place_cases (ov_junk v) h0 (ov_base v) sz (d_size (o_d o)) Hsz) as [->|(h1 & -> & Hfree & Hnew & Hold)]; cbn [bind]; [left; reflexivity|right].
          exists h1, (ov_base v). split; [reflexivity|].
          assert (Hno : forall a, has h0 a -> slot_ix (ov_base v) sz (d_size (o_d o)) a = None) by (intros a Ha; apply slot_ix_none_intro; [exact Hsz|]; intros i Hi ->; apply Ha; apply Hfree; exact Hi).
          assert (Hso : forall a, mine o a -> h0 a = h a /\ has h0 a) by (intros a Ha; assert (X : h0 a = h a) by (apply Hh0; right; intros Y; exact (Hdis a Y Ha)); split; [exact X|unfold has; rewrite X; apply (mine_has h o ord a L Ha)]).
          assert (Hshd : has h0 (o_hdr s)) by (unfold has; rewrite Hh0 by (left; reflexivity); apply A).
          split; [|split; [|split; [|split; [lia|]]]].
          + intros i Hi. split; [apply Hnew; exact Hi|]. split; [intros X; apply Hshd; rewrite <- X; apply Hfree; exact Hi|]. intros X. apply (proj2 (Hso _ X)). apply Hfree. exact Hi.
          + intros a Ha. rewrite Hold by (apply Hno; apply Hso; exact Ha). apply Hso. exact Ha.
          + rewrite Hold by (apply Hno; exact Hshd). apply Hh0. left. reflexivity.
          + intros a Ha Hh. assert (Hh' : has h0 a) by (unfold has; rewrite Hh0 by (right; exact Ha); exact Hh). split; [rewrite Hold by (apply Hno; exact Hh'); apply Hh0; right; exact Ha|].
            intros i Hi ->. apply Hh'. apply Hfree. exact Hi.
        - right. exists h, (o_base s). split; [reflexivity|]. split; [|split; [reflexivity|split; [reflexivity|split; [lia|]]]].
          + intros i Hi. split; [apply A; exact Hi|]. split; [apply A; exact Hi|]. apply Hdis. right. exists i. auto.
          + intros a Ha Hh. split; [reflexivity|]. intros i Hi X. apply Ha. right. exists i. auto. }
      destruct Hnb as [->|(h1 & nb & -> & N1 & N2 & N3 & N4 & N5)]; cbn [bind]; [left; reflexivity|right].
      assert (Hos : forall i, 0 <= i < d_size (o_d o) -> mine o (o_base o + i * sz)) by (intros i Hi; right; exists i; split; [lia|reflexivity]).
      destruct (copy_links_ok sz Hsz (d_size (o_d o)) h1 nb (o_base o)) as (h2 & -> & C1 & C2).
      * lia.
      * intros i Hi. apply N1. lia.
      * intros i Hi. unfold has. rewrite N2 by (apply Hos; exact Hi). apply (mine_has h o ord _ L). apply Hos. exact Hi.
      * intros i j Hi Hj X. apply (proj2 (proj2 (N1 i ltac:(lia)))). rewrite X. apply Hos. exact Hj.
      * cbn [bind].
        assert (Hord : forall i, In i ord <-> 0 <= i < d_size (o_d o)) by (apply (ol_in _ _ _ _ _ _ _ L)).
        assert (Hhs2 : h2 (o_hdr s) = h1 (o_hdr s)) by (apply C2; intros i Hi X; apply (proj1 (proj2 (N1 i ltac:(lia)))); symmetry; exact X).
        destruct (copied_ring sz Hsz h (o_hdr o) (o_base o) (o_hdr s) nb ord h2) as (front & back & h3 & -> & -> & E3 & R3 & O3).
        -- apply (ord_ne _ _ _ L Ho).
        -- apply (ol_ring _ _ _ _ _ _ _ L).
        -- intros i Hi. apply Hord in Hi. rewrite C1 by exact Hi. apply N2. apply Hos. exact Hi.
        -- rewrite C2; [apply N2; left; reflexivity|]. intros i Hi X. apply (proj2 (proj2 (N1 i ltac:(lia)))). rewrite <- X. left. reflexivity.
        -- unfold has. rewrite Hhs2, N3. apply A.
        -- intros X. apply in_map_iff in X. destruct X as (i & X & Hi). apply Hord in Hi. apply (proj1 (proj2 (N1 i ltac:(lia)))). exact X.
        -- cbn [bind]. rewrite E3. cbn [bind]. eexists _, _. split; [reflexivity|]. split; [reflexivity|]. split; [reflexivity|]. split; [intros _|discriminate]. split.
           ++ unfold OrderedProofs.lnk. cbn [o_d o_hdr o_base]. rewrite Hsize. constructor; [exact R3|apply (ol_nd _ _ _ _ _ _ _ L)|exact Hord|lia| |].
              ** intros i Hi. apply O3. destruct (Z_lt_dec i (d_size (o_d o))) as [Hi1|Hi1].
                 --- unfold has. rewrite C1 by lia. rewrite N2 by (apply Hos; lia). apply (mine_has h o ord _ L). apply Hos. lia.
                 --- unfold has. rewrite C2 by (intros j Hj X; apply slot_inj in X; [lia|exact Hsz]). apply N1. exact Hi.
              ** intros i Hi. apply N1. exact Hi.
           ++ intros a Ha Hh. destruct (N5 a Ha Hh) as (X1 & X2). assert (Hahd : a <> o_hdr s) by (intros X; apply Ha; left; exact X). split.
              ** rewrite (proj1 O3); [rewrite C2 by (intros i Hi; apply X2; lia); exact X1|]. intros [Y|Y]; [congruence|]. apply in_map_iff in Y. destruct Y as (i & Y & Hi). apply Hord in Hi. apply (X2 i); [lia|]. symmetry. exact Y.
              ** intros [Y|(i & Hi & Y)]; [exact (Hahd Y)|]. apply (X2 i Hi). exact Y.
    + right. destruct (d_dok d1) eqn:Ed; cbn [negb andb].
      * eexists _, _. split; [reflexivity|]. split; [reflexivity|]. split; [reflexivity|]. split; [discriminate|]. reflexivity.
      * assert (Hc0 : d_cap (o_d s) <> 0) by (intros Hc; pose proof (copy_data_fail _ _ _ _ _ _ _ Hd Ho Hc); congruence).
        unfold o_realloc. destruct (d_cap (o_d s) <? d_size (o_d o)); cbn [bind negb]; (eexists _, _; split; [reflexivity|]; split; [reflexivity|]; split; [reflexivity|]; split; [discriminate|contradiction]).
Qed.

(** ** Moving and exchanging. *)
Lemma in_ring : forall h (s : odense) ord, lnk h s ord -> forall a, In a (o_hdr s :: map (slot s) ord) -> mine s a.
Proof. intros h s ord L a Ha. apply (ring_mine h s ord a L Ha). Qed.

Lemma moved_ok : forall h (s o : odense) os oo (p : bool) d1 d2, lnk h s os -> lnk h o oo -> (forall a, mine s a -> ~ mine o a) ->
  d_cap d1 = d_cap (o_d o) -> d_size d1 = d_size (o_d o) -> d_cap d2 = (if p then 0 else d_cap (o_d s)) -> d_size d2 = 0 ->
  exists h1, relink_from h (o_hdr s) (o_hdr o) = Ok h1 /\
  forall h2 b2, h2 = (if p then unplace h1 (o_base s) sz (d_cap (o_d s)) else h1) -> b2 = (if p then 0 else o_base s) ->
  lnk h2 (mko d1 (o_hdr s) (o_base o)) oo /\ lnk h2 (mko d2 (o_hdr o) b2) [] /\
  (forall a, mine (mko d1 (o_hdr s) (o_base o)) a -> ~ mine (mko d2 (o_hdr o) b2) a) /\
  (forall a, ~ mine s a -> ~ mine o a -> has h a -> h2 a = h a /\ ~ mine (mko d1 (o_hdr s) (o_base o)) a /\ ~ mine (mko d2 (o_hdr o) b2) a).
Proof.
  intros h s o os oo p d1 d2 Ls Lo Hdis Hc1 Hs1 Hc2 Hs2.
  assert (Hms : mine s (o_hdr s)) by (left; reflexivity). assert (Hmo : mine o (o_hdr o)) by (left; reflexivity).
  destruct (ring_move h (o_hdr s) (o_hdr o) (map (slot o) oo)) as (h1 & -> & R & O & Z0).
  - apply (ol_ring _ _ _ _ _ _ _ Lo).
  - intros X. apply (Hdis _ Hms). apply (in_ring h o oo Lo). exact X.
  - apply (olinks_hdr _ _ _ _ _ _ _ Ls).
  - exists h1. split; [reflexivity|]. intros h2 b2 Hh2 Hb2.
    assert (Hslot : forall i, 0 <= i < d_cap (o_d s) -> mine s (slot s i)) by (intros i Hi; right; exists i; auto).
    assert (Hun : forall a, a = o_hdr s \/ ~ mine s a -> h2 a = h1 a).
    { intros a Ha. subst h2. destruct p; [|reflexivity]. unfold unplace. assert (Hn : slot_ix (o_base s) sz (d_cap (o_d s)) a = None); [|rewrite Hn; reflexivity]. destruct Ha as [->|Ha]; [|apply slot_ix_mine; exact Ha].
      apply slot_ix_none_intro; [exact Hsz|]. intros i Hi X. apply (ol_hdr _ _ _ _ _ _ _ Ls i Hi). symmetry. exact X. }
    assert (Ho : forall a, mine o a -> h2 a = h1 a) by (intros a Ha; apply Hun; right; intros X; apply (Hdis a X Ha)).
    assert (Hnew : forall a, mine (mko d1 (o_hdr s) (o_base o)) a <-> a = o_hdr s \/ exists i, 0 <= i < d_cap (o_d o) /\ a = slot o i) by (intros a; unfold mine; cbn [o_hdr o_d]; rewrite Hc1; reflexivity).
    assert (Hold : forall a, mine (mko d2 (o_hdr o) b2) a -> a = o_hdr o \/ exists i, 0 <= i < d_cap (o_d s) /\ a = slot s i).
    { intros a [X|(i & Hi & X)]; [left; exact X|right]. cbn [o_d] in Hi. rewrite Hc2 in Hi. destruct p; [lia|]. exists i. split; [exact Hi|]. rewrite X, Hb2. reflexivity. }
    split; [|split; [|split]].
    + constructor; cbn [o_d o_hdr o_base]; rewrite ?Hc1, ?Hs1.
      * apply (ring_frame h1); [| |exact R]; intros y Hy; (unfold nx, pv; rewrite Hun; [reflexivity|]); (destruct Hy as [Hy|Hy]; [left; symmetry; exact Hy|right; intros X; apply (Hdis y X); apply (in_ring h o oo Lo); right; exact Hy]).
      * apply (ol_nd _ _ _ _ _ _ _ Lo).
      * apply (ol_in _ _ _ _ _ _ _ Lo).
      * apply (ol_le _ _ _ _ _ _ _ Lo).
      * intros i Hi. unfold has. rewrite Ho by (right; exists i; auto). apply O. apply (ol_has _ _ _ _ _ _ _ Lo). exact Hi.
      * intros i Hi X. apply (Hdis (o_hdr s) Hms). right. exists i. auto.
    + unfold OrderedProofs.lnk. cbn [o_d o_hdr o_base]. rewrite Hs2, Hc2. pose proof (olinks_cap _ _ _ _ _ _ _ Ls) as Hcs. apply olinks_empty.
      * destruct p; lia.
      * rewrite Ho by exact Hmo. exact Z0.
      * intros i Hi. subst h2 b2. destruct p; [lia|]. apply O. apply (ol_has _ _ _ _ _ _ _ Ls). exact Hi.
      * intros i Hi X. subst b2. destruct p; [lia|]. apply (Hdis (o_hdr o)); [right; exists i; split; [exact Hi|symmetry; exact X]|exact Hmo].
    + intros a Ha Hb. apply Hnew in Ha. apply Hold in Hb. destruct Ha as [->|(i & Hi & ->)], Hb as [Hb|(k & Hk & Hb)].
      * apply (Hdis _ Hms). left. exact Hb.
      * apply (ol_hdr _ _ _ _ _ _ _ Ls k Hk). symmetry. exact Hb.
      * apply (ol_hdr _ _ _ _ _ _ _ Lo i Hi). exact Hb.
      * apply (Hdis (slot o i)); [rewrite Hb; apply Hslot; exact Hk|right; exists i; auto].
    + intros a Ha Hb Hh. split; [|split].
      * rewrite Hun by (right; exact Ha). apply O. intros [X|X]; [apply Ha; left; symmetry; exact X|]. apply Hb. apply (in_ring h o oo Lo). exact X.
      * intros X. apply Hnew in X. destruct X as [X|(i & Hi & X)]; [apply Ha; left; exact X|apply Hb; right; exists i; auto].
      * intros X. apply Hold in X. destruct X as [X|(i & Hi & X)]; [apply Hb; left; exact X|apply Ha; right; exists i; auto].
Qed.

Lemma swapped_ok : forall h (s o : odense) os oo, lnk h s os -> lnk h o oo -> (forall a, mine s a -> ~ mine o a) -> d_size (o_d s) <> 0 -> d_size (o_d o) <> 0 ->
  exists h1, swap_links h (o_hdr s) (o_hdr o) = Ok h1 /\
  lnk h1 (mko (o_d o) (o_hdr s) (o_base o)) oo /\ lnk h1 (mko (o_d s) (o_hdr o) (o_base s)) os /\
  (forall a, mine (mko (o_d o) (o_hdr s) (o_base o)) a -> ~ mine (mko (o_d s) (o_hdr o) (o_base s)) a) /\
  (forall a, ~ mine s a -> ~ mine o a -> has h a -> h1 a = h a /\ ~ mine (mko (o_d o) (o_hdr s) (o_base o)) a /\ ~ mine (mko (o_d s) (o_hdr o) (o_base s)) a).
Proof.
  intros h s o os oo Ls Lo Hdis H0s H0o.
  assert (Hms : mine s (o_hdr s)) by (left; reflexivity). assert (Hmo : mine o (o_hdr o)) by (left; reflexivity).
  destruct (swap_ok h (o_hdr s) (map (slot s) os) (o_hdr o) (map (slot o) oo)) as (h1 & -> & R1 & R2 & O).
  - intros X. apply map_eq_nil in X. exact (ord_ne _ _ _ Ls H0s X).
  - intros X. apply map_eq_nil in X. exact (ord_ne _ _ _ Lo H0o X).
  - apply (ol_ring _ _ _ _ _ _ _ Ls).
  - apply (ol_ring _ _ _ _ _ _ _ Lo).
  - intros y Hy X. apply (Hdis y); [apply (in_ring h s os Ls); exact Hy|apply (in_ring h o oo Lo); exact X].
  - exists h1. split; [reflexivity|]. split; [|split; [|split]].
    + constructor; cbn [o_d o_hdr o_base]; [exact R1|apply (ol_nd _ _ _ _ _ _ _ Lo)|apply (ol_in _ _ _ _ _ _ _ Lo)|apply (ol_le _ _ _ _ _ _ _ Lo)| |].
      * intros i Hi. apply O. apply (ol_has _ _ _ _ _ _ _ Lo). exact Hi.
      * intros i Hi X. apply (Hdis (o_hdr s) Hms). right. exists i. auto.
    + constructor; cbn [o_d o_hdr o_base]; [exact R2|apply (ol_nd _ _ _ _ _ _ _ Ls)|apply (ol_in _ _ _ _ _ _ _ Ls)|apply (ol_le _ _ _ _ _ _ _ Ls)| |].
      * intros i Hi. apply O. apply (ol_has _ _ _ _ _ _ _ Ls). exact Hi.
      * intros i Hi X. apply (Hdis (o_hdr o)); [right; exists i; auto|exact Hmo].
    + intros a [Ha|(i & Hi & Ha)] [Hb|(k & Hk & Hb)]; cbn [o_d o_hdr] in *.
      * apply (Hdis _ Hms). left. congruence.
      * apply (ol_hdr _ _ _ _ _ _ _ Ls k Hk). rewrite <- Ha. symmetry. exact Hb.
      * apply (ol_hdr _ _ _ _ _ _ _ Lo i Hi). rewrite <- Hb. symmetry. exact Ha.
      * apply (Hdis a); right; [exists k|exists i]; auto.
    + intros a Ha Hb Hh. split; [|split].
      * apply O. intros X. apply in_app_or in X. destruct X as [X|X]; [apply Ha; apply (in_ring h s os Ls); exact X|apply Hb; apply (in_ring h o oo Lo); exact X].
      * intros [X|(i & Hi & X)]; cbn [o_d o_hdr] in *; [apply Ha; left; exact X|apply Hb; right; exists i; auto].
      * intros [X|(i & Hi & X)]; cbn [o_d o_hdr] in *; [apply Hb; left; exact X|apply Ha; right; exists i; auto].
Qed.

(** A destroyed container. *)
Lemma destroyed : forall h (s : odense), o_destroy sz h s (o_hdr s) = Some (0, 0) /\ keeps h s (o_destroy sz h s) (o_new (o_hdr s)).
Proof.
  intros h s. split; [unfold o_destroy; apply upd_same|]. intros a Ha Hh. split.
  - unfold o_destroy. rewrite upd_other by (intros X; apply Ha; left; exact X). unfold unplace. rewrite (slot_ix_mine s a Ha). reflexivity.
  - intros [X|(i & Hi & _)]; [apply Ha; left; exact X|cbn in Hi; lia].
Qed.
End Links.

Section Proofs.
Context {E K : Type}.
Variable sz : Z.
Variable nk : nat.
Variable key_of : nat -> E -> K.
Variable hash : K -> Z.
Variable keq : K -> K -> bool.
Variable rep : E -> E -> E.
Variable clone : E -> E.
Variables pocca pocma : bool.
Hypothesis Hsz : 0 < sz.
Notation odense := (odense E).
Notation dense := (dense E).
Notation dwf := (dwf nk key_of hash keq).
Notation lnk := (lnk sz). Notation slot := (slot sz). Notation mine := (mine sz). Notation keeps := (keeps sz).
Notation oinv := (oinv sz nk key_of hash keq).

Lemma oinv_same : forall h h' s ord, oinv h s ord -> (forall a, mine s a -> h' a = h a) -> oinv h' s ord.
Proof. intros h h' s ord (W & L) H. split; [exact W|apply (lnk_same sz h); assumption]. Qed.

(** ** Several containers. *)
Definition winv (h : heap) (w : nat -> odense) (ords : nat -> list Z) : Prop :=
  (forall i, oinv h (w i) (ords i)) /\ (forall i j a, i <> j -> mine (w i) a -> ~ mine (w j) a).

Lemma set1 : forall h w ords i h' s' ord', winv h w ords -> oinv h' s' ord' -> keeps h (w i) h' s' -> winv h' (setn w i s') (setn ords i ord').
Proof.
  intros h w ords i h' s' ord' (H1 & H2) Hs Hk.
  assert (Hj : forall j a, j <> i -> mine (w j) a -> h' a = h a /\ ~ mine s' a) by (intros j a Hne Ha; apply Hk; [apply (H2 j i a Hne Ha)|apply (mine_has sz _ _ _ a (proj2 (H1 j)) Ha)]).
  split.
  - intros j. unfold setn. destruct (Nat.eqb_spec j i) as [->|Hne]; [exact Hs|]. apply (oinv_same h); [apply H1|]. intros a Ha. apply (Hj j a Hne Ha).
  - intros j k a Hjk. unfold setn. destruct (Nat.eqb_spec j i) as [->|Hji], (Nat.eqb_spec k i) as [->|Hki]; intros Hm.
    + congruence.
    + intros X. apply (proj2 (Hj k a Hki X)). exact Hm.
    + apply (Hj j a Hji Hm).
    + apply (H2 j k a Hjk Hm).
Qed.
Lemma set2 : forall h w ords i j h' s' si o' oj, winv h w ords -> i <> j -> oinv h' s' si -> oinv h' o' oj -> (forall a, mine s' a -> ~ mine o' a) ->
  (forall a, ~ mine (w i) a -> ~ mine (w j) a -> has h a -> h' a = h a /\ ~ mine s' a /\ ~ mine o' a) ->
  winv h' (setn (setn w i s') j o') (setn (setn ords i si) j oj).
Proof.
  intros h w ords i j h' s' si o' oj (H1 & H2) Hij Hs Ho Hd Hk.
  assert (Hx : forall k a, k <> i -> k <> j -> mine (w k) a -> h' a = h a /\ ~ mine s' a /\ ~ mine o' a).
  { intros k a Hki Hkj Ha. apply Hk; [apply (H2 k i a Hki Ha)|apply (H2 k j a Hkj Ha)|apply (mine_has sz _ _ _ a (proj2 (H1 k)) Ha)]. }
  split.
  - intros k. unfold setn. destruct (Nat.eqb_spec k j) as [->|Hkj]; [exact Ho|]. destruct (Nat.eqb_spec k i) as [->|Hki]; [exact Hs|]. apply (oinv_same h); [apply H1|]. intros a Ha. apply (Hx k a Hki Hkj Ha).
  - intros k l a Hkl. unfold setn. destruct (Nat.eqb_spec k j) as [->|Hkj], (Nat.eqb_spec l j) as [->|Hlj]; [congruence| | |].
    + destruct (Nat.eqb_spec l i) as [->|Hli]; intros Hm X; [apply (Hd a X Hm)|]. apply (proj2 (proj2 (Hx l a Hli Hlj X))). exact Hm.
    + destruct (Nat.eqb_spec k i) as [->|Hki]; intros Hm; [apply (Hd a Hm)|]. apply (Hx k a Hki Hkj Hm).
    + destruct (Nat.eqb_spec k i) as [->|Hki], (Nat.eqb_spec l i) as [->|Hli]; intros Hm.
      * congruence.
      * intros X. apply (proj1 (proj2 (Hx l a Hli Hlj X))). exact Hm.
      * apply (Hx k a Hki Hkj Hm).
      * apply (H2 k l a Hkl Hm).
Qed.


Hypothesis KL : key_laws hash keq.
Hypothesis rep_key : forall x e, key_of 0%nat (rep x e) = key_of 0%nat x.
Hypothesis clone_key : forall j e, (j < nk)%nat -> key_of j (clone e) = key_of j e.
Notation yexec := (yexec sz nk key_of hash keq rep clone pocca pocma).
Notation yblocked := (yblocked sz nk key_of hash keq rep clone pocca pocma).
Notation yspec := (yspec nk key_of keq rep clone).
Notation yspec_run := (yspec_run nk key_of keq rep clone).
Notation yrun := (yrun sz nk key_of hash keq rep clone pocca pocma).

Definition conts (w : nat -> odense) (ords : nat -> list Z) : nat -> list E := fun i => ocont (w i) (ords i).
Lemma setn_same : forall A (f : nat -> A) i x, setn f i x i = x. Proof. intros. unfold setn. rewrite Nat.eqb_refl. reflexivity. Qed.
Lemma setn_other : forall A (f : nat -> A) i j x, j <> i -> setn f i x j = f j. Proof. intros A f i j x H. unfold setn. destruct (Nat.eqb_spec j i); [contradiction|reflexivity]. Qed.
Lemma conts_same : forall w ords i s ord, conts (setn w i s) (setn ords i ord) i = ocont s ord. Proof. intros. unfold conts. rewrite !setn_same. reflexivity. Qed.
Lemma conts_others1 : forall w ords i s ord, yothers [i] (conts w ords) (conts (setn w i s) (setn ords i ord)).
Proof. intros w ords i s ord j Hj. unfold conts. rewrite !setn_other by (intros ->; apply Hj; left; reflexivity). reflexivity. Qed.
Lemma conts_others2 : forall w ords i s ord j o oo, yothers [i; j] (conts w ords) (conts (setn (setn w i s) j o) (setn (setn ords i ord) j oo)).
Proof. intros w ords i s ord j o oo k Hk. unfold conts. rewrite !setn_other by (intros ->; apply Hk; cbn; auto). reflexivity. Qed.

Lemma conts_first : forall w ords i s ord j o oo, i <> j -> conts (setn (setn w i s) j o) (setn (setn ords i ord) j oo) i = ocont s ord.
Proof. intros w ords i s ord j o oo H. unfold conts. rewrite !(setn_other _ _ j i) by exact H. rewrite !setn_same. reflexivity. Qed.

(** The container [i] destroyed and default constructed. *)
Lemma renewed : forall h w ords i, winv h w ords -> winv (o_destroy sz h (w i)) (setn w i (o_new (o_hdr (w i)))) (setn ords i []).
Proof. intros h w ords i H. destruct (destroyed sz Hsz h (w i)) as (D1 & D2). apply (set1 h); [exact H|apply new_inv; exact D1|exact D2]. Qed.

(** The elements of a copy or of a moved table. *)
Lemma elems_cont : forall (s o : odense) ord, delems (o_d s) = map clone (delems (o_d o)) -> ocont s ord = map clone (ocont o ord).
Proof. intros s o ord H. unfold ocont. rewrite H. apply pick_map. Qed.
Lemma wf_len : forall d : dense, dwf d -> d_size d = Z.of_nat (length (delems d)).
Proof. intros d W. rewrite (delems_len nk key_of hash keq _ W). pose proof (w_size _ _ _ _ _ W). lia. Qed.
Lemma copy_size : forall d d' : dense, dwf d -> dwf d' -> delems d' = map clone (delems d) -> d_size d' = d_size d.
Proof. intros d d' W W' H. rewrite (wf_len d W), (wf_len d' W'), H, map_length. reflexivity. Qed.

(** A copy of the links made before copying the elements. *)
Lemma header_copied : forall h (s o : odense) ord, lnk h o ord -> has h (o_hdr s) -> exists h1, copy_link h (o_hdr s) (o_hdr o) = Ok h1 /\ h1 (o_hdr s) = h (o_hdr o) /\ forall a, a <> o_hdr s -> h1 a = h a.
Proof.
  intros h s o ord L Hs. pose proof (olinks_hdr _ _ _ _ _ _ _ L) as Ho. unfold has in *. unfold copy_link, get_link. destruct (h (o_hdr o)) as [x|] eqn:Ex; [|contradiction]. destruct (h (o_hdr s)) as [y|]; [|contradiction].
  cbn [bind]. eexists. split; [reflexivity|]. split; [apply upd_same|]. intros a Ha. apply upd_other. exact Ha.
Qed.

Lemma copy_new_step : forall v h w ords i j, winv h w ords -> denv_ok (ov_d v) -> i <> j ->
  yexec v (h, w) (YCopyNew i j) = Err BadPlacement \/
  exists h' w' ords' r, yexec v (h, w) (YCopyNew i j) = Ok (h', w', r) /\ winv h' w' ords' /\ yspec (YCopyNew i j) (conts w ords) (conts w' ords') r.
Proof.
  intros v h w ords i j H V Hij. pose proof (renewed h w ords i H) as H0. set (h0 := o_destroy sz h (w i)) in *. set (n := o_new (o_hdr (w i)) : odense) in *.
  assert (Hi0 : oinv h0 n []) by (pose proof (proj1 H0 i) as X; rewrite !setn_same in X; exact X).
  assert (Hj0 : oinv h0 (w j) (ords j)) by (pose proof (proj1 H0 j) as X; rewrite !setn_other in X by congruence; exact X).
  assert (Hdis : forall a, mine n a -> ~ mine (w j) a) by (intros a; pose proof (proj2 H0 i j a Hij) as X; rewrite setn_same, setn_other in X by congruence; exact X).
  destruct Hj0 as (Wj & Lj). destruct Hi0 as (Wi & Li). cbn [OrderedWorld.yexec]. fold h0. unfold o_copy_ctor.
  destruct (header_copied h0 n (w j) (ords j) Lj (olinks_hdr _ _ _ _ _ _ _ Li)) as (h1 & Hcl & C1 & C2). change (o_hdr n) with (o_hdr (w i)) in Hcl. rewrite Hcl. cbn [bind].
  set (m := mko (set_mlf empty_dense (d_mlf (o_d (w j)))) (o_hdr (w i)) 0 : odense).
  assert (Hmm : forall a, mine m a <-> mine n a) by (intros a; reflexivity).
  assert (Hj1 : forall a, mine (w j) a -> h1 a = h0 a) by (intros a Ha; apply C2; intros ->; apply (Hdis (o_hdr n)); [left; reflexivity|exact Ha]).
  destruct (copy_ctor_ok nk key_of hash keq clone clone_key (dv_dlim (ov_d v)) (dv_slim (ov_d v)) (o_d (w j)) (proj1 V) (proj2 V) Wj) as (d1 & b & Hd & Hb). unfold copy_ctor in Hd.
  destruct (o_copy_data_ok sz Hsz nk clone v h1 m (w j) (ords j) d1 b Hd) as [->|(h' & s' & -> & Hs & Hh & Ht & Hf)].
  - apply (lnk_same sz h0); [exact Lj|exact Hj1].
  - constructor; cbn [m o_d o_hdr set_mlf empty_dense d_cap]; try lia. unfold has. change (o_hdr (w i)) with (o_hdr n). rewrite C1. apply (olinks_hdr _ _ _ _ _ _ _ Lj).
  - reflexivity.
  - reflexivity.
  - intros a Ha. apply Hdis. apply Hmm. exact Ha.
  - change (o_hdr m) with (o_hdr n). rewrite C1, (Hj1 (o_hdr (w j))) by (left; reflexivity). reflexivity.
  - intros ->. destruct (Hb eq_refl) as (W1 & He). apply copy_size; assumption.
  - left. reflexivity.
  - right. cbn [bind]. destruct b.
    + destruct (Ht eq_refl) as (L' & K'). destruct (Hb eq_refl) as (W' & He). exists h', (setn w i s'), (setn ords i (ords j)), YDone. split; [reflexivity|]. split.
      * apply (set1 h); [exact H|split; [rewrite Hs; exact W'|exact L']|]. intros a Ha Hha. destruct (proj2 (destroyed sz Hsz h (w i)) a Ha Hha) as (D1 & D2). fold h0 in D1. fold n in D2.
        assert (Hne : a <> o_hdr n) by (intros X; apply D2; left; exact X).
        destruct (K' a) as (K1 & K2); [rewrite Hmm; exact D2|unfold has; rewrite C2, D1 by exact Hne; exact Hha|]. split; [|exact K2]. rewrite K1, C2, D1 by exact Hne. reflexivity.
      * apply ys_copy_new; [|apply conts_others1]. rewrite conts_same. apply elems_cont. rewrite Hs. exact He.
    + rewrite (Hf eq_refl eq_refl). eexists _, _, (setn ords i []), YThrow. split; [reflexivity|]. split; [|apply ys_copy_new_throw; [rewrite conts_same; reflexivity|apply conts_others1]].
      apply (set1 h); [exact H|apply new_inv; apply upd_same|]. intros a Ha Hha. destruct (proj2 (destroyed sz Hsz h (w i)) a Ha Hha) as (D1 & D2). fold h0 in D1. fold n in D2.
      assert (Hne : a <> o_hdr n) by (intros X; apply D2; left; exact X). split; [|exact D2]. rewrite upd_other by exact Hne. rewrite C2 by exact Hne. exact D1.
Qed.

Lemma copy_step' : forall v h w ords i j, winv h w ords -> denv_ok (ov_d v) -> i <> j ->
  yblocked v (h, w) (YCopy i j) \/
  exists h' w' ords' r, yexec v (h, w) (YCopy i j) = Ok (h', w', r) /\ winv h' w' ords' /\ yspec (YCopy i j) (conts w ords) (conts w' ords') r.
Proof.
  intros v h w ords i j H V Hij. destruct (proj1 H i) as (Wi & Li). destruct (proj1 H j) as (Wj & Lj). pose proof (fun a => proj2 H i j a Hij) as Hdis.
  assert (Hcase : (pocca = false /\ d_size (o_d (w j)) = 0 /\ d_size (o_d (w i)) <> 0) \/ (pocca = true \/ 0 < d_size (o_d (w j)) \/ d_size (o_d (w i)) = 0)).
  { pose proof (w_size _ _ _ _ _ Wj). destruct pocca; [auto|]. destruct (Z.eq_dec (d_size (o_d (w j))) 0), (Z.eq_dec (d_size (o_d (w i))) 0); auto. right. right. left. lia. }
  destruct Hcase as [Hcase|Hcase]; [left; right; cbn [snd]; left; exact Hcase|].
  destruct (copy_assign_ok nk key_of hash keq clone clone_key pocca (dv_dlim (ov_d v)) (dv_slim (ov_d v)) (o_d (w i)) (o_d (w j)) (proj1 V) (proj2 V) Wi Wj Hcase) as (d2 & b & Hd & Hb).
  destruct (cleared_hollow nk key_of hash keq (o_d (w i)) (d_mlf (o_d (w j))) Wi) as (d1 & Hcl & Hh & Hq & Hcap & Hbc & Hsp). unfold copy_assign in Hd. rewrite Hcl in Hd. cbn [bind] in Hd.
  assert (He : yexec v (h, w) (YCopy i j) = let* x := o_copy_assign sz nk clone pocca v h (w i) (w j) in let '(h1, s, b) := x in Ok (h1, setn w i s, if b : bool then YDone else YThrow)) by (cbn [OrderedWorld.yexec]; destruct (Nat.eqb_spec i j); [contradiction|reflexivity]).
  unfold OrderedWorld.yblocked. rewrite He. clear He. unfold o_copy_assign. destruct (header_copied h (w i) (w j) (ords j) Lj (olinks_hdr _ _ _ _ _ _ _ Li)) as (h1 & -> & C1 & C2). cbn [bind]. rewrite Hcl. cbn [bind].
  assert (Hj1 : forall a, mine (w j) a -> h1 a = h a) by (intros a Ha; apply C2; intros ->; apply (Hdis (o_hdr (w i))); [left; reflexivity|exact Ha]).
  destruct (o_release sz pocca h1 (with_d (w i) d1)) as (h2, s2) eqn:Er.
  assert (Hr : o_d s2 = release pocca d1 /\ o_hdr s2 = o_hdr (w i) /\ (forall a, mine s2 a -> mine (w i) a) /\ (forall a, a = o_hdr (w i) \/ ~ mine (w i) a -> h2 a = h1 a) /\ area sz h2 s2).
  { unfold o_release in Er. destruct pocca; injection Er as <- <-.
    - split; [reflexivity|]. split; [reflexivity|]. split; [intros a [X|(k & Hk & _)]; [left; exact X|cbn in Hk; lia]|].
      assert (Hu : forall a, a = o_hdr (w i) \/ ~ mine (w i) a -> unplace h1 (o_base (w i)) sz (d_cap d1) a = h1 a).
      { intros a Ha. unfold unplace. rewrite Hcap. assert (Hn : slot_ix (o_base (w i)) sz (d_cap (o_d (w i))) a = None); [|rewrite Hn; reflexivity]. destruct Ha as [->|Ha]; [|apply slot_ix_mine; [exact Hsz|exact Ha]].
        apply slot_ix_none_intro; [exact Hsz|]. intros k Hk X. apply (ol_hdr _ _ _ _ _ _ _ Li k Hk). symmetry. exact X. }
      split; [exact Hu|]. constructor; cbn [o_d o_hdr release d_cap]; try lia. unfold has. cbn [with_d o_d o_hdr o_base]. rewrite Hu by (left; reflexivity). rewrite C1. apply (olinks_hdr _ _ _ _ _ _ _ Lj).
    - split; [reflexivity|]. split; [reflexivity|]. split; [intros a [X|(k & Hk & X)]; [left; exact X|right; exists k; split; [cbn [with_d o_d] in Hk; rewrite Hcap in Hk; exact Hk|exact X]]|]. split; [reflexivity|].
      constructor; cbn [with_d o_d o_hdr]; rewrite ?Hcap.
      + unfold has. rewrite C1. apply (olinks_hdr _ _ _ _ _ _ _ Lj).
      + intros k Hk. unfold has. change (OrderedDense.slot sz (with_d (w i) d1) k) with (slot (w i) k). rewrite C2 by (apply (ol_hdr _ _ _ _ _ _ _ Li); exact Hk). apply (ol_has _ _ _ _ _ _ _ Li). exact Hk.
      + intros k Hk. apply (ol_hdr _ _ _ _ _ _ _ Li). exact Hk.
      + apply (olinks_cap _ _ _ _ _ _ _ Li). }
  destruct Hr as (R1 & R2 & R3 & R4 & R5).
  assert (Hj2 : forall a, mine (w j) a -> h2 a = h a) by (intros a Ha; rewrite R4 by (right; intros X; exact (Hdis a X Ha)); apply Hj1; exact Ha).
  rewrite <- R1 in Hd.
  destruct (o_copy_data_ok sz Hsz nk clone v h2 s2 (w j) (ords j) d2 b Hd) as [->|(h' & s' & -> & Hs & Hhd & Ht & Hf)].
  - apply (lnk_same sz h); [exact Lj|exact Hj2].
  - exact R5.
  - rewrite R1. destruct pocca; exact (ho_size _ Hh).
  - rewrite R1. destruct pocca; [reflexivity|exact (ho_dok _ Hh)].
  - intros a Ha. apply Hdis. apply R3. exact Ha.
  - rewrite R2, R4 by (left; reflexivity). rewrite C1, (Hj2 (o_hdr (w j))) by (left; reflexivity). reflexivity.
  - intros ->. destruct (Hb eq_refl) as (W1 & He). apply copy_size; assumption.
  - left. left. reflexivity.
  - cbn [bind]. destruct b; [right|left; right; right; eexists; reflexivity].
    destruct (Ht eq_refl) as (L' & K'). destruct (Hb eq_refl) as (W' & He). exists h', (setn w i s'), (setn ords i (ords j)), YDone. split; [reflexivity|]. split.
    + apply (set1 h); [exact H|split; [rewrite Hs; exact W'|exact L']|]. intros a Ha Hha. assert (Hne : a <> o_hdr (w i)) by (intros X; apply Ha; left; exact X).
      assert (Hx : h2 a = h a) by (rewrite R4 by (right; exact Ha); apply C2; exact Hne). destruct (K' a) as (K1 & K2); [intros X; apply Ha; apply R3; exact X|unfold has; rewrite Hx; exact Hha|]. split; [rewrite K1; exact Hx|exact K2].
    + apply ys_copy; [exact Hij| |apply conts_others1]. rewrite conts_same. apply elems_cont. rewrite Hs. exact He.
Qed.

Lemma move_new_step : forall v h w ords i j, winv h w ords -> i <> j ->
  exists h' w' ords' r, yexec v (h, w) (YMoveNew i j) = Ok (h', w', r) /\ winv h' w' ords' /\ yspec (YMoveNew i j) (conts w ords) (conts w' ords') r.
Proof.
  intros v h w ords i j H Hij. pose proof (renewed h w ords i H) as H0. set (h0 := o_destroy sz h (w i)) in *. set (n := o_new (o_hdr (w i)) : odense) in *.
  assert (Hi0 : oinv h0 n []) by (pose proof (proj1 H0 i) as X; rewrite !setn_same in X; exact X).
  assert (Hj0 : oinv h0 (w j) (ords j)) by (pose proof (proj1 H0 j) as X; rewrite !setn_other in X by congruence; exact X).
  assert (Hdis : forall a, mine n a -> ~ mine (w j) a) by (intros a; pose proof (proj2 H0 i j a Hij) as X; rewrite setn_same, setn_other in X by congruence; exact X).
  destruct Hj0 as (Wj & Lj). destruct Hi0 as (Wi & Li). cbn [OrderedWorld.yexec]. fold h0. unfold o_move_ctor.
  destruct (move_ctor_ok nk key_of hash keq (dv_dlim (ov_d v)) (dv_slim (ov_d v)) (o_d (w j)) Wj) as (d1 & d2 & Hd & W1 & E1 & W2 & E2). unfold move_ctor in Hd. cbn [move_from] in Hd. injection Hd as Hd1 Hd2.
  destruct (moved_ok sz Hsz h0 n (w j) [] (ords j) false d1 d2 Li Lj Hdis) as (h1 & Hl & Hres).
  - rewrite <- Hd1. reflexivity.
  - rewrite <- Hd1. reflexivity.
  - rewrite <- Hd2. reflexivity.
  - rewrite <- Hd2. reflexivity.
  - change (o_hdr (w i)) with (o_hdr n). rewrite Hl. cbn [bind]. unfold o_move_from. cbn [o_d o_hdr o_base swap_buffers bind]. subst d1 d2. cbn [fst snd swap_buffers] in *.
    destruct (Hres _ _ eq_refl eq_refl) as (L1 & L2 & Hd' & Hk). cbn [n o_new o_base] in *. eexists _, _, (setn (setn ords i (ords j)) j []), YDone. split; [reflexivity|]. split.
    + apply (set2 h); [exact H|exact Hij|split; [exact W1|exact L1]|split; [exact W2|exact L2]|exact Hd'|].
      intros a Ha1 Ha2 Hh. destruct (proj2 (destroyed sz Hsz h (w i)) a Ha1 Hh) as (D1 & D2). fold h0 in D1. destruct (Hk a D2 Ha2) as (K1 & K2); [unfold has; rewrite D1; exact Hh|]. split; [rewrite K1; exact D1|exact K2].
    + apply ys_move_new; [| |apply conts_others2].
      * rewrite conts_first by exact Hij. exact (f_equal (fun l => pick l (ords j)) E1).
      * rewrite conts_same. reflexivity.
Qed.

Lemma move_step' : forall v h w ords i j, winv h w ords -> i <> j -> pocma = true \/ d_size (o_d (w i)) = 0 ->
  exists h' w' ords' r, yexec v (h, w) (YMove i j) = Ok (h', w', r) /\ winv h' w' ords' /\ yspec (YMove i j) (conts w ords) (conts w' ords') r.
Proof.
  intros v h w ords i j H Hij Hp. destruct (proj1 H i) as (Wi & Li). destruct (proj1 H j) as (Wj & Lj). pose proof (fun a => proj2 H i j a Hij) as Hdis.
  destruct (move_assign_ok nk key_of hash keq pocma (dv_dlim (ov_d v)) (dv_slim (ov_d v)) (o_d (w i)) (o_d (w j)) Wi Wj) as (d1 & d2 & Hd & W1 & E1 & E2 & Hz & W2).
  destruct (cleared_hollow nk key_of hash keq (o_d (w i)) (d_mlf (o_d (w j))) Wi) as (dc & Hcl & Hh & Hq & Hcap & Hbc & Hsp). unfold move_assign in Hd. rewrite Hcl in Hd. cbn [bind move_from] in Hd. injection Hd as Hd1 Hd2.
  cbn [OrderedWorld.yexec]. destruct (Nat.eqb_spec i j) as [|_]; [contradiction|]. unfold o_move_assign.
  destruct (moved_ok sz Hsz h (w i) (w j) (ords i) (ords j) pocma d1 d2 Li Lj Hdis) as (h1 & Hl & Hres).
  - rewrite <- Hd1. reflexivity.
  - rewrite <- Hd1. reflexivity.
  - rewrite <- Hd2. destruct pocma; cbn [snd swap_buffers set_mlf release d_cap]; [reflexivity|exact Hcap].
  - exact Hz.
  - rewrite Hl. cbn [bind]. rewrite Hcl. cbn [bind].
    assert (Hrel : o_release sz pocma h1 (with_d (w i) dc) = (if pocma then unplace h1 (o_base (w i)) sz (d_cap (o_d (w i))) else h1, mko (release pocma dc) (o_hdr (w i)) (if pocma then 0 else o_base (w i)))).
    { unfold o_release. destruct pocma; cbn [with_d o_d o_hdr o_base]; [rewrite Hcap|]; reflexivity. }
    rewrite Hrel. unfold o_move_from. cbn [o_d o_hdr o_base swap_buffers bind]. cbn [fst snd swap_buffers] in Hd1, Hd2. rewrite Hd1, Hd2.
    destruct (Hres _ _ eq_refl eq_refl) as (L1 & L2 & Hd' & Hk). eexists _, _, (setn (setn ords i (ords j)) j []), YDone. split; [reflexivity|]. split.
    + apply (set2 h); [exact H|exact Hij|split; [exact W1|exact L1]|split; [exact (W2 Hp)|exact L2]|exact Hd'|exact Hk].
    + apply ys_move; [exact Hij| | |apply conts_others2].
      * rewrite conts_first by exact Hij. exact (f_equal (fun l => pick l (ords j)) E1).
      * rewrite conts_same. reflexivity.
Qed.

Lemma swap_step : forall v h w ords i j, winv h w ords -> i <> j -> d_size (o_d (w i)) <> 0 -> d_size (o_d (w j)) <> 0 ->
  exists h' w' ords' r, yexec v (h, w) (YSwap i j) = Ok (h', w', r) /\ winv h' w' ords' /\ yspec (YSwap i j) (conts w ords) (conts w' ords') r.
Proof.
  intros v h w ords i j H Hij H0i H0j. destruct (proj1 H i) as (Wi & Li). destruct (proj1 H j) as (Wj & Lj). pose proof (fun a => proj2 H i j a Hij) as Hdis.
  destruct (swapped_ok sz h (w i) (w j) (ords i) (ords j) Li Lj Hdis H0i H0j) as (h1 & Hl & L1 & L2 & Hd' & Hk).
  cbn [OrderedWorld.yexec]. unfold o_swap. rewrite Hl. cbn [bind swap guard]. eexists _, _, (setn (setn ords i (ords j)) j (ords i)), YDone. split; [reflexivity|]. split.
  - apply (set2 h); [exact H|exact Hij|split; [exact Wj|exact L1]|split; [exact Wi|exact L2]|exact Hd'|exact Hk].
  - apply ys_swap; [| |apply conts_others2].
    + rewrite conts_first by exact Hij. reflexivity.
    + rewrite conts_same. reflexivity.
Qed.

Lemma ystep_ok : forall v h w ords c, winv h w ords -> denv_ok (ov_d v) -> ycall_ok nk c ->
  yblocked v (h, w) c \/ exists h' w' ords' r, yexec v (h, w) c = Ok (h', w', r) /\ winv h' w' ords' /\ yspec c (conts w ords) (conts w' ords') r.
Proof.
  intros v h w ords c H V Hc. destruct c as [i c|i|i j|i j|i j|i j|i j]; cbn [ycall_ok] in Hc.
  - destruct (ostep_ok sz nk key_of hash keq rep Hsz KL rep_key v h (w i) (ords i) c (proj1 H i) V Hc) as [Hb|(h' & s' & r & He & ord' & H' & F' & S')].
    + left. right. exact Hb.
    + right. cbn [OrderedWorld.yexec]. rewrite He. cbn [bind]. exists h', (setn w i s'), (setn ords i ord'), (YRet r). split; [reflexivity|]. split.
      * apply (set1 h); [exact H|exact H'|apply ofr_keeps; [exact Hsz|exact F']].
      * apply ys_on; [rewrite conts_same; exact S'|apply conts_others1].
  - right. eexists _, _, (setn ords i []), YDone. split; [reflexivity|]. split; [apply renewed; exact H|]. apply ys_new; [rewrite conts_same; reflexivity|apply conts_others1].
  - destruct (copy_new_step v h w ords i j H V Hc) as [Hb|Hs]; [left; left; exact Hb|right; exact Hs].
  - destruct (Nat.eq_dec i j) as [->|Hij]; [|apply copy_step'; assumption]. right. exists h, w, ords, YDone. cbn [OrderedWorld.yexec]. rewrite Nat.eqb_refl. split; [reflexivity|]. split; [exact H|]. apply ys_copy_self. intros k _. reflexivity.
  - right. apply move_new_step; assumption.
  - destruct (Nat.eq_dec i j) as [->|Hij].
    + right. exists h, w, ords, YDone. cbn [OrderedWorld.yexec]. rewrite Nat.eqb_refl. split; [reflexivity|]. split; [exact H|]. apply ys_move_self. intros k _. reflexivity.
    + destruct (Z.eq_dec (d_size (o_d (w i))) 0) as [H0|H0]; [right; apply move_step'; auto|]. destruct (Bool.bool_dec pocma true) as [Hp|Hp]; [right; apply move_step'; auto|].
      left. right. cbn [snd]. split; [destruct pocma; [contradiction|reflexivity]|exact H0].
  - destruct (Z.eq_dec (d_size (o_d (w i))) 0) as [H0|H0]; [left; right; left; exact H0|]. destruct (Z.eq_dec (d_size (o_d (w j))) 0) as [H1|H1]; [left; right; right; exact H1|].
    right. apply swap_step; assumption.
Qed.

Lemma yrun_ok : forall hist h w ords, winv h w ords -> yhistory_ok nk hist ->
  (exists h' w' ords' rs, yrun (h, w) hist = Ok (h', w', rs) /\ winv h' w' ords' /\ yspec_run (map snd hist) (conts w ords) (conts w' ords') rs) \/
  (exists h1 v c h2 h' w' ords' rs, hist = h1 ++ (v, c) :: h2 /\ yrun (h, w) h1 = Ok (h', w', rs) /\ winv h' w' ords' /\ yspec_run (map snd h1) (conts w ords) (conts w' ords') rs /\ yblocked v (h', w') c).
Proof.
  induction hist as [|(v, c) hist IH]; intros h w ords H Hh.
  - left. exists h, w, ords, []. split; [reflexivity|]. split; [exact H|]. constructor. reflexivity.
  - inversion Hh as [|? ? (Hv & Hc) Hh']; subst. cbn [fst snd] in *. destruct (ystep_ok v h w ords c H Hv Hc) as [Hb|(h1 & w1 & ords1 & r & He & H1 & S1)].
    + right. exists [], v, c, hist, h, w, ords, []. split; [reflexivity|]. split; [reflexivity|]. split; [exact H|]. split; [constructor; reflexivity|exact Hb].
    + destruct (IH h1 w1 ords1 H1 Hh') as [(h' & w' & ords' & rs & Hr & H' & S')|(p1 & v' & c' & p2 & h' & w' & ords' & rs & -> & Hr & H' & S' & Hb)].
      * left. exists h', w', ords', (r :: rs). cbn [OrderedWorld.yrun map]. rewrite He. cbn [bind]. rewrite Hr. cbn [bind]. split; [reflexivity|]. split; [exact H'|]. econstructor; eassumption.
      * right. exists ((v, c) :: p1), v', c', p2, h', w', ords', (r :: rs). split; [reflexivity|]. cbn [OrderedWorld.yrun map]. rewrite He. cbn [bind]. rewrite Hr. cbn [bind]. split; [reflexivity|]. split; [exact H'|].
        split; [econstructor; eassumption|exact Hb].
Qed.

(** ** Initial and occurring states. *)
Lemma yinit_inv : forall addr h0, yinit_ok addr h0 -> winv h0 (fun i => o_new (addr i)) (fun _ => []).
Proof.
  intros addr h0 (Hinj & H0). split; [intros i; apply new_inv; apply H0|]. intros i j a Hij [Ha|(k & Hk & _)] [Hb|(l & Hl & _)]; try (cbn in *; lia).
  cbn [o_new o_hdr] in *. apply Hij. apply Hinj. congruence.
Qed.
Lemma winv_lists : forall h w ords, winv h w ords -> ylists sz (h, w) (conts w ords).
Proof. intros h w ords (H & _) i. cbn [fst snd]. unfold conts. split; [apply (o_iterate_ok sz nk key_of hash keq Hsz); apply H|apply (o_backwards_ok sz nk key_of hash keq Hsz); apply H]. Qed.
Lemma winv_distinct : forall h w ords i, winv h w ords -> dkeys_distinct nk key_of keq (conts w ords i).
Proof.
  intros h w ords i (H & _). apply (distinct_perm nk key_of keq (keq_comm hash keq KL) (delems (o_d (w i)))); [apply Permutation_sym; apply (inv_perm sz nk key_of hash keq _ _ _ (H i))|].
  apply (wf_distinct nk key_of hash keq rep rep_key). apply (H i).
Qed.
Lemma winv_refines : forall hist h w ords, winv h w ords -> yhistory_ok nk hist -> yrefines sz nk key_of hash keq rep clone pocca pocma (h, w) (conts w ords) hist.
Proof.
  intros hist h w ords H Hh. destruct (yrun_ok hist h w ords H Hh) as [(h' & w' & ords' & rs & Hr & H' & S')|(h1 & v & c & h2 & h' & w' & ords' & rs & He & Hr & H' & S' & Hb)].
  - left. exists (h', w'), rs, (conts w' ords'). split; [exact Hr|]. split; [exact S'|]. split; [apply winv_lists; exact H'|]. intros i. apply (winv_distinct h'). exact H'.
  - right. exists h1, v, c, h2, (h', w'), rs, (conts w' ords'). split; [exact He|]. split; [exact Hr|]. split; [exact S'|]. split; [apply winv_lists; exact H'|exact Hb].
Qed.
Lemma yinit_refines : forall addr h0 hist, yinit_ok addr h0 -> yhistory_ok nk hist -> yrefines sz nk key_of hash keq rep clone pocca pocma (yinit addr h0) (@ystart E) hist.
Proof. intros addr h0 hist H0 Hh. apply (winv_refines hist h0 _ (fun _ => [])); [apply yinit_inv; exact H0|exact Hh]. Qed.
Lemma yoccurs_inv : forall hw, yoccurs sz nk key_of hash keq rep clone pocca pocma hw -> exists ords, winv (fst hw) (snd hw) ords.
Proof.
  intros hw (addr & h0 & hist & rs & H0 & Hh & Hr & Hnb). destruct (yrun_ok hist h0 _ _ (yinit_inv addr h0 H0) Hh) as [(h' & w' & ords' & rs' & Hr' & H' & _)|(h1 & v & c & h2 & h' & w' & ords' & rs' & He & Hr' & _ & _ & Hb)].
  - unfold yinit in Hr. rewrite Hr' in Hr. injection Hr as <- _. exists ords'. exact H'.
  - exfalso. apply (Hnb h1 v c h2 (h', w') rs' He Hr' Hb).
Qed.
End Proofs.
