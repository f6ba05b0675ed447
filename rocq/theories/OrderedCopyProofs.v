(** Ordered dense containers after a copy assignment was left by an exception. *)
From Coq Require Import ZArith List Bool Lia Permutation Arith.
From Verif Require Import Base BaseLemmas MapSpec Float32 DenseSpec World WorldProofs DenseModel DenseRun DenseChain DenseInv DenseOps DenseEdit DenseErase DenseRefine DenseMore
  LinkModel LinkProofs OrderedSpec OrderedWorldSpec OrderedDense OrderedRun OrderedWorld OrderedLinks OrderedProofs OrderedRefine OrderedMoves OrderedWorldProofs OrderedFinal
  CopyModel CopyDense OrderedCopyModel.
Import ListNotations.
Open Scope Z_scope.

(** ** Sizes. *)
Section Cap.
Context {E : Type}.
Notation dense := (dense E).
Lemma until_cap : forall nk clone n (o : dense) l t t' b, d_copy_until nk clone n o l t = Ok (t', b) -> d_cap t' = d_cap t.
Proof.
  intros nk clone n o l. revert n. induction l as [|i l IH]; intros n t t' b H; cbn [d_copy_until] in H; [injection H as <- _; reflexivity|].
  destruct n as [|n]; apply bind_Ok in H; destruct H as (u & Hu & H); [injection H as <- _; reflexivity|]. rewrite (IH _ _ _ _ H).
  unfold copy_step in Hu. apply bind_Ok in Hu; destruct Hu as (u1 & G1 & Hu); apply bind_Ok in Hu; destruct Hu as (u2 & G2 & Hu); apply bind_Ok in Hu; destruct Hu as (u3 & G3 & Hu). injection Hu as <-. cbn [set_size d_cap].
  rewrite (insert_step_cap _ _ _ _ G3). apply (new_cap _ _ _ _ G2).
Qed.
Lemma grow_cap : forall nk clone n dlim slim (s o : dense) p t b, copy_data nk clone dlim slim s o = Ok (p, true) -> dc_copy_data nk clone n dlim slim s o = Ok (t, b) -> d_size o <> 0 ->
  d_cap t = if d_cap s <? d_size o then d_size o else d_cap s.
Proof.
  intros nk clone n dlim slim s o p t b Hp H Ho. rewrite <- (copy_data_cap _ _ _ _ _ _ _ Hp Ho). unfold copy_data in Hp. unfold dc_copy_data in H. apply bind_Ok in Hp. destruct Hp as (u & Hu & Hp). rewrite Hu in H. cbn [bind] in H.
  destruct (Z.eqb_spec (d_size o) 0) as [|_]; [contradiction|]. destruct (realloc_sparse slim s (d_bc o)) as (s1, [|]); cbn [negb] in *; [|discriminate Hp].
  destruct (realloc_dense dlim s1 (d_size o)) as (s2, [|]); cbn [negb] in *; [|discriminate Hp]. apply bind_Ok in Hp. destruct Hp as (s3 & Hf & Hp). rewrite Hf in H. cbn [bind] in H.
  apply bind_Ok in Hp. destruct Hp as (s4 & Hg & Hp). injection Hp as <-. rewrite (until_cap _ _ _ _ _ _ _ _ H). symmetry.
  apply (foldM_cap _ _ _ _) in Hg; [exact Hg|]. intros x i x' Hx. unfold copy_step in Hx. apply bind_Ok in Hx; destruct Hx as (u1 & G1 & Hx); apply bind_Ok in Hx; destruct Hx as (u2 & G2 & Hx); apply bind_Ok in Hx; destruct Hx as (u3 & G3 & Hx). injection Hx as <-. cbn [set_size d_cap].
  rewrite (insert_step_cap _ _ _ _ G3). apply (new_cap _ _ _ _ G2).
Qed.
(** Refused memory. *)
Lemma refused_empty : forall nk clone dlim slim (s o d1 : dense), hollow s -> copy_data nk clone dlim slim s o = Ok (d1, false) -> d_size d1 = 0 /\ (forall i, d_nodes d1 i = None) /\ d_cap d1 = d_cap s.
Proof.
  intros nk clone dlim slim s o d1 Hh H. unfold copy_data in H. apply bind_Ok in H. destruct H as (u & _ & H). destruct (d_size o =? 0); [discriminate H|].
  assert (Hs : forall s1 b, realloc_sparse slim s (d_bc o) = (s1, b) -> d_size s1 = 0 /\ (forall i, d_nodes s1 i = None) /\ d_cap s1 = d_cap s).
  { intros s1 b Hr. unfold realloc_sparse in Hr. destruct (d_bc s <? d_bc o); [destruct (slim <? d_bc o)|]; injection Hr as <- _; cbn [d_size d_nodes d_cap]; (split; [apply Hh|split; [apply Hh|reflexivity]]). }
  destruct (realloc_sparse slim s (d_bc o)) as (s1, b1). specialize (Hs s1 b1 eq_refl). destruct b1; cbn [negb] in H; [|injection H as <-; exact Hs].
  unfold realloc_dense in H. destruct (d_cap s1 <? d_size o); [destruct (dlim <? d_size o)|]; cbn [negb] in H; try (apply bind_Ok in H; destruct H as (u3 & _ & H); apply bind_Ok in H; destruct H as (u4 & _ & H); discriminate H).
  injection H as <-. exact Hs.
Qed.
End Cap.

Section Proofs.
Context {E K : Type}.
Variable sz : Z.
Variable nk : nat.
Variable key_of : nat -> E -> K.
Variable hash : K -> Z.
Variable keq : K -> K -> bool.
Variable rep : E -> E -> E.
Variable clone : E -> E.
Variables pocca pocma : bool.
Hypothesis Hsz : 0 < sz.
Hypothesis KL : key_laws hash keq.
Hypothesis rep_key : forall x e, key_of 0%nat (rep x e) = key_of 0%nat x.
Hypothesis clone_key : forall j e, (j < nk)%nat -> key_of j (clone e) = key_of j e.
Notation odense := (odense E).
Notation dwf := (dwf nk key_of hash keq).
Notation oinv := (oinv sz nk key_of hash keq).
Notation winv := (winv sz nk key_of hash keq).
Notation yoccurs := (yoccurs sz nk key_of hash keq rep clone pocca pocma).
Notation lnk := (lnk sz). Notation slot := (slot sz). Notation mine := (mine sz). Notation area := (area sz). Notation keeps := (keeps sz).

(** The element array after realloc_buffer. *)
Lemma realloc_ok : forall v h (s o : odense) ord c, lnk h o ord -> area h s -> (forall a, mine s a -> ~ mine o a) ->
  c = (if d_cap (o_d s) <? d_size (o_d o) then d_size (o_d o) else d_cap (o_d s)) ->
  o_realloc sz v h s (d_size (o_d o)) false = Err BadPlacement \/
  exists h1 nb, o_realloc sz v h s (d_size (o_d o)) false = Ok (h1, nb) /\ (forall i, 0 <= i < c -> has h1 (nb + i * sz) /\ nb + i * sz <> o_hdr s /\ ~ mine o (nb + i * sz)) /\
    (forall a, mine o a -> h1 a = h a) /\ h1 (o_hdr s) = h (o_hdr s) /\ d_size (o_d o) <= c /\
    (forall a, ~ mine s a -> has h a -> h1 a = h a /\ forall i, 0 <= i < c -> a <> nb + i * sz).
Proof. clear - Hsz.
  intros v h s o ord c L A Hdis ->. unfold o_realloc. destruct (Z.ltb_spec (d_cap (o_d s)) (d_size (o_d o))) as [Hlt|Hge].
  - set (h0 := unplace h (o_base s) sz (d_cap (o_d s))). assert (Hh0 : forall a, (a = o_hdr s \/ ~ mine s a) -> h0 a = h a).
    { intros a Ha. unfold h0, unplace. assert (Hn : slot_ix (o_base s) sz (d_cap (o_d s)) a = None); [|rewrite Hn; reflexivity]. destruct Ha as [->|Ha]; [|apply slot_ix_mine; [exact Hsz|exact Ha]].
      apply slot_ix_none_intro; [exact Hsz|]. intros i Hi X. apply (ar_ne _ _ _ A i Hi). symmetry. exact X. }
    destruct (place_cases (ov_junk v) h0 (ov_base v) sz (d_size (o_d o)) Hsz) as [->|(h1 & -> & Hfree & Hnew & Hold)]; cbn [bind]; [left; reflexivity|right].
    exists h1, (ov_base v). split; [reflexivity|].
    assert (Hno : forall a, has h0 a -> slot_ix (ov_base v) sz (d_size (o_d o)) a = None) by (intros a Ha; apply slot_ix_none_intro; [exact Hsz|]; intros i Hi ->; apply Ha; apply Hfree; exact Hi).
    assert (Hso : forall a, mine o a -> h0 a = h a /\ has h0 a) by (intros a Ha; assert (X : h0 a = h a) by (apply Hh0; right; intros Y; exact (Hdis a Y Ha)); split; [exact X|unfold has; rewrite X; apply (mine_has sz h o ord a L Ha)]).
    assert (Hshd : has h0 (o_hdr s)) by (unfold has; rewrite Hh0 by (left; reflexivity); apply A).
    split; [|split; [|split; [|split; [lia|]]]].
    + intros i Hi. split; [apply Hnew; exact Hi|]. split; [intros X; apply Hshd; rewrite <- X; apply Hfree; exact Hi|]. intros X. apply (proj2 (Hso _ X)). apply Hfree. exact Hi.
    + intros a Ha. rewrite Hold by (apply Hno; apply Hso; exact Ha). apply Hso. exact Ha.
    + rewrite Hold by (apply Hno; exact Hshd). apply Hh0. left. reflexivity.
    + intros a Ha Hh. assert (Hh' : has h0 a) by (unfold has; rewrite Hh0 by (right; exact Ha); exact Hh). split; [rewrite Hold by (apply Hno; exact Hh'); apply Hh0; right; exact Ha|].
      intros i Hi ->. apply Hh'. apply Hfree. exact Hi.
  - right. exists h, (o_base s). split; [reflexivity|]. split; [|split; [reflexivity|split; [reflexivity|split; [lia|]]]].
    + intros i Hi. split; [apply A; exact Hi|]. split; [apply A; exact Hi|]. apply Hdis. right. exists i. auto.
    + intros a Ha Hh. split; [reflexivity|]. intros i Hi X. apply Ha. right. exists i. auto.
Qed.

Lemma thrown : forall n v h w ords i j, winv h w ords -> denv_ok (ov_d v) -> i <> j -> Z.of_nat n < d_size (o_d (w j)) ->
  oc_copy_assign sz nk clone n pocca v h (w i) (w j) = Err BadPlacement \/
  exists h' s', oc_copy_assign sz nk clone n pocca v h (w i) (w j) = Ok (h', s', false) /\ o_hdr s' = o_hdr (w i) /\ h' (o_hdr (w i)) = h (o_hdr (w j)) /\
    (forall a, ~ mine (w i) a -> has h a -> h' a = h a) /\
    ((o_copy_assign sz nk clone pocca v h (w i) (w j) = Ok (h', s', false) /\ d_size (o_d s') = 0 /\ forall p, d_nodes (o_d s') p = None) \/
     (dwf (o_d s') /\ delems (o_d s') = map clone (firstn n (delems (o_d (w j)))) /\ area h' s' /\ keeps h (w i) h' s')).
Proof. clear rep KL rep_key.
  intros n v h w ords i j H V Hij Hn. destruct (proj1 H i) as (Wi & Li). destruct (proj1 H j) as (Wj & Lj). pose proof (fun a => proj2 H i j a Hij) as Hdis.
  destruct (cleared_hollow nk key_of hash keq (o_d (w i)) (d_mlf (o_d (w j))) Wi) as (d1 & Hcl & Hh & Hq & Hcap & Hbc & Hsp).
  unfold oc_copy_assign, o_copy_assign. destruct (header_copied sz h (w i) (w j) (ords j) Lj (olinks_hdr _ _ _ _ _ _ _ Li)) as (h1 & -> & C1 & C2). cbn [bind]. rewrite Hcl. cbn [bind].
  assert (Hj1 : forall a, mine (w j) a -> h1 a = h a) by (intros a Ha; apply C2; intros ->; apply (Hdis (o_hdr (w i))); [left; reflexivity|exact Ha]).
  destruct (o_release sz pocca h1 (with_d (w i) d1)) as (h2, s2) eqn:Er.
  assert (Hr : o_d s2 = release pocca d1 /\ o_hdr s2 = o_hdr (w i) /\ (forall a, mine s2 a -> mine (w i) a) /\ (forall a, a = o_hdr (w i) \/ ~ mine (w i) a -> h2 a = h1 a) /\ area h2 s2).
  { unfold o_release in Er. destruct pocca; injection Er as <- <-.
    - split; [reflexivity|]. split; [reflexivity|]. split; [intros a [X|(k & Hk & _)]; [left; exact X|cbn in Hk; lia]|].
      assert (Hu : forall a, a = o_hdr (w i) \/ ~ mine (w i) a -> unplace h1 (o_base (w i)) sz (d_cap d1) a = h1 a).
      { intros a Ha. unfold unplace. rewrite Hcap. assert (Hn' : slot_ix (o_base (w i)) sz (d_cap (o_d (w i))) a = None); [|rewrite Hn'; reflexivity]. destruct Ha as [->|Ha]; [|apply slot_ix_mine; [exact Hsz|exact Ha]].
        apply slot_ix_none_intro; [exact Hsz|]. intros k Hk X. apply (ol_hdr _ _ _ _ _ _ _ Li k Hk). symmetry. exact X. }
      split; [exact Hu|]. constructor; cbn [o_d o_hdr release d_cap]; try lia. unfold has. cbn [with_d o_d o_hdr o_base]. rewrite Hu by (left; reflexivity). rewrite C1. apply (olinks_hdr _ _ _ _ _ _ _ Lj).
    - split; [reflexivity|]. split; [reflexivity|]. split; [intros a [X|(k & Hk & X)]; [left; exact X|right; exists k; split; [cbn [with_d o_d] in Hk; rewrite Hcap in Hk; exact Hk|exact X]]|]. split; [reflexivity|].
      constructor; cbn [with_d o_d o_hdr]; rewrite ?Hcap.
      + unfold has. rewrite C1. apply (olinks_hdr _ _ _ _ _ _ _ Lj).
      + intros k Hk. unfold has. change (OrderedDense.slot sz (with_d (w i) d1) k) with (slot (w i) k). rewrite C2 by (apply (ol_hdr _ _ _ _ _ _ _ Li); exact Hk). apply (ol_has _ _ _ _ _ _ _ Li). exact Hk.
      + intros k Hk. apply (ol_hdr _ _ _ _ _ _ _ Li). exact Hk.
      + apply (olinks_cap _ _ _ _ _ _ _ Li). }
  destruct Hr as (R1 & R2 & R3 & R4 & R5).
  assert (Hj2 : forall a, mine (w j) a -> h2 a = h a) by (intros a Ha; rewrite R4 by (right; intros X; exact (Hdis a X Ha)); apply Hj1; exact Ha).
  assert (Hhd2 : h2 (o_hdr (w i)) = h (o_hdr (w j))) by (rewrite R4 by (left; reflexivity); exact C1).
  assert (Hot2 : forall a, ~ mine (w i) a -> h2 a = h a) by (intros a Ha; rewrite R4 by (right; exact Ha); apply C2; intros X; apply Ha; left; exact X).
  assert (Hh2 : hollow (o_d s2) /\ d_mlf (o_d s2) = d_mlf (o_d (w j))).
  { destruct (dc_target nk key_of hash keq clone clone_key pocca (o_d (w i)) (d_mlf (o_d (w j))) Wi) as (x & X1 & X2 & X3). rewrite Hcl in X1. injection X1 as <-. rewrite R1. auto. }
  destruct Hh2 as (Hh2 & Hq2). unfold oc_copy_data.
  destruct (dc_copy_data_ok nk key_of hash keq clone clone_key n _ _ (o_d s2) (o_d (w j)) (proj1 V) (proj2 V) Hh2 Wj ltac:(lia) Hq2) as (Hdc & _). specialize (Hdc Hn).
  assert (Hcd : exists p b, copy_data nk clone (dv_dlim (ov_d v)) (dv_slim (ov_d v)) (o_d s2) (o_d (w j)) = Ok (p, b)).
  { destruct (dc_copy_data_ok nk key_of hash keq clone clone_key (Z.to_nat (d_size (o_d (w j)))) _ _ (o_d s2) (o_d (w j)) (proj1 V) (proj2 V) Hh2 Wj ltac:(lia) Hq2) as (_ & Y).
    destruct (copy_assign_ok nk key_of hash keq clone clone_key pocca (dv_dlim (ov_d v)) (dv_slim (ov_d v)) (o_d (w i)) (o_d (w j)) (proj1 V) (proj2 V) Wi Wj) as (p & b & X & _); [right; left; lia|].
    unfold copy_assign in X. rewrite Hcl in X. cbn [bind] in X. rewrite <- R1 in X. exists p, b. exact X. }
  destruct Hcd as (p & b & Hp). rewrite Hp. cbn [bind snd]. destruct b; cbn [negb orb].
  - destruct (Z.leb_spec (d_size (o_d (w j))) (Z.of_nat n)) as [|_]; [lia|]. destruct Hdc as [(x & X & _)|(t & Ht & Wt & He)]; [rewrite Hp in X; discriminate X|]. rewrite Ht. cbn [bind].
    pose proof (grow_cap _ _ _ _ _ _ _ _ _ _ Hp Ht ltac:(lia)) as Hct.
    destruct (realloc_ok v h2 s2 (w j) (ords j) (d_cap t)) as [->|(h3 & nb & -> & N1 & N2 & N3 & N4 & N5)]; cbn [bind fst snd]; [| | |exact Hct|left; reflexivity|].
    + apply (lnk_same sz h); [exact Lj|exact Hj2].
    + exact R5.
    + intros a Ha. apply Hdis. apply R3. exact Ha.
    + right. assert (Hos : forall k, 0 <= k < d_size (o_d (w j)) -> mine (w j) (o_base (w j) + k * sz)) by (intros k Hk; right; exists k; pose proof (ol_le _ _ _ _ _ _ _ Lj); split; [lia|reflexivity]).
      destruct (copy_links_ok sz Hsz (Z.of_nat n + 1) h3 nb (o_base (w j))) as (h4 & -> & D1 & D2).
      * lia.
      * intros k Hk. apply N1. lia.
      * intros k Hk. unfold has. rewrite N2 by (apply Hos; lia). rewrite Hj2 by (apply Hos; lia). apply (mine_has sz h (w j) (ords j) _ Lj). apply Hos. lia.
      * intros k l Hk Hl X. apply (proj2 (proj2 (N1 k ltac:(lia)))). rewrite X. apply Hos. lia.
      * cbn [bind]. exists h4, (mko t (o_hdr s2) nb). split; [reflexivity|]. cbn [o_hdr o_d o_base]. split; [exact R2|].
        assert (Hh4 : h4 (o_hdr (w i)) = h (o_hdr (w j))).
        { rewrite D2; [rewrite <- R2, N3, R2; exact Hhd2|]. intros k Hk X. apply (proj1 (proj2 (N1 k ltac:(lia)))). rewrite R2. symmetry. exact X. }
        split; [exact Hh4|].
        assert (Hk4 : keeps h (w i) h4 (mko t (o_hdr s2) nb)).
        { intros a Ha Hha. destruct (N5 a) as (X1 & X2); [intros X; apply Ha; apply R3; exact X|unfold has; rewrite Hot2 by exact Ha; exact Hha|]. split.
          - rewrite D2 by (intros k Hk; apply X2; lia). rewrite X1. apply Hot2. exact Ha.
          - intros [Y|(k & Hk & Y)]; [apply Ha; left; cbn [o_hdr] in Y; rewrite <- R2; exact Y|]. apply (X2 k Hk). exact Y. }
        split; [intros a Ha Hha; apply (Hk4 a Ha Hha)|]. right. split; [exact Wt|]. split; [exact He|]. split; [|exact Hk4].
        constructor; cbn [o_hdr o_d o_base]; unfold OrderedDense.slot; cbn [o_base].
        -- unfold has. rewrite R2, Hh4. apply (olinks_hdr _ _ _ _ _ _ _ Lj).
        -- intros k Hk. destruct (Z_lt_dec k (Z.of_nat n + 1)) as [Hk1|Hk1].
           ++ unfold has. rewrite D1 by lia. rewrite N2 by (apply Hos; lia). rewrite Hj2 by (apply Hos; lia). apply (mine_has sz h (w j) (ords j) _ Lj). apply Hos. lia.
           ++ unfold has. rewrite D2 by (intros l Hl X; apply slot_inj in X; [lia|exact Hsz]). apply N1. exact Hk.
        -- intros k Hk. apply N1. exact Hk.
        -- pose proof (w_cap _ _ _ _ _ Wt). pose proof (w_size _ _ _ _ _ Wt). lia.
  - right. destruct (refused_empty _ _ _ _ _ _ _ Hh2 Hp) as (P1 & P2 & P3). unfold o_copy_data. rewrite Hp. cbn [bind negb andb]. destruct (Z.eqb_spec (d_size (o_d (w j))) 0) as [|_]; [lia|].
    assert (Hun : forall a, (a = o_hdr (w i) \/ ~ mine (w i) a) -> unplace h2 (o_base s2) sz (d_cap (o_d s2)) a = h2 a).
    { intros a Ha. unfold unplace. assert (Hn' : slot_ix (o_base s2) sz (d_cap (o_d s2)) a = None); [|rewrite Hn'; reflexivity]. destruct Ha as [->|Ha].
      - apply slot_ix_none_intro; [exact Hsz|]. intros k Hk X. apply (ar_ne _ _ _ R5 k Hk). rewrite R2. symmetry. exact X.
      - apply slot_ix_mine; [exact Hsz|]. intros X. apply Ha. apply R3. exact X. }
    destruct (d_dok p); cbn [negb andb].
    + eexists _, _. split; [reflexivity|]. cbn [with_d o_hdr o_d]. split; [exact R2|]. split; [exact Hhd2|]. split; [intros a Ha _; apply Hot2; exact Ha|]. left. split; [reflexivity|]. auto.
    + unfold o_realloc. destruct (d_cap (o_d s2) <? d_size (o_d (w j))); cbn [bind negb]; (eexists _, _; split; [reflexivity|]; cbn [with_d o_hdr o_d]; split; [exact R2|]).
      * split; [rewrite Hun by (left; reflexivity); exact Hhd2|]. split; [intros a Ha _; rewrite Hun by (right; exact Ha); apply Hot2; exact Ha|]. left. split; [reflexivity|]. auto.
      * split; [exact Hhd2|]. split; [intros a Ha _; apply Hot2; exact Ha|]. left. split; [reflexivity|]. auto.
Qed.

Lemma no_deref : forall (s : odense) l, (forall p, d_nodes (o_d s) p = None) -> l <> [] -> exists e, deref_all sz s l = Err e.
Proof. clear.
  intros s [|a l] Hn Hl; [contradiction|]. cbn [deref_all]. destruct (index_of sz s a) as [p|e]; cbn [bind]; [|eauto]. unfold get_node. rewrite Hn.
  destruct (guard _ NullDeref); cbn [bind]; [|eauto]. destruct (guard _ UseAfterFree); cbn [bind]; [|eauto]. destruct (guard _ OutOfBounds); cbn [bind]; eauto.
Qed.
Lemma no_iterate : forall h (s : odense) a, next_link h (o_hdr s) = Ok a -> a <> o_hdr s -> d_size (o_d s) = 0 -> (forall p, d_nodes (o_d s) p = None) -> exists e, o_iterate sz h s = Err e.
Proof. clear.
  intros h s a Ha Hne H0 Hn. unfold o_iterate. rewrite Ha. cbn [bind]. destruct (walk (S (Z.to_nat (d_size (o_d s)))) h a (o_hdr s)) as [l|e] eqn:Ew; cbn [bind]; [|eauto].
  apply no_deref; [exact Hn|]. intros ->. cbn [walk] in Ew. destruct (Z.eqb_spec a (o_hdr s)) as [|_]; [contradiction|]. destruct (next_link h a); cbn [bind] in Ew; [|discriminate Ew].
  rewrite H0 in Ew. cbn in Ew. discriminate Ew.
Qed.

(** ** The theorems. *)
Theorem copy_left_order : forall n v hw i j f, yoccurs hw -> denv_ok (ov_d v) -> i <> j -> let h := fst hw in let s := snd hw i in let o := snd hw j in
  Z.of_nat n < d_size (o_d o) -> next_link h (o_hdr o) = Ok f ->
  oc_copy_assign sz nk clone n pocca v h s o = Err BadPlacement \/
  exists h' s', oc_copy_assign sz nk clone n pocca v h s o = Ok (h', s', false) /\
    o_hdr s' = o_hdr s /\ next_link h' (o_hdr s') = Ok (o_hdr s + (f - o_hdr o)) /\ o_hdr s + (f - o_hdr o) <> o_hdr s' /\
    (o_copy_assign sz nk clone pocca v h s o = Ok (h', s', false) /\ d_size (o_d s') = 0 \/ delems (o_d s') = map clone (firstn n (delems (o_d o))) /\ d_size (o_d s') = Z.of_nat n) /\
    (d_size (o_d s') = 0 -> exists e, o_iterate sz h' s' = Err e).
Proof.
  intros n v (h, w) i j f Hy V Hij; cbn [fst snd]; cbn zeta. intros Hn Hf. destruct (yoccurs_inv sz nk key_of hash keq rep clone pocca pocma Hsz KL rep_key clone_key _ Hy) as (ords & W). cbn [fst snd] in *.
  destruct (thrown n v h w ords i j W V Hij Hn) as [He|(h' & s' & He & R1 & R2 & R3 & R4)]; [left; exact He|right]. exists h', s'. split; [exact He|]. split; [exact R1|].
  assert (Hx : next_link h' (o_hdr s') = Ok (o_hdr (w i) + (f - o_hdr (w j)))).
  { rewrite R1. unfold next_link, get_link in *. rewrite R2. destruct (h (o_hdr (w j))) as [x|]; cbn [bind] in *; [|discriminate Hf]. injection Hf as <-. f_equal. lia. }
  split; [exact Hx|].
  assert (Hne : o_hdr (w i) + (f - o_hdr (w j)) <> o_hdr s').
  { rewrite R1. destruct (proj1 W j) as (Wj & Lj). assert (Ho : ords j <> []) by (apply (ord_ne sz h (w j) _ Lj); lia). pose proof (ol_ring _ _ _ _ _ _ _ Lj) as R. pose proof (ol_in _ _ _ _ _ _ _ Lj) as Hin.
    destruct (ords j) as [|k r] eqn:Eo; [contradiction|]. cbn [map] in R. pose proof (ring_consecutive h [] _ _ _ R) as (X & _). rewrite X in Hf. injection Hf as <-.
    assert (Hk : 0 <= k < d_cap (o_d (w j))) by (pose proof (ol_le _ _ _ _ _ _ _ Lj); assert (Y : 0 <= k < d_size (o_d (w j))) by (apply Hin; left; reflexivity); lia).
    pose proof (ol_hdr _ _ _ _ _ _ _ Lj k Hk). unfold OrderedDense.slot in *. lia. }
  split; [exact Hne|]. destruct (proj1 W j) as (Wj & _).
  assert (Hl : forall d : dense E, dwf d -> delems d = map clone (firstn n (delems (o_d (w j)))) -> d_size d = Z.of_nat n).
  { intros d Wd Hd. rewrite (wf_len nk key_of hash keq clone clone_key _ Wd), Hd, map_length, firstn_length. rewrite (wf_len nk key_of hash keq clone clone_key _ Wj) in Hn. lia. }
  split; [destruct R4 as [(X & Y & _)|(Wt & X & _)]; [left; auto|right; auto]|]. intros H0. apply (no_iterate h' s' _ Hx Hne H0). destruct R4 as [(_ & _ & Y)|(Wt & X & A & Y)]; [exact Y|].
  intros p. apply (w_dead _ _ _ _ _ Wt). unfold live. lia.
Qed.

Theorem copy_left_clear : forall n v hw i j l hist, yoccurs hw -> denv_ok (ov_d v) -> i <> j -> let h := fst hw in let s := snd hw i in let o := snd hw j in
  Z.of_nat n < d_size (o_d o) -> (forall k, o_iterate sz h (snd hw k) = Ok (l k)) -> yhistory_ok nk hist ->
  oc_copy_assign sz nk clone n pocca v h s o = Err BadPlacement \/
  exists h' s', oc_copy_assign sz nk clone n pocca v h s o = Ok (h', s', false) /\ (forall k, k <> i -> o_iterate sz h' (snd hw k) = Ok (l k)) /\
    (o_copy_assign sz nk clone pocca v h s o = Ok (h', s', false) \/
     exists h'' s'', o_clear h' s' = Ok (h'', s'') /\ yrefines sz nk key_of hash keq rep clone pocca pocma (h'', setn (snd hw) i s'') (setn l i []) hist).
Proof.
  intros n v (h, w) i j l hist Hy V Hij; cbn [fst snd]; cbn zeta. intros Hn Hl Hh. destruct (yoccurs_inv sz nk key_of hash keq rep clone pocca pocma Hsz KL rep_key clone_key _ Hy) as (ords & W). cbn [fst snd] in *.
  assert (He : forall k, conts w ords k = l k) by (intros k; destruct (winv_lists sz nk key_of hash keq Hsz _ _ _ W k) as (X & _); cbn [fst snd] in X; rewrite Hl in X; injection X as X; symmetry; exact X).
  destruct (thrown n v h w ords i j W V Hij Hn) as [Hb|(h' & s' & Ha & R1 & R2 & R3 & R4)]; [left; exact Hb|right]. exists h', s'. split; [exact Ha|]. split.
  { intros k Hk. rewrite <- He. unfold conts. apply (o_iterate_ok sz nk key_of hash keq Hsz). apply (oinv_same sz nk key_of hash keq h); [apply (proj1 W)|].
    intros a Hm. apply R3; [apply (proj2 W k i a Hk Hm)|apply (mine_has sz _ _ _ a (proj2 (proj1 W k)) Hm)]. }
  destruct R4 as [(X & _)|(Wt & X & A & Kp)]; [left; exact X|right].
  destruct (clear_ok nk key_of hash keq (o_d s') Wt) as (d2 & Hc & Wd & Hd & Hcap & _). unfold o_clear, reset_link, get_link.
  pose proof (ar_hdr _ _ _ A) as Hhas. unfold has in Hhas. destruct (h' (o_hdr s')) as [x|] eqn:Ex; [|contradiction]. cbn [bind]. rewrite Hc. cbn [bind].
  assert (W2 : winv (upd h' (o_hdr s') (Some (0, 0))) (setn w i (with_d s' d2)) (setn ords i [])).
  { apply (set1 sz nk key_of hash keq h); [exact W| |].
    - split; [exact Wd|]. assert (Hz : d_size d2 = 0) by (rewrite (wf_len nk key_of hash keq clone clone_key _ Wd), Hd; reflexivity). unfold OrderedProofs.lnk. cbn [with_d o_d o_hdr o_base]. rewrite Hz, Hcap.
      apply olinks_empty; [apply A|apply upd_same| |apply A]. intros k Hk. unfold has. rewrite upd_other by (apply (ar_ne _ _ _ A); exact Hk). apply A. exact Hk.
    - intros a Hm Hha. destruct (Kp a Hm Hha) as (K1 & K2). split; [rewrite upd_other by (intros Y; apply K2; left; exact Y); exact K1|].
      intros [Y|(k & Hk & Y)]; apply K2; [left; exact Y|right; exists k; cbn [with_d o_d] in Hk; rewrite Hcap in Hk; auto]. }
  eexists _, _. split; [reflexivity|].
  assert (He2 : forall k, conts (setn w i (with_d s' d2)) (setn ords i []) k = setn l i [] k).
  { intros k. unfold conts, setn. destruct (Nat.eqb_spec k i) as [->|Hk]; [reflexivity|]. apply He. }
  destruct (winv_refines sz nk key_of hash keq rep clone pocca pocma Hsz KL rep_key clone_key hist _ _ _ W2 Hh) as [(hw' & rs & l' & P & Q & R)|(h1 & v1 & c & h2 & hw1 & rs1 & l1 & P & Q & R & S)].
  - left. exists hw', rs, l'. split; [exact P|]. split; [|exact R]. eapply yspec_run_ext; [exact He2|exact Q].
  - right. exists h1, v1, c, h2, hw1, rs1, l1. split; [exact P|]. split; [exact Q|]. split; [|exact S]. eapply yspec_run_ext; [exact He2|exact R].
Qed.
End Proofs.
