(** Proofs about moves between ordered sparse and stable containers with unequal allocators. *)
From Coq Require Import ZArith List Bool Lia Permutation Arith.
From Verif Require Import Base BaseLemmas Bits BitsProofs SwissModel SwissArith SwissCap SwissInv SwissOps SwissClean SwissIter SwissRoom MapSpec WorldSpec World WorldProofs SwissRun SwissRefine SwissFinal SwissMore SwissCopy
  LinkModel LinkProofs OrderedLinks OrderedMoves SwissOrderedSpec SwissOrderedWorldSpec SwissOrdered SwissOrderedRun SwissOrderedWorld SwissOrderedLinks SwissOrderedProofs SwissOrderedOps SwissOrderedRefine SwissOrderedStep SwissOrderedMoves SwissOrderedMerge SwissOrderedWorldProofs.
From Verif Require UnequalOrdered.
From Verif Require Import UnequalModel.
Import ListNotations.
Open Scope Z_scope.

Section Data.
Context {E K : Type}.
Variable f : simd.
Variable key_of : E -> K.
Variable hash : K -> Z.
Variable keq : K -> K -> bool.
Hypothesis KL : key_laws hash keq.
Notation swiss := (@swiss E).
Notation wf1 := (wf1 f key_of hash keq).
Notation wf := (wf f key_of hash keq).

(** The memory for the elements of [o] is refused. *)
Definition srefused (lim : Z) (s o : swiss) : Prop := s_cap s < s_cap o /\ lim < s_cap o.
Lemma move_data_full : forall lim (s o : swiss), wf1 o -> elems o <> [] -> s_size s = 0 ->
  s_cap s < s_cap o \/ (s_cap s = s_cap o /\ s_buf s = Live /\ forall j, s_nodes s j = None) -> ~ srefused lim s o ->
  exists s' o', SwissModel.move_data f lim s o = Ok (s', o', true) /\ s_buf s' = Live /\ s_cap s' = s_cap o /\ (forall j, s_nodes s' j = s_nodes o j) /\ s_size s' = s_size o /\
    (clean f o -> wf1 s') /\ ((forall x, In x (elems o) -> contains f key_of hash keq s' (key_of x) = Ok true) -> clean f o) /\
    wf1 o' /\ elems o' = [] /\ s_cap o' = s_cap o.
Proof.
  intros lim s o Ho Hne Hs0 Hcap Hlim. pose proof (w_m _ _ _ _ o Ho) as M. pose proof (cap_bounds f o M) as Hcb.
  pose proof (wf1_elems_length f key_of hash keq o Ho) as Hl. pose proof (wf1_size_max f key_of hash keq o Ho) as Hsz.
  pose proof (max_size_bounds f (s_cap o) ltac:(lia)) as Hmx.
  unfold SwissModel.move_data. rewrite Hs0. cbn [Z.eqb guard bind].
  destruct (Z.eqb_spec (s_size o) 0) as [E0|_].
  { exfalso. rewrite E0 in Hl. destruct (elems o); [congruence|cbn [length] in Hl; lia]. }
  assert (Hre : exists s1, reallocate lim s (s_cap o) = Ok (s1, true) /\ s_buf s1 = Live /\ s_cap s1 = s_cap o /\
    (forall j, s_nodes s1 j = None) /\ s_size s1 = 0).
  { unfold reallocate. unfold srefused in Hlim. destruct Hcap as [Hcap|(Hcap & HB & HN)].
    - destruct (Z.ltb_spec (s_cap s) (s_cap o)); [|lia]. destruct (Z.ltb_spec lim (s_cap o)); [lia|].
      eexists. split; [reflexivity|]. cbn [s_buf s_cap s_nodes s_size]. auto.
    - destruct (Z.ltb_spec (s_cap s) (s_cap o)); [lia|]. exists s. auto. }
  destruct Hre as (s1 & -> & B1 & C1 & N1 & S1). cbn [bind negb].
  destruct (fill_empty_image f (fun n => n) o s1 B1 C1 (mw_cap f o M) N1) as (s2 & -> & I2 & S2). cbn [bind].
  destruct (move_loop f key_of hash keq o s2 Ho I2) as (s3 & o1 & -> & I3 & S3 & Bo & Co & No). cbn [bind].
  assert (C3 : s_cap s3 = s_cap o) by apply I3.
  unfold fill_empty at 1, check_buf. cbn [set_nempty set_size s_buf s_cap s_nodes s_size s_nempty]. rewrite Bo. cbn [bind].
  assert (Hg : forall (e : E) (h : Z), key_of (fst (e, h)) = key_of e /\ snd (e, h) = h) by (intros e h; cbn [fst snd]; auto).
  eexists. eexists. split; [reflexivity|]. cbn [set_nempty set_size s_size s_cap s_buf s_nodes].
  split; [apply (mw_buf f s3); apply I3|]. split; [exact C3|]. split.
  { intros j. destruct I3 as (_ & _ & I3 & _). rewrite I3. destruct (Z.leb_spec 0 j), (Z.ltb_spec j (s_cap o)); cbn [andb]; [destruct (s_nodes o j); reflexivity|symmetry; apply (wf_out f key_of hash keq o (or_intror Ho)); lia..]. }
  split; [reflexivity|]. split; [|split; [|split; [|split]]].
  - intros Hcl. eapply (image_wf1 f key_of hash keq (fun n => n) o s3); [exact Ho|exact I3|exact Hcl|exact Hg|reflexivity..|].
    cbn [set_nempty set_size s_nempty]. rewrite C3. unfold sub64. rewrite Z.mod_small; [reflexivity|unfold two64; lia].
  - intros Hall i e h Ei j Hj Hv Hd.
    assert (Hin : In e (elems o)).
    { apply elems_In. exists i. split; [|exists h; exact Ei]. apply (wf_some f key_of hash keq o i (e, h) (or_intror Ho) Ei). }
    specialize (Hall e Hin). rewrite (image_loses f key_of hash keq (fun n => n) o s3 _ i e h j KL Ho I3 Hg) in Hall; (reflexivity || assumption || discriminate).
  - apply (wf1_ext f key_of hash keq (fresh (s_cap o) 0 (capacity_to_max_size f (s_cap o)))); cbn [fresh s_buf s_cap s_meta s_nodes s_size s_nempty]; auto.
    + apply (fresh_wf1 f key_of hash keq). apply (mw_cap f o M).
    + intros i. rewrite Co. reflexivity.
    + rewrite Co. reflexivity.
  - unfold elems. cbn [s_nodes s_cap]. rewrite collect_none; [reflexivity|]. intros i _. apply No.
  - exact Co.
Qed.
Lemma move_data_fails : forall lim (s o : swiss), s_size s = 0 -> s_size o <> 0 -> srefused lim s o -> exists t, SwissModel.move_data f lim s o = Ok (t, o, false).
Proof.
  clear. intros lim s o H0 Hn (H1 & H2). unfold SwissModel.move_data. rewrite H0. cbn [Z.eqb guard bind]. destruct (Z.eqb_spec (s_size o) 0); [contradiction|].
  unfold reallocate. destruct (Z.ltb_spec (s_cap s) (s_cap o)); [|lia]. destruct (Z.ltb_spec lim (s_cap o)); [|lia]. cbn [bind negb]. eexists. reflexivity.
Qed.
Lemma swiss_assign : forall lim (s o : swiss), wf s -> wf o -> elems o <> [] -> s_cap s <= s_cap o ->
  (srefused lim s o /\ u_swiss_assign f lim s o = Err Terminated) \/
  (~ srefused lim s o /\ exists s' o', u_swiss_assign f lim s o = Ok (s', o') /\ elems s' = elems o /\ elems o' = []).
Proof.
  intros lim s o Ws Wo Hel Hcap. destruct (erase_nodes_ok f key_of hash keq s Ws) as (t & Ee & Bf & Ct & _ & _ & S0 & N0).
  destruct Wo as [W0|W]; [rewrite (elems_empty o (w0_cap o W0)) in Hel; congruence|]. pose proof (cap_bounds f o (w_m _ _ _ _ o W)) as Hcb.
  assert (Hn0 : s_size o <> 0) by (intros X; pose proof (wf1_elems_length f key_of hash keq o W) as El; destruct (elems o); [congruence|cbn [length] in El; lia]).
  assert (Hsr : srefused lim t o <-> srefused lim s o) by (unfold srefused; rewrite Ct; reflexivity).
  unfold u_swiss_assign, move_assign, move_from. rewrite Ee. cbn [bind buffer_assign].
  assert (Hrc : {srefused lim t o} + {~ srefused lim t o}) by (unfold srefused; destruct (Z_lt_ge_dec (s_cap t) (s_cap o)), (Z_lt_ge_dec lim (s_cap o)); [left; lia|right; lia..]).
  destruct Hrc as [Hr|Hr]; [left|right]; rewrite <- Hsr; (split; [exact Hr|]).
  - destruct (move_data_fails lim t o S0 Hn0 Hr) as (t1 & ->). reflexivity.
  - destruct (move_data_full lim t o W Hel S0) as (t1 & t2 & -> & _ & Cp & Nd & _ & _ & _ & _ & E2 & _).
    + rewrite Ct, Bf. destruct Ws as [W0|Ws]; [left; rewrite (w0_cap _ W0); lia|]. destruct (Z_lt_ge_dec (s_cap s) (s_cap o)); [left; assumption|right]. split; [lia|]. split; [apply (mw_buf f _ (w_m _ _ _ _ _ Ws))|exact N0].
    + exact Hr.
    + exists t1, t2. split; [reflexivity|]. split; [|exact E2]. unfold elems. rewrite Cp. f_equal. apply collect_ext. intros j _. apply Nd.
Qed.
Lemma swiss_ends : forall lim (s o : swiss), wf s -> wf o -> elems o <> [] -> s_cap s < s_cap o -> lim < s_cap o -> u_swiss_assign f lim s o = Err Terminated.
Proof.
  intros lim s o Ws Wo Hel Hcap Hlim. destruct (swiss_assign lim s o Ws Wo Hel ltac:(lia)) as [(_ & X)|(X & _)]; [exact X|]. exfalso. apply X. split; assumption.
Qed.
End Data.

Section Links.
Context {E K : Type}.
Variable f : simd.
Variable sz : Z.
Variable key_of : E -> K.
Variable hash : K -> Z.
Variable keq : K -> K -> bool.
Hypothesis Hsz : 0 < sz.
Hypothesis KL : key_laws hash keq.
Notation swiss := (@swiss E).
Notation oswiss := (oswiss E).
Notation wf1 := (wf1 f key_of hash keq).
Notation wf := (wf f key_of hash keq).
Notation rl := (rl sz). Notation mine := (mine sz). Notation sslot := (sslot sz).
Notation zinv := (zinv f sz key_of hash keq).

(** Only the occupied slots are moved. *)
Definition full_slot (t : swiss) (i : Z) : bool := match s_nodes t i with Some _ => true | None => false end.
Lemma relink_filter : forall (t : swiss) nb ob, wf1 t -> forall l h, (forall i, In i l -> 0 <= i < s_cap t) ->
  foldM (relink_occ f sz t nb ob) l h = foldM (fun h i => relink_from h (nb + i * sz) (ob + i * sz)) (filter (full_slot t) l) h.
Proof.
  intros t nb ob W. pose proof (w_m _ _ _ _ t W) as M. pose proof (w_n _ _ _ _ t W) as N. pose proof (cap_bounds f t M) as Hcb. pose proof (W_pos f) as HW.
  induction l as [|i l IH]; intros h Hl; [reflexivity|]. pose proof (Hl i (or_introl eq_refl)) as Hi. cbn [filter foldM]. unfold relink_occ at 1. rewrite get_meta_ok by ((apply (mw_buf f t M)) || lia). cbn [bind].
  rewrite (ncons_occ key_of hash t i N Hi). unfold full_slot at 1. destruct (s_nodes t i) as [n|].
  - cbn [foldM]. destruct (relink_from h (nb + i * sz) (ob + i * sz)); [apply IH; intros k Hk; apply Hl; right; exact Hk|reflexivity].
  - apply IH. intros k Hk. apply Hl. right. exact Hk.
Qed.

(** Traversal needs the links and the nodes only. *)
Lemma deref_plain : forall (s : oswiss) o, s_buf (os_t s) = Live -> (forall i, In i o -> 0 <= i < s_cap (os_t s) /\ s_nodes (os_t s) i <> None) -> s_deref_all sz s (map (sslot s) o) = Ok (cont s o).
Proof.
  intros s o HB. induction o as [|i o IH]; intros Ho; [reflexivity|]. cbn [map s_deref_all]. destruct (Ho i (or_introl eq_refl)) as (Hi & Hn).
  unfold s_index, SwissOrdered.sslot. rewrite slot_ix_of by lia. cbn [bind]. destruct (s_nodes (os_t s) i) as [n|] eqn:En; [|contradiction]. rewrite (get_node_ok _ _ _ HB Hi En). cbn [bind].
  unfold SwissOrdered.sslot in IH. rewrite IH by (intros j Hj; apply Ho; right; exact Hj). cbn [bind]. unfold cont. rewrite (seqn_cons _ _ _ _ En). reflexivity.
Qed.
Lemma lists_plain : forall h (s : oswiss) ord, rl h s ord -> tied (s_nodes (os_t s)) ord -> s_buf (os_t s) = Live -> zlists sz (h, s) (cont s ord).
Proof.
  intros h s ord L T HB. assert (Ho : forall i, In i ord -> 0 <= i < s_cap (os_t s) /\ s_nodes (os_t s) i <> None) by (intros i Hi; split; [apply (rl_in _ _ _ _ _ _ L i Hi)|apply T; exact Hi]). split; cbn [fst snd].
  - unfold s_iterate. destruct (walk_links sz _ _ _ _ _ (iter_fuel (os_t s)) L) as (a & E1 & E2); [unfold iter_fuel; lia|]. rewrite E1. cbn [bind]. rewrite E2. cbn [bind]. apply deref_plain; assumption.
  - unfold s_backwards. destruct (walk_back_links sz _ _ _ _ _ (iter_fuel (os_t s)) L) as (a & E1 & E2); [unfold iter_fuel; lia|]. rewrite E1. cbn [bind]. rewrite E2. cbn [bind].
    etransitivity; [apply (deref_plain s (rev ord) HB); intros i Hi; apply in_rev in Hi; apply Ho; exact Hi|]. f_equal. apply (cont_rev s ord). intros i Hi. apply Ho. exact Hi.
Qed.

(** The target of the move, with its nodes destroyed. *)
Record cleared (s : oswiss) (t o : swiss) : Prop := {
  cl_size : s_size t = 0;
  cl_none : forall j, s_nodes t j = None;
  cl_cap : s_cap t = s_cap (os_t s);
  cl_buf : s_cap t < s_cap o \/ (s_cap t = s_cap o /\ s_buf t = Live)
}.
Lemma core : forall v h (s o : oswiss) os oo t, rl h s os -> zinv h o oo -> (forall a, mine s a -> ~ mine o a) -> cleared s t (os_t o) -> s_size (os_t o) <> 0 ->
  exists h1, relink_from h (os_hdr s) (os_hdr o) = Ok h1 /\
  ((srefused (ev_lim (sv_e v)) t (os_t o) /\ exists h' s', s_move_data f sz v h1 (with_t s t) o = Ok (h', s', o, false) /\ h' (os_hdr o) = Some (0, 0) /\
      (forall a, ~ mine s a -> ~ mine o a -> h' a = h a) /\ (forall a, mine o a -> has h' a)) \/
   (~ srefused (ev_lim (sv_e v)) t (os_t o) /\
    (s_move_data f sz v h1 (with_t s t) o = Err BadPlacement \/
     exists h' s' t2, s_move_data f sz v h1 (with_t s t) o = Ok (h', s', with_t o t2, true) /\ os_hdr s' = os_hdr s /\ s_buf (os_t s') = Live /\ rl h' s' oo /\ (forall j, s_nodes (os_t s') j = s_nodes (os_t o) j) /\
       (clean f (os_t o) -> wf1 (os_t s')) /\ ((forall x, In x (elems (os_t o)) -> contains f key_of hash keq (os_t s') (key_of x) = Ok true) -> clean f (os_t o)) /\
       zinv h' (with_t o t2) [] /\ (forall a, mine s' a -> ~ mine (with_t o t2) a) /\
       (forall a, ~ mine s a -> ~ mine o a -> has h a -> h' a = h a /\ ~ mine s' a /\ ~ mine (with_t o t2) a)))).
Proof.
  intros v h s o os oo t Ls Zo Hdis [C1 C2 C3 C4] Hne. pose proof (zi_rl _ _ _ _ _ _ _ _ Zo) as Lo. pose proof (zi_tied _ _ _ _ _ _ _ _ Zo) as To.
  destruct (zi_wf _ _ _ _ _ _ _ _ Zo) as [W0|W]; [pose proof (w0_size _ W0); congruence|].
  assert (Hel : elems (os_t o) <> []) by (intros X; pose proof (wf1_elems_length f key_of hash keq _ W) as El; rewrite X in El; cbn [length] in El; lia).
  assert (Hms : mine s (os_hdr s)) by (left; reflexivity). assert (Hmo : mine o (os_hdr o)) by (left; reflexivity).
  assert (Hord : forall i, In i oo -> 0 <= i < s_cap (os_t o)) by (apply (rl_in _ _ _ _ _ _ Lo)).
  assert (Hoh : forall a, mine o a -> has h a) by (intros a; apply (mine_has sz h o oo a Lo)).
  pose proof (rl_area sz h s os Ls) as A.
  assert (Hnhd : forall i, 0 <= i < s_cap (os_t s) -> os_hdr s <> os_base s + i * sz) by (intros i Hi X; apply (ar_ne _ _ _ A i Hi); symmetry; exact X).
  destruct (ring_move h (os_hdr s) (os_hdr o) (map (sslot o) oo)) as (h1 & -> & R & O & Z0).
  { apply (rl_ring _ _ _ _ _ _ Lo). }
  { intros X. apply (Hdis _ Hms). apply (ring_mine sz h o oo _ Lo). exact X. }
  { apply A. }
  exists h1. split; [reflexivity|].
  assert (Hout : forall a, ~ mine s a -> ~ mine o a -> h1 a = h a).
  { intros a Ha Hb. apply O. intros [Y|Y]; [apply Ha; left; symmetry; exact Y|apply Hb; apply (ring_mine sz h o oo a Lo); exact Y]. }
  assert (Hrc : {srefused (ev_lim (sv_e v)) t (os_t o)} + {~ srefused (ev_lim (sv_e v)) t (os_t o)}).
  { unfold srefused. destruct (Z_lt_ge_dec (s_cap t) (s_cap (os_t o))), (Z_lt_ge_dec (ev_lim (sv_e v)) (s_cap (os_t o))); [left; lia|right; lia..]. }
  unfold s_move_data. cbn [with_t os_t os_hdr os_base].
  destruct Hrc as [Hr|Hr]; [left|right]; (split; [exact Hr|]).
  - destruct (move_data_fails f (ev_lim (sv_e v)) t (os_t o) C1 Hne Hr) as (t1 & ->). cbn [bind]. destruct (Z.eqb_spec (s_size (os_t o)) 0) as [|_]; [contradiction|]. cbn [negb].
    unfold s_realloc. cbn [with_t os_t os_base]. destruct (Z.ltb_spec (s_cap t) (s_cap (os_t o))) as [_|X]; [|destruct Hr; lia]. cbn [bind]. eexists _, _.
    split; [destruct o; reflexivity|].
    assert (Hu : forall a, ~ mine s a -> unplace h1 (os_base s) sz (s_cap t) a = h1 a) by (intros a Ha; unfold unplace; rewrite C3, (slot_ix_mine sz Hsz s a Ha); reflexivity).
    split; [rewrite Hu by (intros X; exact (Hdis _ X Hmo)); exact Z0|]. split; [intros a Ha Hb; rewrite Hu by exact Ha; apply Hout; assumption|].
    intros a Ha. unfold has. rewrite Hu by (intros X; exact (Hdis _ X Ha)). apply O. apply Hoh. exact Ha.
  - destruct (move_data_full f key_of hash keq KL (ev_lim (sv_e v)) t (os_t o) W Hel C1) as (t1 & t2 & -> & B1 & Cp & Nd & S1 & Q1 & Q2 & W2 & E2 & Cp2).
    { destruct C4 as [C4|(C4 & C4')]; [left; exact C4|right; auto]. }
    { exact Hr. }
    cbn [bind]. destruct (Z.eqb_spec (s_size (os_t o)) 0) as [|_]; [contradiction|]. cbn [negb].
    assert (Hmo' : forall a, mine (with_t o t2) a <-> mine o a) by (intros a; unfold SwissOrderedMoves.mine, SwissOrdered.sslot; cbn [with_t os_t os_hdr os_base]; rewrite Cp2; reflexivity).
    assert (Hle : s_cap (os_t s) <= s_cap (os_t o)) by lia.
    assert (Hnb : s_realloc sz v h1 (with_t s t) (s_cap (os_t o)) false = Err BadPlacement \/
      exists h2 nb, s_realloc sz v h1 (with_t s t) (s_cap (os_t o)) false = Ok (h2, nb) /\ (forall i, 0 <= i < s_cap (os_t o) -> has h2 (nb + i * sz) /\ nb + i * sz <> os_hdr s /\ ~ mine o (nb + i * sz)) /\
        (forall a, mine o a -> h2 a = h1 a) /\ h2 (os_hdr s) = h1 (os_hdr s) /\
        (forall a, ~ mine s a -> has h1 a -> h2 a = h1 a /\ forall i, 0 <= i < s_cap (os_t o) -> a <> nb + i * sz)).
    { unfold s_realloc. cbn [with_t os_t os_base]. rewrite C3. destruct (Z.ltb_spec (s_cap (os_t s)) (s_cap (os_t o))) as [Hlt|Hge].
      - set (h0 := unplace h1 (os_base s) sz (s_cap (os_t s))). assert (Hh0 : forall a, (a = os_hdr s \/ ~ mine s a) -> h0 a = h1 a).
        { intros a Ha. unfold h0, unplace. assert (Hn : slot_ix (os_base s) sz (s_cap (os_t s)) a = None); [|rewrite Hn; reflexivity]. destruct Ha as [->|Ha]; [|apply slot_ix_mine; assumption].
          apply slot_ix_none_intro; [exact Hsz|]. exact Hnhd. }
        destruct (place_cases (sv_junk v) h0 (sv_base v) sz (s_cap (os_t o)) Hsz) as [->|(h2 & -> & Hfree & Hnew & Hold)]; cbn [bind]; [left; reflexivity|right].
        exists h2, (sv_base v). split; [reflexivity|].
        assert (Hno : forall a, has h0 a -> slot_ix (sv_base v) sz (s_cap (os_t o)) a = None) by (intros a Ha; apply slot_ix_none_intro; [exact Hsz|]; intros i Hi ->; apply Ha; apply Hfree; exact Hi).
        assert (Hso : forall a, mine o a -> h0 a = h1 a /\ has h0 a) by (intros a Ha; assert (X : h0 a = h1 a) by (apply Hh0; right; intros Y; exact (Hdis a Y Ha)); split; [exact X|unfold has; rewrite X; apply O; apply Hoh; exact Ha]).
        assert (Hshd : has h0 (os_hdr s)) by (unfold has; rewrite Hh0 by (left; reflexivity); apply O; apply A).
        split; [|split; [|split]].
        + intros i Hi. split; [apply Hnew; exact Hi|]. split; [intros X; apply Hshd; rewrite <- X; apply Hfree; exact Hi|]. intros X. apply (proj2 (Hso _ X)). apply Hfree. exact Hi.
        + intros a Ha. rewrite Hold by (apply Hno; apply Hso; exact Ha). apply Hso. exact Ha.
        + rewrite Hold by (apply Hno; exact Hshd). apply Hh0. left. reflexivity.
        + intros a Ha Hh. assert (Hh' : has h0 a) by (unfold has; rewrite Hh0 by (right; exact Ha); exact Hh). split; [rewrite Hold by (apply Hno; exact Hh'); apply Hh0; right; exact Ha|].
          intros i Hi ->. apply Hh'. apply Hfree. exact Hi.
      - right. exists h1, (os_base s). split; [reflexivity|]. split; [|split; [reflexivity|split; [reflexivity|]]].
        + intros i Hi. assert (Hi' : 0 <= i < s_cap (os_t s)) by lia. split; [apply O; apply A; exact Hi'|]. split; [apply A; exact Hi'|]. apply Hdis. right. exists i. auto.
        + intros a Ha Hh. split; [reflexivity|]. intros i Hi X. apply Ha. right. exists i. split; [lia|exact X]. }
    destruct Hnb as [->|(h2 & nb & -> & N1 & N2 & N3 & N5)]; cbn [bind]; [left; reflexivity|right].
    assert (Hos : forall i, 0 <= i < s_cap (os_t o) -> mine o (os_base o + i * sz)) by (intros i Hi; right; exists i; split; [lia|reflexivity]).
    assert (R2 : ring h2 (os_hdr s :: map (fun i => os_base o + i * sz) oo)).
    { apply (ring_frame h1); [| |exact R]; intros y Hy; (unfold nx, pv; destruct Hy as [<-|Hy]; [rewrite N3; reflexivity|]; apply in_map_iff in Hy; destruct Hy as (i & <- & Hi); rewrite N2 by (apply Hos; apply Hord; exact Hi); reflexivity). }
    rewrite (relink_filter (os_t o) nb (os_base o) W (zrange (s_cap (os_t o)))) by (intros i Hi; apply zrange_In; exact Hi).
    assert (Hfl : forall i, In i (filter (full_slot (os_t o)) (zrange (s_cap (os_t o)))) <-> In i oo).
    { intros i. rewrite filter_In, zrange_In, (To i). unfold full_slot. split; [intros (_ & X) Y; rewrite Y in X; discriminate|]. intros X. split; [apply Hord; apply To; exact X|]. destruct (s_nodes (os_t o) i); [reflexivity|contradiction]. }
    destruct (UnequalOrdered.shift_ring sz Hsz (filter (full_slot (os_t o)) (zrange (s_cap (os_t o)))) h2 (os_hdr s) nb (os_base o) oo R2) as (h3 & -> & R3 & O3).
    + apply NoDup_filter. apply zrange_NoDup.
    + exact Hfl.
    + intros i Hi. apply Hfl in Hi. apply Hord in Hi. destruct (N1 i Hi) as (X1 & X2 & X3). split; [exact X1|]. intros [Y|Y]; [congruence|]. apply in_map_iff in Y. destruct Y as (k & Y & Hk). apply X3. rewrite <- Y. apply Hos. apply Hord. exact Hk.
    + cbn [bind]. exists h3, (mkos t1 (os_hdr s) nb), t2. split; [reflexivity|]. cbn [os_t os_hdr]. split; [reflexivity|]. split; [exact B1|].
      assert (Hsh : ~ mine o (os_hdr s)) by (apply Hdis; left; reflexivity).
      assert (Hmn : forall a, mine (mkos t1 (os_hdr s) nb) a -> a = os_hdr s \/ exists i, 0 <= i < s_cap (os_t o) /\ a = nb + i * sz).
      { intros a [Ha|(i & Hi & Ha)]; [left; exact Ha|right; exists i; split; [cbn [os_t] in Hi; rewrite Cp in Hi; exact Hi|exact Ha]]. }
      split; [|split; [exact Nd|split; [exact Q1|split; [exact Q2|split; [|split]]]]].
      * unfold SwissOrderedProofs.rl. cbn [os_t os_hdr os_base]. rewrite Cp. constructor; [exact R3|exact Hord|apply (rl_cap _ _ _ _ _ _ Lo)| |].
        -- intros i Hi. apply O3. apply N1. exact Hi.
        -- intros i Hi. apply N1. exact Hi.
      * apply empty_zinv; [right; exact W2|exact E2|]. unfold SwissOrderedProofs.rl. cbn [with_t os_t os_hdr os_base]. rewrite Cp2. apply rl_empty.
        -- apply (rl_cap _ _ _ _ _ _ Lo).
        -- rewrite (proj1 O3); [rewrite N2 by exact Hmo; exact Z0|]. intros [Y|Y]; [apply Hsh; rewrite Y; exact Hmo|]. apply in_app_or in Y. destruct Y as [Y|Y]; apply in_map_iff in Y; destruct Y as (i & Y & Hi).
           ++ apply (rl_hdr _ _ _ _ _ _ Lo i); [apply Hord; exact Hi|exact Y].
           ++ apply Hfl in Hi. apply Hord in Hi. apply (proj2 (proj2 (N1 i Hi))). rewrite Y. exact Hmo.
        -- intros i Hi. apply O3. unfold has. rewrite N2 by (apply Hos; exact Hi). apply O. apply Hoh. apply Hos. exact Hi.
        -- intros i Hi. apply (rl_hdr _ _ _ _ _ _ Lo). exact Hi.
      * intros a Ha Hb. apply Hmo' in Hb. apply Hmn in Ha. destruct Ha as [->|(i & Hi & ->)]; [exact (Hsh Hb)|]. exact (proj2 (proj2 (N1 i Hi)) Hb).
      * intros a Ha Hb Hh. pose proof (Hout a Ha Hb) as X0. destruct (N5 a Ha) as (X1 & X2); [unfold has; rewrite X0; exact Hh|]. assert (Hahd : a <> os_hdr s) by (intros X; apply Ha; left; exact X). split; [|split].
        -- rewrite (proj1 O3); [congruence|]. intros [Y|Y]; [congruence|]. apply in_app_or in Y. destruct Y as [Y|Y]; apply in_map_iff in Y; destruct Y as (i & Y & Hi); [apply Hb; rewrite <- Y; apply Hos; apply Hord; exact Hi|].
           apply Hfl in Hi. apply Hord in Hi. apply (X2 i Hi). symmetry. exact Y.
        -- intros X. apply Hmn in X. destruct X as [X|(i & Hi & X)]; [exact (Hahd X)|exact (X2 i Hi X)].
        -- intros X. apply Hb. apply Hmo'. exact X.
Qed.
End Links.

Section World.
Context {E K : Type}.
Variable f : simd.
Variable sz : Z.
Variable key_of : E -> K.
Variable hash : K -> Z.
Variable keq : K -> K -> bool.
Variable rep : E -> E -> E.
Variable clone : E -> E.
Variables pocca pocma : bool.
Hypothesis Hsz : 0 < sz.
Hypothesis KL : key_laws hash keq.
Hypothesis Hrep : forall a b, keq (key_of a) (key_of b) = true -> key_of (rep a b) = key_of a.
Hypothesis Hclone : forall e, key_of (clone e) = key_of e.
Notation swiss := (@swiss E).
Notation oswiss := (oswiss E).
Notation xworld := (xworld E).
Notation rl := (rl sz). Notation mine := (mine sz). Notation sslot := (sslot sz).
Notation zinv := (zinv f sz key_of hash keq).
Notation winv := (winv f sz key_of hash keq).
Notation xoccurs := (xoccurs f sz key_of hash keq rep clone pocca pocma).
Notation xrefines := (xrefines f sz key_of hash keq rep clone pocca pocma).

Lemma xspec_ext : forall c u w w' r, (forall i, xc u i = xc w i) -> (forall i, xh u i = xh w i) -> xspec key_of keq rep clone c w w' r -> xspec key_of keq rep clone c u w' r.
Proof.
  clear. intros c u w w' r Hu Hv H.
  assert (Ho : forall is hs, xothers is hs w w' -> xothers is hs u w') by (intros is hs (A & B); split; intros k Hk; [rewrite Hu; apply A; exact Hk|rewrite Hv; apply B; exact Hk]).
  destruct H; [econstructor 1|econstructor 2|econstructor 3|econstructor 4|econstructor 5|econstructor 6|econstructor 7|econstructor 8|econstructor 9|econstructor 10|econstructor 11|econstructor 12|econstructor 13|econstructor 14|econstructor 15|econstructor 16|econstructor 17|econstructor 18|econstructor 19|econstructor 20|econstructor 21|econstructor 22]; rewrite ?Hu, ?Hv; eauto.
Qed.
Lemma xspec_run_ext : forall cs u w w' rs, (forall i, xc u i = xc w i) -> (forall i, xh u i = xh w i) -> xspec_run key_of keq rep clone cs w w' rs -> xspec_run key_of keq rep clone cs u w' rs.
Proof.
  intros cs u w w' rs Hu Hv H. destruct H as [w w' (A & B)|c cs w w1 w2 r rs H1 H2]; [constructor; split; intros k Hk; [rewrite Hu; apply A; exact Hk|rewrite Hv; apply B; exact Hk]|]. econstructor; [apply (xspec_ext c u w); eassumption|exact H2].
Qed.
Lemma xrefines_ext : forall w l l' hist, (forall i, xc l i = xc l' i) -> (forall i, xh l i = xh l' i) -> xrefines w l hist -> xrefines w l' hist.
Proof.
  intros w l l' hist Hl Hh H. assert (Hl' : forall i, xc l' i = xc l i) by (intros i; symmetry; apply Hl). assert (Hh' : forall i, xh l' i = xh l i) by (intros i; symmetry; apply Hh).
  destruct H as [(w' & rs & m & H1 & H2 & H3)|(h1 & v & c & h2 & w1 & rs1 & m & H1 & H2 & H3 & H4)].
  - left. exists w', rs, m. split; [exact H1|]. split; [apply (xspec_run_ext _ l' l); assumption|exact H3].
  - right. exists h1, v, c, h2, w1, rs1, m. split; [exact H1|]. split; [exact H2|]. split; [apply (xspec_run_ext _ l' l); assumption|exact H4].
Qed.

(** What the property says about one move from [j] to [i] in a world with contents [l]: the
    elements keep their order, and unless some element is not found in the target, the program
    goes on as the lists say. *)
Definition smoved (w : xworld) (l : nat -> list E) (i j : nat) (w' : xworld) : Prop :=
  xlists sz w' (setn (setn l i (l j)) j []) /\
  ((exists x, In x (l j) /\ contains f key_of hash keq (os_t (xw_c w' i)) (key_of x) <> Ok true) \/
   forall hist, xhistory_ok hist -> xrefines w' (mkx (setn (setn l i (l j)) j []) (xw_h w)) hist).

Lemma moved_world : forall w ords i j h' s' t2, winv (xw_m w) (xw_c w) ords -> i <> j -> s_buf (os_t s') = Live -> rl h' s' (ords j) -> (forall k, s_nodes (os_t s') k = s_nodes (os_t (xw_c w j)) k) ->
  (clean f (os_t (xw_c w j)) -> wf1 f key_of hash keq (os_t s')) -> ((forall x, In x (elems (os_t (xw_c w j))) -> contains f key_of hash keq (os_t s') (key_of x) = Ok true) -> clean f (os_t (xw_c w j))) ->
  zinv h' (with_t (xw_c w j) t2) [] -> (forall a, mine s' a -> ~ mine (with_t (xw_c w j) t2) a) ->
  (forall a, ~ mine (xw_c w i) a -> ~ mine (xw_c w j) a -> has (xw_m w) a -> h' a = xw_m w a /\ ~ mine s' a /\ ~ mine (with_t (xw_c w j) t2) a) ->
  forall l, xlists sz w l -> smoved w l i j (mkxw h' (setn (setn (xw_c w) i s') j (with_t (xw_c w j) t2)) (xw_h w)).
Proof.
  intros w ords i j h' s' t2 H Hij B L Nd Q1 Q2 Z2 D Hk l Hl. set (o' := with_t (xw_c w j) t2) in *.
  assert (Hlc : forall k, l k = cont (xw_c w k) (ords k)).
  { intros k. pose proof (proj1 (Hl k)) as X. pose proof (iterate_ok f sz key_of hash keq Hsz _ _ _ (proj1 H k)) as Y. cbn [fst snd] in X. rewrite X in Y. injection Y as Y. exact Y. }
  assert (Hc : cont s' (ords j) = l j).
  { rewrite Hlc. unfold cont, seqn. apply flat_map_ext. intros k. unfold look. rewrite Nd. reflexivity. }
  assert (T : tied (s_nodes (os_t s')) (ords j)) by (intros k; rewrite Nd; apply (zi_tied _ _ _ _ _ _ _ _ (proj1 H j))).
  split.
  - intros k. cbn [xw_m xw_c]. unfold setn. destruct (Nat.eqb_spec k j) as [Ej|Ej]; [|destruct (Nat.eqb_spec k i) as [Ei|Ei]].
    + apply (zi_lists f sz key_of hash keq Hsz _ _ _ Z2).
    + rewrite <- Hc. apply (lists_plain sz Hsz); assumption.
    + pose proof (proj1 H k) as Zk. rewrite Hlc. apply (zi_lists f sz key_of hash keq Hsz). apply (zinv_same _ _ _ _ _ (xw_m w)); [exact Zk|]. intros a Ha.
      apply Hk; [apply (proj2 H k i a Ei Ha)|apply (proj2 H k j a Ej Ha)|apply (mine_has sz _ _ _ a (zi_rl _ _ _ _ _ _ _ _ Zk) Ha)].
  - cbn [xw_c]. rewrite WorldProofs.setn_other by congruence. rewrite WorldProofs.setn_same.
    destruct (contains_dec f key_of hash keq (os_t s') (l j)) as [Hall|Hlost]; [right|left; exact Hlost]. intros hist Hh.
    assert (Hw : winv h' (setn (setn (xw_c w) i s') j o') (setn (setn ords i (ords j)) j [])).
    { apply (set2 f sz key_of hash keq (xw_m w)); [exact H|exact Hij| |exact Z2|exact D|exact Hk]. constructor; [right; apply Q1; apply Q2|exact L|exact T].
      apply (all_found f sz key_of hash keq _ _ _ _ (proj1 H j)). intros x Hx. apply Hall. rewrite Hlc. exact Hx. }
    pose proof (winv_refines f sz key_of hash keq rep clone pocca pocma Hsz KL Hrep Hclone hist (mkxw h' (setn (setn (xw_c w) i s') j o') (xw_h w)) _ Hw Hh) as X.
    refine (xrefines_ext _ _ _ _ _ _ X); [|reflexivity]. intros k. cbn [abs xc xw_c]. unfold setn. destruct (Nat.eqb_spec k j); [reflexivity|]. destruct (Nat.eqb_spec k i); [exact Hc|symmetry; apply Hlc].
Qed.

Lemma full_size : forall w ords j l, winv (xw_m w) (xw_c w) ords -> xlists sz w l -> l j <> [] -> s_size (os_t (xw_c w j)) <> 0.
Proof.
  intros w ords j l H Hl Hne X. apply Hne. pose proof (proj1 (Hl j)) as A. pose proof (iterate_ok f sz key_of hash keq Hsz _ _ _ (proj1 H j)) as B. cbn [fst snd] in A. rewrite A in B. injection B as ->.
  destruct (zi_len _ _ _ _ _ _ _ _ (proj1 H j)) as (_ & Y). destruct (ords j); [reflexivity|cbn [length] in Y; lia].
Qed.

Lemma u_assign : forall v w i j l, xoccurs w -> i <> j -> xlists sz w l -> l j <> [] -> s_cap (os_t (xw_c w i)) <= s_cap (os_t (xw_c w j)) ->
  (srefused (ev_lim (sv_e v)) (os_t (xw_c w i)) (os_t (xw_c w j)) /\ u_oswiss_assign f sz v (xw_m w) (xw_c w i) (xw_c w j) = Err Terminated) \/
  (~ srefused (ev_lim (sv_e v)) (os_t (xw_c w i)) (os_t (xw_c w j)) /\
   (u_oswiss_assign f sz v (xw_m w) (xw_c w i) (xw_c w j) = Err BadPlacement \/
    exists h' s' o', u_oswiss_assign f sz v (xw_m w) (xw_c w i) (xw_c w j) = Ok (h', s', o') /\ smoved w l i j (mkxw h' (setn (setn (xw_c w) i s') j o') (xw_h w)))).
Proof.
  intros v w i j l Ho Hij Hl Hne Hcap. destruct (xoccurs_inv f sz key_of hash keq rep clone pocca pocma Hsz KL Hrep Hclone w Ho) as (ords & H).
  pose proof (full_size w ords j l H Hl Hne) as Hn0. pose proof (zi_wf _ _ _ _ _ _ _ _ (proj1 H i)) as Wi.
  destruct (erase_nodes_ok f key_of hash keq _ Wi) as (t & Ee & Bf & Ct & _ & _ & S0 & N0).
  assert (Hcl : cleared (xw_c w i) t (os_t (xw_c w j))).
  { constructor; [exact S0|exact N0|exact Ct|]. rewrite Ct, Bf. destruct (zi_wf _ _ _ _ _ _ _ _ (proj1 H j)) as [W0|W1]; [pose proof (w0_size _ W0); congruence|]. pose proof (cap_bounds f _ (w_m _ _ _ _ _ W1)) as Hcb.
    destruct Wi as [W0|Wi]; [left; rewrite (w0_cap _ W0); lia|]. destruct (Z_lt_ge_dec (s_cap (os_t (xw_c w i))) (s_cap (os_t (xw_c w j)))); [left; assumption|right]. split; [lia|]. apply (mw_buf f _ (w_m _ _ _ _ _ Wi)). }
  unfold u_oswiss_assign.
  destruct (core f sz key_of hash keq Hsz KL v (xw_m w) (xw_c w i) (xw_c w j) (ords i) (ords j) t (zi_rl _ _ _ _ _ _ _ _ (proj1 H i)) (proj1 H j) (fun a => proj2 H i j a Hij) Hcl Hn0) as (h1 & -> & Hc). cbn [bind]. rewrite Ee. cbn [bind].
  assert (Hsr : srefused (ev_lim (sv_e v)) t (os_t (xw_c w j)) <-> srefused (ev_lim (sv_e v)) (os_t (xw_c w i)) (os_t (xw_c w j))) by (unfold srefused; rewrite Ct; reflexivity).
  destruct Hc as [(Hr & h' & s' & -> & _)|(Hr & [->|(h' & s' & t2 & -> & _ & B & L & Nd & Q1 & Q2 & Z2 & D & Hk)])]; [left; split; [apply Hsr; exact Hr|reflexivity]|right; split; [rewrite <- Hsr; exact Hr|left; reflexivity]|right; split; [rewrite <- Hsr; exact Hr|right]].
  exists h', s', (with_t (xw_c w j) t2). split; [reflexivity|]. apply (moved_world w ords i j h' s' t2); assumption.
Qed.

(** A refused constructor throws; the elements are then in a ring around the dead header. *)
Lemma u_ctor : forall v w i j l, xoccurs w -> i <> j -> xlists sz w l -> l j <> [] ->
  let h0 := x_destroy sz (xw_m w) (xw_c w i) in
  (ev_lim (sv_e v) < s_cap (os_t (xw_c w j)) /\ exists h' s', u_oswiss_ctor f sz v h0 (os_hdr (xw_c w i)) (xw_c w j) = Ok (h', s', xw_c w j, false) /\
     s_iterate sz h' (xw_c w j) = Ok [] /\ s_size (os_t (xw_c w j)) = Z.of_nat (length (l j))) \/
  (s_cap (os_t (xw_c w j)) <= ev_lim (sv_e v) /\
   (u_oswiss_ctor f sz v h0 (os_hdr (xw_c w i)) (xw_c w j) = Err BadPlacement \/
    exists h' s' o', u_oswiss_ctor f sz v h0 (os_hdr (xw_c w i)) (xw_c w j) = Ok (h', s', o', true) /\ smoved w l i j (mkxw h' (setn (setn (xw_c w) i s') j o') (xw_h w)))).
Proof.
  intros v w i j l Ho Hij Hl Hne h0. destruct (xoccurs_inv f sz key_of hash keq rep clone pocca pocma Hsz KL Hrep Hclone w Ho) as (ords & H).
  pose proof (full_size w ords j l H Hl Hne) as Hn0.
  pose proof (renewed f sz key_of hash keq Hsz (xw_m w) (xw_c w) ords i H) as H0. fold h0 in H0. set (n := s_new (os_hdr (xw_c w i)) : oswiss) in *.
  assert (Hi0 : zinv h0 n []) by (pose proof (proj1 H0 i) as X; rewrite !WorldProofs.setn_same in X; exact X).
  assert (Hj0 : zinv h0 (xw_c w j) (ords j)) by (pose proof (proj1 H0 j) as X; rewrite !WorldProofs.setn_other in X by congruence; exact X).
  assert (Hdis : forall a, mine n a -> ~ mine (xw_c w j) a) by (intros a; pose proof (proj2 H0 i j a Hij) as X; rewrite WorldProofs.setn_same, WorldProofs.setn_other in X by congruence; exact X).
  assert (Hpos : 0 < s_cap (os_t (xw_c w j))).
  { destruct (zi_wf _ _ _ _ _ _ _ _ Hj0) as [W0|W1]; [pose proof (w0_size _ W0); congruence|]. pose proof (cap_bounds f _ (w_m _ _ _ _ _ W1)) as Hcb. lia. }
  assert (Hcl : cleared n (empty_swiss : swiss) (os_t (xw_c w j))) by (constructor; [reflexivity|reflexivity|reflexivity|left; exact Hpos]).
  unfold u_oswiss_ctor.
  destruct (core f sz key_of hash keq Hsz KL v h0 n (xw_c w j) [] (ords j) empty_swiss (zi_rl _ _ _ _ _ _ _ _ Hi0) Hj0 Hdis Hcl Hn0) as (h1 & Hl1 & Hc).
  change (os_hdr n) with (os_hdr (xw_c w i)) in Hl1. rewrite Hl1. cbn [bind]. change (mkos empty_swiss (os_hdr (xw_c w i)) 0) with (with_t n (empty_swiss : swiss)).
  destruct Hc as [((_ & Hr) & h' & s' & -> & Z0 & _)|(Hr & Hc)].
  - left. split; [exact Hr|]. exists h', s'. split; [reflexivity|]. split.
    + unfold s_iterate, next_link, get_link. rewrite Z0. cbn [bind fst]. unfold iter_fuel.
      destruct (Z.to_nat (s_cap (os_t (xw_c w j)))) eqn:Ez; [lia|]. cbn [walk]. rewrite Z.add_0_r, Z.eqb_refl. reflexivity.
    + destruct (zi_len _ _ _ _ _ _ _ _ Hj0) as (X & Y). rewrite Y. pose proof (proj1 (Hl j)) as A. pose proof (iterate_ok f sz key_of hash keq Hsz _ _ _ (proj1 H j)) as B. cbn [fst snd] in A. rewrite A in B. injection B as ->. rewrite X. reflexivity.
  - right. split; [unfold srefused in Hr; cbn [empty_swiss s_cap] in Hr; lia|].
    destruct Hc as [->|(h' & s' & t2 & -> & _ & B & L & Nd & Q1 & Q2 & Z2 & D & Hk)]; [left; reflexivity|right].
    exists h', s', (with_t (xw_c w j) t2). split; [reflexivity|]. apply (moved_world w ords i j h' s' t2); try assumption.
    intros a Ha Hb Hx. destruct (proj2 (destroyed sz Hsz (xw_m w) (xw_c w i)) a Ha Hx) as (D1 & D2). fold h0 in D1. destruct (Hk a D2 Hb) as (K1 & K2 & K3); [unfold has; rewrite D1; exact Hx|]. rewrite K1, D1. auto.
Qed.
Lemma u_ctor_throws : forall v w i j l, xoccurs w -> i <> j -> xlists sz w l -> l j <> [] -> ev_lim (sv_e v) < s_cap (os_t (xw_c w j)) ->
  exists h' s', u_oswiss_ctor f sz v (x_destroy sz (xw_m w) (xw_c w i)) (os_hdr (xw_c w i)) (xw_c w j) = Ok (h', s', xw_c w j, false) /\
    s_iterate sz h' (xw_c w j) = Ok [] /\ s_size (os_t (xw_c w j)) = Z.of_nat (length (l j)).
Proof. intros v w i j l Ho Hij Hl Hne Hlim. destruct (u_ctor v w i j l Ho Hij Hl Hne) as [(_ & X)|(X & _)]; [exact X|lia]. Qed.
Lemma u_ctor_done : forall v w i j l, xoccurs w -> i <> j -> xlists sz w l -> l j <> [] -> s_cap (os_t (xw_c w j)) <= ev_lim (sv_e v) ->
  u_oswiss_ctor f sz v (x_destroy sz (xw_m w) (xw_c w i)) (os_hdr (xw_c w i)) (xw_c w j) = Err BadPlacement \/
  exists h' s' o', u_oswiss_ctor f sz v (x_destroy sz (xw_m w) (xw_c w i)) (os_hdr (xw_c w i)) (xw_c w j) = Ok (h', s', o', true) /\
    smoved w l i j (mkxw h' (setn (setn (xw_c w) i s') j o') (xw_h w)).
Proof. intros v w i j l Ho Hij Hl Hne Hlim. destruct (u_ctor v w i j l Ho Hij Hl Hne) as [(X & _)|(_ & X)]; [lia|exact X]. Qed.
Lemma u_assign_done : forall v w i j l, xoccurs w -> i <> j -> xlists sz w l -> l j <> [] -> s_cap (os_t (xw_c w i)) <= s_cap (os_t (xw_c w j)) ->
  ~ (s_cap (os_t (xw_c w i)) < s_cap (os_t (xw_c w j)) /\ ev_lim (sv_e v) < s_cap (os_t (xw_c w j))) ->
  u_oswiss_assign f sz v (xw_m w) (xw_c w i) (xw_c w j) = Err BadPlacement \/
  exists h' s' o', u_oswiss_assign f sz v (xw_m w) (xw_c w i) (xw_c w j) = Ok (h', s', o') /\ smoved w l i j (mkxw h' (setn (setn (xw_c w) i s') j o') (xw_h w)).
Proof. intros v w i j l Ho Hij Hl Hne Hcap Hr. destruct (u_assign v w i j l Ho Hij Hl Hne Hcap) as [(X & _)|(_ & X)]; [contradiction|exact X]. Qed.
End World.
