(** The links of ordered swiss tables under copies, moves and exchanges. *)
From Coq Require Import ZArith List Bool Lia Permutation Arith.
From Verif Require Import Base BaseLemmas Bits BitsProofs SwissModel SwissArith SwissCap SwissInv SwissOps SwissClean SwissIter SwissRoom MapSpec SwissRun SwissCopy
  LinkModel LinkProofs OrderedLinks OrderedMoves SwissOrdered SwissOrderedRun SwissOrderedLinks SwissOrderedProofs SwissOrderedWorld.
Import ListNotations.
Open Scope Z_scope.

Section Links.
Context {E K : Type}.
Variable f : simd.
Variable sz : Z.
Variable key_of : E -> K.
Variable hash : K -> Z.
Variable keq : K -> K -> bool.
Hypothesis Hsz : 0 < sz.
Notation swiss := (@swiss E).
Notation oswiss := (oswiss E).
Notation rl := (rl sz). Notation sslot := (sslot sz).
Notation wf1 := (wf1 f key_of hash keq).
Notation wf := (wf f key_of hash keq).

(** The addresses of a container. *)
Definition mine (s : oswiss) (a : Z) : Prop := a = os_hdr s \/ exists i, 0 <= i < s_cap (os_t s) /\ a = sslot s i.
Lemma outside_iff : forall (s : oswiss) a, outside sz (os_hdr s) (os_base s) (s_cap (os_t s)) a <-> ~ mine s a.
Proof. clear - Hsz.
  intros s a. unfold outside, mine. split.
  - intros (H1 & H2) [H|(i & Hi & H)]; [contradiction|]. apply (slot_ix_none _ _ _ _ Hsz H2 i Hi H).
  - intros H. split; [intros X; apply H; left; exact X|]. apply slot_ix_none_intro; [exact Hsz|]. intros i Hi X. apply H. right. exists i. auto.
Qed.
Lemma slot_ix_mine : forall (s : oswiss) a, ~ mine s a -> slot_ix (os_base s) sz (s_cap (os_t s)) a = None.
Proof. clear - Hsz. intros s a H. apply outside_iff in H. apply H. Qed.
Definition keeps (h : heap) (s : oswiss) (h' : heap) (s' : oswiss) : Prop := forall a, ~ mine s a -> has h a -> h' a = h a /\ ~ mine s' a.
Lemma sfr_keeps : forall h s h' s', sfr sz h s h' s' -> keeps h s h' s'.
Proof. clear - Hsz. intros h s h' s' (_ & F) a Ha Hh. destruct (F a) as (H1 & H2); [apply outside_iff; exact Ha|exact Hh|]. split; [exact H1|]. apply outside_iff. exact H2. Qed.
Lemma mine_has : forall h s ord a, rl h s ord -> mine s a -> has h a.
Proof. clear. intros h s ord a L [->|(i & Hi & ->)]; [apply (rl_hashdr _ _ _ _ _ _ L)|apply (rl_has _ _ _ _ _ _ L); exact Hi]. Qed.
Lemma ring_mine : forall h (s : oswiss) ord y, rl h s ord -> In y (os_hdr s :: map (sslot s) ord) -> mine s y.
Proof. clear. intros h s ord y L Hy. destruct (rl_slots sz h _ _ _ _ y L Hy) as [->|(i & Hi & ->)]; [left; reflexivity|right; exists i; auto]. Qed.
Lemma rl_same : forall h h' s ord, rl h s ord -> (forall a, mine s a -> h' a = h a) -> rl h' s ord.
Proof. clear - Hsz.
  intros h h' s ord L H. pose proof L as [R Hin Hle Hhas Hhd]. constructor; try assumption.
  - apply (ring_frame h); [| |exact R]; intros y Hy; (unfold nx, pv; rewrite H; [reflexivity|]; apply (ring_mine h s ord y L Hy)).
  - intros i Hi. unfold has. rewrite H by (right; exists i; auto). apply Hhas. exact Hi.
Qed.
Record area (h : heap) (s : oswiss) : Prop := {
  ar_hdr : has h (os_hdr s);
  ar_slot : forall i, 0 <= i < s_cap (os_t s) -> has h (sslot s i);
  ar_ne : forall i, 0 <= i < s_cap (os_t s) -> sslot s i <> os_hdr s;
  ar_cap : 0 <= s_cap (os_t s)
}.
Lemma rl_area : forall h (s : oswiss) ord, rl h s ord -> area h s.
Proof. clear. intros h s ord L. constructor; [apply (rl_hashdr _ _ _ _ _ _ L)|apply (rl_has _ _ _ _ _ _ L)|apply (rl_hdr _ _ _ _ _ _ L)|apply (rl_cap _ _ _ _ _ _ L)]. Qed.

(** ** Copying. *)
Lemma copy_occ_ok : forall (t : swiss) h nb ob, wf1 t ->
  (forall i, 0 <= i < s_cap t -> has h (nb + i * sz)) -> (forall i, 0 <= i < s_cap t -> has h (ob + i * sz)) ->
  (forall i j, 0 <= i < s_cap t -> 0 <= j < s_cap t -> nb + i * sz <> ob + j * sz) ->
  exists h', foldM (copy_link_occ f sz t nb ob) (zrange (s_cap t)) h = Ok h' /\ (forall i, s_nodes t i <> None -> h' (nb + i * sz) = h (ob + i * sz)) /\
    (forall a, (forall i, 0 <= i < s_cap t -> a <> nb + i * sz) -> h' a = h a) /\ (forall a, has h a -> has h' a).
Proof.
  intros t h nb ob W Hs Ho Hd. pose proof (w_m _ _ _ _ t W) as M. pose proof (w_n _ _ _ _ t W) as N. pose proof (cap_bounds f t M) as Hcb. pose proof (W_pos f) as HW.
  destruct (foldM_zrange_inv _ (copy_link_occ f sz t nb ob) (fun i h' => (forall k, 0 <= k < i -> s_nodes t k <> None -> h' (nb + k * sz) = h (ob + k * sz)) /\
     (forall a, (forall k, 0 <= k < i -> a <> nb + k * sz) -> h' a = h a) /\ (forall a, has h a -> has h' a)) (s_cap t) h) as (h' & E1 & H1 & H2 & H3).
  - lia.
  - split; [intros k Hk; lia|]. split; [reflexivity|auto].
  - intros i h' Hi (I1 & I2 & I3). unfold copy_link_occ. rewrite get_meta_ok by ((apply (mw_buf f t M)) || lia). cbn [bind].
    pose proof (ncons_occ key_of hash t i N Hi) as Hocc. rewrite Hocc. destruct (s_nodes t i) as [n|] eqn:En.
    + assert (X1 : h' (ob + i * sz) = h (ob + i * sz)) by (apply I2; intros k Hk; apply not_eq_sym; apply (Hd k i); [destruct Hi, Hk; split; [assumption|eapply Z.lt_trans; eassumption]|exact Hi]).
      assert (X2 : has h' (nb + i * sz)) by (apply I3; apply Hs; exact Hi). pose proof (Ho i Hi) as X3. unfold has in X2, X3.
      unfold copy_link, get_link. rewrite X1. destruct (h (ob + i * sz)) as [l|] eqn:El; [|contradiction]. cbn [bind]. destruct (h' (nb + i * sz)) as [l'|]; [|contradiction]. cbn [bind].
      eexists. split; [reflexivity|]. split; [|split].
      * intros k Hk Hn. destruct (Z.eq_dec k i) as [->|Hne]; [rewrite upd_same, El; reflexivity|]. rewrite upd_other by (intros X; apply slot_inj in X; [congruence|exact Hsz]). apply I1; [lia|exact Hn].
      * intros a Ha. rewrite upd_other by (apply Ha; lia). apply I2. intros k Hk. apply Ha. lia.
      * intros a Ha. unfold has, upd. destruct (a =? nb + i * sz); [discriminate|apply I3; exact Ha].
    + exists h'. split; [reflexivity|]. split; [|split; [|exact I3]].
      * intros k Hk Hn. destruct (Z.eq_dec k i) as [->|Hne]; [congruence|]. apply I1; [lia|exact Hn].
      * intros a Ha. apply I2. intros k Hk. apply Ha. lia.
  - exists h'. split; [exact E1|]. split; [|split; [exact H2|exact H3]]. intros i Hi. apply H1; [|exact Hi].
    destruct (s_nodes t i) as [n|] eqn:En; [|congruence]. apply (wf_some f key_of hash keq t i n (or_intror W) En).
Qed.

Lemma s_copy_data_ok : forall clone v h (s o : oswiss) ord t1 b,
  copy_data f clone (ev_lim (sv_e v)) (os_t s) (os_t o) = Ok (t1, b) ->
  wf (os_t o) -> rl h o ord -> tied (s_nodes (os_t o)) ord -> s_size (os_t o) = Z.of_nat (length ord) ->
  area h s -> s_cap (os_t s) <= s_cap (os_t o) \/ s_size (os_t o) = 0 -> (forall a, mine s a -> ~ mine o a) ->
  (s_size (os_t o) = 0 -> h (os_hdr s) = Some (0, 0)) -> (b = true -> s_cap t1 = if s_size (os_t o) =? 0 then s_cap (os_t s) else s_cap (os_t o)) ->
  s_copy_data f sz clone v h s o = Err BadPlacement \/
  exists h' s', s_copy_data f sz clone v h s o = Ok (h', s', b) /\ os_t s' = t1 /\ os_hdr s' = os_hdr s /\
    (b = true -> rl h' s' ord /\ keeps h s h' s') /\ (b = false -> s_cap (os_t s) = 0 -> forall a, h' a = h a).
Proof.
  intros clone v h s o ord t1 b Hd Wo L T Hlen A Hle Hdis Hhd Hcap. unfold s_copy_data. rewrite Hd. cbn [bind].
  destruct (Z.eqb_spec (s_size (os_t o)) 0) as [Ho|Ho].
  - right. exists h, (with_t s t1). split; [reflexivity|]. split; [reflexivity|]. split; [reflexivity|]. split; [|reflexivity].
    intros ->. specialize (Hcap eq_refl). assert (ord = []) as -> by (destruct ord; [reflexivity|cbn [length] in Hlen; lia]). split.
    + unfold SwissOrderedProofs.rl. cbn [with_t os_t os_hdr os_base]. rewrite Hcap. apply rl_empty; [apply A|apply Hhd; exact Ho|apply A|apply A].
    + intros a Ha _. split; [reflexivity|]. intros [X|(i & Hi & X)]; apply Ha; [left; exact X|right; exists i; split; [cbn [with_t os_t] in Hi; rewrite Hcap in Hi; exact Hi|exact X]].
  - destruct Hle as [Hle|]; [|contradiction]. destruct b; cbn [negb].
    + specialize (Hcap eq_refl). destruct Wo as [W0|W]; [pose proof (w0_size _ W0); congruence|].
      assert (Hnb : s_realloc sz v h s (s_cap (os_t o)) false = Err BadPlacement \/
        exists h1 nb, s_realloc sz v h s (s_cap (os_t o)) false = Ok (h1, nb) /\ (forall i, 0 <= i < s_cap (os_t o) -> has h1 (nb + i * sz) /\ nb + i * sz <> os_hdr s /\ ~ mine o (nb + i * sz)) /\
          (forall a, mine o a -> h1 a = h a) /\ h1 (os_hdr s) = h (os_hdr s) /\
          (forall a, ~ mine s a -> has h a -> h1 a = h a /\ forall i, 0 <= i < s_cap (os_t o) -> a <> nb + i * sz)).
      { unfold s_realloc. destruct (Z.ltb_spec (s_cap (os_t s)) (s_cap (os_t o))) as [Hlt|Hge].
        - set (h0 := unplace h (os_base s) sz (s_cap (os_t s))). assert (Hh0 : forall a, (a = os_hdr s \/ ~ mine s a) -> h0 a = h a).
          { intros a Ha. unfold h0, unplace. assert (Hn : slot_ix (os_base s) sz (s_cap (os_t s)) a = None); [|rewrite Hn; reflexivity]. destruct Ha as [->|Ha]; [|apply slot_ix_mine; exact Ha].
            apply slot_ix_none_intro; [exact Hsz|]. intros i Hi X. apply (ar_ne _ _ A i Hi). symmetry. exact X. }
          destruct (place_cases (sv_junk v) h0 (sv_base v) sz (s_cap (os_t o)) Hsz) as [->|(h1 & -> & Hfree & Hnew & Hold)]; cbn [bind]; [left; reflexivity|right].
          exists h1, (sv_base v). split; [reflexivity|].
          assert (Hno : forall a, has h0 a -> slot_ix (sv_base v) sz (s_cap (os_t o)) a = None) by (intros a Ha; apply slot_ix_none_intro; [exact Hsz|]; intros i Hi ->; apply Ha; apply Hfree; exact Hi).
          assert (Hso : forall a, mine o a -> h0 a = h a /\ has h0 a) by (intros a Ha; assert (X : h0 a = h a) by (apply Hh0; right; intros Y; exact (Hdis a Y Ha)); split; [exact X|unfold has; rewrite X; apply (mine_has h o ord a L Ha)]).
          assert (Hshd : has h0 (os_hdr s)) by (unfold has; rewrite Hh0 by (left; reflexivity); apply A).
          split; [|split; [|split]].
          + intros i Hi. split; [apply Hnew; exact Hi|]. split; [intros X; apply Hshd; rewrite <- X; apply Hfree; exact Hi|]. intros X. apply (proj2 (Hso _ X)). apply Hfree. exact Hi.
          + intros a Ha. rewrite Hold by (apply Hno; apply Hso; exact Ha). apply Hso. exact Ha.
          + rewrite Hold by (apply Hno; exact Hshd). apply Hh0. left. reflexivity.
          + intros a Ha Hh. assert (Hh' : has h0 a) by (unfold has; rewrite Hh0 by (right; exact Ha); exact Hh). split; [rewrite Hold by (apply Hno; exact Hh'); apply Hh0; right; exact Ha|].
            intros i Hi ->. apply Hh'. apply Hfree. exact Hi.
        - right. exists h, (os_base s). split; [reflexivity|]. split; [|split; [reflexivity|split; [reflexivity|]]].
          + intros i Hi. assert (Hi' : 0 <= i < s_cap (os_t s)) by lia. split; [apply A; exact Hi'|]. split; [apply A; exact Hi'|]. apply Hdis. right. exists i. auto.
          + intros a Ha Hh. split; [reflexivity|]. intros i Hi X. apply Ha. right. exists i. split; [lia|exact X]. }
      destruct Hnb as [->|(h1 & nb & -> & N1 & N2 & N3 & N5)]; cbn [bind]; [left; reflexivity|right].
      assert (Hos : forall i, 0 <= i < s_cap (os_t o) -> mine o (os_base o + i * sz)) by (intros i Hi; right; exists i; split; [lia|reflexivity]).
      destruct (copy_occ_ok (os_t o) h1 nb (os_base o) W) as (h2 & -> & C1 & C2 & C3).
      * intros i Hi. apply N1. exact Hi.
      * intros i Hi. unfold has. rewrite N2 by (apply Hos; exact Hi). apply (mine_has h o ord _ L). apply Hos. exact Hi.
      * intros i j Hi Hj X. apply (proj2 (proj2 (N1 i Hi))). rewrite X. apply Hos. exact Hj.
      * cbn [bind].
        assert (Hord : forall i, In i ord -> 0 <= i < s_cap (os_t o)) by (apply (rl_in _ _ _ _ _ _ L)).
        assert (Hhs2 : h2 (os_hdr s) = h1 (os_hdr s)) by (apply C2; intros i Hi X; apply (proj1 (proj2 (N1 i Hi))); symmetry; exact X).
        destruct (copied_ring sz Hsz h (os_hdr o) (os_base o) (os_hdr s) nb ord h2) as (front & back & h3 & -> & -> & E3 & R3 & O3).
        -- intros ->. apply Ho. rewrite Hlen. reflexivity.
        -- apply (rl_ring _ _ _ _ _ _ L).
        -- intros i Hi. rewrite C1 by (apply T; exact Hi). apply N2. apply Hos. apply Hord. exact Hi.
        -- rewrite C2; [apply N2; left; reflexivity|]. intros i Hi X. apply (proj2 (proj2 (N1 i Hi))). rewrite <- X. left. reflexivity.
        -- unfold has. rewrite Hhs2, N3. apply A.
        -- intros X. apply in_map_iff in X. destruct X as (i & X & Hi). apply Hord in Hi. apply (proj1 (proj2 (N1 i Hi))). exact X.
        -- cbn [bind]. rewrite E3. cbn [bind]. eexists _, _. split; [reflexivity|]. split; [reflexivity|]. split; [reflexivity|]. split; [intros _|discriminate]. split.
           ++ unfold SwissOrderedProofs.rl. cbn [os_t os_hdr os_base]. rewrite Hcap. constructor; [exact R3|exact Hord|apply (rl_cap _ _ _ _ _ _ L)| |].
              ** intros i Hi. apply O3. apply C3. apply N1. exact Hi.
              ** intros i Hi. apply N1. exact Hi.
           ++ intros a Ha Hh. destruct (N5 a Ha Hh) as (X1 & X2). assert (Hahd : a <> os_hdr s) by (intros X; apply Ha; left; exact X). split.
              ** rewrite (proj1 O3); [rewrite C2 by exact X2; exact X1|]. intros [Y|Y]; [congruence|]. apply in_map_iff in Y. destruct Y as (i & Y & Hi). apply Hord in Hi. apply (X2 i); [exact Hi|]. symmetry. exact Y.
              ** intros [Y|(i & Hi & Y)]; [exact (Hahd Y)|]. cbn [os_t] in Hi. rewrite Hcap in Hi. apply (X2 i Hi). exact Y.
    + right. unfold s_realloc. destruct (s_cap (os_t s) <? s_cap (os_t o)); cbn [bind]; (eexists _, _; split; [reflexivity|]; split; [reflexivity|]; split; [reflexivity|]; split; [discriminate|]; intros _ H0 a).
      * unfold unplace. rewrite H0. assert (Hn : slot_ix (os_base s) sz 0 a = None) by (apply slot_ix_none_intro; [exact Hsz|intros i Hi; lia]). rewrite Hn. reflexivity.
      * reflexivity.
Qed.

(** ** Moving and exchanging. *)
Lemma moved_ok : forall h (s o : oswiss) os oo (p : bool) t2, rl h s os -> rl h o oo -> (forall a, mine s a -> ~ mine o a) ->
  s_cap t2 = (if p then 0 else s_cap (os_t s)) ->
  exists h1, relink_from h (os_hdr s) (os_hdr o) = Ok h1 /\
  forall h2 b2, h2 = (if p then unplace h1 (os_base s) sz (s_cap (os_t s)) else h1) -> b2 = (if p then 0 else os_base s) ->
  rl h2 (mkos (os_t o) (os_hdr s) (os_base o)) oo /\ rl h2 (mkos t2 (os_hdr o) b2) [] /\
  (forall a, mine (mkos (os_t o) (os_hdr s) (os_base o)) a -> ~ mine (mkos t2 (os_hdr o) b2) a) /\
  (forall a, ~ mine s a -> ~ mine o a -> has h a -> h2 a = h a /\ ~ mine (mkos (os_t o) (os_hdr s) (os_base o)) a /\ ~ mine (mkos t2 (os_hdr o) b2) a).
Proof.
  intros h s o os oo p t2 Ls Lo Hdis Hc2.
  assert (Hms : mine s (os_hdr s)) by (left; reflexivity). assert (Hmo : mine o (os_hdr o)) by (left; reflexivity).
  destruct (ring_move h (os_hdr s) (os_hdr o) (map (sslot o) oo)) as (h1 & -> & R & O & Z0).
  - apply (rl_ring _ _ _ _ _ _ Lo).
  - intros X. apply (Hdis _ Hms). apply (ring_mine h o oo _ Lo). exact X.
  - apply (rl_hashdr _ _ _ _ _ _ Ls).
  - exists h1. split; [reflexivity|]. intros h2 b2 Hh2 Hb2.
    assert (Hslot : forall i, 0 <= i < s_cap (os_t s) -> mine s (sslot s i)) by (intros i Hi; right; exists i; auto).
    assert (Hun : forall a, a = os_hdr s \/ ~ mine s a -> h2 a = h1 a).
    { intros a Ha. subst h2. destruct p; [|reflexivity]. unfold unplace. assert (Hn : slot_ix (os_base s) sz (s_cap (os_t s)) a = None); [|rewrite Hn; reflexivity]. destruct Ha as [->|Ha]; [|apply slot_ix_mine; exact Ha].
      apply slot_ix_none_intro; [exact Hsz|]. intros i Hi X. apply (rl_hdr _ _ _ _ _ _ Ls i Hi). symmetry. exact X. }
    assert (Ho : forall a, mine o a -> h2 a = h1 a) by (intros a Ha; apply Hun; right; intros X; apply (Hdis a X Ha)).
    assert (Hold : forall a, mine (mkos t2 (os_hdr o) b2) a -> a = os_hdr o \/ exists i, 0 <= i < s_cap (os_t s) /\ a = sslot s i).
    { intros a [X|(i & Hi & X)]; [left; exact X|right]. cbn [os_t] in Hi. rewrite Hc2 in Hi. destruct p; [lia|]. exists i. split; [exact Hi|]. rewrite X, Hb2. reflexivity. }
    split; [|split; [|split]].
    + constructor; cbn [os_t os_hdr os_base].
      * apply (ring_frame h1); [| |exact R]; intros y Hy; (unfold nx, pv; rewrite Hun; [reflexivity|]); (destruct Hy as [Hy|Hy]; [left; symmetry; exact Hy|right; intros X; apply (Hdis y X); apply (ring_mine h o oo _ Lo); right; exact Hy]).
      * apply (rl_in _ _ _ _ _ _ Lo).
      * apply (rl_cap _ _ _ _ _ _ Lo).
      * intros i Hi. unfold has. rewrite Ho by (right; exists i; auto). apply O. apply (rl_has _ _ _ _ _ _ Lo). exact Hi.
      * intros i Hi X. apply (Hdis (os_hdr s) Hms). right. exists i. auto.
    + unfold SwissOrderedProofs.rl. cbn [os_t os_hdr os_base]. rewrite Hc2. pose proof (rl_cap _ _ _ _ _ _ Ls) as Hcs. apply rl_empty.
      * destruct p; lia.
      * rewrite Ho by exact Hmo. exact Z0.
      * intros i Hi. subst h2 b2. destruct p; [lia|]. apply O. apply (rl_has _ _ _ _ _ _ Ls). exact Hi.
      * intros i Hi X. subst b2. destruct p; [lia|]. apply (Hdis (os_hdr o)); [right; exists i; split; [exact Hi|symmetry; exact X]|exact Hmo].
    + intros a Ha Hb. apply Hold in Hb. destruct Ha as [->|(i & Hi & ->)], Hb as [Hb|(k & Hk & Hb)]; cbn [os_t os_hdr] in *.
      * apply (Hdis _ Hms). left. exact Hb.
      * apply (rl_hdr _ _ _ _ _ _ Ls k Hk). symmetry. exact Hb.
      * apply (rl_hdr _ _ _ _ _ _ Lo i Hi). exact Hb.
      * apply (Hdis (sslot o i)); [change (sslot o i) with (sslot (mkos (os_t o) (os_hdr s) (os_base o)) i); rewrite Hb; apply Hslot; exact Hk|right; exists i; auto].
    + intros a Ha Hb Hh. split; [|split].
      * rewrite Hun by (right; exact Ha). apply O. intros [X|X]; [apply Ha; left; symmetry; exact X|]. apply Hb. apply (ring_mine h o oo _ Lo). exact X.
      * intros [X|(i & Hi & X)]; cbn [os_t os_hdr] in *; [apply Ha; left; exact X|apply Hb; right; exists i; auto].
      * intros X. apply Hold in X. destruct X as [X|(i & Hi & X)]; [apply Hb; left; exact X|apply Ha; right; exists i; auto].
Qed.

Lemma swapped_ok : forall h (s o : oswiss) os oo, rl h s os -> rl h o oo -> (forall a, mine s a -> ~ mine o a) -> os <> [] -> oo <> [] ->
  exists h1, swap_links h (os_hdr s) (os_hdr o) = Ok h1 /\
  rl h1 (mkos (os_t o) (os_hdr s) (os_base o)) oo /\ rl h1 (mkos (os_t s) (os_hdr o) (os_base s)) os /\
  (forall a, mine (mkos (os_t o) (os_hdr s) (os_base o)) a -> ~ mine (mkos (os_t s) (os_hdr o) (os_base s)) a) /\
  (forall a, ~ mine s a -> ~ mine o a -> has h a -> h1 a = h a /\ ~ mine (mkos (os_t o) (os_hdr s) (os_base o)) a /\ ~ mine (mkos (os_t s) (os_hdr o) (os_base s)) a).
Proof.
  intros h s o os oo Ls Lo Hdis H0s H0o.
  assert (Hms : mine s (os_hdr s)) by (left; reflexivity). assert (Hmo : mine o (os_hdr o)) by (left; reflexivity).
  destruct (swap_ok h (os_hdr s) (map (sslot s) os) (os_hdr o) (map (sslot o) oo)) as (h1 & -> & R1 & R2 & O).
  - intros X. apply map_eq_nil in X. exact (H0s X).
  - intros X. apply map_eq_nil in X. exact (H0o X).
  - apply (rl_ring _ _ _ _ _ _ Ls).
  - apply (rl_ring _ _ _ _ _ _ Lo).
  - intros y Hy X. apply (Hdis y); [apply (ring_mine h s os _ Ls); exact Hy|apply (ring_mine h o oo _ Lo); exact X].
  - exists h1. split; [reflexivity|]. split; [|split; [|split]].
    + constructor; cbn [os_t os_hdr os_base]; [exact R1|apply (rl_in _ _ _ _ _ _ Lo)|apply (rl_cap _ _ _ _ _ _ Lo)| |].
      * intros i Hi. apply O. apply (rl_has _ _ _ _ _ _ Lo). exact Hi.
      * intros i Hi X. apply (Hdis (os_hdr s) Hms). right. exists i. auto.
    + constructor; cbn [os_t os_hdr os_base]; [exact R2|apply (rl_in _ _ _ _ _ _ Ls)|apply (rl_cap _ _ _ _ _ _ Ls)| |].
      * intros i Hi. apply O. apply (rl_has _ _ _ _ _ _ Ls). exact Hi.
      * intros i Hi X. apply (Hdis (os_hdr o)); [right; exists i; auto|exact Hmo].
    + intros a [Ha|(i & Hi & Ha)] [Hb|(k & Hk & Hb)]; cbn [os_t os_hdr] in *.
      * apply (Hdis _ Hms). left. congruence.
      * apply (rl_hdr _ _ _ _ _ _ Ls k Hk). rewrite <- Ha. symmetry. exact Hb.
      * apply (rl_hdr _ _ _ _ _ _ Lo i Hi). rewrite <- Hb. symmetry. exact Ha.
      * apply (Hdis a); right; [exists k|exists i]; auto.
    + intros a Ha Hb Hh. split; [|split].
      * apply O. intros X. apply in_app_or in X. destruct X as [X|X]; [apply Ha; apply (ring_mine h s os _ Ls); exact X|apply Hb; apply (ring_mine h o oo _ Lo); exact X].
      * intros [X|(i & Hi & X)]; cbn [os_t os_hdr] in *; [apply Ha; left; exact X|apply Hb; right; exists i; auto].
      * intros [X|(i & Hi & X)]; cbn [os_t os_hdr] in *; [apply Hb; left; exact X|apply Ha; right; exists i; auto].
Qed.

(** A destroyed container. *)
Lemma destroyed : forall h (s : oswiss), x_destroy sz h s (os_hdr s) = Some (0, 0) /\ keeps h s (x_destroy sz h s) (s_new (os_hdr s)).
Proof.
  intros h s. split; [unfold x_destroy; apply upd_same|]. intros a Ha Hh. split.
  - unfold x_destroy. rewrite upd_other by (intros X; apply Ha; left; exact X). unfold unplace. rewrite (slot_ix_mine s a Ha). reflexivity.
  - intros [X|(i & Hi & _)]; [apply Ha; left; exact X|cbn in Hi; lia].
Qed.

(** The nodes of a copy. *)
Lemma copy_data_nodes : forall clone lim (s o : swiss) s', (forall e, key_of (clone e) = key_of e) -> wf1 o -> elems o <> [] -> s_size s = 0 ->
  s_cap s < s_cap o \/ (s_cap s = s_cap o /\ s_buf s = Live /\ forall j, s_nodes s j = None) ->
  s_cap o <= lim -> copy_data f clone lim s o = Ok (s', true) ->
  forall j, s_nodes s' j = option_map (fun n => (clone (fst n), snd n)) (s_nodes o j).
Proof.
  intros clone lim s o s' Hclone Ho Hne Hs0 Hcap Hlim. pose proof (w_m _ _ _ _ o Ho) as M. pose proof (cap_bounds f o M) as Hcb.
  pose proof (wf1_elems_length f key_of hash keq o Ho) as Hl.
  unfold copy_data. rewrite Hs0. cbn [Z.eqb guard bind].
  destruct (Z.eqb_spec (s_size o) 0) as [E0|_].
  { exfalso. rewrite E0 in Hl. destruct (elems o); [congruence|cbn [length] in Hl; lia]. }
  assert (Hre : exists s1, reallocate lim s (s_cap o) = Ok (s1, true) /\ s_buf s1 = Live /\ s_cap s1 = s_cap o /\
    (forall j, s_nodes s1 j = None) /\ s_size s1 = 0).
  { unfold reallocate. destruct Hcap as [Hcap|(Hcap & HB & HN)].
    - destruct (Z.ltb_spec (s_cap s) (s_cap o)); [|lia]. destruct (Z.ltb_spec lim (s_cap o)); [lia|].
      eexists. split; [reflexivity|]. cbn [s_buf s_cap s_nodes s_size]. auto.
    - destruct (Z.ltb_spec (s_cap s) (s_cap o)); [lia|]. exists s. auto. }
  destruct Hre as (s1 & -> & B1 & C1 & N1 & S1). cbn [bind negb].
  set (g := fun n : E * Z => (clone (fst n), snd n)).
  destruct (fill_empty_image f g o s1 B1 C1 (mw_cap f o M) N1) as (s2 & -> & I2 & S2). cbn [bind].
  destruct (copy_loop f key_of hash keq clone o s2 Ho I2) as (s3 & -> & I3 & S3). cbn [bind].
  intros X j. injection X as <-. cbn [set_nempty set_size s_nodes]. destruct I3 as (_ & _ & I3 & _). rewrite I3.
  destruct (Z.leb_spec 0 j), (Z.ltb_spec j (s_cap o)); cbn [andb]; try reflexivity; rewrite (wf_out f key_of hash keq o (or_intror Ho)) by lia; reflexivity.
Qed.
Lemma copy_data_fails : forall clone lim (s o : swiss), s_size s = 0 -> s_size o <> 0 -> s_cap s < s_cap o -> lim < s_cap o ->
  exists t, copy_data f clone lim s o = Ok (t, false).
Proof.
  intros clone lim s o H0 Ho Hc Hl. unfold copy_data. rewrite H0. cbn [Z.eqb guard bind]. destruct (Z.eqb_spec (s_size o) 0); [contradiction|].
  unfold reallocate. destruct (Z.ltb_spec (s_cap s) (s_cap o)); [|lia]. destruct (Z.ltb_spec lim (s_cap o)); [|lia]. cbn [bind negb]. eexists. reflexivity.
Qed.
End Links.
