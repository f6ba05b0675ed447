(** Ordered open-addressing containers after a copy assignment was left by an exception. *)
From Coq Require Import ZArith List Bool Lia Permutation Arith.
From Verif Require Import Base BaseLemmas Bits BitsProofs SwissModel SwissArith SwissCap SwissInv SwissOps SwissClean SwissIter SwissRoom MapSpec WorldSpec World WorldProofs SwissRun SwissRefine SwissFinal SwissMore SwissCopy
  LinkModel LinkProofs OrderedLinks OrderedMoves SwissOrderedSpec SwissOrderedWorldSpec SwissOrdered SwissOrderedRun SwissOrderedWorld SwissOrderedLinks SwissOrderedProofs SwissOrderedOps SwissOrderedRefine SwissOrderedStep SwissOrderedMoves SwissOrderedMerge
  SwissOrderedWorldProofs CopyModel CopyProofs OrderedSparseCopyModel.
From Verif Require OrderedFinal.
Import ListNotations.
Open Scope Z_scope.

Section Proofs.
Context {E K : Type}.
Variable f : simd.
Variable sz : Z.
Variable key_of : E -> K.
Variable hash : K -> Z.
Variable keq : K -> K -> bool.
Variable rep : E -> E -> E.
Variable clone : E -> E.
Variables pocca pocma : bool.
Hypothesis Hsz : 0 < sz.
Hypothesis KL : key_laws hash keq.
Hypothesis Hrep : forall a b, keq (key_of a) (key_of b) = true -> key_of (rep a b) = key_of a.
Hypothesis Hclone : forall e, key_of (clone e) = key_of e.
Notation swiss := (@swiss E).
Notation oswiss := (oswiss E).
Notation wf1 := (wf1 f key_of hash keq).
Notation wf := (wf f key_of hash keq).
Notation rl := (rl sz). Notation mine := (mine sz). Notation sslot := (sslot sz). Notation area := (area sz).
Notation zinv := (zinv f sz key_of hash keq).
Notation winv := (winv f sz key_of hash keq).
Notation xoccurs := (xoccurs f sz key_of hash keq rep clone pocca pocma).

Lemma links_until_ok : forall (t : swiss) nb ob l n h, mwf f t -> (forall i, In i l -> 0 <= i < s_cap t) ->
  (forall i, 0 <= i < s_cap t -> has h (nb + i * sz)) -> (forall i, 0 <= i < s_cap t -> has h (ob + i * sz)) ->
  exists h', links_until f sz n t nb ob l h = Ok h' /\ forall a, (forall i, 0 <= i < s_cap t -> a <> nb + i * sz) -> h' a = h a.
Proof. clear - Hsz.
  intros t nb ob l. induction l as [|i l IH]; intros n h M Hl Hs Ho; cbn [links_until]; [exists h; auto|]. pose proof (cap_bounds f t M). pose proof (W_pos f).
  assert (Hi : 0 <= i < s_cap t) by (apply Hl; left; reflexivity). rewrite get_meta_ok by ((apply (mw_buf f t M)) || lia). cbn [bind]. destruct (is_occupied (s_meta t i)); [|apply IH; auto; intros k Hk; apply Hl; right; exact Hk].
  pose proof (Hs i Hi) as X1. pose proof (Ho i Hi) as X2. unfold has in X1, X2. unfold copy_link, get_link. destruct (h (ob + i * sz)) as [x|]; [|contradiction]. cbn [bind]. destruct (h (nb + i * sz)) as [y|]; [|contradiction]. cbn [bind].
  assert (Hh : forall a, has h a -> has (upd h (nb + i * sz) (Some x)) a) by (intros a Ha; unfold has, upd; destruct (a =? _); [discriminate|exact Ha]).
  destruct n as [|n].
  - eexists. split; [reflexivity|]. intros a Ha. apply upd_other. apply Ha. exact Hi.
  - destruct (IH n (upd h (nb + i * sz) (Some x)) M) as (h' & E1 & E2).
    + intros k Hk. apply Hl. right. exact Hk.
    + intros k Hk. apply Hh. apply Hs. exact Hk.
    + intros k Hk. apply Hh. apply Ho. exact Hk.
    + exists h'. split; [exact E1|]. intros a Ha. rewrite (E2 a Ha). apply upd_other. apply Ha. exact Hi.
Qed.

Lemma realloc_ok : forall v h (s o : oswiss) ord, rl h o ord -> area h s -> (forall a, mine s a -> ~ mine o a) -> s_cap (os_t s) <= s_cap (os_t o) ->
  s_realloc sz v h s (s_cap (os_t o)) false = Err BadPlacement \/
  exists h1 nb, s_realloc sz v h s (s_cap (os_t o)) false = Ok (h1, nb) /\ (forall i, 0 <= i < s_cap (os_t o) -> has h1 (nb + i * sz) /\ nb + i * sz <> os_hdr s) /\
    (forall a, mine o a -> h1 a = h a) /\ h1 (os_hdr s) = h (os_hdr s) /\
    (forall a, ~ mine s a -> has h a -> h1 a = h a /\ forall i, 0 <= i < s_cap (os_t o) -> a <> nb + i * sz).
Proof. clear - Hsz.
  intros v h s o ord L A Hdis Hle. unfold s_realloc. destruct (Z.ltb_spec (s_cap (os_t s)) (s_cap (os_t o))) as [Hlt|Hge].
  - set (h0 := unplace h (os_base s) sz (s_cap (os_t s))). assert (Hh0 : forall a, (a = os_hdr s \/ ~ mine s a) -> h0 a = h a).
    { intros a Ha. unfold h0, unplace. assert (Hn : slot_ix (os_base s) sz (s_cap (os_t s)) a = None); [|rewrite Hn; reflexivity]. destruct Ha as [->|Ha]; [|apply slot_ix_mine; [exact Hsz|exact Ha]].
      apply slot_ix_none_intro; [exact Hsz|]. intros i Hi X. apply (ar_ne _ _ _ A i Hi). symmetry. exact X. }
    destruct (place_cases (sv_junk v) h0 (sv_base v) sz (s_cap (os_t o)) Hsz) as [->|(h1 & -> & Hfree & Hnew & Hold)]; cbn [bind]; [left; reflexivity|right].
    exists h1, (sv_base v). split; [reflexivity|].
    assert (Hno : forall a, has h0 a -> slot_ix (sv_base v) sz (s_cap (os_t o)) a = None) by (intros a Ha; apply slot_ix_none_intro; [exact Hsz|]; intros i Hi ->; apply Ha; apply Hfree; exact Hi).
    assert (Hso : forall a, mine o a -> h0 a = h a /\ has h0 a) by (intros a Ha; assert (X : h0 a = h a) by (apply Hh0; right; intros Y; exact (Hdis a Y Ha)); split; [exact X|unfold has; rewrite X; apply (mine_has sz h o ord a L Ha)]).
    assert (Hshd : has h0 (os_hdr s)) by (unfold has; rewrite Hh0 by (left; reflexivity); apply A).
    split; [|split; [|split]].
    + intros i Hi. split; [apply Hnew; exact Hi|]. intros X; apply Hshd; rewrite <- X; apply Hfree; exact Hi.
    + intros a Ha. rewrite Hold by (apply Hno; apply Hso; exact Ha). apply Hso. exact Ha.
    + rewrite Hold by (apply Hno; exact Hshd). apply Hh0. left. reflexivity.
    + intros a Ha Hh. assert (Hh' : has h0 a) by (unfold has; rewrite Hh0 by (right; exact Ha); exact Hh). split; [rewrite Hold by (apply Hno; exact Hh'); apply Hh0; right; exact Ha|].
      intros i Hi ->. apply Hh'. apply Hfree. exact Hi.
  - right. exists h, (os_base s). split; [reflexivity|]. split; [|split; [reflexivity|split; [reflexivity|]]].
    + intros i Hi. assert (Hi' : 0 <= i < s_cap (os_t s)) by lia. split; [apply A; exact Hi'|apply A; exact Hi'].
    + intros a Ha Hh. split; [reflexivity|]. intros i Hi X. apply Ha. right. exists i. split; [lia|exact X].
Qed.

Lemma thrown : forall n v h w ords i j, winv h w ords -> i <> j -> (n < length (elems (os_t (w j))))%nat -> pocca = true \/ s_cap (os_t (w i)) <= s_cap (os_t (w j)) ->
  sc_copy_assign f sz clone n pocca v h (w i) (w j) = Err BadPlacement \/
  exists h' s', sc_copy_assign f sz clone n pocca v h (w i) (w j) = Ok (h', s', false) /\ os_hdr s' = os_hdr (w i) /\ h' (os_hdr (w i)) = h (os_hdr (w j)) /\
    (forall a, ~ mine (w i) a -> has h a -> h' a = h a) /\ s_size (os_t s') = 0 /\
    ((s_copy_assign f sz clone pocca v h (w i) (w j) = Ok (h', s', false) /\ elems (os_t s') = []) \/ elems (os_t s') = map clone (firstn n (elems (os_t (w j))))).
Proof.
  intros n v h w ords i j H Hij Hn Hp. set (s := w i) in *. set (o := w j) in *. pose proof (proj1 H i : zinv h s (ords i)) as Hi. pose proof (proj1 H j : zinv h o (ords j)) as Hj. pose proof (fun a => proj2 H i j a Hij : mine s a -> ~ mine o a) as Hdis.
  pose proof (zi_wf _ _ _ _ _ _ _ _ Hi) as Wi. destruct (zi_wf _ _ _ _ _ _ _ _ Hj) as [Wj|Wj]; [rewrite (elems_empty _ (w0_cap _ Wj)) in Hn; cbn [length] in Hn; lia|].
  pose proof (wf1_elems_length f key_of hash keq _ Wj) as Hl. pose proof (cap_bounds f _ (w_m _ _ _ _ _ Wj)) as Hcb.
  pose proof (rl_area sz _ _ _ (zi_rl _ _ _ _ _ _ _ _ Hi)) as Ai. pose proof (zi_rl _ _ _ _ _ _ _ _ Hj) as Lj.
  unfold sc_copy_assign, s_copy_assign. destruct (header_copied h s o (rl_hashdr _ _ _ _ _ _ Lj) (ar_hdr _ _ _ Ai)) as (h1 & -> & C1 & C2). cbn [bind].
  destruct (target_ok f key_of hash keq pocca (os_t s) (os_t o) Wi Wj Hp) as (t & Ee & S1 & T1). rewrite Ee. cbn [bind].
  destruct (assign_target f key_of hash keq pocca (os_t s) Wi) as (t' & Ee' & _ & N1 & Cp & _). rewrite Ee in Ee'. injection Ee' as <-.
  destruct (erase_nodes_ok f key_of hash keq (os_t s) Wi) as (t' & Ee' & _ & Ct & _). rewrite Ee in Ee'. injection Ee' as <-.
  destruct (s_release sz pocca h1 (with_t s t)) as (h2, s2) eqn:Er.
  assert (Hr : os_t s2 = buffer_assign pocca t /\ os_hdr s2 = os_hdr s /\ (forall a, mine s2 a -> mine s a) /\ (forall a, a = os_hdr s \/ ~ mine s a -> h2 a = h1 a) /\ area h2 s2).
  { unfold s_release in Er. destruct pocca; injection Er as <- <-.
    - split; [reflexivity|]. split; [reflexivity|]. split; [intros a [X|(k & Hk & _)]; [left; exact X|cbn in Hk; lia]|]. cbn [with_t os_t os_hdr os_base]. rewrite Ct.
      assert (Hu : forall a, a = os_hdr s \/ ~ mine s a -> unplace h1 (os_base s) sz (s_cap (os_t s)) a = h1 a).
      { intros a Ha. unfold unplace. assert (Hx : slot_ix (os_base s) sz (s_cap (os_t s)) a = None); [|rewrite Hx; reflexivity]. destruct Ha as [->|Ha]; [|apply slot_ix_mine; [exact Hsz|exact Ha]].
        apply slot_ix_none_intro; [exact Hsz|]. intros k Hk X. apply (ar_ne _ _ _ Ai k Hk). symmetry. exact X. }
      split; [exact Hu|]. constructor; cbn [os_t os_hdr buffer_assign s_cap]; try lia. unfold has. rewrite Hu by (left; reflexivity). rewrite C1. apply (rl_hashdr _ _ _ _ _ _ Lj).
    - split; [reflexivity|]. split; [reflexivity|]. split; [intros a [X|(k & Hk & X)]; [left; exact X|right; exists k; split; [cbn [with_t os_t] in Hk; rewrite Ct in Hk; exact Hk|exact X]]|]. split; [reflexivity|].
      constructor; cbn [with_t os_t os_hdr]; rewrite ?Ct.
      + unfold has. rewrite C1. apply (rl_hashdr _ _ _ _ _ _ Lj).
      + intros k Hk. unfold has. change (SwissOrdered.sslot sz (with_t s t) k) with (sslot s k). rewrite C2 by (apply (ar_ne _ _ _ Ai); exact Hk). apply (ar_slot _ _ _ Ai). exact Hk.
      + intros k Hk. apply (ar_ne _ _ _ Ai). exact Hk.
      + apply (ar_cap _ _ _ Ai). }
  destruct Hr as (R1 & R2 & R3 & R4 & R5).
  assert (Hot2 : forall a, ~ mine s a -> h2 a = h a) by (intros a Ha; rewrite R4 by (right; exact Ha); apply C2; intros X; apply Ha; left; exact X).
  assert (Hj2 : forall a, mine o a -> h2 a = h a) by (intros a Ha; apply Hot2; intros X; exact (Hdis a X Ha)).
  assert (Hhd2 : h2 (os_hdr s) = h (os_hdr o)) by (rewrite R4 by (left; reflexivity); exact C1).
  rewrite <- R1 in S1, T1, N1, Cp.
  assert (Hle : s_cap (os_t s2) <= s_cap (os_t o)) by (destruct T1 as [X|(X & _)]; lia).
  unfold sc_copy_data. destruct (Z_lt_ge_dec (s_cap (os_t s2)) (s_cap (os_t o))) as [Hlt|Hge]; [destruct (Z_lt_ge_dec (ev_lim (sv_e v)) (s_cap (os_t o))) as [Hlim|Hlim]|].
  1: { right. set (tf := mk (if s_cap (os_t s2) =? 0 then s_buf (os_t s2) else Dangling) (s_cap (os_t s2)) (s_meta (os_t s2)) (s_nodes (os_t s2)) (s_size (os_t s2)) (s_nempty (os_t s2))).
    assert (Hf : copy_data f clone (ev_lim (sv_e v)) (os_t s2) (os_t o) = Ok (tf, false) /\ c_copy_data f clone n (ev_lim (sv_e v)) (os_t s2) (os_t o) = Ok (tf, false)).
    { unfold copy_data, c_copy_data. rewrite S1. cbn [Z.eqb guard bind]. destruct (Z.eqb_spec (s_size (os_t o)) 0); [lia|]. unfold reallocate. destruct (Z.ltb_spec (s_cap (os_t s2)) (s_cap (os_t o))); [|lia]. destruct (Z.ltb_spec (ev_lim (sv_e v)) (s_cap (os_t o))); [|lia]. cbn [bind negb]. auto. }
    destruct Hf as (Hf & Hf'). rewrite Hf, Hf'. cbn [bind snd negb orb]. unfold s_copy_data. rewrite Hf. cbn [bind]. destruct (Z.eqb_spec (s_size (os_t o)) 0); [lia|]. cbn [negb]. unfold s_realloc. destruct (Z.ltb_spec (s_cap (os_t s2)) (s_cap (os_t o))); [|lia]. cbn [bind].
    eexists _, _. split; [reflexivity|]. cbn [with_t os_hdr os_t]. split; [exact R2|].
    assert (Hun : forall a, (a = os_hdr s \/ ~ mine s a) -> unplace h2 (os_base s2) sz (s_cap (os_t s2)) a = h2 a).
    { intros a Ha. unfold unplace. assert (Hn' : slot_ix (os_base s2) sz (s_cap (os_t s2)) a = None); [|rewrite Hn'; reflexivity]. destruct Ha as [->|Ha].
      - apply slot_ix_none_intro; [exact Hsz|]. intros k Hk X. apply (ar_ne _ _ _ R5 k Hk). rewrite R2. symmetry. exact X.
      - apply slot_ix_mine; [exact Hsz|]. intros X. apply Ha. apply R3. exact X. }
    split; [rewrite Hun by (left; reflexivity); exact Hhd2|]. split; [intros a Ha _; rewrite Hun by (right; exact Ha); apply Hot2; exact Ha|]. split; [exact S1|]. left. split; [reflexivity|].
    unfold elems. assert (Hc : collect (s_nodes tf) (s_cap tf) = []); [|rewrite Hc; reflexivity]. apply collect_none. intros k _. apply N1. }
  all: assert (Hx : exists lim, s_cap (os_t o) <= lim /\ copy_data f clone (ev_lim (sv_e v)) (os_t s2) (os_t o) = copy_data f clone lim (os_t s2) (os_t o) /\ c_copy_data f clone n (ev_lim (sv_e v)) (os_t s2) (os_t o) = c_copy_data f clone n lim (os_t s2) (os_t o))
    by (first [exists (ev_lim (sv_e v)); repeat split; lia|exists (s_cap (os_t o)); split; [lia|]; unfold copy_data, c_copy_data, reallocate; destruct (Z.ltb_spec (s_cap (os_t s2)) (s_cap (os_t o))); [lia|auto]]).
  all: destruct Hx as (lim & Hlim' & -> & ->);
    destruct (copy_data_throws f key_of hash keq clone Hclone n lim (os_t s2) (os_t o) Wj Hn S1 T1 Hlim') as (tt' & -> & (U1 & U2 & _) & _);
    assert (Hne : elems (os_t o) <> []) by (intros X; rewrite X in Hn; cbn [length] in Hn; lia);
    destruct (copy_data_ok f key_of hash keq clone Hclone KL lim (os_t s2) (os_t o) Wj Hne S1 T1 Hlim') as (t2 & -> & _); cbn [bind snd negb orb fst];
    destruct (realloc_ok v h2 s2 o (ords j) (rl_same sz h h2 o _ Lj Hj2) R5 (fun a Ha => Hdis a (R3 a Ha)) Hle) as [->|(h3 & nb & -> & N2 & N3 & N4 & N5)]; cbn [bind fst snd]; [left; reflexivity|right];
    assert (Hos : forall k, 0 <= k < s_cap (os_t o) -> mine o (os_base o + k * sz)) by (intros k Hk; right; exists k; split; [lia|reflexivity]);
    (destruct (links_until_ok (os_t o) nb (os_base o) (zrange (s_cap (os_t o))) n h3 (w_m _ _ _ _ _ Wj)) as (h4 & -> & D);
      [intros k Hk; apply zrange_In; exact Hk|intros k Hk; apply N2; exact Hk|intros k Hk; unfold has; rewrite N3 by (apply Hos; exact Hk); rewrite Hj2 by (apply Hos; exact Hk); apply (mine_has sz h o _ _ Lj); apply Hos; exact Hk|]);
    cbn [bind]; exists h4, (mkos tt' (os_hdr s2) nb); (split; [reflexivity|]); cbn [os_hdr os_t]; (split; [exact R2|]); (split; [|split; [|split; [exact U1|right; exact U2]]]).
  1, 3: rewrite D by (intros k Hk X; apply (proj2 (N2 k Hk)); rewrite R2; symmetry; exact X); rewrite <- R2, N4, R2; exact Hhd2.
  all: intros a Ha Hha; destruct (N5 a) as (X1 & X2); [intros X; apply Ha; apply R3; exact X|unfold has; rewrite Hot2 by exact Ha; exact Hha|]; rewrite D by exact X2; rewrite X1; apply Hot2; exact Ha.
Qed.

Lemma no_deref : forall (s : oswiss) l, elems (os_t s) = [] -> l <> [] -> exists e, s_deref_all sz s l = Err e.
Proof. clear.
  intros s [|a l] Hn Hl; [contradiction|]. cbn [s_deref_all]. destruct (s_index sz s a) as [p|e]; cbn [bind]; [|eauto]. unfold get_node. destruct (check_buf (os_t s)); cbn [bind]; [|eauto].
  destruct (Z.leb_spec 0 p), (Z.ltb_spec p (s_cap (os_t s))); cbn [andb guard bind]; eauto. destruct (s_nodes (os_t s) p) as [x|] eqn:Ep; cbn [bind]; [|eauto]. exfalso.
  unfold elems in Hn. apply map_eq_nil in Hn. assert (X : In x (collect (s_nodes (os_t s)) (s_cap (os_t s)))) by (apply collect_In; exists p; auto). rewrite Hn in X. exact X.
Qed.

(** ** The theorem. *)
Theorem sparse_copy_left : forall n v w i j l g, xoccurs w -> i <> j -> let h := xw_m w in let s := xw_c w i in let o := xw_c w j in
  (n < length (elems (os_t o)))%nat -> pocca = true \/ s_cap (os_t s) <= s_cap (os_t o) -> (forall k, s_iterate sz h (xw_c w k) = Ok (l k)) -> next_link h (os_hdr o) = Ok g ->
  sc_copy_assign f sz clone n pocca v h s o = Err BadPlacement \/
  exists h' s', sc_copy_assign f sz clone n pocca v h s o = Ok (h', s', false) /\
    os_hdr s' = os_hdr s /\ s_size (os_t s') = 0 /\ next_link h' (os_hdr s') = Ok (os_hdr s + (g - os_hdr o)) /\ os_hdr s + (g - os_hdr o) <> os_hdr s' /\
    s_clear f h' s' = Ok (h', s') /\
    (s_copy_assign f sz clone pocca v h s o = Ok (h', s', false) /\ elems (os_t s') = [] \/ elems (os_t s') = map clone (firstn n (elems (os_t o)))) /\
    (elems (os_t s') = [] -> exists e, s_iterate sz h' s' = Err e) /\
    (forall k, k <> i -> s_iterate sz h' (xw_c w k) = Ok (l k)).
Proof.
  intros n v w i j l g Hy Hij; cbn zeta. intros Hn Hp Hl Hf. destruct (xoccurs_inv f sz key_of hash keq rep clone pocca pocma Hsz KL Hrep Hclone _ Hy) as (ords & W).
  destruct (thrown n v _ _ ords i j W Hij Hn Hp) as [He|(h' & s' & He & R1 & R2 & R3 & R4 & R5)]; [left; exact He|right]. exists h', s'. split; [exact He|]. split; [exact R1|]. split; [exact R4|].
  assert (Hx : next_link h' (os_hdr s') = Ok (os_hdr (xw_c w i) + (g - os_hdr (xw_c w j)))).
  { rewrite R1. unfold next_link, get_link in *. rewrite R2. destruct (xw_m w (os_hdr (xw_c w j))) as [x|]; cbn [bind] in *; [|discriminate Hf]. injection Hf as <-. f_equal. lia. }
  split; [exact Hx|]. pose proof (proj1 W j) as Zj. pose proof (zi_rl _ _ _ _ _ _ _ _ Zj) as Lj.
  assert (Hne : os_hdr (xw_c w i) + (g - os_hdr (xw_c w j)) <> os_hdr s').
  { rewrite R1. pose proof (rl_ring _ _ _ _ _ _ Lj) as R. pose proof (rl_in _ _ _ _ _ _ Lj) as Hin. destruct (zi_len _ _ _ _ _ _ _ _ Zj) as (_ & Hlen).
    assert (Ho : ords j <> []).
    { intros X. rewrite X in Hlen. destruct (zi_wf _ _ _ _ _ _ _ _ Zj) as [W0|W1]; [rewrite (elems_empty _ (w0_cap _ W0)) in Hn; cbn [length] in Hn; lia|]. pose proof (wf1_elems_length f key_of hash keq _ W1). cbn [length] in Hlen. lia. }
    destruct (ords j) as [|k r] eqn:Eo; [contradiction|]. cbn [map] in R. pose proof (OrderedFinal.ring_consecutive _ [] _ _ _ R) as (X & _). rewrite X in Hf. injection Hf as <-.
    pose proof (rl_hdr _ _ _ _ _ _ Lj k (Hin k (or_introl eq_refl))). cbn beta in *. lia. }
  split; [exact Hne|]. split.
  { unfold s_clear, clear. rewrite R4. cbn [Z.eqb bind]. destruct s'; reflexivity. }
  split; [exact R5|]. split.
  { intros H0. unfold s_iterate. rewrite Hx. cbn [bind]. destruct (walk (iter_fuel (os_t s')) h' _ (os_hdr s')) as [q|e] eqn:Ew; cbn [bind]; [|eauto]. apply no_deref; [exact H0|]. intros ->.
    destruct (iter_fuel (os_t s')) as [|fu]; cbn [walk] in Ew; [discriminate Ew|]. destruct (Z.eqb_spec (os_hdr (xw_c w i) + (g - os_hdr (xw_c w j))) (os_hdr s')) as [|_]; [contradiction|].
    apply bind_Ok in Ew. destruct Ew as (b & _ & Ew). apply bind_Ok in Ew. destruct Ew as (q & _ & Ew). discriminate Ew. }
  intros k Hk. rewrite <- Hl. pose proof (proj1 W k) as Zk.
  rewrite (iterate_ok f sz key_of hash keq Hsz _ _ _ Zk). apply (iterate_ok f sz key_of hash keq Hsz). apply (zinv_same _ _ _ _ _ (xw_m w)); [exact Zk|].
  intros a Hm. apply R3; [apply (proj2 W k i a Hk Hm)|apply (mine_has sz _ _ _ a (zi_rl _ _ _ _ _ _ _ _ Zk) Hm)].
Qed.
End Proofs.
