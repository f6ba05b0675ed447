(** Programs over several ordered sparse or stable containers refine lists. *)
From Coq Require Import ZArith List Bool Lia Permutation Arith.
From Verif Require Import Base BaseLemmas Bits BitsProofs SwissModel SwissArith SwissCap SwissInv SwissOps SwissClean SwissIter SwissRoom MapSpec WorldSpec World WorldProofs SwissRun SwissRefine SwissFinal SwissMore SwissCopy
  LinkModel LinkProofs OrderedLinks OrderedMoves SwissOrderedSpec SwissOrderedWorldSpec SwissOrdered SwissOrderedRun SwissOrderedWorld SwissOrderedLinks SwissOrderedProofs SwissOrderedOps SwissOrderedRefine SwissOrderedStep SwissOrderedMoves SwissOrderedMerge.
Import ListNotations.
Open Scope Z_scope.

Section Proofs.
Context {E K : Type}.
Variable f : simd.
Variable sz : Z.
Variable key_of : E -> K.
Variable hash : K -> Z.
Variable keq : K -> K -> bool.
Variable rep : E -> E -> E.
Variable clone : E -> E.
Variables pocca pocma : bool.
Hypothesis Hsz : 0 < sz.
Hypothesis KL : key_laws hash keq.
Hypothesis Hrep : forall a b, keq (key_of a) (key_of b) = true -> key_of (rep a b) = key_of a.
Hypothesis Hclone : forall e, key_of (clone e) = key_of e.
Notation swiss := (@swiss E).
Notation oswiss := (oswiss E).
Notation xworld := (xworld E).
Notation wf1 := (wf1 f key_of hash keq).
Notation wf := (wf f key_of hash keq).
Notation inv := (inv f key_of hash keq).
Notation rl := (rl sz). Notation mine := (mine sz). Notation keeps := (keeps sz). Notation sslot := (sslot sz).
Notation zinv := (zinv f sz key_of hash keq).
Notation xexec := (xexec f sz key_of hash keq rep clone pocca pocma).
Notation xblocked := (xblocked f sz key_of hash keq rep clone pocca pocma).
Notation xloses := (xloses f sz key_of hash keq rep clone pocca pocma).
Notation xspec := (xspec key_of keq rep clone).
Notation xspec_run := (xspec_run key_of keq rep clone).
Notation xrun := (xrun f sz key_of hash keq rep clone pocca pocma).

(** ** Several containers. *)
Definition winv (h : heap) (w : nat -> oswiss) (ords : nat -> list Z) : Prop :=
  (forall i, zinv h (w i) (ords i)) /\ (forall i j a, i <> j -> mine (w i) a -> ~ mine (w j) a).

Lemma set1 : forall h w ords i h' s' ord', winv h w ords -> zinv h' s' ord' -> keeps h (w i) h' s' -> winv h' (setn w i s') (setn ords i ord').
Proof.
  clear. intros h w ords i h' s' ord' (H1 & H2) Hs Hk.
  assert (Hj : forall j a, j <> i -> mine (w j) a -> h' a = h a /\ ~ mine s' a) by (intros j a Hne Ha; apply Hk; [apply (H2 j i a Hne Ha)|apply (mine_has sz _ _ _ a (zi_rl _ _ _ _ _ _ _ _ (H1 j)) Ha)]).
  split.
  - intros j. unfold setn. destruct (Nat.eqb_spec j i) as [->|Hne]; [exact Hs|]. apply (zinv_same _ _ _ _ _ h); [apply H1|]. intros a Ha. apply (Hj j a Hne Ha).
  - intros j k a Hjk. unfold setn. destruct (Nat.eqb_spec j i) as [->|Hji], (Nat.eqb_spec k i) as [->|Hki]; intros Hm.
    + congruence.
    + intros X. apply (proj2 (Hj k a Hki X)). exact Hm.
    + apply (Hj j a Hji Hm).
    + apply (H2 j k a Hjk Hm).
Qed.
Lemma set2 : forall h w ords i j h' s' si o' oj, winv h w ords -> i <> j -> zinv h' s' si -> zinv h' o' oj -> (forall a, mine s' a -> ~ mine o' a) ->
  (forall a, ~ mine (w i) a -> ~ mine (w j) a -> has h a -> h' a = h a /\ ~ mine s' a /\ ~ mine o' a) ->
  winv h' (setn (setn w i s') j o') (setn (setn ords i si) j oj).
Proof.
  clear. intros h w ords i j h' s' si o' oj (H1 & H2) Hij Hs Ho Hd Hk.
  assert (Hx : forall k a, k <> i -> k <> j -> mine (w k) a -> h' a = h a /\ ~ mine s' a /\ ~ mine o' a).
  { intros k a Hki Hkj Ha. apply Hk; [apply (H2 k i a Hki Ha)|apply (H2 k j a Hkj Ha)|apply (mine_has sz _ _ _ a (zi_rl _ _ _ _ _ _ _ _ (H1 k)) Ha)]. }
  split.
  - intros k. unfold setn. destruct (Nat.eqb_spec k j) as [->|Hkj]; [exact Ho|]. destruct (Nat.eqb_spec k i) as [->|Hki]; [exact Hs|]. apply (zinv_same _ _ _ _ _ h); [apply H1|]. intros a Ha. apply (Hx k a Hki Hkj Ha).
  - intros k l a Hkl. unfold setn. destruct (Nat.eqb_spec k j) as [->|Hkj], (Nat.eqb_spec l j) as [->|Hlj]; [congruence| | |].
    + destruct (Nat.eqb_spec l i) as [->|Hli]; intros Hm X; [apply (Hd a X Hm)|]. apply (proj2 (proj2 (Hx l a Hli Hlj X))). exact Hm.
    + destruct (Nat.eqb_spec k i) as [->|Hki]; intros Hm; [apply (Hd a Hm)|]. apply (Hx k a Hki Hkj Hm).
    + destruct (Nat.eqb_spec k i) as [->|Hki], (Nat.eqb_spec l i) as [->|Hli]; intros Hm.
      * congruence.
      * intros X. apply (proj1 (proj2 (Hx l a Hli Hlj X))). exact Hm.
      * apply (Hx k a Hki Hkj Hm).
      * apply (H2 k l a Hkl Hm).
Qed.
Lemma new_zinv : forall h a, h a = Some (0, 0) -> zinv h (s_new a) [].
Proof.
  clear. intros h a H. constructor; [apply (proj1 (empty_inv f key_of hash keq))| |intros i; split; [intros []|intros X; apply X; reflexivity]].
  unfold SwissOrderedProofs.rl. apply rl_empty; cbn [s_new os_t os_hdr os_base empty_swiss s_cap]; [lia|exact H|intros; lia|intros; lia].
Qed.
Lemma renewed : forall h w ords i, winv h w ords -> winv (x_destroy sz h (w i)) (setn w i (s_new (os_hdr (w i)))) (setn ords i []).
Proof. intros h w ords i H. destruct (destroyed sz Hsz h (w i)) as (D1 & D2). apply (set1 h); [exact H|apply new_zinv; exact D1|exact D2]. Qed.
Lemma empty_zinv : forall h s, wf (os_t s) -> elems (os_t s) = [] -> rl h s [] -> zinv h s [].
Proof. intros h s W He L. constructor; [exact W|exact L|]. intros i. split; [intros []|]. intros X. apply X. apply (empty_nodes f key_of hash keq _ W He). Qed.

Definition abs (w : xworld) (ords : nat -> list Z) : xconts := mkx (fun i => cont (xw_c w i) (ords i)) (xw_h w).
Lemma abs_same : forall h ct hd ords i s ord, xc (abs (mkxw h (setn ct i s) hd) (setn ords i ord)) i = cont s ord.
Proof. clear. intros. cbn [abs xc xw_c]. rewrite !WorldProofs.setn_same. reflexivity. Qed.
Lemma abs_first : forall h ct hd ords i s ord j o oo, i <> j -> xc (abs (mkxw h (setn (setn ct i s) j o) hd) (setn (setn ords i ord) j oo)) i = cont s ord.
Proof. clear. intros. cbn [abs xc xw_c]. rewrite !(WorldProofs.setn_other _ _ j) by assumption. rewrite !WorldProofs.setn_same. reflexivity. Qed.
Lemma abs_others1 : forall w ords h i s ord, xothers [i] [] (abs w ords) (abs (mkxw h (setn (xw_c w) i s) (xw_h w)) (setn ords i ord)).
Proof. clear. intros w ords h i s ord. split; [|reflexivity]. intros j Hj. cbn [abs xc xw_c]. rewrite !WorldProofs.setn_other by (intros ->; apply Hj; left; reflexivity). reflexivity. Qed.
Lemma abs_others1h : forall w ords h i s ord j x, xothers [i] [j] (abs w ords) (abs (mkxw h (setn (xw_c w) i s) (setn (xw_h w) j x)) (setn ords i ord)).
Proof. clear. intros w ords h i s ord k x. split; intros j Hj; cbn [abs xc xw_c xh xw_h]; rewrite !WorldProofs.setn_other by (intros ->; apply Hj; left; reflexivity); reflexivity. Qed.
Lemma abs_others2 : forall w ords h i s ord j o oo, xothers [i; j] [] (abs w ords) (abs (mkxw h (setn (setn (xw_c w) i s) j o) (xw_h w)) (setn (setn ords i ord) j oo)).
Proof. clear. intros w ords h i s ord j o oo. split; [|reflexivity]. intros k Hk. cbn [abs xc xw_c]. rewrite !WorldProofs.setn_other by (intros ->; apply Hk; cbn; auto). reflexivity. Qed.
Lemma abs_none : forall w ords h i s ord, cont s ord = cont (xw_c w i) (ords i) -> xothers [] [] (abs w ords) (abs (mkxw h (setn (xw_c w) i s) (xw_h w)) (setn ords i ord)).
Proof.
  clear. intros w ords h i s ord Hc. split; [|reflexivity]. intros j _. cbn [abs xc xw_c]. unfold setn. destruct (Nat.eqb_spec j i) as [->|]; [exact Hc|reflexivity].
Qed.

(** ** Copies. *)
Lemma cloned_cont : forall (t t' : swiss) ord, (forall j, s_nodes t' j = option_map (fun n => (clone (fst n), snd n)) (s_nodes t j)) ->
  seqn (s_nodes t') ord = map clone (seqn (s_nodes t) ord).
Proof.
  clear. intros t t' ord H. induction ord as [|i o IH]; [reflexivity|]. unfold seqn in *. cbn [flat_map]. rewrite map_app, IH. f_equal. unfold look. rewrite H. destruct (s_nodes t i); reflexivity.
Qed.
Lemma copy_data_lim : forall lim lim' (s o : swiss), s_size o = 0 \/ s_cap o <= s_cap s -> copy_data f clone lim s o = copy_data f clone lim' s o.
Proof.
  clear. intros lim lim' s o H. unfold copy_data. destruct (Z.eqb_spec (s_size o) 0) as [|Hn]; [reflexivity|]. destruct H as [H|H]; [contradiction|]. unfold reallocate. destruct (Z.ltb_spec (s_cap s) (s_cap o)); [lia|reflexivity].
Qed.
Lemma copy_data_choice : forall lim (s o : swiss), s_size s = 0 -> (exists t, copy_data f clone lim s o = Ok (t, false)) \/ (exists lim', s_cap o <= lim' /\ copy_data f clone lim s o = copy_data f clone lim' s o).
Proof.
  clear. intros lim s o H0. destruct (Z.eq_dec (s_size o) 0) as [Ho|Ho]; [right; exists (s_cap o); split; [lia|apply copy_data_lim; auto]|].
  destruct (Z_lt_ge_dec (s_cap s) (s_cap o)) as [Hc|Hc]; [|right; exists (s_cap o); split; [lia|apply copy_data_lim; right; lia]].
  destruct (Z_lt_ge_dec lim (s_cap o)) as [Hl|Hl]; [left; apply copy_data_fails; assumption|right; exists lim; split; [lia|reflexivity]].
Qed.
Lemma contains_dec : forall (t : swiss) l, (forall x, In x l -> contains f key_of hash keq t (key_of x) = Ok true) \/ (exists x, In x l /\ contains f key_of hash keq t (key_of x) <> Ok true).
Proof.
  clear. intros t l. induction l as [|x l [IH|(y & Hy & IH)]]; [left; intros x []| |right; exists y; split; [right; exact Hy|exact IH]].
  destruct (contains f key_of hash keq t (key_of x)) as [[|]|e] eqn:Ec; [left; intros y [<-|Hy]; [exact Ec|apply IH; exact Hy]| |]; right; exists x; (split; [left; reflexivity|rewrite Ec; discriminate]).
Qed.

(** A target without elements. *)
Record hollow (s : oswiss) (t : swiss) : Prop := {
  hl_size : s_size (os_t s) = 0;
  hl_none : forall j, s_nodes (os_t s) j = None;
  hl_cap : s_size t = 0 \/ s_cap (os_t s) < s_cap t \/ (s_cap (os_t s) = s_cap t /\ s_buf (os_t s) = Live)
}.
Lemma copied : forall v h (s o : oswiss) ord t1 lim, zinv h o ord -> area sz h s -> hollow s (os_t o) -> (forall a, mine s a -> ~ mine o a) ->
  (s_size (os_t o) = 0 -> h (os_hdr s) = Some (0, 0)) -> s_cap (os_t o) <= lim ->
  copy_data f clone (ev_lim (sv_e v)) (os_t s) (os_t o) = copy_data f clone lim (os_t s) (os_t o) -> copy_data f clone lim (os_t s) (os_t o) = Ok (t1, true) ->
  s_copy_data f sz clone v h s o = Err BadPlacement \/
  exists h' s', s_copy_data f sz clone v h s o = Ok (h', s', true) /\ os_t s' = t1 /\ os_hdr s' = os_hdr s /\ rl h' s' ord /\ keeps h s h' s' /\
    tied (s_nodes t1) ord /\ cont s' ord = map clone (cont o ord).
Proof.
  intros v h s o ord t1 lim Ho A [H0 Hn Hc] Hdis Hhd Hlim Hl Hd. destruct (zi_len _ _ _ _ _ _ _ _ Ho) as (_ & Hlen).
  assert (Hx : s_cap t1 = (if s_size (os_t o) =? 0 then s_cap (os_t s) else s_cap (os_t o)) /\ forall j, s_nodes t1 j = option_map (fun n => (clone (fst n), snd n)) (s_nodes (os_t o) j)).
  { destruct (Z.eqb_spec (s_size (os_t o)) 0) as [Hz|Hz].
    - unfold copy_data in Hd. rewrite H0, Hz in Hd. cbn [Z.eqb guard bind] in Hd. injection Hd as <-. cbn [set_nempty s_cap s_nodes]. split; [reflexivity|]. intros j. rewrite Hn.
      assert (ord = []) as -> by (destruct ord; [reflexivity|cbn [length] in Hlen; lia]). destruct (s_nodes (os_t o) j) eqn:En; [|reflexivity]. exfalso. apply (proj2 (zi_tied _ _ _ _ _ _ _ _ Ho j)). congruence.
    - destruct (zi_wf _ _ _ _ _ _ _ _ Ho) as [W0|W1]; [pose proof (w0_size _ W0); congruence|]. pose proof (wf1_elems_length f key_of hash keq _ W1) as El.
      assert (Hne : elems (os_t o) <> []) by (intros X; rewrite X in El; cbn [length] in El; lia).
      assert (Hc' : s_cap (os_t s) < s_cap (os_t o) \/ (s_cap (os_t s) = s_cap (os_t o) /\ s_buf (os_t s) = Live /\ forall j, s_nodes (os_t s) j = None)) by (destruct Hc as [Hc|[Hc|(Hc & Hb)]]; [contradiction|left; exact Hc|right; auto]).
      split; [|apply (copy_data_nodes f key_of hash keq clone lim (os_t s) (os_t o) t1 Hclone W1 Hne H0 Hc' Hlim Hd)].
      destruct (copy_data_ok f key_of hash keq clone Hclone KL lim (os_t s) (os_t o) W1 Hne H0 Hc' Hlim) as (t2 & Hd2 & _ & _ & Hcap & _). rewrite Hd in Hd2. injection Hd2 as ->. exact Hcap. }
  destruct Hx as (Hcap & Hnodes).
  destruct (s_copy_data_ok f sz key_of hash keq Hsz clone v h s o ord t1 true) as [->|(h' & s' & -> & Et & Eh & Ht & _)].
  - rewrite Hl. exact Hd.
  - apply (zi_wf _ _ _ _ _ _ _ _ Ho).
  - apply (zi_rl _ _ _ _ _ _ _ _ Ho).
  - apply (zi_tied _ _ _ _ _ _ _ _ Ho).
  - exact Hlen.
  - exact A.
  - destruct Hc as [Hc|[Hc|(Hc & _)]]; [right; exact Hc|left; lia|left; lia].
  - exact Hdis.
  - exact Hhd.
  - intros _. exact Hcap.
  - left. reflexivity.
  - right. exists h', s'. split; [reflexivity|]. split; [exact Et|]. split; [exact Eh|]. destruct (Ht eq_refl) as (L & Kp). split; [exact L|]. split; [exact Kp|]. split.
    + intros i. rewrite Hnodes. pose proof (zi_tied _ _ _ _ _ _ _ _ Ho i) as T. destruct (s_nodes (os_t o) i); cbn [option_map]; [split; [discriminate|intros _; apply T; discriminate]|exact T].
    + unfold cont. rewrite Et. apply cloned_cont. exact Hnodes.
Qed.
Lemma header_copied : forall h (s o : oswiss), has h (os_hdr o) -> has h (os_hdr s) -> exists h1, copy_link h (os_hdr s) (os_hdr o) = Ok h1 /\ h1 (os_hdr s) = h (os_hdr o) /\ forall a, a <> os_hdr s -> h1 a = h a.
Proof.
  clear. intros h s o Ho Hs. unfold has in *. unfold copy_link, get_link. destruct (h (os_hdr o)) as [x|] eqn:Ex; [|contradiction]. destruct (h (os_hdr s)) as [y|]; [|contradiction].
  cbn [bind]. eexists. split; [reflexivity|]. split; [apply upd_same|]. intros a Ha. apply upd_other. exact Ha.
Qed.
Lemma all_found : forall h (o : oswiss) ord (P : E -> Prop), zinv h o ord -> (forall x, In x (cont o ord) -> P x) -> forall x, In x (elems (os_t o)) -> P x.
Proof. intros h o ord P Ho H x Hx. apply H. apply (Permutation_in x (Permutation_sym (zi_perm _ _ _ _ _ _ _ _ Ho))). exact Hx. Qed.

Definition xok (v : senv) (w : xworld) (ords : nat -> list Z) (c : xcall E K) : Prop :=
  exists w' ords' r, xexec v w c = Ok (w', r) /\ winv (xw_m w') (xw_c w') ords' /\ xspec c (abs w ords) (abs w' ords') r.

Lemma copy_new_step : forall v w ords i j, winv (xw_m w) (xw_c w) ords -> i <> j -> xblocked v w (XCopyNew i j) \/ xok v w ords (XCopyNew i j).
Proof.
  intros v w ords i j H Hij. pose proof (renewed _ _ ords i H) as H0. set (h0 := x_destroy sz (xw_m w) (xw_c w i)) in *. set (n := s_new (os_hdr (xw_c w i)) : oswiss) in *.
  assert (Hj0 : zinv h0 (xw_c w j) (ords j)) by (pose proof (proj1 H0 j) as X; rewrite !WorldProofs.setn_other in X by congruence; exact X).
  assert (Hi0 : zinv h0 n []) by (pose proof (proj1 H0 i) as X; rewrite !WorldProofs.setn_same in X; exact X).
  assert (Hdis : forall a, mine n a -> ~ mine (xw_c w j) a) by (intros a; pose proof (proj2 H0 i j a Hij) as X; rewrite WorldProofs.setn_same, WorldProofs.setn_other in X by congruence; exact X).
  destruct (destroyed sz Hsz (xw_m w) (xw_c w i)) as (D1 & D2). fold h0 in D1, D2. fold n in D2.
  assert (He : xexec v w (XCopyNew i j) = let* x := s_copy_data f sz clone v h0 n (xw_c w j) in let '(h1, s, b) := x in
    if b : bool then Ok (mkxw h1 (setn (xw_c w) i s) (xw_h w), XDone) else Ok (mkxw (upd h1 (os_hdr (xw_c w i)) (Some (0, 0))) (setn (xw_c w) i n) (xw_h w), XThrow)) by reflexivity.
  pose proof (zi_wf _ _ _ _ _ _ _ _ Hj0) as Wj. destruct (zi_len _ _ _ _ _ _ _ _ Hj0) as (_ & Hlen).
  pose proof (rl_area sz _ _ _ (zi_rl _ _ _ _ _ _ _ _ Hi0)) as An.
  destruct (copy_data_choice (ev_lim (sv_e v)) (os_t n) (os_t (xw_c w j)) eq_refl) as [(t & Hf)|(lim & Hlim & Hl)].
  - destruct (s_copy_data_ok f sz key_of hash keq Hsz clone v h0 n (xw_c w j) (ords j) t false Hf Wj (zi_rl _ _ _ _ _ _ _ _ Hj0) (zi_tied _ _ _ _ _ _ _ _ Hj0) Hlen An) as [X|(h' & s' & X & Et & Eh & _ & Hh)].
    + left. cbn [n s_new os_t empty_swiss s_cap]. apply (wf_cap_nonneg f key_of hash keq _ Wj).
    + exact Hdis.
    + intros _. exact D1.
    + discriminate.
    + left. left. rewrite He, X. reflexivity.
    + right. rewrite X in He. cbn [bind] in He. eexists _, (setn ords i []), _. split; [exact He|]. split; [|apply xs_copy_new_throw; [rewrite abs_same; reflexivity|apply abs_others1]].
      cbn [xw_m xw_c]. apply (set1 (xw_m w)); [exact H|apply new_zinv; apply upd_same|]. intros a Ha Hha. destruct (D2 a Ha Hha) as (X1 & X2). split; [|exact X2].
      rewrite upd_other by (intros Y; apply Ha; left; exact Y). rewrite (Hh eq_refl eq_refl). exact X1.
  - destruct (copy_ctor_ok f key_of hash keq clone Hclone KL lim (os_t (xw_c w j)) Wj Hlim) as (t1 & Hd & _ & _ & Hcl & Hcl'). unfold copy_ctor in Hd.
    destruct (copied v h0 n (xw_c w j) (ords j) t1 lim Hj0 An) as [X|(h' & s' & X & Et & Eh & L & Kp & T & C)].
    + constructor; [reflexivity|reflexivity|]. destruct Wj as [W0|W1]; [left; apply (w0_size _ W0)|right; left; pose proof (cap_bounds f _ (w_m _ _ _ _ _ W1)); cbn [n s_new os_t empty_swiss s_cap]; lia].
    + exact Hdis.
    + intros _. exact D1.
    + exact Hlim.
    + exact Hl.
    + exact Hd.
    + left. left. rewrite He, X. reflexivity.
    + rewrite X in He. cbn [bind] in He. destruct (contains_dec (os_t s') (cont (xw_c w j) (ords j))) as [Hall|(x & Hx & Hlost)].
      * right. eexists _, (setn ords i (ords j)), _. split; [exact He|]. split; [|apply xs_copy_new; [rewrite abs_same; exact C|apply abs_others1]].
        cbn [xw_m xw_c]. apply (set1 (xw_m w)); [exact H| |].
        -- rewrite Et in Hall. constructor; [rewrite Et; apply Hcl; apply Hcl'; apply (all_found _ _ _ _ Hj0 Hall)|exact L|rewrite Et; exact T].
        -- intros a Ha Hha. destruct (D2 a Ha Hha) as (X1 & X2). destruct (Kp a X2) as (K1 & K2); [unfold has; rewrite X1; exact Hha|]. split; [congruence|exact K2].
      * left. right. eexists _, _, x. split; [exact He|]. split; [apply (iterate_ok f sz key_of hash keq Hsz); apply H|]. split; [exact Hx|]. cbn [xw_c]. rewrite WorldProofs.setn_same. exact Hlost.
Qed.

Lemma meta_dec : forall (t : swiss), (forall k, 0 <= k < s_cap t -> s_meta t k = m_empty) \/ (exists k, 0 <= k < s_cap t /\ s_meta t k <> m_empty).
Proof.
  clear. intros t. destruct (Forall_Exists_dec (fun k => s_meta t k = m_empty) (fun k => Z.eq_dec _ _) (zrange (s_cap t))) as [H|H].
  - left. intros k Hk. rewrite Forall_forall in H. apply H. apply zrange_In. exact Hk.
  - right. apply Exists_exists in H. destruct H as (k & Hk & H). exists k. split; [apply zrange_In; exact Hk|exact H].
Qed.

Lemma copy_step' : forall v w ords i j, winv (xw_m w) (xw_c w) ords -> i <> j -> xblocked v w (XCopy i j) \/ xok v w ords (XCopy i j).
Proof.
  intros v w ords i j H Hij. set (h := xw_m w) in *. set (s := xw_c w i). set (o := xw_c w j). pose proof (proj1 H i : zinv h s (ords i)) as Hi. pose proof (proj1 H j : zinv h o (ords j)) as Hj. pose proof (fun a => proj2 H i j a Hij : mine s a -> ~ mine o a) as Hdis.
  pose proof (zi_wf _ _ _ _ _ _ _ _ Hi) as Wi. pose proof (zi_wf _ _ _ _ _ _ _ _ Hj) as Wj. destruct (zi_len _ _ _ _ _ _ _ _ Hj) as (_ & Hlen). pose proof (rl_area sz _ _ _ (zi_rl _ _ _ _ _ _ _ _ Hi)) as Ai.
  destruct (wf_size f key_of hash keq _ Wj) as (Hel & _).
  assert (Hcase : (pocca = false /\ s_size (os_t o) <> 0 /\ s_cap (os_t o) < s_cap (os_t s)) \/ (pocca = false /\ s_size (os_t o) = 0 /\ exists k, 0 <= k < s_cap (os_t s) /\ s_meta (os_t s) k <> m_empty) \/
    (s_size (os_t o) <> 0 /\ (pocca = true \/ s_cap (os_t s) <= s_cap (os_t o))) \/ (s_size (os_t o) = 0 /\ (pocca = true \/ forall k, 0 <= k < s_cap (os_t s) -> s_meta (os_t s) k = m_empty))).
  { destruct (Z.eq_dec (s_size (os_t o)) 0) as [Hz|Hz].
    - destruct pocca; [right; right; right; auto|]. destruct (meta_dec (os_t s)) as [X|X]; [right; right; right; auto|right; left; auto].
    - destruct pocca; [right; right; left; auto|]. destruct (Z_lt_ge_dec (s_cap (os_t o)) (s_cap (os_t s))); [left; auto|right; right; left; split; [exact Hz|right; lia]]. }
  destruct Hcase as [X|[X|Hcase]]; [left; right; left; exact X|left; right; right; left; exact X|].
  assert (He : xexec v w (XCopy i j) = let* x := s_copy_assign f sz clone pocca v h s o in let '(h1, s, b) := x in Ok (mkxw h1 (setn (xw_c w) i s) (xw_h w), if b : bool then XDone else XThrow)) by (cbn [SwissOrderedWorld.xexec]; destruct (Nat.eqb_spec i j); [contradiction|reflexivity]).
  unfold s_copy_assign in He. destruct (header_copied h s o (rl_hashdr _ _ _ _ _ _ (zi_rl _ _ _ _ _ _ _ _ Hj)) (ar_hdr _ _ _ Ai)) as (h1 & Ecl & C1 & C2). rewrite Ecl in He. cbn [bind] in He.
  destruct (assign_target f key_of hash keq pocca (os_t s) Wi) as (t & Ee & S1 & N1 & Cp & Bf & _). rewrite Ee in He. cbn [bind] in He.
  destruct (erase_nodes_ok f key_of hash keq (os_t s) Wi) as (t' & Ee' & _ & Ct & _). rewrite Ee in Ee'. injection Ee' as <-.
  destruct (s_release sz pocca h1 (with_t s t)) as (h2, s2) eqn:Er.
  assert (Hr : os_t s2 = buffer_assign pocca t /\ os_hdr s2 = os_hdr s /\ (forall a, mine s2 a -> mine s a) /\ (forall a, a = os_hdr s \/ ~ mine s a -> h2 a = h1 a) /\ area sz h2 s2).
  { unfold s_release in Er. destruct pocca; injection Er as <- <-.
    - split; [reflexivity|]. split; [reflexivity|]. split; [intros a [X|(k & Hk & _)]; [left; exact X|cbn in Hk; lia]|]. cbn [with_t os_t os_hdr os_base]. rewrite Ct.
      assert (Hu : forall a, a = os_hdr s \/ ~ mine s a -> unplace h1 (os_base s) sz (s_cap (os_t s)) a = h1 a).
      { intros a Ha. unfold unplace. assert (Hn : slot_ix (os_base s) sz (s_cap (os_t s)) a = None); [|rewrite Hn; reflexivity]. destruct Ha as [->|Ha]; [|apply slot_ix_mine; [exact Hsz|exact Ha]].
        apply slot_ix_none_intro; [exact Hsz|]. intros k Hk X. apply (ar_ne _ _ _ Ai k Hk). symmetry. exact X. }
      split; [exact Hu|]. constructor; cbn [os_t os_hdr buffer_assign s_cap]; try lia. unfold has. rewrite Hu by (left; reflexivity). rewrite C1. apply (rl_hashdr _ _ _ _ _ _ (zi_rl _ _ _ _ _ _ _ _ Hj)).
    - split; [reflexivity|]. split; [reflexivity|]. split; [intros a [X|(k & Hk & X)]; [left; exact X|right; exists k; split; [cbn [with_t os_t] in Hk; rewrite Ct in Hk; exact Hk|exact X]]|]. split; [reflexivity|].
      constructor; cbn [with_t os_t os_hdr]; rewrite ?Ct.
      + unfold has. rewrite C1. apply (rl_hashdr _ _ _ _ _ _ (zi_rl _ _ _ _ _ _ _ _ Hj)).
      + intros k Hk. unfold has. change (SwissOrdered.sslot sz (with_t s t) k) with (sslot s k). rewrite C2 by (apply (ar_ne _ _ _ Ai); exact Hk). apply (ar_slot _ _ _ Ai). exact Hk.
      + intros k Hk. apply (ar_ne _ _ _ Ai). exact Hk.
      + apply (ar_cap _ _ _ Ai). }
  destruct Hr as (R1 & R2 & R3 & R4 & R5).
  assert (Hj2 : forall a, mine o a -> h2 a = h a) by (intros a Ha; rewrite R4 by (right; intros X; exact (Hdis a X Ha)); apply C2; intros ->; apply (Hdis (os_hdr s)); [left; reflexivity|exact Ha]).
  assert (Hzj : zinv h2 o (ords j)) by (apply (zinv_same _ _ _ _ _ h); assumption).
  assert (Hdis2 : forall a, mine s2 a -> ~ mine o a) by (intros a Ha; apply Hdis; apply R3; exact Ha).
  assert (Hhd2 : s_size (os_t o) = 0 -> h2 (os_hdr s2) = Some (0, 0)).
  { intros Hz. rewrite R2, R4 by (left; reflexivity). rewrite C1. pose proof (zi_rl _ _ _ _ _ _ _ _ Hj) as L. assert (Eo : ords j = []) by (destruct (ords j); [reflexivity|cbn [length] in Hlen; lia]). rewrite Eo in L. apply (rl_empty_hdr _ _ _ _ _ L). }
  rewrite <- R1 in S1, N1, Cp, Bf.
  destruct (copy_data_choice (ev_lim (sv_e v)) (os_t s2) (os_t o) S1) as [(tf & Hf)|(lim & Hlim & Hl)].
  - left. unfold SwissOrderedWorld.xblocked.
    destruct (s_copy_data_ok f sz key_of hash keq Hsz clone v h2 s2 o (ords j) tf false Hf Wj (zi_rl _ _ _ _ _ _ _ _ Hzj) (zi_tied _ _ _ _ _ _ _ _ Hzj) Hlen R5) as [X|(h' & s' & X & _)].
    + rewrite Cp. destruct pocca; [left; apply (wf_cap_nonneg f key_of hash keq _ Wj)|]. destruct Hcase as [(_ & [Y|Y])|(Y & _)]; [discriminate|left; exact Y|right; exact Y].
    + exact Hdis2.
    + exact Hhd2.
    + discriminate.
    + left. rewrite He, X. reflexivity.
    + right. right. right. left. rewrite He, X. eexists. reflexivity.
  - assert (Ht1 : exists t1, copy_data f clone lim (os_t s2) (os_t o) = Ok (t1, true) /\ ((forall x, In x (elems (os_t o)) -> contains f key_of hash keq t1 (key_of x) = Ok true) -> wf t1)).
    { rewrite R1. destruct Hcase as [(Hz & Hp)|(Hz & Hp)].
      - destruct (copy_assign_ok f key_of hash keq clone Hclone KL pocca lim (os_t s) (os_t o) Wi Wj Hlim) as (t1 & Hd & _ & _ & Hcl & Hcl').
        + intros X. rewrite X in Hel. cbn [length] in Hel. lia.
        + exact Hp.
        + unfold copy_assign in Hd. rewrite Ee in Hd. cbn [bind] in Hd. exists t1. split; [exact Hd|]. intros X. apply Hcl. apply Hcl'. exact X.
      - destruct (copy_assign_empty_ok f key_of hash keq clone pocca lim (os_t s) (os_t o) Wi Wj) as (t1 & Hd & _ & _ & Hiv).
        + destruct (elems (os_t o)); [reflexivity|cbn [length] in Hel; lia].
        + exact Hp.
        + unfold copy_assign in Hd. rewrite Ee in Hd. cbn [bind] in Hd. exists t1. split; [exact Hd|]. intros _. apply Hiv. }
    destruct Ht1 as (t1 & Hd & Hw).
    destruct (copied v h2 s2 o (ords j) t1 lim Hzj R5) as [X|(h' & s' & X & Et & Eh & L & Kp & T & C)].
    + constructor; [exact S1|exact N1|]. rewrite Cp, Bf. destruct Hcase as [(Hz & Hp)|(Hz & _)]; [|left; exact Hz]. right.
      assert (Hcj : 1 <= s_cap (os_t o)) by (destruct Wj as [W0|W1]; [pose proof (w0_size _ W0); contradiction|apply (cap_bounds f _ (w_m _ _ _ _ _ W1))]).
      destruct pocca; [left; lia|]. destruct Hp as [Hp|Hp]; [discriminate|]. destruct (Z.eq_dec (s_cap (os_t s)) (s_cap (os_t o))) as [Ec|Ec]; [right|left; lia]. split; [exact Ec|].
      destruct Wi as [W0|W1]; [pose proof (w0_cap _ W0); lia|apply (mw_buf f _ (w_m _ _ _ _ _ W1))].
    + exact Hdis2.
    + exact Hhd2.
    + exact Hlim.
    + exact Hl.
    + exact Hd.
    + left. left. rewrite He, X. reflexivity.
    + rewrite X in He. cbn [bind] in He. destruct (contains_dec (os_t s') (cont o (ords j))) as [Hall|(x & Hx & Hlost)].
      * right. eexists _, (setn ords i (ords j)), _. split; [exact He|]. split; [|apply xs_copy; [exact Hij|rewrite abs_same; exact C|apply abs_others1]].
        cbn [xw_m xw_c]. apply (set1 h); [exact H| |].
        -- rewrite Et in Hall. constructor; [rewrite Et; apply Hw; apply (all_found _ _ _ _ Hj Hall)|exact L|rewrite Et; exact T].
        -- intros a Ha Hha. assert (Hne : a <> os_hdr s) by (intros Y; apply Ha; left; exact Y). assert (Hx : h2 a = h a) by (rewrite R4 by (right; exact Ha); apply C2; exact Hne).
           destruct (Kp a) as (K1 & K2); [intros Y; apply Ha; apply R3; exact Y|unfold has; rewrite Hx; exact Hha|]. split; [congruence|exact K2].
      * left. right. right. right. right. eexists _, _, x. split; [exact He|]. split; [apply (iterate_ok f sz key_of hash keq Hsz); exact Hj|]. split; [exact Hx|]. cbn [xw_c]. rewrite WorldProofs.setn_same. exact Hlost.
Qed.

(** ** Moves. *)
Lemma move_new_step : forall v w ords i j, winv (xw_m w) (xw_c w) ords -> i <> j -> xok v w ords (XMoveNew i j).
Proof.
  intros v w ords i j H Hij. pose proof (renewed _ _ ords i H) as H0. set (h0 := x_destroy sz (xw_m w) (xw_c w i)) in *. set (n := s_new (os_hdr (xw_c w i)) : oswiss) in *.
  assert (Hj0 : zinv h0 (xw_c w j) (ords j)) by (pose proof (proj1 H0 j) as X; rewrite !WorldProofs.setn_other in X by congruence; exact X).
  assert (Hi0 : zinv h0 n []) by (pose proof (proj1 H0 i) as X; rewrite !WorldProofs.setn_same in X; exact X).
  assert (Hdis : forall a, mine n a -> ~ mine (xw_c w j) a) by (intros a; pose proof (proj2 H0 i j a Hij) as X; rewrite WorldProofs.setn_same, WorldProofs.setn_other in X by congruence; exact X).
  destruct (destroyed sz Hsz (xw_m w) (xw_c w i)) as (D1 & D2). fold h0 in D1, D2. fold n in D2.
  destruct (moved_ok sz Hsz h0 n (xw_c w j) [] (ords j) false empty_swiss (zi_rl _ _ _ _ _ _ _ _ Hi0) (zi_rl _ _ _ _ _ _ _ _ Hj0) Hdis eq_refl) as (h1 & Hl & Hres).
  destruct (Hres _ _ eq_refl eq_refl) as (L1 & L2 & Hd' & Hk). change (os_hdr n) with (os_hdr (xw_c w i)) in *.
  eexists _, (setn (setn ords i (ords j)) j []), XDone. split; [cbn [SwissOrderedWorld.xexec]; fold h0; unfold s_move_ctor; rewrite Hl; reflexivity|]. split.
  - cbn [xw_m xw_c]. apply (set2 (xw_m w)); [exact H|exact Hij| | |exact Hd'|].
    + constructor; [apply (zi_wf _ _ _ _ _ _ _ _ Hj0)|exact L1|apply (zi_tied _ _ _ _ _ _ _ _ Hj0)].
    + apply empty_zinv; [apply (proj1 (empty_inv f key_of hash keq))|reflexivity|exact L2].
    + intros a Ha1 Ha2 Hh. destruct (D2 a Ha1 Hh) as (X1 & X2). destruct (Hk a X2 Ha2) as (K1 & K2); [unfold has; rewrite X1; exact Hh|]. split; [congruence|exact K2].
  - apply xs_move_new; [| |apply abs_others2].
    + rewrite abs_first by exact Hij. reflexivity.
    + rewrite abs_same. reflexivity.
Qed.
Lemma move_step' : forall v w ords i j, winv (xw_m w) (xw_c w) ords -> i <> j -> pocma = true \/ s_size (os_t (xw_c w i)) = 0 -> xok v w ords (XMove i j).
Proof.
  intros v w ords i j H Hij Hp. set (h := xw_m w) in *. set (s := xw_c w i) in *. set (o := xw_c w j). pose proof (proj1 H i : zinv h s (ords i)) as Hi. pose proof (proj1 H j : zinv h o (ords j)) as Hj. pose proof (fun a => proj2 H i j a Hij : mine s a -> ~ mine o a) as Hdis.
  pose proof (zi_wf _ _ _ _ _ _ _ _ Hi) as Wi. pose proof (zi_wf _ _ _ _ _ _ _ _ Hj) as Wj. destruct (wf_size f key_of hash keq _ Wi) as (Hel & _).
  destruct (move_assign_ok f key_of hash keq pocma 0 (os_t s) (os_t o) Wi Wj) as (t2 & Hm & W2 & E2).
  { destruct Hp as [Hp|Hp]; [left; exact Hp|right]. destruct (elems (os_t s)); [reflexivity|cbn [length] in Hel; lia]. }
  destruct (erase_nodes_ok f key_of hash keq (os_t s) Wi) as (t & Ee & _ & Ct & _). unfold move_assign, move_from in Hm. rewrite Ee in Hm. cbn [bind] in Hm. injection Hm as Et2.
  assert (Hrel : forall h1, s_release sz pocma h1 (with_t s t) = (if pocma then unplace h1 (os_base s) sz (s_cap (os_t s)) else h1, mkos t2 (os_hdr s) (if pocma then 0 else os_base s))).
  { intros h1. unfold s_release. subst t2. destruct pocma; cbn [with_t os_t os_hdr os_base]; [rewrite Ct|]; reflexivity. }
  destruct (moved_ok sz Hsz h s o (ords i) (ords j) pocma t2 (zi_rl _ _ _ _ _ _ _ _ Hi) (zi_rl _ _ _ _ _ _ _ _ Hj) Hdis) as (h1 & Hl & Hres).
  { subst t2. destruct pocma; [reflexivity|exact Ct]. }
  destruct (Hres _ _ eq_refl eq_refl) as (L1 & L2 & Hd' & Hk).
  eexists _, (setn (setn ords i (ords j)) j []), XDone. split.
  - cbn [SwissOrderedWorld.xexec]. destruct (Nat.eqb_spec i j); [contradiction|]. unfold s_move_assign. fold h s o. rewrite Hl. cbn [bind]. rewrite Ee. cbn [bind]. rewrite Hrel. reflexivity.
  - split.
    + cbn [xw_m xw_c]. apply (set2 h); [exact H|exact Hij| | |exact Hd'|exact Hk].
      * constructor; [exact Wj|exact L1|apply (zi_tied _ _ _ _ _ _ _ _ Hj)].
      * apply empty_zinv; [exact W2|exact E2|exact L2].
    + apply xs_move; [exact Hij| | |apply abs_others2].
      * rewrite abs_first by exact Hij. reflexivity.
      * rewrite abs_same. reflexivity.
Qed.
Lemma swap_step : forall v w ords i j, winv (xw_m w) (xw_c w) ords -> i <> j -> s_size (os_t (xw_c w i)) <> 0 -> s_size (os_t (xw_c w j)) <> 0 -> xok v w ords (XSwap i j).
Proof.
  intros v w ords i j H Hij H0i H0j. set (h := xw_m w) in *. set (s := xw_c w i) in *. set (o := xw_c w j) in *. pose proof (proj1 H i : zinv h s (ords i)) as Hi. pose proof (proj1 H j : zinv h o (ords j)) as Hj. pose proof (fun a => proj2 H i j a Hij : mine s a -> ~ mine o a) as Hdis.
  destruct (zi_len _ _ _ _ _ _ _ _ Hi) as (_ & Li). destruct (zi_len _ _ _ _ _ _ _ _ Hj) as (_ & Lj).
  destruct (swapped_ok sz h s o (ords i) (ords j) (zi_rl _ _ _ _ _ _ _ _ Hi) (zi_rl _ _ _ _ _ _ _ _ Hj) Hdis) as (h1 & Hl & L1 & L2 & Hd' & Hk).
  - intros X. rewrite X in Li. cbn [length] in Li. lia.
  - intros X. rewrite X in Lj. cbn [length] in Lj. lia.
  - eexists _, (setn (setn ords i (ords j)) j (ords i)), XDone. split; [cbn [SwissOrderedWorld.xexec]; unfold s_swap; fold h s o; rewrite Hl; reflexivity|]. split.
    + cbn [xw_m xw_c]. apply (set2 h); [exact H|exact Hij| | |exact Hd'|exact Hk].
      * constructor; [apply (zi_wf _ _ _ _ _ _ _ _ Hj)|exact L1|apply (zi_tied _ _ _ _ _ _ _ _ Hj)].
      * constructor; [apply (zi_wf _ _ _ _ _ _ _ _ Hi)|exact L2|apply (zi_tied _ _ _ _ _ _ _ _ Hi)].
    + apply xs_swap; [| |apply abs_others2].
      * rewrite abs_first by exact Hij. reflexivity.
      * rewrite abs_same. reflexivity.
Qed.

(** ** Merge. *)
Lemma front_ok : forall h s i o n, zinv h s (i :: o) -> s_nodes (os_t s) i = Some n -> s_front sz h s = Ok (fst n).
Proof.
  intros h s i o n H Hn. unfold s_front. rewrite (begin_at sz _ _ _ _ _ (zi_rl _ _ _ _ _ _ _ _ H)). cbn [bind place_at]. destruct (value_ok f sz key_of hash keq Hsz h s _ i _ H Hn) as (_ & Hv & _). exact Hv.
Qed.
Lemma merge_step' : forall v w ords i j, winv (xw_m w) (xw_c w) ords -> env_ok (sv_e v) -> i <> j -> xblocked v w (XMerge i j) \/ xok v w ords (XMerge i j).
Proof.
  intros v w ords i j H V Hij. set (h := xw_m w) in *. set (s := xw_c w i) in *. set (o := xw_c w j) in *. pose proof (proj1 H i : zinv h s (ords i)) as Hi. pose proof (proj1 H j : zinv h o (ords j)) as Hj. pose proof (fun a => proj2 H i j a Hij : mine s a -> ~ mine o a) as Hdis.
  assert (Hz : (s_cap (os_t s) = 0 /\ s_nempty (os_t s) <> 0) \/ (s_cap (os_t s) = 0 -> s_nempty (os_t s) = 0)) by (destruct (Z.eq_dec (s_nempty (os_t s)) 0); [right; auto|]; destruct (Z.eq_dec (s_cap (os_t s)) 0); [left; auto|right; contradiction]).
  destruct Hz as [Hz|Hz]; [left; right; right; exact Hz|].
  assert (Hfr : (exists x, s_front sz h o = Ok x /\ contains f key_of hash keq (os_t s) (key_of x) = Ok false) \/
    (filter (present key_of keq (cont s (ords i))) (cont o (ords j)) = firstn 1 (cont o (ords j)) ++ filter (present key_of keq (cont s (ords i))) (tl (cont o (ords j))) /\
     filter (fun x => negb (present key_of keq (cont s (ords i)) x)) (cont o (ords j)) = filter (fun x => negb (present key_of keq (cont s (ords i)) x)) (tl (cont o (ords j))))).
  { destruct (ords j) as [|x0 m] eqn:Eo; [right; split; reflexivity|].
    destruct (zi_slot f sz key_of hash keq Hsz h o _ x0 Hj ltac:(left; reflexivity)) as (_ & _ & _ & (e & hh) & Hn & _).
    assert (Ec : cont o (x0 :: m) = e :: cont o m) by (unfold cont, seqn; cbn [flat_map]; unfold look at 1; rewrite Hn; reflexivity).
    pose proof (contains_zinv f sz key_of hash keq KL h s (ords i) e Hi) as Hc. destruct (present key_of keq (cont s (ords i)) e) eqn:Ep.
    - right. rewrite Ec. cbn [filter firstn tl app]. rewrite Ep. cbn [negb]. split; reflexivity.
    - left. exists e. split; [apply (front_ok h o x0 m _ Hj Hn)|exact Hc]. }
  destruct Hfr as [Hfr|(Hf1 & Hf2)]; [left; right; left; exact Hfr|].
  destruct (merge_links f sz key_of hash keq Hsz KL v h s o (ords i) (ords j) Hi Hj Hdis V Hz) as [X|(h' & s' & o' & os' & oo' & b & X & R1 & R2 & Rh1 & Rh2 & R3 & R4 & R5 & _ & _ & R6)].
  - left. left. cbn [SwissOrderedWorld.xexec]. fold h s o. rewrite X. reflexivity.
  - right. eexists _, (setn (setn ords i os') j oo'), _. split; [cbn [SwissOrderedWorld.xexec]; fold h s o; rewrite X; reflexivity|]. split.
    + cbn [xw_m xw_c]. apply (set2 h); [exact H|exact Hij|exact R1|exact R2|intros a Ha; rewrite R3; apply R4; exact Ha|].
      intros a A1 A2 A3. destruct (R5 a A1 A2 A3) as (K1 & K2). split; [exact K1|]. split; [exact K2|]. rewrite R3. exact A2.
    + destruct b.
      * destruct R6 as (C1 & C2). eapply xs_merge; [| | |apply abs_others2].
        -- cbn [abs xc]. fold s o. rewrite Hf2. apply Permutation_sym, Permutation_rev.
        -- rewrite abs_first by exact Hij. exact C1.
        -- rewrite abs_same. cbn [abs xc]. fold s o. rewrite Hf1. exact C2.
      * destruct R6 as (C1 & -> & ->). apply xs_merge_throw. split; [|reflexivity]. intros k _. cbn [abs xc xw_c]. unfold setn. destruct (Nat.eqb_spec k j) as [->|]; [reflexivity|]. destruct (Nat.eqb_spec k i) as [->|]; [exact C1|reflexivity].
Qed.

Lemma xstep_ok : forall v w ords c, winv (xw_m w) (xw_c w) ords -> env_ok (sv_e v) -> xcall_ok c -> xblocked v w c \/ xok v w ords c.
Proof.
  intros v w ords c H V Hc. destruct c as [i c|i|i j|i j|i j|i j|i j|i k j|i j|i j|i j]; cbn [xcall_ok] in Hc.
  - destruct (zstep_ok f sz key_of hash keq rep Hsz KL Hrep v (xw_m w) (xw_c w i) (ords i) c (proj1 H i) V Hc) as [Hb|(h' & s' & r & ord' & He & H' & F & _ & S)].
    + left. right. exact Hb.
    + right. eexists _, (setn ords i ord'), _. split; [cbn [SwissOrderedWorld.xexec]; rewrite He; reflexivity|]. split.
      * apply (set1 (xw_m w)); [exact H|exact H'|apply (sfr_keeps sz Hsz); exact F].
      * apply xs_on; [rewrite abs_same; exact S|apply abs_others1].
  - right. eexists _, (setn ords i []), XDone. split; [reflexivity|]. split; [apply renewed; exact H|]. apply xs_new; [rewrite abs_same; reflexivity|apply abs_others1].
  - apply copy_new_step; assumption.
  - destruct (Nat.eq_dec i j) as [->|Hij]; [|apply copy_step'; assumption]. right. exists w, ords, XDone. split; [cbn [SwissOrderedWorld.xexec]; rewrite Nat.eqb_refl; reflexivity|]. split; [exact H|]. apply xs_copy_self. split; reflexivity.
  - right. apply move_new_step; assumption.
  - destruct (Nat.eq_dec i j) as [->|Hij].
    + right. exists w, ords, XDone. split; [cbn [SwissOrderedWorld.xexec]; rewrite Nat.eqb_refl; reflexivity|]. split; [exact H|]. apply xs_move_self. split; reflexivity.
    + destruct (Z.eq_dec (s_size (os_t (xw_c w i))) 0) as [H0|H0]; [right; apply move_step'; auto|]. destruct (Bool.bool_dec pocma true) as [Hp|Hp]; [right; apply move_step'; auto|].
      left. right. split; [destruct pocma; [contradiction|reflexivity]|exact H0].
  - destruct (Z.eq_dec (s_size (os_t (xw_c w i))) 0) as [H0|H0]; [left; right; left; exact H0|]. destruct (Z.eq_dec (s_size (os_t (xw_c w j))) 0) as [H1|H1]; [left; right; right; exact H1|].
    right. apply swap_step; assumption.
  - right. destruct (extract_key_links f sz key_of hash keq Hsz KL (xw_m w) (xw_c w i) (ords i) k (proj1 H i)) as (h' & s' & o & ord' & He & H' & F & _ & S).
    eexists _, (setn ords i ord'), _. split; [cbn [SwissOrderedWorld.xexec]; rewrite He; reflexivity|]. split.
    + apply (set1 (xw_m w)); [exact H|exact H'|apply (sfr_keeps sz Hsz); exact F].
    + destruct o as [x|].
      * destruct S as (a & b & S1 & S2). eapply xs_extract; [exact S1|rewrite abs_same; exact S2|cbn [abs xh xw_h]; apply WorldProofs.setn_same|apply abs_others1h].
      * destruct S as (-> & -> & Ha). apply xs_extract_absent; [exact Ha|cbn [abs xh xw_h]; apply WorldProofs.setn_same|]. split.
        -- intros l _. cbn [abs xc xw_c]. unfold setn. destruct (Nat.eqb_spec l i) as [->|]; reflexivity.
        -- intros l Hl. cbn [abs xh xw_h]. apply WorldProofs.setn_other. intros ->. apply Hl. left. reflexivity.
  - destruct (xw_h w j) as [e|] eqn:Eh.
    + destruct (insert_node_links f sz key_of hash keq Hsz KL v (xw_m w) (xw_c w i) (ords i) e (proj1 H i) V) as [Hs|[X|(h' & s' & o & ord' & X & H' & F & _ & S)]].
      * left. right. exists e. auto.
      * left. left. cbn [SwissOrderedWorld.xexec]. rewrite Eh, X. reflexivity.
      * right. assert (Hk : winv h' (setn (xw_c w) i s') (setn ords i ord')) by (apply (set1 (xw_m w)); [exact H|exact H'|apply (sfr_keeps sz Hsz); exact F]).
        destruct o as [((a & b) & hd)|].
        -- destruct b.
           ++ destruct S as (-> & Ha & S1 & S2). eexists _, (setn ords i ord'), _. split; [cbn [SwissOrderedWorld.xexec]; rewrite Eh, X; cbn [bind]; rewrite S2; reflexivity|]. split; [exact Hk|].
              apply xs_node_new; [exact Eh|exact Ha|rewrite abs_same; exact S1|cbn [abs xh xw_h]; apply WorldProofs.setn_same|apply abs_others1h].
           ++ destruct S as (-> & -> & -> & l1 & x & l2 & S1 & S2). eexists _, (setn ords i (ords i)), _. split; [cbn [SwissOrderedWorld.xexec]; rewrite Eh, X; cbn [bind]; rewrite S2; reflexivity|]. split; [exact Hk|].
              eapply xs_node_old; [exact Eh|exact S1|]. split.
              ** intros l _. cbn [abs xc xw_c]. unfold setn. destruct (Nat.eqb_spec l i) as [->|]; reflexivity.
              ** intros l _. cbn [abs xh xw_h]. unfold setn. destruct (Nat.eqb_spec l j) as [->|]; [symmetry; exact Eh|reflexivity].
        -- destruct S as (S1 & S2). eexists _, (setn ords i ord'), _. split; [cbn [SwissOrderedWorld.xexec]; rewrite Eh, X; reflexivity|]. split; [exact Hk|]. eapply xs_node_throw; [exact Eh|exact S2|apply abs_none; exact S1].
    + right. exists w, ords, XDone. split; [cbn [SwissOrderedWorld.xexec]; rewrite Eh; reflexivity|]. split; [exact H|]. apply xs_node_empty; [exact Eh|split; reflexivity].
  - destruct (xw_h w j) as [e|] eqn:Eh.
    + destruct (assign_node_links f sz key_of hash keq Hsz KL v (xw_m w) (xw_c w i) (ords i) e (proj1 H i) V) as [Hs|[X|(h' & s' & o & ord' & X & H' & F & _ & S)]].
      * left. right. exists e. auto.
      * left. left. cbn [SwissOrderedWorld.xexec]. rewrite Eh, X. reflexivity.
      * right. assert (Hk : winv h' (setn (xw_c w) i s') (setn ords i ord')) by (apply (set1 (xw_m w)); [exact H|exact H'|apply (sfr_keeps sz Hsz); exact F]).
        destruct o as [(a & b)|].
        -- destruct b.
           ++ destruct S as (Ha & S1 & S2). eexists _, (setn ords i ord'), _. split; [cbn [SwissOrderedWorld.xexec]; rewrite Eh, X; cbn [bind]; rewrite S2; reflexivity|]. split; [exact Hk|].
              apply xs_assign_node_new; [exact Eh|exact Ha|rewrite abs_same; exact S1|cbn [abs xh xw_h]; apply WorldProofs.setn_same|apply abs_others1h].
           ++ destruct S as (_ & _ & l1 & x & l2 & S1 & S2 & _ & S3). eexists _, (setn ords i ord'), _. split; [cbn [SwissOrderedWorld.xexec]; rewrite Eh, X; cbn [bind]; rewrite S3; reflexivity|]. split; [exact Hk|].
              eapply xs_assign_node_old; [exact Eh|exact S1|rewrite abs_same; exact S2|cbn [abs xh xw_h]; apply WorldProofs.setn_same|apply abs_others1h].
        -- destruct S as (S1 & S2). eexists _, (setn ords i ord'), _. split; [cbn [SwissOrderedWorld.xexec]; rewrite Eh, X; reflexivity|]. split; [exact Hk|]. eapply xs_assign_node_throw; [exact Eh|exact S2|apply abs_none; exact S1].
    + right. exists w, ords, XDone. split; [cbn [SwissOrderedWorld.xexec]; rewrite Eh; reflexivity|]. split; [exact H|]. apply xs_assign_node_empty; [exact Eh|split; reflexivity].
  - apply merge_step'; assumption.
Qed.

Lemma xrun_ok : forall hist w ords, winv (xw_m w) (xw_c w) ords -> xhistory_ok hist ->
  (exists w' ords' rs, xrun w hist = Ok (w', rs) /\ winv (xw_m w') (xw_c w') ords' /\ xspec_run (map snd hist) (abs w ords) (abs w' ords') rs) \/
  (exists h1 v c h2 w' ords' rs, hist = h1 ++ (v, c) :: h2 /\ xrun w h1 = Ok (w', rs) /\ winv (xw_m w') (xw_c w') ords' /\ xspec_run (map snd h1) (abs w ords) (abs w' ords') rs /\ xblocked v w' c).
Proof.
  induction hist as [|(v, c) hist IH]; intros w ords H Hh.
  - left. exists w, ords, []. split; [reflexivity|]. split; [exact H|]. constructor. split; reflexivity.
  - inversion Hh as [|? ? (Hv & Hc) Hh']; subst. cbn [fst snd] in *. destruct (xstep_ok v w ords c H Hv Hc) as [Hb|(w1 & ords1 & r & He & H1 & S1)].
    + right. exists [], v, c, hist, w, ords, []. split; [reflexivity|]. split; [reflexivity|]. split; [exact H|]. split; [constructor; split; reflexivity|exact Hb].
    + destruct (IH w1 ords1 H1 Hh') as [(w' & ords' & rs & Hr & H' & S')|(p1 & v' & c' & p2 & w' & ords' & rs & -> & Hr & H' & S' & Hb)].
      * left. exists w', ords', (r :: rs). cbn [SwissOrderedWorld.xrun map]. rewrite He. cbn [bind]. rewrite Hr. cbn [bind]. split; [reflexivity|]. split; [exact H'|]. econstructor; eassumption.
      * right. exists ((v, c) :: p1), v', c', p2, w', ords', (r :: rs). split; [reflexivity|]. cbn [SwissOrderedWorld.xrun map]. rewrite He. cbn [bind]. rewrite Hr. cbn [bind]. split; [reflexivity|]. split; [exact H'|].
        split; [econstructor; eassumption|exact Hb].
Qed.

(** ** Initial and occurring states. *)
Lemma xinit_inv : forall addr h0, xinit_ok addr h0 -> winv h0 (fun i => s_new (addr i)) (fun _ => []).
Proof.
  intros addr h0 (Hinj & H0). split; [intros i; apply new_zinv; apply H0|]. intros i j a Hij [Ha|(k & Hk & _)] [Hb|(l & Hl & _)]; try (cbn in *; lia).
  cbn [s_new os_hdr] in *. apply Hij. apply Hinj. congruence.
Qed.
Lemma winv_lists : forall w ords, winv (xw_m w) (xw_c w) ords -> xlists sz w (xc (abs w ords)).
Proof. intros w ords (H & _) i. apply (zi_lists f sz key_of hash keq Hsz). apply H. Qed.
Lemma winv_refines : forall hist w ords, winv (xw_m w) (xw_c w) ords -> xhistory_ok hist -> xrefines f sz key_of hash keq rep clone pocca pocma w (abs w ords) hist.
Proof.
  intros hist w ords H Hh. destruct (xrun_ok hist w ords H Hh) as [(w' & ords' & rs & Hr & H' & S')|(h1 & v & c & h2 & w' & ords' & rs & He & Hr & H' & S' & Hb)].
  - left. exists w', rs, (abs w' ords'). split; [exact Hr|]. split; [exact S'|]. split; [apply winv_lists; exact H'|]. intros i. apply (distinct_zinv f sz key_of hash keq KL (xw_m w')). apply H'.
  - right. exists h1, v, c, h2, w', rs, (abs w' ords'). split; [exact He|]. split; [exact Hr|]. split; [exact S'|]. split; [apply winv_lists; exact H'|exact Hb].
Qed.
Lemma xinit_refines : forall addr h0 hist, xinit_ok addr h0 -> xhistory_ok hist -> xrefines f sz key_of hash keq rep clone pocca pocma (xinit addr h0) (@xstart E) hist.
Proof. intros addr h0 hist H0 Hh. apply (winv_refines hist (xinit addr h0) (fun _ => [])); [apply xinit_inv; exact H0|exact Hh]. Qed.
Lemma xoccurs_inv : forall w, xoccurs f sz key_of hash keq rep clone pocca pocma w -> exists ords, winv (xw_m w) (xw_c w) ords.
Proof.
  intros w (addr & h0 & hist & rs & H0 & Hh & Hr & Hnb). destruct (xrun_ok hist (xinit addr h0) _ (xinit_inv addr h0 H0) Hh) as [(w' & ords' & rs' & Hr' & H' & _)|(h1 & v & c & h2 & w' & ords' & rs' & He & Hr' & _ & _ & Hb)].
  - rewrite Hr' in Hr. injection Hr as <- _. exists ords'. exact H'.
  - exfalso. apply (Hnb h1 v c h2 w' rs' He Hr' Hb).
Qed.
End Proofs.
