(** Programs with copies refine the list specification up to the first lossy copy. *)
From Coq Require Import ZArith List Bool Lia Permutation Arith.
From Verif Require Import Base BaseLemmas Bits BitsProofs SwissModel SwissArith SwissCap SwissInv SwissOps SwissClean
  SwissIter SwissRoom MapSpec WorldSpec SwissRun SwissRefine SwissFinal SwissMore SwissCopy World WorldProofs WorldFinal
  CopyWorldSpec CopyWorld.
Import ListNotations.
Open Scope Z_scope.

Section Proofs.
Context {E K : Type}.
Variable f : simd.
Variable key_of : E -> K.
Variable hash : K -> Z.
Variable keq : K -> K -> bool.
Hypothesis KL : key_laws hash keq.
Variable rep : E -> E -> E.
Hypothesis Rep : forall a b, keq (key_of a) (key_of b) = true -> key_of (rep a b) = key_of a.
Variable clone : E -> E.
Hypothesis Cl : forall e, key_of (clone e) = key_of e.
Variable pocca : bool.

Local Notation swiss := (@swiss E).
Local Notation world := (@world E).
Local Notation wf := (wf f key_of hash keq).
Local Notation wwf := (wwf f key_of hash keq).
Local Notation pexec := (pexec f key_of hash keq rep clone pocca).
Local Notation prun := (prun f key_of hash keq rep clone pocca).
Local Notation pblocked := (pblocked f key_of hash keq rep clone pocca).
Local Notation pspec := (pspec key_of keq rep clone).
Local Notation pspec_run := (pspec_run key_of keq rep clone).
Local Notation contains := (contains f key_of hash keq).

Definition pok (v : env) (w : world) (c : pcall E K) : Prop :=
  exists w' r, pexec v w c = Ok (w', r) /\ wwf w' /\ pspec c (abs w) (abs w') r.

(** Either some element is lost, or all keys are found. *)
Lemma found_or_lost : forall (s : swiss) l, (forall x, In x l -> contains s (key_of x) = Ok true) \/
  (exists x, In x l /\ contains s (key_of x) <> Ok true).
Proof.
  intros s. induction l as [|x l IH]; [left; intros x []|].
  destruct IH as [IH|(y & Hy & Hn)]; [|right; exists y; split; [right; exact Hy|exact Hn]].
  destruct (contains s (key_of x)) as [[|]|e] eqn:Ec.
  - left. intros y [<-|Hy]; [exact Ec|apply IH; exact Hy].
  - right. exists x. split; [left; reflexivity|congruence].
  - right. exists x. split; [left; reflexivity|congruence].
Qed.

Lemma copy_new_step : forall v w i j, wwf w -> pblocked v w (PCopyNew i j) \/ pok v w (PCopyNew i j).
Proof.
  intros v w i j H. destruct (Z_le_dec (s_cap (w_c w j)) (ev_lim v)) as [Hl|Hl].
  - destruct (copy_ctor_ok f key_of hash keq clone Cl KL (ev_lim v) (w_c w j) (H j) Hl) as (s & E1 & Ee & _ & Hcl & Hx).
    assert (Ex : pexec v w (PCopyNew i j) = Ok (mkw (setn (w_c w) i s) (w_h w), WDone)) by (cbn [CopyWorld.pexec]; rewrite E1; reflexivity).
    destruct (found_or_lost s (elems (w_c w j))) as [Hf|(x & Hi & Hn)].
    + right. eexists. eexists. split; [exact Ex|]. split; [apply wwf_set; [exact H|apply Hcl, Hx, Hf]|].
      apply ps_new; [rewrite at_same; exact Ee|apply others1|apply hands0].
    + left. exists (mkw (setn (w_c w) i s) (w_h w)), x. split; [exact Ex|]. split; [exact Hi|]. cbn [w_c]. rewrite setn_same. exact Hn.
  - destruct (elems (w_c w j)) as [|x l] eqn:Eo.
    + destruct (wf_size f key_of hash keq _ (H j)) as [Hz _]. rewrite Eo in Hz. cbn [length] in Hz.
      right. exists (mkw (setn (w_c w) i empty_swiss) (w_h w)), WDone. split.
      { cbn [CopyWorld.pexec]. unfold copy_ctor, copy_data. cbn [s_size empty_swiss Z.eqb guard bind].
        destruct (Z.eqb_spec (s_size (w_c w j)) 0); [reflexivity|lia]. }
      split; [apply wwf_set; [exact H|exact (proj1 (empty_inv f key_of hash keq))]|].
      apply ps_new; [rewrite at_same; cbn [abs conts w_c]; rewrite Eo; reflexivity|apply others1|apply hands0].
    + destruct (wf_size f key_of hash keq _ (H j)) as [Hz _]. rewrite Eo in Hz. cbn [length] in Hz.
      assert (Hc : s_cap (w_c w j) <> 0). { intros Hc. rewrite (elems_empty _ Hc) in Eo. discriminate. }
      destruct (H j) as [W|W]; [destruct Hc; exact (w0_cap _ W)|]. pose proof (cap_bounds f _ (w_m _ _ _ _ _ W)) as Hcb.
      right. exists (mkw (setn (w_c w) i empty_swiss) (w_h w)), WThrow. split.
      { cbn [CopyWorld.pexec]. unfold copy_ctor, copy_data. cbn [s_size empty_swiss Z.eqb guard bind].
        destruct (Z.eqb_spec (s_size (w_c w j)) 0); [lia|]. unfold reallocate. cbn [s_cap empty_swiss].
        destruct (Z.ltb_spec 0 (s_cap (w_c w j))); [|lia]. destruct (Z.ltb_spec (ev_lim v) (s_cap (w_c w j))); [reflexivity|lia]. }
      split; [apply wwf_set; [exact H|exact (proj1 (empty_inv f key_of hash keq))]|].
      apply ps_new_throw; [rewrite at_same; reflexivity|apply others1|apply hands0].
Qed.

(** Without a need for memory the limit plays no role. *)
Lemma copy_data_fits : forall lim lim' (s o : swiss), s_cap o <= s_cap s -> copy_data f clone lim s o = copy_data f clone lim' s o.
Proof.
  intros lim lim' s o H. unfold copy_data, reallocate. destruct (Z.ltb_spec (s_cap s) (s_cap o)); [lia|]. reflexivity.
Qed.

Lemma copy_step : forall v w i j, wwf w -> pblocked v w (PCopy i j) \/ pok v w (PCopy i j).
Proof.
  intros v w i j H. destruct (Nat.eq_dec i j) as [<-|Hij].
  { right. exists w, WDone. split; [cbn [CopyWorld.pexec]; rewrite Nat.eqb_refl; reflexivity|]. split; [exact H|].
    apply ps_copy_self; [apply unchanged_c|apply unchanged_h]. }
  assert (Hx : forall s b, copy_assign f clone pocca (ev_lim v) (w_c w i) (w_c w j) = Ok (s, b) ->
    pexec v w (PCopy i j) = Ok (mkw (setn (w_c w) i s) (w_h w), if b then WDone else WThrow)).
  { intros s b Es. cbn [CopyWorld.pexec]. destruct (Nat.eqb_spec i j); [congruence|]. rewrite Es. reflexivity. }
  assert (Hgood : forall s, copy_assign f clone pocca (ev_lim v) (w_c w i) (w_c w j) = Ok (s, true) ->
    elems s = map clone (elems (w_c w j)) -> wf s -> pok v w (PCopy i j)).
  { intros s Es Ee Ws. eexists. eexists. split; [apply (Hx _ _ Es)|]. split; [apply wwf_set; [exact H|exact Ws]|].
    apply ps_copy; [exact Hij|rewrite at_same; exact Ee|apply others1|apply hands0]. }
  destruct (elems (w_c w j)) as [|e0 l0] eqn:Eo.
  - (* an empty source *)
    assert (Hd : (forall k, 0 <= k < s_cap (w_c w i) -> s_meta (w_c w i) k = m_empty) \/
                 (exists k, 0 <= k < s_cap (w_c w i) /\ s_meta (w_c w i) k <> m_empty)).
    { destruct (forallb (fun k => s_meta (w_c w i) k =? m_empty) (zrange (s_cap (w_c w i)))) eqn:Ef.
      - left. intros k Hk. rewrite forallb_forall in Ef. apply Z.eqb_eq. apply Ef. apply zrange_In. exact Hk.
      - right. assert (Hex : existsb (fun k => negb (s_meta (w_c w i) k =? m_empty)) (zrange (s_cap (w_c w i))) = true).
        { clear -Ef. induction (zrange (s_cap (w_c w i))) as [|y r IH]; [discriminate|]. cbn [forallb existsb] in *.
          destruct (s_meta (w_c w i) y =? m_empty); cbn [negb orb andb] in *; [apply IH; exact Ef|reflexivity]. }
        apply existsb_exists in Hex. destruct Hex as (k & Hk & Hn). exists k. split; [apply zrange_In; exact Hk|].
        intros Heq. rewrite Heq in Hn. discriminate. }
    destruct (Bool.bool_dec pocca true) as [Hp|Hp]; [|destruct Hd as [Hd|Hd]].
    + right. destruct (copy_assign_empty_ok f key_of hash keq clone pocca (ev_lim v) _ _ (H i) (H j) Eo (or_introl Hp)) as (s & Es & Ee & _ & Hi).
      apply (Hgood s Es); [exact Ee|apply Hi].
    + right. destruct (copy_assign_empty_ok f key_of hash keq clone pocca (ev_lim v) _ _ (H i) (H j) Eo (or_intror Hd)) as (s & Es & Ee & _ & Hi).
      apply (Hgood s Es); [exact Ee|apply Hi].
    + left. split; [exact Hij|]. left. split; [destruct pocca; congruence|]. right. left. rewrite Eo. split; [reflexivity|exact Hd].
  - assert (Hne : elems (w_c w j) <> []) by (rewrite Eo; discriminate). rewrite <- Eo in Hgood.
    assert (Hc : s_cap (w_c w j) <> 0). { intros Hc. rewrite (elems_empty _ Hc) in Eo. discriminate. }
    destruct (wf_size f key_of hash keq _ (H j)) as [Hz _]. rewrite Eo in Hz. cbn [length] in Hz.
    assert (Hcj : 0 < s_cap (w_c w j)).
    { destruct (H j) as [W|W]; [destruct Hc; exact (w0_cap _ W)|]. pose proof (cap_bounds f _ (w_m _ _ _ _ _ W)). lia. }
    assert (Hfull : pocca = true \/ s_cap (w_c w i) <= s_cap (w_c w j) ->
      (exists s lim, copy_assign f clone pocca (ev_lim v) (w_c w i) (w_c w j) = copy_assign f clone pocca lim (w_c w i) (w_c w j) /\
         s_cap (w_c w j) <= lim /\ copy_assign f clone pocca lim (w_c w i) (w_c w j) = Ok (s, true)) ->
      pblocked v w (PCopy i j) \/ pok v w (PCopy i j)).
    { intros Hp (s0 & lim & Elim & Hlim & _).
      destruct (copy_assign_ok f key_of hash keq clone Cl KL pocca lim _ _ (H i) (H j) Hlim Hne Hp) as (s & Es & Ee & _ & Hcl & Hlost).
      rewrite <- Elim in Es. destruct (found_or_lost s (elems (w_c w j))) as [Hf|(x & Hi & Hn)].
      - right. apply (Hgood s Es Ee). apply Hcl, Hlost, Hf.
      - left. split; [exact Hij|]. right. exists (mkw (setn (w_c w) i s) (w_h w)), x. split; [apply (Hx _ _ Es)|]. split; [exact Hi|].
        cbn [w_c]. rewrite setn_same. exact Hn. }
    destruct (assign_target f key_of hash keq pocca (w_c w i) (H i)) as (s1 & E1 & S1 & N1 & C1 & B1 & R1).
    assert (Hth : ev_lim v < s_cap (w_c w j) -> s_cap (buffer_assign pocca s1) < s_cap (w_c w j) ->
      exists s, copy_assign f clone pocca (ev_lim v) (w_c w i) (w_c w j) = Ok (s, false) /\
        (s_cap (buffer_assign pocca s1) = 0 -> wf0 s /\ elems s = [])).
    { intros Hlim Hlt. unfold copy_assign. rewrite E1. cbn [bind]. set (t := buffer_assign pocca s1) in *.
      unfold copy_data. rewrite S1. cbn [Z.eqb guard bind]. destruct (Z.eqb_spec (s_size (w_c w j)) 0); [lia|].
      unfold reallocate. destruct (Z.ltb_spec (s_cap t) (s_cap (w_c w j))); [|lia].
      destruct (Z.ltb_spec (ev_lim v) (s_cap (w_c w j))); [|lia]. cbn [bind negb]. eexists. split; [reflexivity|].
      intros Ht0. rewrite Ht0. cbn [Z.eqb]. split; [|apply elems_empty; reflexivity]. constructor; cbn [s_cap s_size s_nodes s_buf s_meta s_nempty]; auto.
      - rewrite B1. destruct (Bool.bool_dec pocca true) as [Hp|Hp]; [rewrite Hp; left; reflexivity|].
        assert (Hp' : pocca = false) by (destruct pocca; congruence). destruct (R1 Hp') as [Rm _]. rewrite Rm, Hp'.
        assert (Hi0 : s_cap (w_c w i) = 0) by (rewrite <- Ht0, C1, Hp'; reflexivity).
        destruct (H i) as [W|W]; [exact (w0_buf _ W)|]. pose proof (cap_bounds f _ (w_m _ _ _ _ _ W)). lia.
      - assert (Hn : s_nempty t = s_nempty (w_c w i)).
        { destruct (erase_nodes_ok f key_of hash keq _ (H i)) as (s1' & E1' & _ & _ & _ & Ne & _ & _). rewrite E1 in E1'. injection E1' as <-.
          unfold t, buffer_assign. destruct pocca; cbn [s_nempty]; exact Ne. }
        rewrite Hn. destruct (H i) as [W|W]; [exact (w0_nempty _ W)|].
        pose proof (cap_bounds f _ (w_m _ _ _ _ _ W)) as Hcb.
        pose proof (w_nempty _ _ _ _ _ W) as Hne'. pose proof (w_nempty0 _ _ _ _ _ W). pose proof (max_size_bounds f (s_cap (w_c w i)) ltac:(lia)).
        pose proof (cnt_bounds (fun k => s_meta (w_c w i) k =? m_empty) (s_cap (w_c w i)) ltac:(lia)). unfold n_emp in Hne'. lia. }
    destruct (Z_le_dec (s_cap (w_c w j)) (ev_lim v)) as [Hl|Hl].
    + destruct (Bool.bool_dec pocca true) as [Hp|Hp]; [apply Hfull; [left; exact Hp|]|destruct (Z_le_dec (s_cap (w_c w i)) (s_cap (w_c w j))) as [Hle|Hgt]; [apply Hfull; [right; exact Hle|]|]].
      * destruct (copy_assign_ok f key_of hash keq clone Cl KL pocca _ _ _ (H i) (H j) Hl Hne (or_introl Hp)) as (s & Es & _). exists s, (ev_lim v). auto.
      * destruct (copy_assign_ok f key_of hash keq clone Cl KL pocca _ _ _ (H i) (H j) Hl Hne (or_intror Hle)) as (s & Es & _). exists s, (ev_lim v). auto.
      * left. split; [exact Hij|]. left. split; [destruct pocca; congruence|]. left. split; [exact Hne|]. unfold bucket_count. lia.
    + destruct (Bool.bool_dec pocca true) as [Hp|Hp].
      * right. assert (C0 : s_cap (buffer_assign pocca s1) = 0) by (rewrite C1, Hp; reflexivity).
        destruct Hth as (s & Es & Hw); [lia|rewrite C0; lia|]. destruct (Hw C0) as [Ws Ee].
        eexists. eexists. split; [apply (Hx _ _ Es)|]. split; [apply wwf_set; [exact H|left; exact Ws]|].
        apply ps_copy_throw; [exact Hij|rewrite at_same; exact Ee|apply others1|apply hands0].
      * assert (Hp' : pocca = false) by (destruct pocca; congruence).
        destruct (Z.compare_spec (s_cap (w_c w i)) (s_cap (w_c w j))) as [Heq|Hlt|Hgt].
        -- apply Hfull; [right; lia|].
           assert (Hbig : s_cap (w_c w j) <= s_cap (w_c w j)) by lia.
           assert (Hor : pocca = true \/ s_cap (w_c w i) <= s_cap (w_c w j)) by (right; lia).
           destruct (copy_assign_ok f key_of hash keq clone Cl KL pocca _ _ _ (H i) (H j) Hbig Hne Hor) as (s & Es & _).
           exists s, (s_cap (w_c w j)). split; [|auto]. unfold copy_assign. rewrite E1. cbn [bind]. apply copy_data_fits. rewrite C1, Hp'. lia.
        -- assert (C0 : s_cap (buffer_assign pocca s1) = s_cap (w_c w i)) by (rewrite C1, Hp'; reflexivity).
           destruct Hth as (s & Es & Hw); [lia|rewrite C0; lia|]. destruct (Z.eq_dec (s_cap (w_c w i)) 0) as [H0|H0].
           ++ right. destruct Hw as [Ws Ee]; [lia|].
              eexists. eexists. split; [apply (Hx _ _ Es)|]. split; [apply wwf_set; [exact H|left; exact Ws]|].
              apply ps_copy_throw; [exact Hij|rewrite at_same; exact Ee|apply others1|apply hands0].
           ++ left. split; [exact Hij|]. left. split; [exact Hp'|]. right. right. split; [exact H0|]. eexists. apply (Hx _ _ Es).
        -- left. split; [exact Hij|]. left. split; [exact Hp'|]. left. split; [exact Hne|]. unfold bucket_count. lia.
Qed.

Lemma pexec_ok : forall v w c, wwf w -> env_ok v -> pcall_ok c -> pblocked v w c \/ pok v w c.
Proof.
  intros v w c H Hv Hc. destruct c as [c|i j|i j].
  - destruct (wexec_ok f key_of hash keq KL rep Rep v w c H Hv Hc) as [(w' & r & E1 & H1 & Hs)|[Hn|Hm]].
    + right. exists w', r. split; [exact E1|]. split; [exact H1|]. apply ps_do. exact Hs.
    + left. left. exact Hn.
    + left. right. exact Hm.
  - apply copy_new_step. exact H.
  - apply copy_step. exact H.
Qed.

Definition stops (w : world) (h : list (env * pcall E K)) : Prop :=
  exists h1 v c h2 w1 rs, h = h1 ++ (v, c) :: h2 /\ prun w h1 = Ok (w1, rs) /\ wwf w1 /\
    pspec_run (map snd h1) (abs w) (abs w1) rs /\ pblocked v w1 c.

Lemma prun_ok : forall h w, wwf w -> phistory_ok h ->
  (exists w' rs, prun w h = Ok (w', rs) /\ wwf w' /\ pspec_run (map snd h) (abs w) (abs w') rs) \/ stops w h.
Proof.
  induction h as [|[v c] h IH]; intros w Hi Hh.
  - left. exists w, []. split; [reflexivity|]. split; [exact Hi|]. constructor.
  - inversion Hh as [|? ? [Hv Hc] Hh']; subst. cbn [fst snd] in *.
    destruct (pexec_ok v w c Hi Hv Hc) as [Hb|(w1 & r & E1 & Hi1 & Hst)].
    + right. exists [], v, c, h, w, []. split; [reflexivity|]. split; [reflexivity|]. split; [exact Hi|]. split; [constructor|exact Hb].
    + destruct (IH w1 Hi1 Hh') as [(w2 & rs & E2 & Hi2 & Hr)|(h1 & v' & c' & h2 & w2 & rs & -> & E2 & Hi2 & Hr & Hb)].
      * left. exists w2, (r :: rs). split; [cbn [CopyWorld.prun]; rewrite E1; cbn [bind]; rewrite E2; reflexivity|]. split; [exact Hi2|].
        cbn [map snd]. econstructor; eassumption.
      * right. exists ((v, c) :: h1), v', c', h2, w2, (r :: rs). split; [reflexivity|].
        split; [cbn [CopyWorld.prun]; rewrite E1; cbn [bind]; rewrite E2; reflexivity|]. split; [exact Hi2|].
        split; [cbn [map snd]; econstructor; eassumption|exact Hb].
Qed.

Lemma programs_final : forall h, phistory_ok h ->
  (exists w rs, prun winit h = Ok (w, rs) /\ pspec_run (map snd h) wstart (abs w) rs) \/
  (exists h1 v c h2 w rs, h = h1 ++ (v, c) :: h2 /\ prun winit h1 = Ok (w, rs) /\
    pspec_run (map snd h1) wstart (abs w) rs /\ pblocked v w c).
Proof.
  intros h Hh. destruct (prun_ok h winit (winit_wf f key_of hash keq) Hh) as [(w & rs & E1 & _ & Hr)|(h1 & v & c & h2 & w & rs & E0 & E1 & _ & Hr & Hb)].
  - left. exists w, rs. split; [exact E1|exact Hr].
  - right. exists h1, v, c, h2, w, rs. split; [exact E0|]. split; [exact E1|]. split; [exact Hr|exact Hb].
Qed.

Lemma poccurs_wf : forall s, poccurs f key_of hash keq rep clone pocca s -> wf s.
Proof.
  intros s (h & w & rs & i & Hh & E1 & -> & Hno).
  destruct (prun_ok h winit (winit_wf f key_of hash keq) Hh) as [(w' & rs' & E2 & Hi & _)|(h1 & v & c & h2 & w1 & rs1 & E0 & E2 & _ & _ & Hb)].
  - rewrite E1 in E2. injection E2 as <- <-. apply Hi.
  - exfalso. exact (Hno _ _ _ _ _ _ E0 E2 Hb).
Qed.

Lemma poccurs_behaves : forall s, poccurs f key_of hash keq rep clone pocca s -> behaves f key_of hash keq rep s (elems s).
Proof. intros s H. apply (wf_behaves f key_of hash keq KL rep Rep). apply poccurs_wf. exact H. Qed.

(** Containers with fewer buckets than the group width can be copied, also after copies. *)
Lemma poccurs_copy : forall lim o, poccurs f key_of hash keq rep clone pocca o -> bucket_count o <= lim ->
  exists c, copy_ctor f clone lim o = Ok (c, true) /\ elems c = map clone (elems o) /\
    ((forall x, In x (elems o) -> contains c (key_of x) = Ok true) <-> clean f o) /\
    (clean f o -> behaves f key_of hash keq rep c (map clone (elems o))) /\
    (bucket_count o < width f -> clean f o).
Proof.
  intros lim o Ho Hlim. apply poccurs_wf in Ho.
  destruct (copy_ctor_ok f key_of hash keq clone Cl KL lim o Ho Hlim) as (c & E1 & Ee & _ & Hcl & Hx).
  exists c. split; [exact E1|]. split; [exact Ee|]. split; [split; [exact Hx|]|split].
  - intros H. apply (copied_found f key_of hash keq KL clone c o Cl); [apply (Hcl H)|exact Ee].
  - intros H. rewrite <- Ee. apply (wf_behaves f key_of hash keq KL rep Rep). apply (Hcl H).
  - intros Hb. unfold bucket_count in Hb. rewrite width_W in Hb. destruct Ho as [Ho|Ho].
    + intros i e h Ei j Hj. rewrite (w0_cap o Ho) in Hj. lia.
    + apply (clean_small f); [apply (w_m _ _ _ _ o Ho)|lia].
Qed.
End Proofs.
