(** Programs over containers with different functors refine the list specification. *)
From Coq Require Import ZArith List Bool Lia Permutation Arith.
From Verif Require Import Base BaseLemmas Bits BitsProofs SwissModel SwissArith SwissCap SwissInv SwissOps SwissClean
  SwissIter SwissRoom MapSpec WorldSpec SwissRun SwissRefine SwissFinal SwissMore World WorldProofs FunctorSpec FunctorModel.
Import ListNotations.
Open Scope Z_scope.

(** ** Merging a table whose keys are hashed and compared differently. *)
Section Merge.
Context {E K : Type}.
Variable f : simd.
Variable key_of : E -> K.
Variable hash hash2 : K -> Z.
Variable keq keq2 : K -> K -> bool.
Hypothesis KL : key_laws hash keq.
Hypothesis KL2 : key_laws hash2 keq2.

Local Notation swiss := (@swiss E).
Local Notation wf := (wf f key_of hash keq).
Local Notation wf1 := (wf1 f key_of hash keq).
Local Notation inv := (inv f key_of hash keq).
Local Notation wf2 := (SwissInv.wf f key_of hash2 keq2).
Local Notation wf21 := (SwissInv.wf1 f key_of hash2 keq2).
Local Notation present := (present key_of keq).
Local Notation firsts := (firsts key_of keq).
Local Notation stay := (stay key_of keq).

Lemma firsts_perm : forall l a b, Permutation a b -> firsts a l = firsts b l /\ stay a l = stay b l.
Proof.
  induction l as [|e l IH]; intros a b P; [auto|]. cbn [WorldSpec.firsts FunctorSpec.stay].
  rewrite (present_perm key_of keq a b e P). destruct (present b e).
  - destruct (IH a b P) as [-> ->]. auto.
  - destruct (IH (e :: a) (e :: b)) as [-> ->]; [constructor; exact P|]. auto.
Qed.

Lemma merge_loop2 : forall lim, lim < 2 ^ 59 -> forall fuel (s o : swiss) p, wf s -> wf21 o ->
  0 <= p <= s_cap o -> (p < s_cap o -> exists n, s_nodes o p = Some n) -> s_cap o - p < Z.of_nat fuel ->
  scans f (merge_loop f key_of hash keq fuel lim s o p (s_cap o)) (fun r => let '(s', o', b) := r in
    wf s' /\ wf21 o' /\ b = true /\
    Permutation (elems s') (firsts (elems s) (map fst (rest (s_nodes o) p (s_cap o))) ++ elems s) /\
      elems o' = map fst (collect (s_nodes o) p) ++ stay (elems s) (map fst (rest (s_nodes o) p (s_cap o)))) \/
  (~ fits s (map fst (rest (s_nodes o) p (s_cap o))) /\ merge_loop f key_of hash keq fuel lim s o p (s_cap o) = Err Terminated).
Proof.
  intros lim Hlim. induction fuel as [|fuel IH]; intros s o p Hs H Hp Hn Hf; [lia|].
  cbn [merge_loop]. destruct (Z.eqb_spec p (s_cap o)) as [->|Hne].
  - left. apply scans_Ok. rewrite rest_end by lia. cbn [map]. split; [exact Hs|]. split; [exact H|].
    split; [auto|]. cbn [WorldSpec.firsts FunctorSpec.stay app]. rewrite app_nil_r. auto.
  - destruct (Hn ltac:(lia)) as [n En]. pose proof (w_m _ _ _ _ o H) as M. pose proof (w_n _ _ _ _ o H) as N.
    rewrite (get_node_ok o p n) by ((apply (mw_buf f o M)) || lia || exact En). cbn [bind].
    assert (Er : rest (s_nodes o) p (s_cap o) = n :: rest (s_nodes o) (p + 1) (s_cap o)).
    { rewrite rest_cons by lia. rewrite En. reflexivity. }
    rewrite Er in *. cbn [map] in *.
    destruct (find_located f key_of hash keq KL s (key_of (fst n)) Hs) as (r & -> & Hr). cbn [bind].
    cbn [WorldSpec.firsts FunctorSpec.stay].
    destruct Hr as [(x & h & W1 & Hr & _ & _ & _ & Hl)|(-> & Habs)].
    + destruct (Z.eqb_spec r (s_cap s)); [lia|].
      assert (Hyes : present (elems s) (fst n) = true).
      { unfold present. apply existsb_exists. exists x. split; [|apply Hl].
        rewrite (proj1 Hl). apply in_or_app. right. left. reflexivity. }
      rewrite Hyes.
      unfold iter_next. destruct (next_occupied_ok f o M (iter_fuel o) (p + 1)) as [(q & -> & Hst)|(Hna & ->)]; [lia|unfold iter_fuel; lia| |left; right; auto].
      cbn [bind]. pose proof Hst as (Hq1 & _ & _).
      pose proof (stops_none key_of hash2 o (p + 1) q N ltac:(lia) Hst) as Hnone.
      pose proof (proj1 (stops_rest key_of hash2 o (p + 1) q N ltac:(lia) Hst)) as Hrq.
      destruct (IH s o q Hs H) as [Hok|(Hroom & ->)].
      * lia.
      * intros Hlt. apply (stops_rest key_of hash2 o (p + 1) q N ltac:(lia) Hst). exact Hlt.
      * lia.
      * left. eapply scans_imp; [exact Hok|].
        intros [[s2 o2] b] (W2 & Wo & Hb & P2 & E2). split; [exact W2|]. split; [exact Wo|]. split; [exact Hb|].
        rewrite <- Hrq in P2, E2. split; [exact P2|].
        assert (Hcq : collect (s_nodes o) q = collect (s_nodes o) p ++ [n]).
        { rewrite (collect_split _ (s_nodes o) p q) by lia. f_equal. rewrite rest_cons, En by lia.
          rewrite (rest_none _ (s_nodes o) (p + 1) q) by (lia || exact Hnone). reflexivity. }
        rewrite E2, Hcq, map_app, <- app_assoc. reflexivity.
      * right. split; [|reflexivity]. intros [Hroom1|[Hc Hroom1]]; [discriminate|]. apply Hroom. rewrite <- Hrq. right. split; [exact Hc|]. cbn [length] in Hroom1. lia.
    + rewrite Z.eqb_refl.
      assert (Hno : present (elems s) (fst n) = false) by (apply present_false; exact Habs).
      rewrite Hno.
      destruct (do_extract_ok f key_of hash2 keq2 KL2 o p n H En) as [([o1 e] & -> & (-> & Wo & Co & No))|(Hna & ->)]; [|left; right; auto]. cbn [bind].
      destruct (emplace_ok f key_of hash keq KL lim true s (fst n) Hs Hlim Habs) as (s1 & oo & -> & Ho & Hfail & Hsp). cbn [bind].
      assert (Hrest1 : rest (s_nodes o1) (p + 1) (s_cap o1) = rest (s_nodes o) (p + 1) (s_cap o)).
      { rewrite Co, No. apply rest_ext. intros i Hi. apply upd_other. lia. }
      assert (Hcol1 : forall q, p <= q -> (forall j, p + 1 <= j < q -> s_nodes o1 j = None) -> collect (s_nodes o1) q = collect (s_nodes o) p).
      { intros q Hq Hnone. rewrite (collect_split _ (s_nodes o1) p q) by lia. rewrite (rest_none _ (s_nodes o1) p q); [|lia|].
        2:{ intros j Hj. destruct (Z.eq_dec j p) as [->|]; [rewrite No; apply upd_same|]. apply Hnone. lia. }
        rewrite app_nil_r. apply collect_ext. intros i Hi. rewrite No. apply upd_other. lia. }
      destruct oo as [[pp tr]|].
      2:{ right. split; [|reflexivity].
          intros [Hroom|[Hc Hroom]]; [discriminate|]. cbn [length] in Hroom. exfalso. destruct (Hsp Hc ltac:(lia) eq_refl) as (Hoo & _). congruence. }
      destruct Ho as (W1 & P1 & _).
      pose proof (w_m _ _ _ _ o1 Wo) as Mo. pose proof (w_n _ _ _ _ o1 Wo) as Nc.
      unfold iter_next. destruct (next_occupied_ok f o1 Mo (iter_fuel o1) (p + 1)) as [(q & -> & Hst)|(Hna & ->)]; [lia|unfold iter_fuel; lia| |left; right; auto].
      cbn [bind]. pose proof Hst as (Hq1 & _ & _).
      pose proof (stops_none key_of hash2 o1 (p + 1) q Nc ltac:(lia) Hst) as Hnone.
      assert (Hrq : rest (s_nodes o1) q (s_cap o1) = rest (s_nodes o) (p + 1) (s_cap o)).
      { rewrite <- (proj1 (stops_rest key_of hash2 o1 (p + 1) q Nc ltac:(lia) Hst)). exact Hrest1. }
      rewrite <- Co. destruct (IH s1 o1 q (or_intror W1) Wo) as [Hok|(Hroom & ->)].
      * lia.
      * intros Hlt. apply (stops_rest key_of hash2 o1 (p + 1) q Nc ltac:(lia) Hst). exact Hlt.
      * lia.
      * left. eapply scans_imp; [exact Hok|].
        intros [[s2 o2] b] (W2 & Wo2 & Hb & P2 & E2). split; [exact W2|]. split; [exact Wo2|]. split; [exact Hb|].
        rewrite Hrq in P2, E2. rewrite Co.
        destruct (firsts_perm (map fst (rest (s_nodes o) (p + 1) (s_cap o))) _ _ P1) as [Ef Es]. rewrite Ef in P2. rewrite Es in E2. split.
        -- rewrite P2, P1. cbn [app]. symmetry. apply Permutation_middle.
        -- rewrite E2, (Hcol1 q) by (lia || exact Hnone). reflexivity.
      * right. split; [|reflexivity]. intros [Hroom1|[Hc Hroom1]]; [discriminate|]. apply Hroom. rewrite Hrq.
        cbn [length] in Hroom1. destruct (Hsp Hc ltac:(lia) eq_refl) as (_ & Hc1 & Hne1 & _).
        rewrite Co in Hroom1. right. split; [congruence|]. lia.
Qed.

Lemma f_merge_ok : forall lim (s o : swiss), wf s -> wf2 o -> lim < 2 ^ 59 ->
  scans f (merge f key_of hash keq lim s o) (fun r => let '(s', o', b) := r in
    wf s' /\ wf2 o' /\
    if b then Permutation (elems s') (firsts (elems s) (elems o) ++ elems s) /\ elems o' = stay (elems s) (elems o)
    else s' = s /\ o' = o) \/
  (s_cap s = 0 /\ elems o <> [] /\ merge f key_of hash keq lim s o = Err Terminated).
Proof.
  intros lim s o Hs Ho Hlim. unfold merge.
  pose proof (wf_size f key_of hash keq s Hs) as [Ls Bs]. pose proof (wf_size f key_of hash2 keq2 o Ho) as [Lo Bo].
  pose proof (wf_cap_nonneg f key_of hash keq s Hs) as Cs. pose proof (wf_cap_nonneg f key_of hash2 keq2 o Ho) as Co.
  pose proof (max_size_bounds f (s_cap s) ltac:(lia)) as Ms. pose proof (max_size_bounds f (s_cap o) ltac:(lia)) as Mo.
  assert (Ea : add64 (s_size s) (s_size o) = s_size s + s_size o) by (unfold add64; rewrite Z.mod_small; [reflexivity|unfold two64; lia]).
  rewrite Ea. destruct (reserve_ok f key_of hash keq KL lim s (s_size s + s_size o) Hs Hlim) as (s1 & tr & -> & Hr & Hroom); [unfold two64; lia|].
  cbn [bind]. destruct tr as [tr|]; cbn [resized] in Hr.
  2:{ subst s1. left. apply scans_Ok. auto. }
  destruct Hr as (W1 & P1 & S1 & _ & Hk).
  destruct (Hroom ltac:(discriminate)) as [Hroom1 _].
  destruct (firsts_perm (elems o) _ _ P1) as [Ef Es].
  destruct Ho as [Ho|Ho].
  - left. rewrite (begin_iter_empty f key_of hash2 keq2 o Ho), (end_iter_ok f key_of hash2 keq2 o (or_introl Ho)), (w0_cap o Ho). cbn [bind].
    unfold iter_fuel. cbn [merge_loop]. rewrite Z.eqb_refl. apply scans_Ok.
    rewrite (elems_empty o (w0_cap o Ho)). cbn [WorldSpec.firsts FunctorSpec.stay app]. split; [exact W1|]. split; [left; exact Ho|]. auto.
  - pose proof (w_m _ _ _ _ o Ho) as M. pose proof (w_n _ _ _ _ o Ho) as N. pose proof (cap_bounds f o M) as Hcb.
    unfold begin_iter. destruct (to_iter_ok f o 0 M ltac:(lia)) as [(p & -> & Hst)|(Hna & ->)]; [|left; right; auto]. cbn [bind].
    pose proof Hst as (Hp & _ & _). rewrite (end_iter_mwf f o M). cbn [bind].
    destruct (stops_rest key_of hash2 o 0 p N ltac:(lia) Hst) as [Hrest Hn].
    assert (Eo : elems o = map fst (rest (s_nodes o) p (s_cap o))) by (rewrite elems_rest, Hrest by lia; reflexivity).
    assert (Ec : collect (s_nodes o) p = []).
    { rewrite (collect_split _ (s_nodes o) 0 p) by lia.
      rewrite (rest_none _ (s_nodes o) 0 p) by (lia || exact (stops_none key_of hash2 o 0 p N ltac:(lia) Hst)).
      rewrite collect_0 by lia. reflexivity. }
    destruct (merge_loop2 lim Hlim (iter_fuel o) s1 o p W1 Ho ltac:(lia) Hn ltac:(unfold iter_fuel; lia)) as [Hok|(Hfit & ->)].
    + left. eapply scans_imp; [exact Hok|]. intros [[s2 o2] b] (W2 & Wo2 & -> & P2 & E2). rewrite <- Eo, Ec in *. cbn [map app] in E2.
      split; [exact W2|]. split; [right; exact Wo2|]. rewrite Ef in P2. rewrite Es in E2. split; [|exact E2]. rewrite P2, P1. reflexivity.
    + right. rewrite <- Eo in Hfit. destruct (elems o) as [|e1 el] eqn:Eel; [exfalso; apply Hfit; left; reflexivity|].
      split; [|split; [discriminate|reflexivity]].
      destruct (Z.eq_dec (s_cap s1) 0) as [C0|C1].
      * destruct Hk as [Hk| ->]; [lia|exact C0].
      * exfalso. apply Hfit. right. cbn [length] in Lo |- *. split; [exact C1|lia].
Qed.
End Merge.

Section Proofs.
Context {E K G : Type}.
Variable f : simd.
Variable key_of : E -> K.
Variable hash : G -> K -> Z.
Variable keq : G -> K -> K -> bool.
Hypothesis KL : forall g, key_laws (hash g) (keq g).
Variable rep : E -> E -> E.
Hypothesis Rep : forall g a b, keq g (key_of a) (key_of b) = true -> key_of (rep a b) = key_of a.
Variable moved : G -> G.

Local Notation swiss := (@swiss E).
Local Notation wfg g := (wf f key_of (hash g) (keq g)).
Local Notation fworld := (@fworld E G).
Local Notation fexec := (fexec f key_of hash keq rep moved).
Local Notation frun := (frun f key_of hash keq rep moved).
Local Notation fspec := (fspec key_of keq rep moved).

Definition fabs (w : fworld) : fstate := mkfs (mkws (fun i => elems (fw_c w i)) (fw_h w)) (fw_g w).
Definition fwf (w : fworld) : Prop := forall i, wfg (fw_g w i) (fw_c w i).

Local Notation cworld w := (mkw (fw_c w) (fw_h w)).
Lemma fabs_con : forall w, fcon (fabs w) = abs (cworld w).
Proof. reflexivity. Qed.

Lemma fwf_set : forall w hs i s, fwf w -> wfg (fw_g w i) s -> fwf (mkfw (setn (fw_c w) i s) hs (fw_g w)).
Proof. intros w hs i s H Hs j. cbn [fw_c fw_g]. unfold setn. destruct (Nat.eqb_spec j i) as [->|]; [exact Hs|apply H]. Qed.
Lemma fwf_set2 : forall w hs i s j o gs, fwf w -> i <> j -> wfg (gs i) s -> wfg (gs j) o -> (forall x, x <> i -> x <> j -> gs x = fw_g w x) ->
  fwf (mkfw (setn (setn (fw_c w) i s) j o) hs gs).
Proof.
  intros w hs i s j o gs H Hij Hs Ho Hg x. cbn [fw_c fw_g]. unfold setn. destruct (Nat.eqb_spec x j) as [->|]; [exact Ho|].
  destruct (Nat.eqb_spec x i) as [->|]; [exact Hs|]. rewrite Hg by assumption. apply H.
Qed.


Lemma move_ok : forall g lim (s o : swiss), wfg g s ->
  exists o', move_assign f true true lim s o = Ok (o, o', true) /\ wf0 o' /\ elems o' = [].
Proof.
  intros g lim s o Hs. unfold move_assign, move_from, buffer_assign.
  destruct (erase_nodes_ok f key_of (hash g) (keq g) s Hs) as (s' & -> & B & C & M & Ne & S & N). cbn [bind].
  eexists. split; [reflexivity|]. split; [|reflexivity].
  constructor; cbn [s_cap s_size s_nodes s_buf s_meta s_nempty]; auto.
  rewrite Ne. destruct Hs as [Hs|Hs]; [apply (w0_nempty s Hs)|].
  pose proof (wf1_nempty f key_of (hash g) (keq g) s Hs). pose proof (cap_bounds f s (w_m _ _ _ _ s Hs)).
  pose proof (wf_size f key_of (hash g) (keq g) s (or_intror Hs)). pose proof (max_size_bounds f (s_cap s) ltac:(lia)). lia.
Qed.

Lemma fothers2 : forall w hs i s j o gs, others [i; j] (fcon (fabs w)) (fcon (fabs (mkfw (setn (setn (fw_c w) i s) j o) hs gs))).
Proof. intros w hs i s j o gs. exact (others2 (cworld w) hs i s j o). Qed.
Lemma unset : forall (w : fworld) i j, forall x, elems (setn (setn (fw_c w) i (fw_c w i)) j (fw_c w j) x) = elems (fw_c w x).
Proof. intros w i j x. unfold setn. destruct (Nat.eqb_spec x j) as [->|]; [reflexivity|]. destruct (Nat.eqb_spec x i) as [->|]; reflexivity. Qed.

Lemma merge_stmt_ok : forall v w i j c, fwf w -> env_ok v -> i <> j -> c = FMerge i j \/ c = FMergeR i j ->
  (exists w' r, f_merge_stmt f key_of hash keq v w i j = Ok (w', r) /\ fwf w' /\ fspec c (fabs w) (fabs w') r) \/
  (narrow f /\ f_merge_stmt f key_of hash keq v w i j = Err BitScanZero) \/
  (elems (fw_c w i) = [] /\ elems (fw_c w j) <> [] /\ f_merge_stmt f key_of hash keq v w i j = Err Terminated).
Proof.
  intros v w i j c H Hv Hij Hc. unfold f_merge_stmt.
  unfold f_merge.
  destruct (f_merge_ok f key_of (hash (fw_g w i)) (hash (fw_g w j)) (keq (fw_g w i)) (keq (fw_g w j)) (KL _) (KL _) (ev_lim v) (fw_c w i) (fw_c w j) (H i) (H j) Hv)
    as [[([[s' o'] b] & -> & (W' & Wo & Hm))|(Hn & ->)]|(C0 & Hne & ->)]; [left|right; left; auto|right; right].
  2:{ split; [apply elems_empty; exact C0|]. auto. }
  cbn [bind]. eexists. eexists. split; [reflexivity|]. split; [apply fwf_set2; auto|]. destruct b.
  - destruct Hm as [P E1]. eapply fs_merge; [exact Hc| | |apply fothers2|intros x _; reflexivity|intros x; reflexivity].
    + cbn [fabs fcon conts fw_c ffun fw_g]. rewrite (setn_other _ _ j) by exact Hij. rewrite setn_same. exact P.
    + cbn [fabs fcon conts fw_c ffun fw_g]. rewrite setn_same. exact E1.
  - destruct Hm as [-> ->]. eapply fs_merge_throw; [exact Hc| |intros x _; reflexivity|intros x; reflexivity].
    intros x _. cbn [fabs fcon conts fw_c]. apply unset.
Qed.

Lemma fexec_ok : forall v w c, fwf w -> env_ok v -> fcall_ok c ->
  (exists w' r, fexec v w c = Ok (w', r) /\ fwf w' /\ fspec c (fabs w) (fabs w') r) \/
  (narrow f /\ fscanning c /\ fexec v w c = Err BitScanZero) \/
  (exists i j, c = FMerge i j /\ elems (fw_c w i) = [] /\ elems (fw_c w j) <> [] /\ fexec v w c = Err Terminated) \/
  (exists i j, c = FMergeR i j /\ elems (fw_c w i) = []).
Proof.
  intros v w c H Hv Hc. destruct c as [i c|i pred|i k j|i j|i j|i j|i j|i j|i g ra l n]; cbn [FunctorModel.fexec fcall_ok fscanning] in *.
  - destruct (exec_ok f key_of _ _ (KL (fw_g w i)) rep (Rep _) v (fw_c w i) c (H i) Hv Hc) as [(s' & r & -> & [Hk _] & Hst)|(Hn & Hsc & ->)]; [left|right; left; auto].
    cbn [bind]. eexists. eexists. split; [reflexivity|]. split; [apply fwf_set; assumption|].
    constructor; [|intros x; reflexivity].
    constructor; [|exact (others1 (cworld w) (fw_h w) i s')|intros x _; reflexivity]. cbn [fabs fcon conts fw_c]. rewrite setn_same. exact Hst.
  - destruct (erase_if_ok f key_of _ _ (KL (fw_g w i)) pred (fw_c w i) (H i)) as [([s' m] & -> & (W' & _ & He & ->))|(Hn & ->)]; [left|right; left; auto].
    cbn [bind]. eexists. eexists. split; [reflexivity|]. split; [apply fwf_set; assumption|].
    constructor; [|intros x; reflexivity].
    apply ws_erase_if; [|exact (others1 (cworld w) (fw_h w) i s')|intros x _; reflexivity]. cbn [fabs fcon conts fw_c]. rewrite setn_same. exact He.
  - destruct (extract_key_ok f key_of _ _ (KL (fw_g w i)) (fw_c w i) k (H i)) as [([s' o] & -> & (W' & _ & Ho))|(Hn & ->)]; [left|right; left; auto].
    cbn [bind]. eexists. eexists. split; [reflexivity|]. split; [apply fwf_set; assumption|].
    constructor; [|intros x; reflexivity].
    destruct o as [e|].
    + destruct Ho as (a & b & Hl & He). eapply ws_extract; [exact Hl| |cbn [fabs fcon hands fw_h]; apply setn_same|exact (others1 (cworld w) (fw_h w) i s')|exact (hands1 (cworld w) (fw_c w) j (Some e))].
      cbn [fabs fcon conts fw_c]. rewrite setn_same. exact He.
    + destruct Ho as [-> Ha]. apply ws_extract_absent; [exact Ha|cbn [fabs fcon hands fw_h]; apply setn_same|exact (others0 (cworld w) (fw_h w) i (fw_c w i) eq_refl)|exact (hands1 (cworld w) (fw_c w) j None)].
  - left. destruct (fw_h w j) as [e|] eqn:Eh.
    2:{ eexists. eexists. split; [reflexivity|]. split; [exact H|]. constructor; [|intros x; reflexivity]. apply ws_node_empty; [exact Eh|intros x _; reflexivity|intros x _; reflexivity]. }
    destruct (insert_handle_ok f key_of _ _ (KL (fw_g w i)) (ev_lim v) (fw_c w i) e (H i) Hv) as (s' & o & -> & W' & _ & Ho). cbn [bind].
    destruct o as [[[[p b] hd] tr]|].
    + destruct b.
      * destruct Ho as (-> & Ha & P & Hh). destruct (holds_get f key_of _ _ s' p e W' Hh) as (h & ->). cbn [bind fst].
        eexists. eexists. split; [reflexivity|]. split; [apply fwf_set; assumption|]. constructor; [|intros x; reflexivity].
        eapply ws_node_new; [exact Eh|exact Ha| |cbn [fabs fcon hands fw_h]; apply setn_same|exact (others1 (cworld w) (fw_h w) i s')|exact (hands1 (cworld w) (fw_c w) j None)].
        cbn [fabs fcon conts fw_c]. rewrite setn_same. exact P.
      * destruct Ho as (-> & -> & x & Hh & Hk). destruct (holds_get f key_of _ _ (fw_c w i) p x (H i) Hh) as (h & ->). cbn [bind fst].
        eexists. eexists. split; [reflexivity|]. split; [apply fwf_set; [exact H|apply H]|]. constructor; [|intros y; reflexivity].
        eapply ws_node_old; [exact Eh| |exact Hk|exact (others0 (cworld w) (fw_h w) i (fw_c w i) eq_refl)|].
        { cbn [fabs fcon conts]. apply elems_In. exists p. exact Hh. }
        intros x0 _. cbn [fabs fcon hands fw_h]. unfold setn. destruct (Nat.eqb_spec x0 j) as [->|]; [symmetry; exact Eh|reflexivity].
    + destruct Ho as [-> Ha]. eexists. eexists. split; [reflexivity|]. split; [apply fwf_set; [exact H|apply H]|]. constructor; [|intros y; reflexivity].
      eapply ws_node_throw; [exact Eh|exact Ha|exact (others0 (cworld w) (fw_h w) i (fw_c w i) eq_refl)|intros x _; reflexivity].
  - destruct (merge_stmt_ok v w i j (FMerge i j) H Hv Hc (or_introl eq_refl)) as [Hok|[(Hn & He)|(C0 & Hne & He)]]; [left; exact Hok|right; left; auto|].
    right. right. left. exists i, j. auto.
  - pose proof (wf_size f key_of _ _ (fw_c w i) (H i)) as [Ls Bs]. destruct (Z.eqb_spec (s_size (fw_c w i)) 0) as [Hz|Hz].
    + right. right. right. exists i, j. split; [reflexivity|]. destruct (elems (fw_c w i)); [reflexivity|cbn [length] in Ls; lia].
    + destruct (merge_stmt_ok v w i j (FMergeR i j) H Hv Hc (or_intror eq_refl)) as [Hok|[(Hn & He)|(C0 & Hne & He)]]; [left; exact Hok|right; left; auto|].
      rewrite C0 in Ls. cbn in Ls. lia.
  - left. cbn [swap guard bind]. eexists. eexists. split; [reflexivity|]. split.
    { intros x. cbn [fw_c fw_g]. unfold setn. destruct (Nat.eqb_spec x i); [apply H|]. destruct (Nat.eqb_spec x j); apply H. }
    apply fs_swap; try (intros x _; reflexivity).
    + cbn [fabs fcon conts fw_c]. rewrite setn_same. reflexivity.
    + cbn [fabs fcon conts fw_c]. unfold setn. destruct (Nat.eqb_spec j i) as [->|]; [reflexivity|]. rewrite Nat.eqb_refl. reflexivity.
    + intros x Hx. apply (fothers2 w (fw_h w) j (fw_c w i) i (fw_c w j) (fw_g w)). intros [<-|[<-|[]]]; apply Hx; [right; left|left]; reflexivity.
    + cbn [fabs ffun fw_g]. apply setn_same.
    + cbn [fabs ffun fw_g]. unfold setn. destruct (Nat.eqb_spec j i) as [->|]; [reflexivity|]. rewrite Nat.eqb_refl. reflexivity.
    + intros x Hi Hj. cbn [fabs ffun fw_g]. rewrite !setn_other by assumption. reflexivity.
  - left. unfold f_move. destruct (Nat.eqb_spec i j) as [->|Hij].
    + eexists. eexists. split; [reflexivity|]. split; [exact H|]. apply fs_move_self; [intros x _; reflexivity|intros x _; reflexivity|intros x; reflexivity].
    + destruct (move_ok (fw_g w i) (ev_lim v) (fw_c w i) (fw_c w j) (H i)) as (o' & -> & Wo & Eo). cbn [bind].
      eexists. eexists. split; [reflexivity|]. split.
      { apply fwf_set2; [exact H|exact Hij| | |].
        - rewrite setn_other, setn_same by exact Hij. apply H.
        - rewrite setn_same. left. exact Wo.
        - intros x Hi Hj. rewrite !setn_other by assumption. reflexivity. }
      apply fs_move; try exact Hij; try (intros x _; reflexivity); try apply fothers2.
      * cbn [fabs fcon conts fw_c]. rewrite setn_other by exact Hij. rewrite setn_same. reflexivity.
      * cbn [fabs fcon conts fw_c]. rewrite setn_same. exact Eo.
      * cbn [fabs ffun fw_g]. rewrite setn_other by exact Hij. apply setn_same.
      * cbn [fabs ffun fw_g]. apply setn_same.
      * intros x Hi Hj. cbn [fabs ffun fw_g]. rewrite !setn_other by assumption. reflexivity.
  - left. destruct Hc as [Hlen Hk]. destruct (ctor_range_ok f key_of _ _ (KL g) ra l n (ev_lim v) Hv Hlen Hk) as (o & -> & Ho). cbn [bind].
    assert (Hth : fspec (FRange i g ra l n) (fabs w) (fabs w) WThrow) by (apply fs_range_throw; [intros x _; reflexivity|intros x _; reflexivity|intros x; reflexivity]).
    destruct o as [[t b]|].
    2:{ eexists. eexists. split; [reflexivity|]. split; [exact H|exact Hth]. }
    destruct b.
    2:{ eexists. eexists. split; [reflexivity|]. split; [exact H|exact Hth]. }
    destruct Ho as (Hi & l1 & l2 & Hl & P & Hb). rewrite (Hb eq_refl), app_nil_r in Hl. subst l1.
    destruct (move_ok (fw_g w i) (ev_lim v) (fw_c w i) t (H i)) as (o' & -> & Wo & Eo). cbn [bind].
    eexists. eexists. split; [reflexivity|]. split.
    { intros x. cbn [fw_c fw_g]. unfold setn. destruct (Nat.eqb_spec x i); [apply Hi|apply H]. }
    apply fs_range.
    + cbn [fabs fcon conts fw_c]. rewrite setn_same. exact P.
    + exact (others1 (cworld w) (fw_h w) i t).
    + intros x _; reflexivity.
    + cbn [fabs ffun fw_g]. apply setn_same.
    + intros x Hx. cbn [fabs ffun fw_g]. apply setn_other. exact Hx.
Qed.

Lemma frun_ok : forall h w, fwf w -> fhistory_ok h ->
  (exists w' rs, frun w h = Ok (w', rs) /\ fwf w' /\ fspec_run key_of keq rep moved (map snd h) (fabs w) (fabs w') rs) \/
  (narrow f /\ (exists v c, In (v, c) h /\ fscanning c) /\ frun w h = Err BitScanZero) \/
  (exists h1 v i j h2 w1 rs, h = h1 ++ (v, FMerge i j) :: h2 /\ fspec_run key_of keq rep moved (map snd h1) (fabs w) (fabs w1) rs /\
    frun w h1 = Ok (w1, rs) /\ conts (fcon (fabs w1)) i = [] /\ conts (fcon (fabs w1)) j <> [] /\ frun w h = Err Terminated) \/
  (exists h1 v i j h2 w1 rs, h = h1 ++ (v, FMergeR i j) :: h2 /\ fspec_run key_of keq rep moved (map snd h1) (fabs w) (fabs w1) rs /\
    frun w h1 = Ok (w1, rs) /\ conts (fcon (fabs w1)) i = []).
Proof.
  induction h as [|[v c] h IH]; intros w Hi Hh.
  - left. exists w, []. split; [reflexivity|]. split; [exact Hi|]. constructor.
  - inversion Hh as [|? ? [Hv Hc] Hh']; subst. cbn [FunctorModel.frun fst snd] in *.
    destruct (fexec_ok v w c Hi Hv Hc) as [(w1 & r & E1 & Hi1 & Hst)|[(Hn & Hsc & E1)|[(i & j & -> & C0 & Hne & E1)|(i & j & -> & C0)]]].
    + rewrite E1. cbn [bind]. destruct (IH w1 Hi1 Hh') as [(w2 & rs & -> & Hi2 & Hr)|[(Hn & (v' & c' & Hin & Hsc) & ->)|[H3|H4]]].
      * left. cbn [bind]. eexists. eexists. split; [reflexivity|]. split; [exact Hi2|]. cbn [map snd]. econstructor; eassumption.
      * right. left. split; [exact Hn|]. split; [|reflexivity]. exists v', c'. split; [right; exact Hin|exact Hsc].
      * right. right. left. destruct H3 as (h1 & v' & i & j & h2 & w2 & rs & -> & Hr & E2 & Ci & Cj & E3).
        exists ((v, c) :: h1), v', i, j, h2, w2, (r :: rs). split; [reflexivity|]. split; [cbn [map snd]; econstructor; eassumption|].
        split; [cbn [FunctorModel.frun]; rewrite E1; cbn [bind]; rewrite E2; reflexivity|]. split; [exact Ci|]. split; [exact Cj|].
        rewrite E3. reflexivity.
      * right. right. right. destruct H4 as (h1 & v' & i & j & h2 & w2 & rs & -> & Hr & E2 & Ci).
        exists ((v, c) :: h1), v', i, j, h2, w2, (r :: rs). split; [reflexivity|]. split; [cbn [map snd]; econstructor; eassumption|].
        split; [cbn [FunctorModel.frun]; rewrite E1; cbn [bind]; rewrite E2; reflexivity|exact Ci].
    + right. left. split; [exact Hn|]. rewrite E1. split; [|reflexivity]. exists v, c. split; [left; reflexivity|exact Hsc].
    + right. right. left. exists [], v, i, j, h, w, []. rewrite E1. split; [reflexivity|]. split; [constructor|]. auto.
    + right. right. right. exists [], v, i, j, h, w, []. split; [reflexivity|]. split; [constructor|]. auto.
Qed.

Lemma finit_wf : forall g, fwf (finit g).
Proof. intros g i. exact (proj1 (empty_inv f key_of (hash (g i)) (keq (g i)))). Qed.
Lemma run_wf : forall g h w rs, fhistory_ok h -> frun (finit g) h = Ok (w, rs) -> (forall v i j, ~ In (v, FMergeR i j) h) -> fwf w.
Proof.
  intros g h w rs Hh E1 Hno. destruct (frun_ok h (finit g) (finit_wf g) Hh) as [(w' & rs' & E2 & Hi & _)|[(_ & _ & E2)|[(h1 & v & i & j & h2 & w1 & rs1 & _ & _ & _ & _ & _ & E2)|(h1 & v & i & j & h2 & w1 & rs1 & -> & _)]]]; [|congruence|congruence|].
  { rewrite E1 in E2. injection E2 as <- <-. exact Hi. }
  exfalso. apply (Hno v i j). apply in_or_app. right. left. reflexivity.
Qed.

(** merge(container &&) into an empty container. *)
Lemma mergeR_empty : forall v w i j, fwf w -> i <> j -> elems (fw_c w i) = [] ->
  exists w', fexec v w (FMergeR i j) = Ok (w', WDone) /\ fexec v w (FMove i j) = Ok (w', WDone) /\
    fw_g w' i = fw_g w j /\ elems (fw_c w' i) = elems (fw_c w j) /\ elems (fw_c w' j) = [] /\ fw_g w' j = moved (fw_g w j).
Proof.
  intros v w i j H Hij C0. pose proof (wf_size f key_of _ _ (fw_c w i) (H i)) as [Ls _]. rewrite C0 in Ls. cbn in Ls.
  cbn [FunctorModel.fexec]. rewrite Ls. cbn [Z.eqb]. unfold f_move. destruct (Nat.eqb_spec i j) as [->|_]; [contradiction|].
  destruct (move_ok (fw_g w i) (ev_lim v) (fw_c w i) (fw_c w j) (H i)) as (o' & -> & Wo & Eo). cbn [bind].
  eexists. split; [reflexivity|]. split; [reflexivity|]. cbn [fw_g fw_c]. rewrite !(setn_other _ _ j _ i) by exact Hij. rewrite !setn_same. auto.
Qed.
(** ... which meets the specification if the functors are the same. *)
Lemma firsts_distinct : forall q l base, (forall x e, In x base -> In e l -> q (key_of x) (key_of e) = false) -> distinct key_of q l ->
  firsts key_of q base l = l /\ stay key_of q base l = [].
Proof.
  intros q. induction l as [|e l IH]; intros base Hb Hd; [auto|]. cbn [firsts stay].
  assert (Hp : present key_of q base e = false).
  { apply present_false. intros x Hx. apply Hb; [exact Hx|left; reflexivity]. }
  rewrite Hp. destruct (IH (e :: base)) as [-> ->]; [| |auto].
  - inversion Hd as [|? ? Hf Hd']; subst. rewrite Forall_forall in Hf.
    intros x y [<-|Hx] Hy; [apply Hf; exact Hy|apply Hb; [exact Hx|right; exact Hy]].
  - inversion Hd; assumption.
Qed.
Lemma mergeR_same : forall v w i j, fwf w -> i <> j -> elems (fw_c w i) = [] -> fw_g w i = fw_g w j -> moved (fw_g w j) = fw_g w j ->
  exists w', fexec v w (FMergeR i j) = Ok (w', WDone) /\ fspec (FMergeR i j) (fabs w) (fabs w') WDone.
Proof.
  intros v w i j H Hij C0 Eg Em. pose proof (wf_size f key_of _ _ (fw_c w i) (H i)) as [Ls _]. rewrite C0 in Ls. cbn in Ls.
  cbn [FunctorModel.fexec]. rewrite Ls. cbn [Z.eqb]. unfold f_move. destruct (Nat.eqb_spec i j) as [->|_]; [contradiction|].
  destruct (move_ok (fw_g w i) (ev_lim v) (fw_c w i) (fw_c w j) (H i)) as (o' & -> & Wo & Eo). cbn [bind].
  eexists. split; [reflexivity|].
  pose proof (wf_distinct f key_of _ _ (KL (fw_g w j)) (fw_c w j) (H j)) as Hd. rewrite <- Eg in Hd.
  destruct (firsts_distinct (keq (fw_g w i)) (elems (fw_c w j)) [] ltac:(intros x e []) Hd) as [Ef Es].
  eapply fs_merge; [right; reflexivity| | |apply fothers2|intros x _; reflexivity|].
  - cbn [fabs fcon conts fw_c ffun fw_g]. rewrite (setn_other _ _ j) by exact Hij. rewrite setn_same, C0, app_nil_r, Ef. reflexivity.
  - cbn [fabs fcon conts fw_c ffun fw_g]. rewrite setn_same, C0, Eo. symmetry. exact Es.
  - intros x. cbn [fabs ffun fw_g]. unfold setn. destruct (Nat.eqb_spec x j) as [->|]; [exact Em|].
    destruct (Nat.eqb_spec x i) as [->|]; [symmetry; exact Eg|reflexivity].
Qed.

(** From the start. *)
Lemma functors_refine : forall g h, fhistory_ok h ->
  (exists w rs, frun (finit g) h = Ok (w, rs) /\ fspec_run key_of keq rep moved (map snd h) (fstart g) (fabs w) rs) \/
  ((f = NEON \/ f = WORD) /\ (exists v c, In (v, c) h /\ fscanning c) /\ frun (finit g) h = Err BitScanZero) \/
  (exists h1 v i j h2 w1 rs, h = h1 ++ (v, FMerge i j) :: h2 /\ frun (finit g) h1 = Ok (w1, rs) /\
    fspec_run key_of keq rep moved (map snd h1) (fstart g) (fabs w1) rs /\
    elems (fw_c w1 i) = [] /\ elems (fw_c w1 j) <> [] /\ frun (finit g) h = Err Terminated) \/
  (exists h1 v i j h2 w1 rs, h = h1 ++ (v, FMergeR i j) :: h2 /\ frun (finit g) h1 = Ok (w1, rs) /\
    fspec_run key_of keq rep moved (map snd h1) (fstart g) (fabs w1) rs /\ elems (fw_c w1 i) = []).
Proof.
  intros g h Hh. destruct (frun_ok h (finit g) (finit_wf g) Hh) as [(w & rs & E1 & _ & Hr)|[H|[H|H]]].
  - left. exists w, rs. auto.
  - right. left. exact H.
  - right. right. left. destruct H as (h1 & v & i & j & h2 & w1 & rs & E1 & E2 & E3 & E4 & E5 & E6). exists h1, v, i, j, h2, w1, rs. repeat split; assumption.
  - right. right. right. destruct H as (h1 & v & i & j & h2 & w1 & rs & E1 & E2 & E3 & E4). exists h1, v, i, j, h2, w1, rs. repeat split; assumption.
Qed.
Lemma mergeR_refutes : forall g h w rs v i j, fhistory_ok h -> (forall v i j, ~ In (v, FMergeR i j) h) -> frun (finit g) h = Ok (w, rs) ->
  i <> j -> elems (fw_c w i) = [] ->
  exists w', fexec v w (FMergeR i j) = Ok (w', WDone) /\ fw_g w' i = fw_g w j /\ elems (fw_c w' i) = elems (fw_c w j) /\
    (fw_g w i <> fw_g w j -> ~ fspec (FMergeR i j) (fabs w) (fabs w') WDone).
Proof.
  intros g h w rs v i j Hh Hno E1 Hij C0. destruct (mergeR_empty v w i j (run_wf g h w rs Hh E1 Hno) Hij C0) as (w' & E2 & _ & Eg & Ee & _).
  exists w'. split; [exact E2|]. split; [exact Eg|]. split; [exact Ee|]. intros Hd Hs. inversion Hs; subst.
  match goal with [X : FMergeR _ _ = FMergeR _ _ |- _] => idtac | [X : _ \/ _ |- _] => destruct X as [X|X]; [discriminate|injection X as <- <-] end.
  match goal with [X : same_functors _ _ |- _] => specialize (X i); cbn [fabs ffun] in X; congruence end.
Qed.
End Proofs.
