(** Programs over several unordered containers refine the list specification. *)
From Coq Require Import ZArith List Bool Lia Permutation Arith.
From Verif Require Import Base BaseLemmas Bits BitsProofs SwissModel SwissArith SwissCap SwissInv SwissOps SwissClean
  SwissIter SwissRoom MapSpec WorldSpec SwissRun SwissRefine SwissFinal SwissMore World.
Import ListNotations.
Open Scope Z_scope.

Section Proofs.
Context {E K : Type}.
Variable f : simd.
Variable key_of : E -> K.
Variable hash : K -> Z.
Variable keq : K -> K -> bool.
Hypothesis KL : key_laws hash keq.
Variable rep : E -> E -> E.
Hypothesis Rep : forall a b, keq (key_of a) (key_of b) = true -> key_of (rep a b) = key_of a.

Local Notation swiss := (@swiss E).
Local Notation wf := (wf f key_of hash keq).
Local Notation inv := (inv f key_of hash keq).
Local Notation world := (@world E).
Local Notation wexec := (wexec f key_of hash keq rep).
Local Notation wrun := (wrun f key_of hash keq rep).
Local Notation wspec := (wspec key_of keq rep).

Definition abs (w : world) : wstate := mkws (fun i => elems (w_c w i)) (w_h w).
Definition wwf (w : world) : Prop := forall i, wf (w_c w i).

Lemma setn_same : forall A (m : nat -> A) i x, setn m i x i = x.
Proof. intros. unfold setn. rewrite Nat.eqb_refl. reflexivity. Qed.
Lemma setn_other : forall A (m : nat -> A) i x j, j <> i -> setn m i x j = m j.
Proof. intros. unfold setn. destruct (Nat.eqb_spec j i); [congruence|reflexivity]. Qed.
Lemma wwf_set : forall w hs i s, wwf w -> wf s -> wwf (mkw (setn (w_c w) i s) hs).
Proof. intros w hs i s H Hs j. cbn [w_c]. unfold setn. destruct (Nat.eqb j i); [exact Hs|apply H]. Qed.
Lemma wwf_set2 : forall w hs i s j o, wwf w -> wf s -> wf o -> wwf (mkw (setn (setn (w_c w) i s) j o) hs).
Proof. intros w hs i s j o H Hs Ho x. cbn [w_c]. unfold setn. destruct (Nat.eqb x j); [exact Ho|]. destruct (Nat.eqb x i); [exact Hs|apply H]. Qed.

Lemma others1 : forall w hs i s, others [i] (abs w) (abs (mkw (setn (w_c w) i s) hs)).
Proof. intros w hs i s j Hj. cbn [abs conts w_c]. rewrite setn_other; [reflexivity|]. intros ->. apply Hj. left. reflexivity. Qed.
Lemma others2 : forall w hs i s j o, others [i; j] (abs w) (abs (mkw (setn (setn (w_c w) i s) j o) hs)).
Proof.
  intros w hs i s j o x Hx. cbn [abs conts w_c]. rewrite !setn_other; [reflexivity| |]; intros ->; apply Hx; [left|right; left]; reflexivity.
Qed.
Lemma others0 : forall w hs i s, elems s = elems (w_c w i) -> others [] (abs w) (abs (mkw (setn (w_c w) i s) hs)).
Proof. intros w hs i s He j _. cbn [abs conts w_c]. unfold setn. destruct (Nat.eqb_spec j i) as [->|]; [exact He|reflexivity]. Qed.
Lemma hands0 : forall w cs, other_hands [] (abs w) (abs (mkw cs (w_h w))).
Proof. intros w cs j _. reflexivity. Qed.
Lemma hands1 : forall w cs j o, other_hands [j] (abs w) (abs (mkw cs (setn (w_h w) j o))).
Proof. intros w cs j o x Hx. cbn [abs hands w_h]. apply setn_other. intros ->. apply Hx. left. reflexivity. Qed.
Lemma at_same : forall w hs i s, conts (abs (mkw (setn (w_c w) i s) hs)) i = elems s.
Proof. intros. cbn [abs conts w_c]. rewrite setn_same. reflexivity. Qed.
Lemma unchanged_c : forall w, others [] (abs w) (abs w).
Proof. intros w j _. reflexivity. Qed.
Lemma unchanged_h : forall w, other_hands [] (abs w) (abs w).
Proof. intros w j _. reflexivity. Qed.

Lemma holds_get : forall (s : swiss) p e, wf s -> holds s p e -> exists h, get_node s p = Ok (e, h).
Proof.
  intros s p e H (Hp & h & En). exists h. destruct (wf_some f key_of hash keq s p (e, h) H En) as [H1 _].
  apply get_node_ok; [apply (mw_buf f s (w_m _ _ _ _ s H1))|exact Hp|exact En].
Qed.

Lemma wexec_ok : forall v w c, wwf w -> env_ok v -> wcall_ok c ->
  (exists w' r, wexec v w c = Ok (w', r) /\ wwf w' /\ wspec c (abs w) (abs w') r) \/
  (narrow f /\ wscanning c /\ wexec v w c = Err BitScanZero) \/
  (exists i j, c = WMerge i j /\ bucket_count (w_c w i) = 0 /\ elems (w_c w j) <> [] /\ wexec v w c = Err Terminated).
Proof.
  intros v w c H Hv Hc. destruct c as [i c|i pred|i k j|i j|i j|i j|i j|i j|i ra l n]; cbn [World.wexec wcall_ok wscanning] in *.
  - destruct (exec_ok f key_of hash keq KL rep Rep v (w_c w i) c (H i) Hv Hc) as [(s' & r & -> & [Hk _] & Hst)|(Hn & Hsc & ->)]; [left|right; left; auto].
    cbn [bind]. eexists. eexists. split; [reflexivity|]. split; [apply wwf_set; assumption|].
    constructor; [rewrite at_same; exact Hst|apply others1|apply hands0].
  - destruct (erase_if_ok f key_of hash keq KL pred (w_c w i) (H i)) as [([s' m] & -> & (W' & _ & He & ->))|(Hn & ->)]; [left|right; left; auto].
    cbn [bind]. eexists. eexists. split; [reflexivity|]. split; [apply wwf_set; assumption|].
    apply ws_erase_if; [rewrite at_same; exact He|apply others1|apply hands0].
  - destruct (extract_key_ok f key_of hash keq KL (w_c w i) k (H i)) as [([s' o] & -> & (W' & _ & Ho))|(Hn & ->)]; [left|right; left; auto].
    cbn [bind]. eexists. eexists. split; [reflexivity|]. split; [apply wwf_set; assumption|].
    destruct o as [e|].
    + destruct Ho as (a & b & Hl & He). eapply ws_extract; [exact Hl|rewrite at_same; exact He|cbn [abs hands w_h]; apply setn_same|apply others1|apply hands1].
    + destruct Ho as [-> Ha]. apply ws_extract_absent; [exact Ha|cbn [abs hands w_h]; apply setn_same|apply others0; reflexivity|apply hands1].
  - left. destruct (w_h w j) as [e|] eqn:Eh.
    2:{ eexists. eexists. split; [reflexivity|]. split; [exact H|]. apply ws_node_empty; [exact Eh|apply unchanged_c|apply unchanged_h]. }
    destruct (insert_handle_ok f key_of hash keq KL (ev_lim v) (w_c w i) e (H i) Hv) as (s' & o & -> & W' & _ & Ho). cbn [bind].
    destruct o as [[[[p b] hd] tr]|].
    + destruct b.
      * destruct Ho as (-> & Ha & P & Hh). destruct (holds_get s' p e W' Hh) as (h & ->). cbn [bind fst].
        eexists. eexists. split; [reflexivity|]. split; [apply wwf_set; assumption|].
        eapply ws_node_new; [exact Eh|exact Ha|rewrite at_same; exact P|cbn [abs hands w_h]; apply setn_same|apply others1|apply hands1].
      * destruct Ho as (-> & -> & x & Hh & Hk). destruct (holds_get (w_c w i) p x (H i) Hh) as (h & ->). cbn [bind fst].
        eexists. eexists. split; [reflexivity|]. split; [apply wwf_set; [exact H|apply H]|].
        eapply ws_node_old; [exact Eh| |exact Hk|apply others0; reflexivity|].
        { cbn [abs conts]. apply elems_In. exists p. exact Hh. }
        intros x0 _. cbn [abs hands w_h]. unfold setn. destruct (Nat.eqb_spec x0 j) as [->|]; [symmetry; exact Eh|reflexivity].
    + destruct Ho as [-> Ha]. eexists. eexists. split; [reflexivity|]. split; [apply wwf_set; [exact H|apply H]|].
      eapply ws_node_throw; [exact Eh|exact Ha|apply others0; reflexivity|apply hands0].
  - left. destruct (w_h w j) as [e|] eqn:Eh.
    2:{ eexists. eexists. split; [reflexivity|]. split; [exact H|]. apply ws_assign_node_empty; [exact Eh|apply unchanged_c|apply unchanged_h]. }
    destruct (assign_handle_ok f key_of hash keq KL (ev_lim v) (w_c w i) e (H i) Hv) as (s' & o & -> & W' & _ & Ho). cbn [bind].
    destruct o as [[[p b] tr]|].
    + destruct Ho as (Hh & Ho). destruct (holds_get s' p e W' Hh) as (h & ->). cbn [bind fst].
      eexists. eexists. split; [reflexivity|]. split; [apply wwf_set; assumption|]. destruct b.
      * destruct Ho as (Ha & P). eapply ws_assign_node_new; [exact Eh|exact Ha|rewrite at_same; exact P|cbn [abs hands w_h]; apply setn_same|apply others1|apply hands1].
      * destruct Ho as (l1 & x & l2 & Hl & El & _). eapply ws_assign_node_old; [exact Eh|exact Hl|rewrite at_same; exact El|cbn [abs hands w_h]; apply setn_same|apply others1|apply hands1].
    + destruct Ho as [-> Ha]. eexists. eexists. split; [reflexivity|]. split; [apply wwf_set; [exact H|apply H]|].
      eapply ws_assign_node_throw; [exact Eh|exact Ha|apply others0; reflexivity|apply hands0].
  - destruct (merge_ok f key_of hash keq KL (ev_lim v) (w_c w i) (w_c w j) (H i) (H j) Hv) as [[([[s' o'] b] & -> & (W' & _ & Wo & _ & Hm))|(Hn & ->)]|(C0 & Hne & _ & ->)]; [left|right; left; auto|].
    2:{ right. right. exists i, j. auto. }
    cbn [bind]. eexists. eexists. split; [reflexivity|]. split; [apply wwf_set2; assumption|].
    assert (Ei : conts (abs (mkw (setn (setn (w_c w) i s') j o') (w_h w))) i = elems s').
    { cbn [abs conts w_c]. rewrite setn_other by exact Hc. rewrite setn_same. reflexivity. }
    assert (Ej : conts (abs (mkw (setn (setn (w_c w) i s') j o') (w_h w))) j = elems o').
    { cbn [abs conts w_c]. rewrite setn_same. reflexivity. }
    destruct b.
    + apply ws_merge; [rewrite Ei, Ej; exact Hm|apply others2|apply hands0].
    + destruct Hm as [-> ->]. apply ws_merge_throw; [|apply hands0]. intros x _. cbn [abs conts w_c]. unfold setn.
      destruct (Nat.eqb_spec x j) as [->|]; [reflexivity|]. destruct (Nat.eqb_spec x i) as [->|]; reflexivity.
  - left. cbn [swap guard bind]. eexists. eexists. split; [reflexivity|]. split; [apply wwf_set2; [exact H|apply H|apply H]|].
    apply ws_swap; [| | |apply hands0].
    + cbn [abs conts w_c]. rewrite setn_same. reflexivity.
    + cbn [abs conts w_c]. unfold setn. destruct (Nat.eqb_spec j i) as [->|]; [reflexivity|]. rewrite Nat.eqb_refl. reflexivity.
    + intros x Hx. apply others2. intros [<-|[<-|[]]]; apply Hx; [right; left|left]; reflexivity.
  - left. destruct (Nat.eqb_spec i j) as [->|Hij].
    + eexists. eexists. split; [reflexivity|]. split; [exact H|]. apply ws_move_self; [apply unchanged_c|apply unchanged_h].
    + destruct (move_assign_ok f key_of hash keq true (ev_lim v) (w_c w i) (w_c w j) (H i) (H j) (or_introl eq_refl)) as (o' & -> & Wo & Eo). cbn [bind].
      eexists. eexists. split; [reflexivity|]. split; [apply wwf_set2; [exact H|apply H|exact Wo]|].
      apply ws_move; [exact Hij| | |apply others2|apply hands0].
      * cbn [abs conts w_c]. rewrite setn_other by exact Hij. rewrite setn_same. reflexivity.
      * cbn [abs conts w_c]. rewrite setn_same. exact Eo.
  - left. destruct Hc as [Hlen Hk]. destruct (ctor_range_ok f key_of hash keq KL ra l n (ev_lim v) Hv Hlen Hk) as (o & -> & Ho). cbn [bind].
    destruct o as [[t b]|].
    2:{ eexists. eexists. split; [reflexivity|]. split; [exact H|]. apply ws_range_throw; [apply unchanged_c|apply unchanged_h]. }
    destruct b.
    2:{ eexists. eexists. split; [reflexivity|]. split; [exact H|]. apply ws_range_throw; [apply unchanged_c|apply unchanged_h]. }
    destruct Ho as (Hi & l1 & l2 & Hl & P & Hb). rewrite (Hb eq_refl), app_nil_r in Hl. subst l1.
    destruct (move_assign_ok f key_of hash keq true (ev_lim v) (w_c w i) t (H i) (proj1 Hi) (or_introl eq_refl)) as (o' & -> & Wo & Eo). cbn [bind].
    eexists. eexists. split; [reflexivity|]. split; [apply wwf_set; [exact H|apply Hi]|].
    apply ws_range; [rewrite at_same; exact P|apply others1|apply hands0].
Qed.

(** The program stops at a merge: its target has no buckets, and inside the transfer
    memory is refused. *)
Definition ends_in_merge (w : world) (h : list (env * wcall E K)) : Prop :=
  exists h1 v i j h2 w1 rs, h = h1 ++ (v, WMerge i j) :: h2 /\ wrun w h1 = Ok (w1, rs) /\ wspec_run key_of keq rep (map snd h1) (abs w) (abs w1) rs /\
    bucket_count (w_c w1 i) = 0 /\ elems (w_c w1 j) <> [] /\ wrun w h = Err Terminated.

Lemma wrun_ok : forall h w, wwf w -> whistory_ok h ->
  (exists w' rs, wrun w h = Ok (w', rs) /\ wwf w' /\ wspec_run key_of keq rep (map snd h) (abs w) (abs w') rs) \/
  (narrow f /\ (exists v c, In (v, c) h /\ wscanning c) /\ wrun w h = Err BitScanZero) \/
  ends_in_merge w h.
Proof.
  induction h as [|[v c] h IH]; intros w Hi Hh.
  - left. exists w, []. split; [reflexivity|]. split; [exact Hi|]. constructor.
  - inversion Hh as [|? ? [Hv Hc] Hh']; subst. cbn [World.wrun fst snd] in *.
    destruct (wexec_ok v w c Hi Hv Hc) as [(w1 & r & E1 & Hi1 & Hst)|[(Hn & Hsc & ->)|(i & j & -> & C0 & Hne & E1)]].
    + rewrite E1. cbn [bind]. destruct (IH w1 Hi1 Hh') as [(w2 & rs & -> & Hi2 & Hr)|[(Hn & (v' & c' & Hin & Hsc) & ->)|Hm]].
      * left. cbn [bind]. eexists. eexists. split; [reflexivity|]. split; [exact Hi2|]. cbn [map snd]. econstructor; eassumption.
      * right. left. split; [exact Hn|]. split; [|reflexivity]. exists v', c'. split; [right; exact Hin|exact Hsc].
      * right. right. destruct Hm as (h1 & v' & i & j & h2 & w2 & rs & -> & E2 & Hr & Ci & Cj & E3).
        exists ((v, c) :: h1), v', i, j, h2, w2, (r :: rs). split; [reflexivity|].
        split; [cbn [World.wrun]; rewrite E1; cbn [bind]; rewrite E2; reflexivity|]. split; [cbn [map snd]; econstructor; eassumption|]. split; [exact Ci|]. split; [exact Cj|].
        cbn [World.wrun app]. rewrite E1. cbn [bind]. rewrite E3. reflexivity.
    + right. left. split; [exact Hn|]. split; [|reflexivity]. exists v, c. split; [left; reflexivity|exact Hsc].
    + right. right. exists [], v, i, j, h, w, []. split; [reflexivity|]. split; [reflexivity|]. split; [constructor|]. split; [exact C0|]. split; [exact Hne|].
      cbn [World.wrun app]. rewrite E1. reflexivity.
Qed.

Lemma winit_wf : wwf winit.
Proof. intros i. exact (proj1 (empty_inv f key_of hash keq)). Qed.

Lemma world_refines : forall h, whistory_ok h ->
  (exists w rs, wrun winit h = Ok (w, rs) /\ wspec_run key_of keq rep (map snd h) wstart (abs w) rs) \/
  ((f = NEON \/ f = WORD) /\ (exists v c, In (v, c) h /\ wscanning c) /\ wrun winit h = Err BitScanZero) \/
  ends_in_merge winit h.
Proof.
  intros h Hh. destruct (wrun_ok h winit winit_wf Hh) as [(w & rs & E1 & _ & Hr)|Hr]; [left|right; exact Hr].
  exists w, rs. split; [exact E1|]. exact Hr.
Qed.
Lemma world_refines_wide : forall h, f = SSE2 \/ f = SSSE3 -> whistory_ok h ->
  (exists w rs, wrun winit h = Ok (w, rs) /\ wspec_run key_of keq rep (map snd h) wstart (abs w) rs) \/
  ends_in_merge winit h.
Proof.
  intros h Hf Hh. destruct (world_refines h Hh) as [H|[(Hn & _)|H]]; [left; exact H| |right; exact H]. destruct Hf, Hn; congruence.
Qed.

Lemma occurs_wf : forall s, occurs f key_of hash keq rep s -> wf s.
Proof.
  intros s (h & w & rs & i & Hh & E1 & ->). destruct (wrun_ok h winit winit_wf Hh) as [(w' & rs' & E2 & Hi & _)|[(_ & _ & E2)|Hm]]; [|congruence|].
  - rewrite E1 in E2. injection E2 as <- <-. apply Hi.
  - destruct Hm as (h1 & v & i' & j & h2 & w1 & rs1 & _ & _ & _ & _ & _ & E2). congruence.
Qed.

(** Containers reached by calls on one container occur. *)
Lemma lift_run : forall h w s rs, run f key_of hash keq rep (w_c w O) h = Ok (s, rs) ->
  exists w', wrun w (map (fun vc => (fst vc, WOn O (snd vc))) h) = Ok (w', map WRet rs) /\ w_c w' O = s.
Proof.
  induction h as [|[v c] h IH]; intros w s rs Hr; cbn [run] in Hr.
  - injection Hr as <- <-. exists w. auto.
  - destruct (exec f key_of hash keq rep v (w_c w O) c) as [[s1 r]|] eqn:E1; [|discriminate]. cbn [bind] in Hr.
    destruct (run f key_of hash keq rep s1 h) as [[s2 rs2]|] eqn:E2; [|discriminate]. cbn [bind] in Hr. injection Hr as <- <-.
    destruct (IH (mkw (setn (w_c w) O s1) (w_h w)) s2 rs2) as (w' & E3 & E4); [cbn [w_c]; rewrite setn_same; exact E2|].
    exists w'. split; [|exact E4]. cbn [map fst snd World.wrun World.wexec]. rewrite E1. cbn [bind]. rewrite E3. reflexivity.
Qed.
Lemma reachable_occurs : forall s, reachable f key_of hash keq rep s -> occurs f key_of hash keq rep s.
Proof.
  intros s (h & rs & Hh & Er). destruct (lift_run h winit s rs Er) as (w' & E1 & E2).
  exists (map (fun vc => (fst vc, WOn O (snd vc))) h), w', (map WRet rs), O. split; [|auto].
  unfold whistory_ok, history_ok in *. apply Forall_map. eapply Forall_impl; [|exact Hh]. intros [v c]. cbn [fst snd wcall_ok]. auto.
Qed.

Lemma wf_behaves : forall s, wf s -> behaves f key_of hash keq rep s (elems s).
Proof.
  intros s H h Hh. destruct (run_ok f key_of hash keq KL rep Rep h s H Hh) as [(s' & rs & E1 & _ & Hr)|Hr]; [left|right; exact Hr].
  exists s', rs, (elems s'). auto.
Qed.
Lemma occurs_behaves : forall s, occurs f key_of hash keq rep s -> behaves f key_of hash keq rep s (elems s).
Proof. intros s H. apply wf_behaves. apply occurs_wf. exact H. Qed.
End Proofs.
