(** Bounds for programs on ordered dense containers, from those on unordered ones: every
    program on an ordered container does to the table what some program on an unordered
    container does. *)
From Coq Require Import ZArith List Bool Lia.
From Verif Require Import Base BaseLemmas MapSpec Float32 DenseSpec DenseModel DenseRun DenseChain DenseInv DenseOps DenseEdit DenseRefine
  LinkModel OrderedSpec OrderedDense OrderedRun OrderedLinks SlotsSpec SlotsModel SlotsDenseProofs BoundsSpec PlaceSpec CostSpec LoadSpec SlotsCost.
From Verif Require SlotsProofs DenseBounds DenseCost DenseLoad.
Import ListNotations.
Open Scope Z_scope.

Section Bounds.
Context {E K : Type}.
Variable sz : Z.
Variable nk : nat.
Variable key_of : nat -> E -> K.
Variable hash : K -> Z.
Variable keq : K -> K -> bool.
Variable rep : E -> E -> E.
Hypothesis Hsz : 0 < sz.
Hypothesis KL : key_laws hash keq.
Hypothesis rep_key : forall x e, key_of 0%nat (rep x e) = key_of 0%nat x.
Notation odense := (OrderedDense.odense E).
Notation dense := (DenseModel.dense E).
Notation dexec := (DenseRun.dexec nk key_of hash keq rep). Notation drun := (DenseRun.drun nk key_of hash keq rep).
Notation oexec := (OrderedRun.oexec sz nk key_of hash keq rep). Notation orun := (OrderedRun.orun sz nk key_of hash keq rep).
Notation dwf := (DenseInv.dwf nk key_of hash keq).
Notation dtied := (SlotsDenseProofs.dtied sz).
Notation blocked := (DenseRun.blocked nk key_of hash keq rep).
Notation ostarved := (SlotsCost.ostarved sz nk key_of hash keq rep). Notation fed := (SlotsCost.fed sz nk key_of hash keq rep).
Notation omoved_by := (SlotsCost.omoved_by sz nk key_of hash keq rep). Notation owithin := (SlotsCost.owithin sz nk key_of hash keq rep).

(** Erasing through an iterator is erasing at the index of the slot. *)
Lemma erase_at_same : forall h (s : odense) a h1 (s1 : odense) b, dtied h s -> o_erase_at sz nk h s a = Ok (h1, s1, b) ->
  dtied h1 s1 /\ (o_d s1 = o_d s \/ exists p n q o, get_node (o_d s) p = Ok n /\ (p <> d_size (o_d s) -> erase_at nk (o_d s) p = Ok (o_d s1, q)) /\ at_pos (o_d s1) q = Ok o).
Proof.
  intros h s a h1 s1 b T H. unfold o_erase_at in H. destruct (a =? o_hdr s); [injection H as <- <- _; auto|].
  ok H. ok H. ok H. unfold o_erase_node in H. ok H. ok H. ok H. destruct x4 as (d4, p4). ok H. injection H as <- <- _. cbn [fst with_d o_d] in *.
  destruct (erase_node_at nk key_of _ _ _ _ _ Ex4) as (Hc & (o & Ho)). split.
  - apply (with_tied _ _ _ _ _ T Hc). intros Hh. apply (SlotsProofs.unlink_has _ _ _ _ Ex3) in Hh. destruct (x =? d_size (o_d s) - 1); [injection Ex5 as <-; exact Hh|apply (SlotsProofs.relink_has _ _ _ _ _ Ex5 Hh)].
  - right. exists x, x0, p4, o. split; [exact Ex0|]. split; [|exact Ho]. intros Hne. unfold erase_at. apply Z.eqb_neq in Hne. rewrite Hne, Ex0. cbn [bind]. rewrite Ex1. cbn [bind]. exact Ex4.
Qed.
Lemma get_live : forall (d : dense) p n, dwf d -> get_node d p = Ok n -> 0 <= p < d_size d.
Proof.
  intros d p n W H. pose proof (w_dead _ _ _ _ _ W p) as Hd. unfold get_node in H. oks H. destruct (d_nodes d p) eqn:En; [|discriminate H].
  unfold live in Hd. destruct (Z.le_gt_cases 0 p), (Z.lt_ge_cases p (d_size d)); try lia; specialize (Hd ltac:(lia)); discriminate Hd.
Qed.

(** The call on the unordered table that does the same. *)
Definition like (c : ocall E K) (c' : dcall E K) : Prop := dplain c = Some [c'] \/ exists i p, c = OEraseAt i /\ c' = DEraseAt p.
Definition did (v : oenv) (h : heap) (s : odense) (c : ocall E K) (s1 : odense) (r : dret E) : Prop :=
  (o_d s1 = o_d s /\ dadds r = false /\ r <> QThrow /\ omoved s c s1 = 0) \/
  (exists c' r', like c c' /\ dcall_ok nk c' /\ dexec (ov_d v) (o_d s) c' = Ok (o_d s1, r') /\ dadds r' = dadds r /\ (r = QThrow <-> r' = QThrow) /\
     dmoved (o_d s) c' (o_d s1) = omoved s c s1 /\ (blocked (ov_d v) (o_d s) c' -> ostarved v (h, s) c)).

Lemma plain_ok : forall (c : ocall E K) c', dplain c = Some [c'] -> ocall_ok nk c -> dcall_ok nk c'.
Proof. intros c c' H Hc. destruct c; try discriminate H; injection H as <-; exact Hc. Qed.
Lemma agrees_adds : forall r r' : dret E, dagrees r r' -> dadds r' = dadds r /\ (r = QThrow <-> r' = QThrow).
Proof. intros r r' H. destruct r; cbn [dagrees] in H; try (subst r'; split; [reflexivity|tauto]). destruct r'; try discriminate H; split; try reflexivity; split; discriminate. Qed.

Lemma dstep_table : forall v h s c h1 s1 r, dtied h s -> dwf (o_d s) -> ocall_ok nk c -> oexec v (h, s) c = Ok (h1, s1, r) -> dtied h1 s1 /\ did v h s c s1 r.
Proof.
  intros v h s c h1 s1 r T W Hc He. destruct (dplain c) as [[|c' [|c'' l]]|] eqn:Ep; try (destruct c; discriminate Ep).
  - destruct (dreads_same _ _ _ _ _ _ _ _ _ _ Ep _ _ _ He) as (-> & ->). split; [exact T|]. left. split; [reflexivity|]. destruct c; try discriminate Ep; cbn [OrderedRun.oexec] in He; ok He; injection He as <-; repeat split; discriminate.
  - destruct (dstep_same sz nk key_of hash keq rep Hsz v h s c T c' Ep h1 s1 r He) as ((r' & E1 & Ar) & T1). split; [exact T1|]. right. exists c', r'. destruct (agrees_adds _ _ Ar) as (A1 & A2).
    split; [left; exact Ep|]. split; [apply (plain_ok _ _ Ep Hc)|]. split; [exact E1|]. split; [exact A1|]. split; [exact A2|]. split; [destruct c; try discriminate Ep; injection Ep as <-; reflexivity|].
    intros [Hb|[(Hb & j & k & ->)|(Hb & t & Ht & Hk)]].
    + exfalso. apply Hb. destruct c; try discriminate Ep; injection Ep as <-; exact I.
    + exfalso. cbn [DenseRun.dexec] in E1. unfold erase_key, get_chain in E1. rewrite Hb in E1. cbn in E1. discriminate E1.
    + rewrite E1 in Ht. injection Ht as <- ->. split; [exact Hb|]. exists (h1, s1). split; [|exact Hk]. rewrite He. do 2 f_equal. apply A2. reflexivity.
  - destruct c; try discriminate Ep. cbn [OrderedRun.oexec] in He. ok He. ok He. destruct x0 as ((h2, s2), b2). cbn [fst] in He. injection He as <- <- <-.
    destruct (erase_at_same _ _ _ _ _ _ T Ex0) as (T1 & [Hs|(p & n & q & o & Hg & Hq & Ho)]); split; try exact T1; [left; split; [exact Hs|repeat split; discriminate]|].
    right. pose proof (get_live _ _ _ W Hg) as Hp. specialize (Hq ltac:(lia)). exists (DEraseAt p), (QNext o). split; [right; eauto|]. split; [exact I|].
    assert (E1 : dexec (ov_d v) (o_d s) (DEraseAt p) = Ok (o_d s2, QNext o)) by (cbn [DenseRun.dexec]; rewrite Hq; cbn [bind give_next]; rewrite Ho; reflexivity).
    split; [exact E1|]. split; [reflexivity|]. split; [split; discriminate|]. split; [reflexivity|].
    intros [Hb|[(_ & j & k & Hb)|(_ & t & Ht & _)]]; [|discriminate Hb|rewrite E1 in Ht; discriminate Ht].
    exfalso. apply Hb. cbn [dcall_pre]. rewrite (delems_len nk key_of hash keq _ W). lia.
Qed.
(** The table stays well-formed when no larger bucket array was refused. *)
Lemma did_wf : forall v h s c s1 r, dwf (o_d s) -> denv_ok (ov_d v) -> did v h s c s1 r -> ~ ostarved v (h, s) c -> dwf (o_d s1).
Proof.
  intros v h s c s1 r W Hv [(-> & _)|(c' & r' & _ & Hc & E1 & _ & _ & _ & Hb)] Hn; [exact W|].
  destruct (step_ok nk key_of hash keq rep KL rep_key (ov_d v) (o_d s) c' W Hv Hc) as [Hb'|(t & rt & E2 & W2 & _)]; [destruct (Hn (Hb Hb'))|]. rewrite E1 in E2. injection E2 as <- _. exact W2.
Qed.
Lemma fed_cons : forall v c hist hs hs1 r, fed hs ((v, c) :: hist) -> oexec v hs c = Ok (hs1, r) -> ~ ostarved v hs c /\ fed hs1 hist.
Proof.
  intros v c hist hs hs1 r Hf He. split; [apply (Hf [] v c hist hs [] eq_refl eq_refl)|].
  intros h1 v1 c1 h2 hs2 rs1 -> Hr. apply (Hf ((v, c) :: h1) v1 c1 h2 hs2 (r :: rs1) eq_refl). cbn [OrderedRun.orun]. rewrite He. cbn [bind]. rewrite Hr. reflexivity.
Qed.

(** A program on an unordered table that leaves it in the same state. *)
Definition mirror (hs : heap * odense) (hist : list (oenv * ocall E K)) (hist' : list (denv * dcall E K)) : Prop :=
  dhistory_ok nk hist' /\
  (forall v c', In (v, c') hist' -> exists w c, In (w, c) hist /\ ov_d w = v /\ like c c') /\
  (forall h1 h2 t rs1, hist' = h1 ++ h2 -> drun (o_d (snd hs)) h1 = Ok (t, rs1) -> exists g1 g2 hs1 rs2, hist = g1 ++ g2 /\ orun hs g1 = Ok (hs1, rs2) /\ o_d (snd hs1) = t) /\
  (forall h1 v c h2 t rs1, hist' = h1 ++ (v, c) :: h2 -> drun (o_d (snd hs)) h1 = Ok (t, rs1) -> ~ blocked v t c).
Lemma mirrored : forall hist h s h' s' rs, dtied h s -> dwf (o_d s) -> ohistory_ok nk hist -> fed (h, s) hist -> orun (h, s) hist = Ok ((h', s'), rs) ->
  dwf (o_d s') /\ exists hist' rs', mirror (h, s) hist hist' /\ drun (o_d s) hist' = Ok (o_d s', rs') /\ dadditions rs' = dadditions rs /\ dmoved_by nk key_of hash keq rep (o_d s) hist' = omoved_by (h, s) hist.
Proof.
  induction hist as [|(v, c) hist IH]; intros h s h' s' rs T W Hh Hf Hr.
  - injection Hr as <- <- <-. split; [exact W|]. exists [], []. split; [|repeat split; reflexivity]. split; [constructor|]. split; [intros ? ? []|]. split.
    + intros h1 h2 t rs1 He Hr. destruct h1; [|discriminate He]. injection Hr as <- _. exists [], [], (h, s), []. repeat split.
    + intros h1 v c h2 t rs1 He. destruct h1; discriminate He.
  - cbn [OrderedRun.orun] in Hr. ok Hr. destruct x as ((h1, s1), r). ok Hr. destruct x as ((h2, s2), rs2). injection Hr as <- <- <-.
    inversion Hh as [|? ? [Hv Hc] Hh']; subst. cbn [fst snd] in Hv, Hc. destruct (fed_cons _ _ _ _ _ _ Hf Ex) as (Hn & Hf1).
    destruct (dstep_table _ _ _ _ _ _ _ T W Hc Ex) as (T1 & D). pose proof (did_wf _ _ _ _ _ _ W Hv D Hn) as W1.
    destruct (IH _ _ _ _ _ T1 W1 Hh' Hf1 Ex0) as (W2 & hist' & rs' & (M1 & M2 & M3 & M4) & R & A & B). split; [exact W2|]. cbn [snd] in M3, M4. cbn [SlotsCost.omoved_by]. rewrite Ex. cbn [snd].
    destruct D as [(Ds & Da & _ & Dm)|(c' & r' & Dl & Dc & De & Da & _ & Dm & Db)].
    + exists hist', rs'. rewrite <- Ds, Dm, Z.add_0_l. split; [|split; [exact R|]; split; [|exact B]].
      * unfold mirror. cbn [snd]. rewrite <- Ds. split; [exact M1|]. split; [intros w c' Hin; destruct (M2 _ _ Hin) as (w1 & c1 & I1 & I2); exists w1, c1; split; [right; exact I1|exact I2]|]. split; [|exact M4].
        intros g1 g2 t rs1 He Hg. destruct (M3 _ _ _ _ He Hg) as (a1 & a2 & hs3 & rs3 & -> & A2 & A3). exists ((v, c) :: a1), a2, hs3, (r :: rs3). split; [reflexivity|]. split; [|exact A3].
        cbn [OrderedRun.orun]. rewrite Ex. cbn [bind]. rewrite A2. reflexivity.
      * unfold dadditions in *. cbn [filter]. rewrite Da. exact A.
    + exists ((ov_d v, c') :: hist'), (r' :: rs'). split; [|split; [|split]].
      * unfold mirror. cbn [snd]. split; [constructor; [split; assumption|exact M1]|]. split; [|split].
        -- intros w c1 [He|Hin]; [injection He as <- <-; exists v, c; split; [left; reflexivity|split; [reflexivity|exact Dl]]|]. destruct (M2 _ _ Hin) as (w1 & c2 & I1 & I2). exists w1, c2. split; [right; exact I1|exact I2].
        -- intros g1 g2 t rs1 He Hg. destruct g1 as [|(w, d) g1]; [injection Hg as <- _; exists [], ((v, c) :: hist), (h, s), []; repeat split|].
           cbn [app] in He. injection He as <- <- He. cbn [DenseRun.drun] in Hg. rewrite De in Hg. cbn [bind] in Hg. ok Hg. destruct x as (t1, rs3). injection Hg as <- <-.
           destruct (M3 _ _ _ _ He Ex1) as (a1 & a2 & hs3 & rs4 & -> & A2 & A3). exists ((v, c) :: a1), a2, hs3, (r :: rs4). split; [reflexivity|]. split; [|exact A3]. cbn [OrderedRun.orun]. rewrite Ex. cbn [bind]. rewrite A2. reflexivity.
        -- intros g1 w d g2 t rs1 He Hg. destruct g1 as [|(w1, d1) g1]; cbn [app] in He.
           ++ injection He as <- <- <-. injection Hg as <- _. intros Hb. exact (Hn (Db Hb)).
           ++ injection He as <- <- He. cbn [DenseRun.drun] in Hg. rewrite De in Hg. cbn [bind] in Hg. ok Hg. destruct x as (t1, rs3). injection Hg as <- <-. apply (M4 _ _ _ _ _ _ He Ex1).
      * cbn [DenseRun.drun]. rewrite De. cbn [bind]. rewrite R. reflexivity.
      * unfold dadditions in *. cbn [filter]. rewrite Da. destruct (dadds r); cbn [length]; lia.
      * cbn [dmoved_by]. rewrite De, Dm, B. reflexivity.
Qed.

(** What a mirrored program inherits. *)
Lemma mirror_within : forall m hs hist hist', mirror hs hist hist' -> owithin m hs hist -> dwithin nk key_of hash keq rep m (o_d (snd hs)) hist'.
Proof.
  intros m hs hist hist' (_ & M2 & M3 & _) (W1 & W2). split.
  - intros h1 h2 t rs He Hr. destruct (M3 _ _ _ _ He Hr) as (g1 & g2 & hs1 & rs2 & -> & Hg & <-). apply (W1 _ _ _ _ eq_refl Hg).
  - intros v n Hin. assert (exists w, In (w, OReserve n) hist \/ In (w, ORehash n) hist) as (w & Hw); [|apply (W2 _ _ Hw)].
    destruct Hin as [Hin|Hin]; destruct (M2 _ _ Hin) as (w & c & I1 & _ & [Hl|(i & p & _ & Hx)]); try discriminate Hx; exists w; destruct c; try discriminate Hl; injection Hl as ->; auto.
Qed.
Lemma mirror_all : forall (P : ocall E K -> Prop) (Q : dcall E K -> Prop) hs hist hist', (forall c c', like c c' -> P c -> Q c') -> mirror hs hist hist' -> Forall (fun vc => P (snd vc)) hist -> Forall (fun vc => Q (snd vc)) hist'.
Proof.
  intros P Q hs hist hist' H (_ & M2 & _) HP. apply Forall_forall. intros (v, c') Hin. cbn [snd]. destruct (M2 _ _ Hin) as (w & c & I1 & _ & Hl). apply (H _ _ Hl). rewrite Forall_forall in HP. apply (HP _ I1).
Qed.
Ltac likes := intros c c' [Hl|(i & p & -> & ->)]; [destruct c; try discriminate Hl; injection Hl as <-; exact (fun x => x)|intros _; exact I].
Lemma like_load : forall lp lq (c : ocall E K) c', like c c' -> oload_ok lp lq c -> load_ok lp lq c'. Proof. intros lp lq. likes. Qed.
Lemma like_steady : forall (c : ocall E K) c', like c c' -> osteady c -> dsteady c'. Proof. likes. Qed.
Lemma like_policy : forall (c : ocall E K) c', like c c' -> okeeps_policy c -> keeps_policy c'. Proof. likes. Qed.

Lemma new_dtied : forall (h0 : heap) a, h0 a = Some (0, 0) -> dtied h0 (o_new a : odense).
Proof. intros h0 a Ha. split; cbn [o_new o_d o_hdr o_base empty_dense d_cap]; [congruence|]. apply slot_ix_none_intro; [exact Hsz|]. intros i Hi. lia. Qed.
Lemma new_dwf : forall a, dwf (o_d (o_new a : odense)). Proof. intros a. apply empty_wf. Qed.

(** ** Programs from the constructor. *)
Lemma new_dense_caps : forall lp lq m h0 a hist h s rs, 0 < lp -> 0 < lq -> 8 * lp <= 7 * lq -> 0 <= m -> h0 a = Some (0, 0) -> ohistory_ok nk hist -> Forall (fun vc => oload_ok lp lq (snd vc)) hist ->
  owithin m (h0, o_new a) hist -> fed (h0, o_new a) hist -> orun (h0, o_new a) hist = Ok ((h, s), rs) -> d_cap (o_d s) <= nodes_for m /\ buckets_for lp lq m (d_bc (o_d s)).
Proof.
  intros lp lq m h0 a hist h s rs H1 H2 H3 Hm Ha Hh Hl Hw Hf Hr. destruct (mirrored _ _ _ _ _ _ (new_dtied _ _ Ha) (new_dwf a) Hh Hf Hr) as (_ & hist' & rs' & M & R & _).
  apply (DenseBounds.history_caps nk key_of hash keq rep lp lq H1 H2 (DenseBounds.below_three lp lq H1 H2 H3) KL rep_key m hist' _ rs' H3 Hm (proj1 M)); [apply (mirror_all _ _ _ _ _ (like_load lp lq) M Hl)|apply (mirror_within _ _ _ _ M Hw)|apply M|exact R].
Qed.
Lemma new_dense_cost : forall h0 a hist h s rs, h0 a = Some (0, 0) -> ohistory_ok nk hist -> Forall (fun vc => osteady (snd vc)) hist ->
  fed (h0, o_new a) hist -> orun (h0, o_new a) hist = Ok ((h, s), rs) -> omoved_by (h0, o_new a) hist <= Z.max 1 (2 * dadditions rs).
Proof.
  intros h0 a hist h s rs Ha Hh Hst Hf Hr. destruct (mirrored _ _ _ _ _ _ (new_dtied _ _ Ha) (new_dwf a) Hh Hf Hr) as (_ & hist' & rs' & M & R & A & B).
  pose proof (DenseCost.run_cost nk key_of hash keq rep KL rep_key hist' _ _ rs' (new_dwf a) (proj1 M) (mirror_all _ _ _ _ _ like_steady M Hst) (proj2 (proj2 (proj2 M))) R) as (C1 & C2).
  rewrite B in C1. rewrite A in C2. change (d_cap (o_d (o_new a : odense))) with 0 in C1, C2. change (d_size (o_d (o_new a : odense))) with 0 in C2. refine (Z.le_trans _ _ _ _ (Z.le_trans _ _ _ C2 _)); [rewrite Z.add_0_r in C1; exact C1|lia].
Qed.
Lemma new_dense_default : forall h0 a hist h s rs, h0 a = Some (0, 0) -> ohistory_ok nk hist -> Forall (fun vc => okeeps_policy (snd vc)) hist ->
  fed (h0, o_new a) hist -> orun (h0, o_new a) hist = Ok ((h, s), rs) ->
  d_mlf (o_d s) = (7, 8) /\ doubled (d_bc (o_d s)) /\ within_load 7 8 (size (o_d s)) (d_bc (o_d s)) /\
  (0 < d_bc (o_d s) -> rle (f32_div (f32_of (size (o_d s))) (f32_of (d_bc (o_d s)))) (d_mlf (o_d s)) = true).
Proof.
  intros h0 a hist h s rs Ha Hh Hst Hf Hr. destruct (mirrored _ _ _ _ _ _ (new_dtied _ _ Ha) (new_dwf a) Hh Hf Hr) as (_ & hist' & rs' & M & R & _).
  apply (DenseLoad.history_default nk key_of hash keq rep KL rep_key hist' _ rs' (proj1 M) (mirror_all _ _ _ _ _ like_policy M Hst) (proj2 (proj2 (proj2 M))) R).
Qed.

(** No call throws when the allocator supplies what the bounds promise. *)
Lemma owithin_cons : forall m v c hist hs hs1 r, owithin m hs ((v, c) :: hist) -> oexec v hs c = Ok (hs1, r) -> owithin m hs1 hist.
Proof.
  intros m v c hist hs hs1 r (W1 & W2) He. split.
  - intros h1 h2 hs' rs -> Hr. apply (W1 ((v, c) :: h1) h2 hs' (r :: rs) eq_refl). cbn [OrderedRun.orun]. rewrite He. cbn [bind]. rewrite Hr. reflexivity.
  - intros w n [Hi|Hi]; apply (W2 w n); [left|right]; right; exact Hi.
Qed.
Lemma owithin_demand : forall m v c hist h (s : odense) c', 0 <= m -> owithin m (h, s) ((v, c) :: hist) -> like c c' -> ddemand (d_size (o_d s)) c' <= m.
Proof.
  intros m v c hist h s c' Hm (W1 & W2) Hl. pose proof (W1 [] _ _ _ eq_refl eq_refl) as Hs. cbn [snd] in Hs. unfold size in Hs.
  destruct Hl as [Hl|(i & p & -> & ->)]; [|exact Hm]. destruct c; try discriminate Hl; injection Hl as <-; cbn [ddemand]; try lia;
    (assert (n <= m); [apply (W2 v n); cbn [In]; tauto|lia]).
Qed.
Lemma orun_no_throw : forall lp lq m, 0 < lp -> 0 < lq -> lp <= 3 * lq -> 0 <= m -> forall hist h s h' s' rs, dtied h s -> dwf (o_d s) -> ohistory_ok nk hist -> Forall (fun vc => oload_ok lp lq (snd vc)) hist ->
  DenseBounds.loaded lp lq (o_d s) -> owithin m (h, s) hist ->
  (forall v c, In (v, c) hist -> nodes_for m <= dv_dlim (ov_d v) /\ forall b, buckets_for lp lq m b -> b <= dv_slim (ov_d v)) ->
  orun (h, s) hist = Ok ((h', s'), rs) -> ~ In QThrow rs.
Proof.
  intros lp lq m H1 H2 H3 Hm. induction hist as [|(v, c) hist IH]; intros h s h' s' rs T W Hh Hlo Hl Hw Hlim Hr.
  - injection Hr as _ _ <-. intros [].
  - cbn [OrderedRun.orun] in Hr. ok Hr. destruct x as ((h1, s1), r). ok Hr. destruct x as ((h2, s2), rs2). injection Hr as _ _ <-.
    inversion Hh as [|? ? [Hv Hc] Hh']; subst. inversion Hlo as [|? ? Hlc Hlo']; subst. cbn [fst snd] in Hv, Hc, Hlc.
    destruct (dstep_table _ _ _ _ _ _ _ T W Hc Ex) as (T1 & D). destruct (Hlim v c (or_introl eq_refl)) as (L1 & L2).
    assert (G : r <> QThrow /\ DenseBounds.loaded lp lq (o_d s1)).
    { destruct D as [(Ds & _ & Hn & _)|(c' & r' & Dl & Dc & De & _ & Dt & _ & _)]; [split; [exact Hn|rewrite Ds; exact Hl]|].
      destruct (DenseBounds.dexec_grown nk key_of hash keq rep lp lq H1 H2 H3 (ov_d v) _ _ c' r' m W Hv Dc (like_load _ _ _ _ Dl Hlc) Hl Hm (owithin_demand _ _ _ _ _ _ _ Hm Hw Dl) De) as (G1 & _ & _ & Hx).
      split; [|exact G1]. intros Hrt. apply Dt in Hrt. destruct (Hx Hrt) as [Hy|(b & Hy & Hz)]; [lia|]. specialize (L2 b Hy). lia. }
    destruct G as (Hnt & Hl1). assert (W1 : dwf (o_d s1)) by (apply (did_wf _ _ _ _ _ _ W Hv D); intros (_ & hs3 & He & _); rewrite Ex in He; injection He as _ He; exact (Hnt He)).
    intros [He|Hin]; [exact (Hnt He)|]. refine (IH h1 s1 h2 s2 rs2 T1 W1 Hh' Hlo' Hl1 (owithin_cons _ _ _ _ _ _ _ Hw Ex) _ Ex0 Hin). intros v' c' Hi. apply (Hlim v' c'). right. exact Hi.
Qed.
Lemma new_dense_no_throw : forall lp lq m h0 a hist h s rs, 0 < lp -> 0 < lq -> 8 * lp <= 7 * lq -> 0 <= m -> h0 a = Some (0, 0) -> ohistory_ok nk hist -> Forall (fun vc => oload_ok lp lq (snd vc)) hist ->
  owithin m (h0, o_new a) hist -> (forall v c, In (v, c) hist -> nodes_for m <= dv_dlim (ov_d v) /\ forall b, buckets_for lp lq m b -> b <= dv_slim (ov_d v)) ->
  orun (h0, o_new a) hist = Ok ((h, s), rs) -> ~ In QThrow rs.
Proof.
  intros lp lq m h0 a hist h s rs H1 H2 H3 Hm Ha Hh Hl Hw Hlim Hr.
  refine (orun_no_throw lp lq m H1 H2 (DenseBounds.below_three lp lq H1 H2 H3) Hm hist h0 (o_new a) h s rs (new_dtied _ _ Ha) (new_dwf a) Hh Hl _ Hw Hlim Hr). apply (DenseBounds.empty_loaded lp lq H3).
Qed.
End Bounds.
