(** What ordered sparse and stable containers do to their slots: every call of a program,
    whatever state its links are in. *)
From Coq Require Import ZArith List Bool Lia.
From Verif Require Import Base BaseLemmas OrderedLinks Bits BitsProofs SwissModel SwissArith SwissCap SwissInv SwissOps SwissIter
  SwissRoom MapSpec SwissRun SwissRefine LinkModel SwissOrderedSpec SwissOrdered SwissOrderedRun SlotsSpec SlotsModel SlotsProofs BoundsSpec SwissBounds PlaceSpec CostSpec SwissCost SwissFinal SlotsCost.
Import ListNotations.
Open Scope Z_scope.

Section Bounds.
Context {E K : Type}.
Variable f : simd.
Variable sz : Z.
Variable key_of : E -> K.
Variable hash : K -> Z.
Variable keq : K -> K -> bool.
Hypothesis Hsz : 0 < sz.
Hypothesis KL : key_laws hash keq.
Variable rep : E -> E -> E.
Hypothesis Rep : forall a b, keq (key_of a) (key_of b) = true -> key_of (rep a b) = key_of a.
Notation swiss := (@swiss E).
Notation oswiss := (oswiss E).
Notation wf := (wf f key_of hash keq).
Notation exec := (exec f key_of hash keq rep).
Notation run := (run f key_of hash keq rep).
Notation zexec := (zexec f sz key_of hash keq rep).
Notation zrun := (zrun f sz key_of hash keq rep).
Notation tied0 := (tied0 f sz key_of hash keq).

Ltac ok H := match type of H with
  | bind ?m _ = Ok _ => let x := fresh "x" in let Ex := fresh "Ex" in destruct m as [x|] eqn:Ex; [cbn [bind] in H|discriminate H]
  end.
Ltac oks H := repeat ok H.

(** ** Erasures. *)
Definition fewer (h : heap) (s : oswiss) (h' : heap) (s' : oswiss) : Prop :=
  tied0 h' s' /\ s_cap (os_t s') = s_cap (os_t s) /\ s_nempty (os_t s') = s_nempty (os_t s) /\ s_size (os_t s') <= s_size (os_t s).
Lemma fewer_refl : forall h s, tied0 h s -> fewer h s h s. Proof. intros h s T. split; [exact T|]. split; [reflexivity|]. split; [reflexivity|lia]. Qed.
Lemma fewer_trans : forall h s h1 s1 h2 s2, fewer h s h1 s1 -> fewer h1 s1 h2 s2 -> fewer h s h2 s2.
Proof. intros h s h1 s1 h2 s2 (_ & A & B & C) (T & A' & B' & C'). split; [exact T|]. split; [congruence|]. split; [congruence|lia]. Qed.

Lemma do_erase_fewer : forall h s p h1 s1 a, tied0 h s -> s_do_erase f sz h s p = Ok (h1, s1, a) -> fewer h s h1 s1.
Proof.
  intros h s p h1 s1 a T H. unfold s_do_erase, s_erase_node in H. destruct (erase_node f (os_t s) p) as [t1|] eqn:Et; [|discriminate H]. cbn [bind] in H.
  destruct (next_link h (sslot sz s p)) as [n|]; [|discriminate H]. cbn [bind] in H. destruct (unlink h (sslot sz s p)) as [h2|] eqn:Eu; [|discriminate H]. cbn [bind with_t os_t] in H.
  destruct (kill_node t1 p) as [t2|] eqn:Ek; [|discriminate H]. cbn [bind] in H. injection H as <- <- _.
  assert (Hn : exists n0, s_nodes (os_t s) p = Some n0 /\ 0 <= p < s_cap (os_t s)).
  { assert (A : s_nodes t1 = s_nodes (os_t s) /\ s_cap t1 = s_cap (os_t s)).
    { unfold erase_node in Et. oks Et. injection Et as <-. cbn [set_size s_cap s_nodes]. match goal with X : set_metadata _ _ _ _ = Ok _ |- _ => apply (setm_inv _ _ _ _ _ X) end. }
    destruct A as (A & B). unfold kill_node in Ek. ok Ek. unfold get_node in Ex. ok Ex. unfold guard in Ex. destruct (Z.leb_spec 0 p), (Z.ltb_spec p (s_cap t1)); cbn [andb bind] in Ex; try discriminate Ex.
    rewrite A in Ex. destruct (s_nodes (os_t s) p) as [n0|]; [|discriminate Ex]. exists n0. split; [reflexivity|lia]. }
  destruct Hn as (n0 & Hn & Hp). destruct T as (W & Ha & Hb). destruct W as [W0|W1]; [pose proof (w0_cap _ W0); lia|].
  destruct (erase_core f key_of hash keq KL _ _ _ W1 Hn) as (_ & u1 & u2 & E1 & E2 & _ & _ & _ & _ & _ & W2 & C2 & _ & _ & _ & _ & _ & S2 & N2). rewrite Et in E1. injection E1 as <-. rewrite Ek in E2. injection E2 as <-.
  unfold fewer, SlotsProofs.tied0. cbn [with_t os_t os_hdr os_base]. split; [|split; [exact C2|]; split; [exact N2|lia]].
  split; [right; exact W2|]. rewrite C2. split; [apply (unlink_has _ _ _ _ Eu Ha)|exact Hb].
Qed.
Lemma erase_at_fewer : forall h s a h1 s1 b, tied0 h s -> s_erase_at f sz h s a = Ok (h1, s1, b) -> fewer h s h1 s1.
Proof.
  intros h s a h1 s1 b T H. unfold s_erase_at in H. destruct (a =? os_hdr s).
  - injection H as <- <- _. apply fewer_refl. exact T.
  - ok H. apply (do_erase_fewer _ _ _ _ _ _ T H).
Qed.
Lemma erase_range_fewer : forall fu h s a b r h1 s1 q, tied0 h s -> s_erase_range_loop f sz fu h s a b r = Ok (h1, s1, q) -> fewer h s h1 s1.
Proof.
  induction fu as [|fu IH]; intros h s a b r h1 s1 q T H; cbn [s_erase_range_loop] in H; [discriminate H|]. destruct (b =? a).
  - injection H as <- <- _. apply fewer_refl. exact T.
  - ok H. ok H. destruct x0 as ((h2, s2), r2). pose proof (erase_at_fewer _ _ _ _ _ _ T Ex0) as F. apply (fewer_trans _ _ _ _ _ _ F). apply (IH _ _ _ _ _ _ _ _ (proj1 F) H).
Qed.
Lemma erase_if_fewer : forall fu pred h s i c h1 s1 n, tied0 h s -> s_erase_if_loop f sz fu pred h s i c = Ok (h1, s1, n) -> fewer h s h1 s1.
Proof.
  induction fu as [|fu IH]; intros pred h s i c h1 s1 n T H; cbn [s_erase_if_loop] in H; [discriminate H|]. destruct (i =? os_hdr s).
  - injection H as <- <- _. apply fewer_refl. exact T.
  - ok H. ok H. destruct (pred (fst x0)).
    + ok H. destruct x1 as ((h2, s2), r2). pose proof (erase_at_fewer _ _ _ _ _ _ T Ex1) as F. apply (fewer_trans _ _ _ _ _ _ F). apply (IH _ _ _ _ _ _ _ _ (proj1 F) H).
    + ok H. apply (IH _ _ _ _ _ _ _ _ T H).
Qed.

(** ** One call: an unordered table takes the same step, or slots are given up. *)
Lemma zstep_table : forall v h s c h' s' r, tied0 h s -> env_ok (sv_e v) -> zcall_ok c -> zexec v (h, s) c = Ok (h', s', r) ->
  tied0 h' s' /\
  ((exists c' r', plain c = Some [c'] /\ call_ok c' /\ exec (sv_e v) (os_t s) c' = Ok (os_t s', r') /\ agrees r r') \/
   (adds r = false /\ zmoved f key_of hash keq v s c = 0 /\ fewer h s h' s')).
Proof.
  intros v h s c h' s' r T Hv Hc H. destruct (plain c) as [[|c' [|? ?]]|] eqn:Hp.
  - destruct (reads_same _ _ _ _ _ _ _ _ _ _ Hp _ _ _ H) as (-> & ->). split; [exact T|]. right. split; [|split; [destruct c; try discriminate Hp; reflexivity|apply fewer_refl; exact T]].
    destruct c; try discriminate Hp; cbn [SwissOrderedRun.zexec] in H; ok H; injection H as <-; reflexivity.
  - assert (Hc' : call_ok c') by (destruct c; try discriminate Hp; injection Hp as <-; exact Hc).
    destruct (step_same f sz key_of hash keq Hsz KL rep Rep v h s c T Hv Hc c' Hp h' s' r H) as [(r' & Hx & Ha & T')|(Hn & Hx)].
    + split; [exact T'|]. left. exists c', r'. auto.
    + (* the unordered table would go on to the next element *)
      assert (Hk : exists k, c = ZErase k).
      { destruct (exec_ok f key_of hash keq KL rep Rep (sv_e v) (os_t s) c' (proj1 T) Hv Hc') as [(t1 & r1 & Hx1 & _)|(_ & Hs & _)]; [rewrite Hx in Hx1; discriminate|].
        destruct c; try discriminate Hp; injection Hp as <-; cbn [scanning] in Hs; try contradiction; eauto. }
      destruct Hk as (k & ->). cbn [SwissOrderedRun.zexec] in H. ok H. destruct x as (((h2, s2), a2), b2). unfold z_erased in H. cbn [fst snd] in H. ok H. injection H as <- <- <-. unfold s_erase_key in Ex. ok Ex.
      assert (F : fewer h s h2 s2).
      { destruct (x0 =? s_cap (os_t s)).
        - injection Ex as <- <- _ _. apply fewer_refl. exact T.
        - ok Ex. destruct x1 as ((h3, s3), a3). injection Ex as <- <- _ _. apply (do_erase_fewer _ _ _ _ _ _ T Ex2). }
      split; [apply F|]. right. split; [reflexivity|]. split; [reflexivity|exact F].
  - destruct c; discriminate Hp.
  - destruct c; try discriminate Hp; cbn [SwissOrderedRun.zexec] in H.
    + ok H. ok H. destruct x0 as ((h2, s2), a2). unfold z_erased in H. ok H. injection H as <- <- <-. pose proof (erase_at_fewer _ _ _ _ _ _ T Ex0) as F.
      split; [apply F|]. right. split; [reflexivity|]. split; [reflexivity|exact F].
    + ok H. ok H. ok H. destruct x1 as ((h2, s2), a2). unfold z_erased in H. ok H. injection H as <- <- <-. unfold s_erase_range in Ex1. pose proof (erase_range_fewer _ _ _ _ _ _ _ _ _ T Ex1) as F.
      split; [apply F|]. right. split; [reflexivity|]. split; [reflexivity|exact F].
    + ok H. destruct x as ((h2, s2), a2). cbn [fst snd] in H. injection H as <- <- <-. unfold s_erase_if in Ex. ok Ex. pose proof (erase_if_fewer _ _ _ _ _ _ _ _ _ T Ex) as F.
      split; [apply F|]. right. split; [reflexivity|]. split; [reflexivity|exact F].
Qed.

(** ** Programs. *)
Notation zwithin := (zwithin f sz key_of hash keq rep).
Notation zmoved := (zmoved f key_of hash keq).
Notation zmoved_by := (zmoved_by f sz key_of hash keq rep).
Notation slots := (BoundsSpec.slots f).

Lemma zrun_tied : forall hist h s h' s' rs, tied0 h s -> zhistory_ok hist -> zrun (h, s) hist = Ok ((h', s'), rs) -> tied0 h' s'.
Proof.
  induction hist as [|[v c] hist IH]; intros h s h' s' rs T Hh H; cbn [SwissOrderedRun.zrun] in H.
  - injection H as <- <- _. exact T.
  - inversion Hh as [|? ? [Hv Hc] Hh']; subst. cbn [fst snd] in *. ok H. destruct x as ((h1, s1), r). ok H. destruct x as ((h2, s2), rs2). injection H as <- <- _.
    destruct (zstep_table _ _ _ _ _ _ _ T Hv Hc Ex) as (T1 & _). apply (IH _ _ _ _ _ T1 Hh' Ex0).
Qed.

Lemma zwithin_cons : forall m hs v c h hs1 r, zwithin m hs ((v, c) :: h) -> zexec v hs c = Ok (hs1, r) -> zwithin m hs1 h.
Proof.
  intros m hs v c h hs1 r [Ha Hb] E0. split.
  - intros h1 h2 t rs -> E1. apply (Ha ((v, c) :: h1) h2 t (r :: rs)); [reflexivity|].
    cbn [SwissOrderedRun.zrun]. rewrite E0. cbn [bind]. rewrite E1. reflexivity.
  - intros v' n Hin. apply (Hb v' n). destruct Hin; [left|right]; right; assumption.
Qed.
Lemma zwithin_demand : forall m hs v c h, 0 <= m -> zwithin m hs ((v, c) :: h) -> zdemand (s_size (os_t (snd hs))) c <= m.
Proof.
  intros m hs v c h Hm [Ha Hb]. pose proof (Ha [] ((v, c) :: h) hs [] eq_refl eq_refl) as Hs. unfold size in Hs.
  destruct c; cbn [zdemand]; try lia.
  - apply (Hb v n). left. left. reflexivity.
  - apply (Hb v n). right. left. reflexivity.
Qed.
Lemma demand_same : forall n (c : zcall E K) c', plain c = Some [c'] -> demand n c' = zdemand n c.
Proof. intros n c c' H. destruct c; try discriminate H; injection H as <-; reflexivity. Qed.
Lemma zexec_caps : forall v h s c h' s' r, tied0 h s -> env_ok (sv_e v) -> zcall_ok c -> zexec v (h, s) c = Ok (h', s', r) ->
  s_cap (os_t s') <= Z.max (s_cap (os_t s)) (slots (zdemand (s_size (os_t s)) c)) /\
  (r = RThrow -> ev_ctor (sv_e v) = false \/ ev_lim (sv_e v) < slots (zdemand (s_size (os_t s)) c)).
Proof.
  intros v h s c h' s' r T Hv Hc H. destruct (zstep_table _ _ _ _ _ _ _ T Hv Hc H) as (_ & [(c' & r' & Hp & Hc' & Hx & Ha)|(Hr & _ & _ & Hcap & _)]).
  - destruct (exec_caps f key_of hash keq KL rep Rep _ _ _ _ _ (proj1 T) Hv Hc' Hx) as (A & B). rewrite (demand_same _ _ _ Hp) in A, B. split; [exact A|].
    intros ->. cbn [agrees] in Ha. destruct (B (eq_sym Ha)) as [(_ & X)|X]; auto.
  - split; [lia|]. intros ->. discriminate Hr.
Qed.
Lemma zrun_caps : forall m hist h s h' s' rs, 0 <= m -> tied0 h s -> zhistory_ok hist -> zwithin m (h, s) hist -> zrun (h, s) hist = Ok ((h', s'), rs) ->
  s_cap (os_t s') <= Z.max (s_cap (os_t s)) (slots m).
Proof.
  intros m. induction hist as [|[v c] hist IH]; intros h s h' s' rs Hm T Hh Hw H; cbn [SwissOrderedRun.zrun] in H.
  - injection H as <- <- _. lia.
  - inversion Hh as [|? ? [Hv Hc] Hh']; subst. cbn [fst snd] in *. ok H. destruct x as ((h1, s1), r). ok H. destruct x as ((h2, s2), rs2). injection H as <- <- _.
    destruct (zstep_table _ _ _ _ _ _ _ T Hv Hc Ex) as (T1 & _). pose proof (IH _ _ _ _ _ Hm T1 Hh' (zwithin_cons _ _ _ _ _ _ _ Hw Ex) Ex0).
    destruct (zexec_caps _ _ _ _ _ _ _ T Hv Hc Ex) as [Hcap _]. pose proof (slots_mono f _ _ (zwithin_demand _ _ _ _ _ Hm Hw)). cbn [snd] in *. lia.
Qed.
Lemma zrun_no_throw : forall m hist h s h' s' rs, 0 <= m -> tied0 h s -> zhistory_ok hist -> zwithin m (h, s) hist ->
  (forall v c, In (v, c) hist -> ev_ctor (sv_e v) = true /\ slots m <= ev_lim (sv_e v)) -> zrun (h, s) hist = Ok ((h', s'), rs) -> ~ In RThrow rs.
Proof.
  intros m. induction hist as [|[v c] hist IH]; intros h s h' s' rs Hm T Hh Hw Hl H; cbn [SwissOrderedRun.zrun] in H.
  - injection H as _ _ <-. intros [].
  - inversion Hh as [|? ? [Hv Hc] Hh']; subst. cbn [fst snd] in *. ok H. destruct x as ((h1, s1), r). ok H. destruct x as ((h2, s2), rs2). injection H as <- <- <-.
    destruct (zstep_table _ _ _ _ _ _ _ T Hv Hc Ex) as (T1 & _). intros [->|Hin].
    + destruct (zexec_caps _ _ _ _ _ _ _ T Hv Hc Ex) as [_ Ht]. destruct (Hl v c (or_introl eq_refl)) as [Hok Hlim].
      pose proof (slots_mono f _ _ (zwithin_demand _ _ _ _ _ Hm Hw)). cbn [snd] in *. destruct (Ht eq_refl) as [Hf|Hf]; [congruence|lia].
    + revert Hin. apply (IH h1 s1 h2 s2 rs2 Hm T1 Hh' (zwithin_cons _ _ _ _ _ _ _ Hw Ex)); [|exact Ex0]. intros v' c' Hin. apply (Hl v' c'). right. exact Hin.
Qed.

(** The cost of a program. *)
Lemma moved_same : forall v (s : oswiss) (c : zcall E K) c', plain c = Some [c'] -> moved f key_of hash keq (sv_e v) (os_t s) c' = zmoved v s c.
Proof. intros v s c c' H. destruct c; try discriminate H; injection H as <-; reflexivity. Qed.
Lemma agrees_adds : forall (r r' : ret E), agrees r r' -> adds r = adds r'.
Proof. intros r r' H. destruct r; cbn [agrees] in H; try (subst r'; reflexivity). destruct r'; try discriminate H. reflexivity. Qed.
Lemma zexec_credit : forall v h s c h' s' r, tied0 h s -> env_ok (sv_e v) -> zcall_ok c -> zsteady c -> zexec v (h, s) c = Ok (h', s', r) ->
  zmoved v s c + credit f (os_t s') <= credit f (os_t s) + 17 * (if adds r then 1 else 0) /\
  s_size (os_t s') <= s_size (os_t s) + (if adds r then 1 else 0).
Proof.
  intros v h s c h' s' r T Hv Hc Hs H. destruct (zstep_table _ _ _ _ _ _ _ T Hv Hc H) as (T1 & [(c' & r' & Hp & Hc' & Hx & Ha)|(Hr & Hm & _ & Hcap & Hne & Hsize)]).
  - assert (Hs' : steady c') by (destruct c; try discriminate Hp; injection Hp as <-; exact Hs).
    pose proof (exec_credit f key_of hash keq KL rep Rep _ _ _ _ _ (proj1 T) Hv Hc' Hx Hs') as A. rewrite (moved_same _ _ _ _ Hp), <- (agrees_adds _ _ Ha) in A. split; [exact A|].
    destruct (exec_ok f key_of hash keq KL rep Rep (sv_e v) (os_t s) c' (proj1 T) Hv Hc') as [(t1 & r1 & Hx1 & Hk & Hsp)|(_ & _ & Hx1)]; rewrite Hx in Hx1; [|discriminate Hx1]. injection Hx1 as <- <-.
    apply (step_len key_of keq rep Rep) in Hsp. rewrite <- (agrees_adds _ _ Ha) in Hsp. pose proof (wf_size f key_of hash keq _ (proj1 T)) as [Hz _]. pose proof (wf_size f key_of hash keq _ (proj1 Hk)) as [Hz1 _]. lia.
  - rewrite Hr, Hm. unfold credit. rewrite Hcap, Hne. destruct (s_cap (os_t s) =? 0); lia.
Qed.
Lemma additions_cons : forall (r : ret E) rs, additions (r :: rs) = (if adds r then 1 else 0) + additions rs.
Proof. intros r rs. unfold additions. cbn [filter]. destruct (adds r); cbn [length]; lia. Qed.
Lemma zrun_credit : forall hist h s h' s' rs, tied0 h s -> zhistory_ok hist -> Forall (fun vc => zsteady (snd vc)) hist -> zrun (h, s) hist = Ok ((h', s'), rs) ->
  zmoved_by (h, s) hist + credit f (os_t s') <= credit f (os_t s) + 17 * additions rs.
Proof.
  induction hist as [|[v c] hist IH]; intros h s h' s' rs T Hh Hst H; cbn [SwissOrderedRun.zrun SlotsCost.zmoved_by] in *.
  - injection H as <- <- <-. cbn. lia.
  - inversion Hh as [|? ? [Hv Hc] Hh']; subst. inversion Hst as [|? ? Hs0 Hst']; subst. cbn [fst snd] in *. ok H. destruct x as ((h1, s1), r). ok H. destruct x as ((h2, s2), rs2). injection H as <- <- <-.
    destruct (zstep_table _ _ _ _ _ _ _ T Hv Hc Ex) as (T1 & _). destruct (zexec_credit _ _ _ _ _ _ _ T Hv Hc Hs0 Ex) as (A & _). pose proof (IH _ _ _ _ _ T1 Hh' Hst' Ex0). rewrite additions_cons. lia.
Qed.
Lemma zrun_slots : forall hist h s h' s' rs, tied0 h s -> zhistory_ok hist -> Forall (fun vc => zsteady (snd vc)) hist -> zrun (h, s) hist = Ok ((h', s'), rs) ->
  s_cap (os_t s') <= Z.max (s_cap (os_t s)) (slots (s_size (os_t s) + additions rs)).
Proof.
  induction hist as [|[v c] hist IH]; intros h s h' s' rs T Hh Hst H; cbn [SwissOrderedRun.zrun] in *.
  - injection H as <- <- <-. lia.
  - inversion Hh as [|? ? [Hv Hc] Hh']; subst. inversion Hst as [|? ? Hs0 Hst']; subst. cbn [fst snd] in *. ok H. destruct x as ((h1, s1), r). ok H. destruct x as ((h2, s2), rs2). injection H as <- <- <-.
    destruct (zstep_table _ _ _ _ _ _ _ T Hv Hc Ex) as (T1 & _). destruct (zexec_credit _ _ _ _ _ _ _ T Hv Hc Hs0 Ex) as (_ & A). destruct (zexec_caps _ _ _ _ _ _ _ T Hv Hc Ex) as [B _].
    pose proof (IH _ _ _ _ _ T1 Hh' Hst' Ex0). rewrite additions_cons. assert (Hpos : 0 <= additions rs2) by (unfold additions; lia). pose proof (wf_size f key_of hash keq _ (proj1 T)) as [Hz _].
    assert (Hd : zdemand (s_size (os_t s)) c <= s_size (os_t s)) by (destruct c; cbn [zdemand zsteady] in *; try contradiction; lia).
    unfold BoundsSpec.slots in *. destruct (adds r); lia.
Qed.

(** From the constructor on. *)
Lemma new_run_wf : forall (h0 : heap) a hist h s rs, h0 a = Some (0, 0) -> zhistory_ok hist -> zrun (h0, s_new a) hist = Ok ((h, s), rs) -> wf (os_t s).
Proof. intros h0 a hist h s rs H0 Hh H. exact (proj1 (zrun_tied _ _ _ _ _ _ (new_tied0 f sz key_of hash keq Hsz h0 a H0) Hh H)). Qed.
Lemma new_run_caps : forall (h0 : heap) a m hist h s rs, h0 a = Some (0, 0) -> 0 <= m -> zhistory_ok hist -> zwithin m (h0, s_new a) hist ->
  zrun (h0, s_new a) hist = Ok ((h, s), rs) -> bucket_count (os_t s) <= slots m.
Proof.
  intros h0 a m hist h s rs H0 Hm Hh Hw H. pose proof (zrun_caps _ _ _ _ _ _ _ Hm (new_tied0 f sz key_of hash keq Hsz h0 a H0) Hh Hw H) as A.
  cbn [s_new os_t empty_swiss s_cap] in A. unfold bucket_count. unfold BoundsSpec.slots in *. pose proof (W_cases f). lia.
Qed.
Lemma new_run_no_throw : forall (h0 : heap) a m hist h s rs, h0 a = Some (0, 0) -> 0 <= m -> zhistory_ok hist -> zwithin m (h0, s_new a) hist ->
  (forall v c, In (v, c) hist -> ev_ctor (sv_e v) = true /\ slots m <= ev_lim (sv_e v)) -> zrun (h0, s_new a) hist = Ok ((h, s), rs) -> ~ In RThrow rs.
Proof. intros h0 a m hist h s rs H0 Hm Hh Hw Hl H. exact (zrun_no_throw _ _ _ _ _ _ _ Hm (new_tied0 f sz key_of hash keq Hsz h0 a H0) Hh Hw Hl H). Qed.
Lemma new_run_cost : forall (h0 : heap) a hist h s rs, h0 a = Some (0, 0) -> zhistory_ok hist -> Forall (fun vc => zsteady (snd vc)) hist ->
  zrun (h0, s_new a) hist = Ok ((h, s), rs) -> zmoved_by (h0, s_new a) hist <= 20 * additions rs + 31.
Proof.
  intros h0 a hist h s rs H0 Hh Hst H. pose proof (new_tied0 f sz key_of hash keq Hsz h0 a H0) as T.
  pose proof (zrun_credit _ _ _ _ _ _ T Hh Hst H) as A. pose proof (zrun_slots _ _ _ _ _ _ T Hh Hst H) as B. pose proof (credit_bounds f key_of hash keq _ (proj1 (zrun_tied _ _ _ _ _ _ T Hh H))) as C.
  unfold BoundsSpec.slots in B. cbn [s_new os_t empty_swiss s_cap s_size credit] in *. unfold credit in A at 2. cbn [empty_swiss s_cap Z.eqb] in A. pose proof (W_cases f). assert (0 <= additions rs) by (unfold additions; lia). lia.
Qed.
Lemma wf_load : forall (s : swiss), wf s -> size s <= capacity f s <= bucket_count s /\
  (15 <= bucket_count s ->
   cnt (fun i => negb (s_meta s i =? m_empty)) (bucket_count s) <= capacity f s /\ capacity f s < bucket_count s /\
   8 * capacity f s <= 7 * (bucket_count s + 1)).
Proof.
  intros s H. destruct H as [H|H]; [|exact (load_bound f key_of hash keq s (inv_wf1 f key_of hash keq s H))].
  pose proof (wf_size f key_of hash keq s (or_introl H)) as [_ Hb]. pose proof (w0_cap _ H). unfold size, capacity, bucket_count. pose proof (max_size_bounds f (s_cap s) ltac:(lia)). split; [|intros; exfalso]; lia.
Qed.
End Bounds.
