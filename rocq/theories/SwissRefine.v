(** Every call on a well-formed table does what the specification says. *)
From Coq Require Import ZArith List Bool Lia Permutation.
From Coq Require Import ZifyBool ZifyNat.
From Verif Require Import Base BaseLemmas Bits BitsProofs SwissModel SwissArith SwissCap SwissInv SwissOps SwissClean
  SwissIter SwissRoom MapSpec SwissRun.
Import ListNotations.
Open Scope Z_scope.

Section Refine.
Context {E K : Type}.
Variable f : simd.
Variable key_of : E -> K.
Variable hash : K -> Z.
Variable keq : K -> K -> bool.
Local Notation swiss := (@swiss E).
Local Notation wf1 := (wf1 f key_of hash keq).
Local Notation wf := (wf f key_of hash keq).

Hypothesis KL : key_laws hash keq.

(** Tables without slots have no spare slots. *)
Definition inv (s : swiss) : Prop := wf s /\ (s_cap s = 0 -> s_nempty s = 0).

Lemma empty_inv : inv empty_swiss.
Proof.
  split; [|reflexivity]. left. constructor; cbn [empty_swiss s_cap s_size s_nodes s_buf s_nempty]; try reflexivity; [left; reflexivity|lia].
Qed.

Lemma inv_wf1 : forall s, wf1 s -> inv s.
Proof. intros s H. split; [right; exact H|]. pose proof (cap_bounds f s (w_m _ _ _ _ s H)). lia. Qed.

(** What a call keeps. *)
Definition kept (s s' : swiss) : Prop := wf s' /\ (inv s -> inv s').
Lemma kept_refl : forall s, wf s -> kept s s.
Proof. intros s H. split; auto. Qed.
Lemma kept_wf1 : forall s s', wf1 s' -> kept s s'.
Proof. intros s s' H. split; [right; exact H|]. intros _. apply inv_wf1. exact H. Qed.

(** Lookup, in terms of the element list. *)
Lemma find_located : forall s k, wf s -> exists r, find_node f key_of keq s k (hash k) = Ok r /\
  ((exists e h, wf1 s /\ 0 <= r < s_cap s /\ s_nodes s r = Some (e, h) /\ get_node s r = Ok (e, h) /\ is_available (s_meta s r) = false /\
     located key_of keq k (elems s) (map fst (collect (s_nodes s) r)) e (map fst (rest (s_nodes s) (r + 1) (s_cap s)))) \/
   (r = s_cap s /\ absent key_of keq k (elems s))).
Proof.
  intros s k H. destruct (find_node_wf f key_of hash keq KL s k H) as (r & Er & Hr). exists r. split; [exact Er|].
  destruct Hr as [(Hr & e & h & En & Ek)|Hr]; [left|right; exact Hr].
  destruct (wf_some f key_of hash keq s r (e, h) H En) as [W1 _].
  exists e, h. split; [exact W1|]. split; [exact Hr|]. split; [exact En|].
  split; [apply get_node_ok; ((apply (mw_buf f s (w_m _ _ _ _ s W1))) || lia || exact En)|].
  split; [apply (some_unavail key_of hash s r (e, h) (w_n _ _ _ _ s W1) En)|].
  split; [|exact Ek]. apply (elems_at s r (e, h) Hr En).
Qed.

Lemma emplace_given : forall v s e, wf s -> env_ok v -> absent key_of keq (key_of e) (elems s) ->
  exists s' o r, emplace_node f (ev_lim v) (ev_ctor v) s (hash (key_of e)) e = Ok (s', o) /\
    give_inserted f (s', match o with None => None | Some (q, tr) => Some (q, true, tr) end) = Ok (s', r) /\
    wf s' /\ (inv s -> inv s') /\
    ((r = RInserted e true /\ Permutation (elems s') (e :: elems s)) \/ (r = RThrow /\ Permutation (elems s') (elems s))).
Proof.
  intros v s e H Hv Habs.
  destruct (emplace_ok f key_of hash keq KL (ev_lim v) (ev_ctor v) s e H Hv Habs) as (s' & o & -> & Ho & Hs & _). exists s', o.
  destruct o as [[p tr]|].
  - destruct Ho as (W' & P' & _ & s1 & _ & _ & C1 & _ & _ & Hp & N'). unfold give_inserted.
    pose proof (w_m _ _ _ _ s' W') as M. pose proof (w_n _ _ _ _ s' W') as N.
    assert (En : s_nodes s' p = Some (e, hash (key_of e))) by (rewrite N'; apply upd_same).
    destruct (some_unavail key_of hash s' p _ N En) as [Ha Hp'].
    rewrite to_iter_here by (auto; lia). cbn [bind]. rewrite (get_node_ok s' p _ (mw_buf f s' M) Hp' En). cbn [bind fst].
    eexists. split; [reflexivity|]. split; [reflexivity|]. split; [right; exact W'|]. split; [intros _; apply inv_wf1; exact W'|].
    left. auto.
  - destruct Ho as (W' & P'). cbn [give_inserted]. eexists. split; [reflexivity|]. split; [reflexivity|]. split; [exact W'|].
    split; [|right; auto]. intros Hi. destruct (Hs eq_refl) as [->|[_ W1]]; [exact Hi|apply inv_wf1; exact W1].
Qed.

Variable rep : E -> E -> E.
Hypothesis Hrep : forall a b, keq (key_of a) (key_of b) = true -> key_of (rep a b) = key_of a.
Local Notation step := (spec_step key_of keq rep).
Local Notation exec := (exec f key_of hash keq rep).
Local Notation run := (run f key_of hash keq rep).

Lemma resized_given : forall v s s' o n (c : call E K), wf s -> resized f key_of hash keq (ev_lim v) s s' o ->
  c = CReserve n \/ c = CRehash n ->
  exists r, give_unit (s', o) = Ok (s', r) /\ kept s s' /\ step c (elems s) (elems s') r.
Proof.
  intros v s s' o n c Hi Hr Hc. unfold give_unit. destruct o as [tr|]; cbn [resized] in Hr.
  - destruct Hr as (W' & P' & _ & _ & Hs). eexists. split; [reflexivity|]. split.
    + destruct Hs as [Hs| ->]; [|apply kept_refl; exact Hi]. split; [exact W'|]. intros _. split; [exact W'|]. intros; lia.
    + destruct Hc as [->| ->]; constructor; exact P'.
  - subst s'. eexists. split; [reflexivity|]. split; [apply kept_refl; exact Hi|]. destruct Hc as [->| ->]; constructor; apply Permutation_refl.
Qed.

Lemma exec_ok : forall v s c, wf s -> env_ok v -> call_ok c ->
  (exists s' r, exec v s c = Ok (s', r) /\ kept s s' /\ step c (elems s) (elems s') r) \/
  (narrow f /\ scanning c /\ exec v s c = Err BitScanZero).
Proof.
  intros v s c H Hv Hc. pose proof (kept_refl s H) as Hi. destruct c as [e|e|k|k|k| |n|n| |]; cbn [exec SwissRun.exec call_ok] in *.
  - left. unfold do_insert. destruct (find_located s (key_of e) H) as (r & -> & Hr). cbn [bind].
    destruct Hr as [(x & h & W1 & Hr & En & Eg & Ha & Hl)|(-> & Habs)].
    + destruct (Z.eqb_spec r (s_cap s)); [lia|]. cbn [bind give_inserted].
      rewrite to_iter_here by ((apply (w_m _ _ _ _ s W1)) || assumption || lia). cbn [bind]. rewrite Eg. cbn [bind fst].
      eexists. eexists. split; [reflexivity|]. split; [exact Hi|]. eapply sp_insert_old. exact Hl.
    + rewrite Z.eqb_refl. destruct (emplace_given v s e H Hv Habs) as (s' & o & r & -> & Eg & W' & Hi' & Hr). cbn [bind]. rewrite Eg.
      eexists. eexists. split; [reflexivity|]. split; [split; assumption|].
      destruct Hr as [(-> & P)|(-> & P)]; constructor; assumption.
  - left. unfold do_insert_or_assign. destruct (find_located s (key_of e) H) as (r & -> & Hr). cbn [bind].
    destruct Hr as [(x & h & W1 & Hr & En & Eg & Ha & Hl)|(-> & Habs)].
    + destruct (Z.eqb_spec r (s_cap s)); [lia|]. rewrite Eg. cbn [bind give_inserted fst snd].
      assert (Ek : key_of (rep x e) = key_of x) by (apply Hrep; apply Hl).
      pose proof (replace_ok f key_of hash keq s r x h (rep x e) W1 En Ek) as W'.
      rewrite to_iter_here; [|apply (w_m _ _ _ _ _ W')|cbn [s_cap]; lia|exact Ha]. cbn [bind].
      rewrite (get_node_ok _ r (rep x e, h)); [|apply (mw_buf f s (w_m _ _ _ _ s W1))|cbn [s_cap]; lia|cbn [s_nodes]; apply upd_same].
      cbn [bind fst]. eexists. eexists. split; [reflexivity|]. split; [apply kept_wf1; exact W'|].
      unfold elems at 2. cbn [s_nodes s_cap]. rewrite collect_upd_some by exact Hr. rewrite map_app. cbn [map fst].
      eapply sp_assign_old. exact Hl.
    + rewrite Z.eqb_refl. destruct (emplace_given v s e H Hv Habs) as (s' & o & r & -> & Eg & W' & Hi' & Hr). cbn [bind]. rewrite Eg.
      eexists. eexists. split; [reflexivity|]. split; [split; assumption|].
      destruct Hr as [(-> & P)|(-> & P)]; constructor; assumption.
  - unfold erase_key. destruct (find_located s k H) as (r & -> & Hr). cbn [bind].
    destruct Hr as [(x & h & W1 & Hr & En & Eg & Ha & Hl)|(-> & Habs)].
    + destruct (Z.eqb_spec r (s_cap s)); [lia|].
      destruct (do_erase_ok f key_of hash keq KL s r (x, h) W1 En) as [([s' q] & -> & W' & C' & N' & S' & _ & Hq & Hst & _)|(Hn & ->)];
        [|right; cbn [scanning bind]; auto].
      left. cbn [bind]. unfold deref. rewrite (end_iter_ok f key_of hash keq s' (or_intror W')). cbn [bind].
      pose proof (w_m _ _ _ _ s' W') as M'. pose proof (w_n _ _ _ _ s' W') as Nc'.
      destruct (erase_elems s s' r (x, h) Hr C' N' En) as (Ee & Ee' & Er'). cbn [fst] in Ee.
      assert (Hstep : step (CErase k) (elems s) (elems s') (RErased (hd_error (map fst (rest (s_nodes s) (r + 1) (s_cap s)))) true)).
      { rewrite Ee'. apply sp_erase with (x := x). exact Hl. }
      destruct (stop_head f key_of hash s' (r + 1) q M' Nc' ltac:(lia) Hst) as [(-> & Hnil)|(Hlt & m & Em & Egm & Hhd)].
      * rewrite Z.eqb_refl. cbn [bind]. eexists. eexists. split; [reflexivity|]. split; [apply kept_wf1; exact W'|].
        rewrite Er' in Hnil. rewrite Hnil in Hstep. exact Hstep.
      * destruct (Z.eqb_spec q (s_cap s')); [lia|]. rewrite Egm. cbn [bind]. eexists. eexists. split; [reflexivity|].
        split; [apply kept_wf1; exact W'|]. rewrite Er' in Hhd. rewrite Hhd in Hstep. exact Hstep.
    + left. rewrite Z.eqb_refl. rewrite (end_iter_ok f key_of hash keq s H). cbn [bind]. unfold deref.
      rewrite (end_iter_ok f key_of hash keq s H). cbn [bind]. rewrite Z.eqb_refl. cbn [bind].
      eexists. eexists. split; [reflexivity|]. split; [exact Hi|]. constructor. exact Habs.
  - left. unfold find. destruct (find_located s k H) as (r & -> & Hr). cbn [bind].
    destruct Hr as [(x & h & W1 & Hr & En & Eg & Ha & Hl)|(-> & Habs)].
    + rewrite to_iter_here by ((apply (w_m _ _ _ _ s W1)) || assumption || lia). cbn [bind].
      rewrite (end_iter_ok f key_of hash keq s H). cbn [bind]. destruct (Z.eqb_spec r (s_cap s)); [lia|].
      rewrite Eg. cbn [bind fst]. eexists. eexists. split; [reflexivity|]. split; [exact Hi|]. eapply sp_find. exact Hl.
    + fold (end_iter f s). rewrite (end_iter_ok f key_of hash keq s H). cbn [bind]. rewrite Z.eqb_refl. cbn [bind].
      eexists. eexists. split; [reflexivity|]. split; [exact Hi|]. constructor. exact Habs.
  - left. unfold contains. destruct (find_located s k H) as (r & -> & Hr). cbn [bind].
    destruct Hr as [(x & h & W1 & Hr & En & Eg & Ha & Hl)|(-> & Habs)].
    + destruct (Z.eqb_spec r (s_cap s)); [lia|]. cbn [negb].
      eexists. eexists. split; [reflexivity|]. split; [exact Hi|]. eapply sp_contains. exact Hl.
    + rewrite Z.eqb_refl. cbn [negb]. eexists. eexists. split; [reflexivity|]. split; [exact Hi|]. constructor. exact Habs.
  - left. destruct (clear_ok f key_of hash keq s H) as (s' & -> & W' & Ee & C' & _ & Hs0). cbn [bind].
    eexists. eexists. split; [reflexivity|]. rewrite Ee. split; [|constructor].
    split; [exact W'|]. intros [_ Hne]. split; [exact W'|]. rewrite C'. intros Hc0. rewrite (Hs0 Hc0). apply Hne. exact Hc0.
  - left. destruct (reserve_ok f key_of hash keq KL (ev_lim v) s n H Hv Hc) as (s' & o & -> & Hr & _). cbn [bind].
    destruct (resized_given v s s' o n (CReserve n) H Hr (or_introl eq_refl)) as (r & -> & Hi' & Hst). eauto.
  - left. destruct (rehash_ok f key_of hash keq KL (ev_lim v) s n H Hv) as (s' & o & -> & Hr & _); [rewrite two64_val; lia|lia|]. cbn [bind].
    destruct (resized_given v s s' o n (CRehash n) H Hr (or_intror eq_refl)) as (r & -> & Hi' & Hst). eauto.
  - left. eexists. eexists. split; [reflexivity|]. split; [exact Hi|]. unfold size.
    rewrite (proj1 (wf_size f key_of hash keq s H)). constructor.
  - destruct (iterate_elems f key_of hash keq s H) as [(l & -> & El)|(Hn & ->)]; [left|right; cbn [bind scanning]; auto].
    cbn [bind]. eexists. eexists. split; [reflexivity|]. split; [exact Hi|]. rewrite El. constructor.
Qed.

(** Whole histories. *)
Lemma run_ok : forall h s, wf s -> history_ok h ->
  (exists s' rs, run s h = Ok (s', rs) /\ kept s s' /\ spec_run key_of keq rep (map snd h) (elems s) (elems s') rs) \/
  (narrow f /\ (exists v c, In (v, c) h /\ scanning c) /\ run s h = Err BitScanZero).
Proof.
  induction h as [|[v c] h IH]; intros s Hi Hh.
  - left. exists s, []. split; [reflexivity|]. split; [apply kept_refl; exact Hi|]. constructor.
  - inversion Hh as [|? ? [Hv Hc] Hh']; subst. cbn [run SwissRun.run fst snd] in *.
    destruct (exec_ok v s c Hi Hv Hc) as [(s1 & r & -> & Hi1 & Hst)|(Hn & Hsc & ->)].
    + cbn [bind]. destruct (IH s1 (proj1 Hi1) Hh') as [(s2 & rs & -> & Hi2 & Hr)|(Hn & (v' & c' & Hin & Hsc) & ->)].
      * left. cbn [bind]. eexists. eexists. split; [reflexivity|]. split; [|econstructor; eassumption].
        split; [exact (proj1 Hi2)|]. intros Hx. exact (proj2 Hi2 (proj2 Hi1 Hx)).
      * right. split; [exact Hn|]. split; [|reflexivity]. exists v', c'. split; [right; exact Hin|exact Hsc].
    + right. split; [exact Hn|]. split; [|reflexivity]. exists v, c. split; [left; reflexivity|exact Hsc].
Qed.

Lemma run_reachable : forall h s rs, history_ok h -> run empty_swiss h = Ok (s, rs) -> inv s.
Proof.
  intros h s rs Hh E1. destruct (run_ok h empty_swiss (proj1 empty_inv) Hh) as [(s' & rs' & E2 & Hi & _)|(_ & _ & E2)].
  - rewrite E1 in E2. injection E2 as <- <-. exact (proj2 Hi empty_inv).
  - rewrite E1 in E2. discriminate.
Qed.

End Refine.
