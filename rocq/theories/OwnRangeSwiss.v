(** Own ranges: unordered sparse and stable tables. *)
From Coq Require Import ZArith List Bool Lia Permutation.
From Coq Require Import ZifyBool ZifyNat.
From Verif Require Import Base BaseLemmas Bits BitsProofs SwissModel SwissArith SwissCap MapSpec SwissInv SwissOps SwissClean SwissRoom SwissIter SwissRun SwissRefine SwissFinal World WorldProofs OwnRangeModel.
Import ListNotations.
Open Scope Z_scope.

Section Own.
Context {E K : Type}.
Variable f : simd.
Variable key_of : E -> K.
Variable hash : K -> Z.
Variable keq : K -> K -> bool.
Variable rep : E -> E -> E.
Hypothesis KL : key_laws hash keq.
Hypothesis Hrep : forall a b, keq (key_of a) (key_of b) = true -> key_of (rep a b) = key_of a.
Notation swiss := (@SwissModel.swiss E).
Notation wf := (wf f key_of hash keq).

Lemma node_in : forall (s : swiss) p n, SwissModel.get_node s p = Ok n -> wf s -> s_nodes s p = Some n /\ 0 <= p < s_cap s /\ In (fst n) (elems s).
Proof.
  intros s p n Hg W. unfold SwissModel.get_node in Hg. destruct (check_buf s); cbn [bind] in Hg; [|discriminate].
  destruct (guard _ _); cbn [bind] in Hg; [|discriminate]. destruct (s_nodes s p) as [m|] eqn:En; [|discriminate]. injection Hg as ->.
  destruct (wf_some f key_of hash keq s p n W En) as [_ Hp]. split; [reflexivity|]. split; [exact Hp|].
  rewrite (elems_at s p n Hp En). apply in_or_app. right. left. reflexivity.
Qed.

(** Insertion of an element of the table changes nothing. *)
Lemma insert_own : forall lim (s : swiss) p n, wf s -> SwissModel.get_node s p = Ok n ->
  exists q, SwissModel.do_insert f key_of hash keq lim true s (fst n) = Ok (s, Some (q, false, [])).
Proof.
  intros lim s p n W Hg. destruct (node_in s p n Hg W) as (Hn & Hp & Hin). unfold SwissModel.do_insert.
  destruct (find_located f key_of hash keq KL s (key_of (fst n)) W) as (r & -> & Hr). cbn [bind].
  destruct Hr as [(e & h & _ & Hlt & _)|(_ & Ha)].
  - destruct (Z.eqb_spec r (s_cap s)); [lia|]. eauto.
  - exfalso. specialize (Ha _ Hin). rewrite (kl_refl _ _ KL) in Ha. discriminate.
Qed.

Lemma own_loop_walk : forall fuel lim (s : swiss) p last, wf s ->
  own_loop f key_of hash keq fuel lim s p last = let* _ := walk f fuel s p last in Ok (s, true).
Proof.
  induction fuel as [|fuel IH]; intros lim s p last W; cbn [own_loop walk bind]; [reflexivity|].
  destruct (p =? last); [reflexivity|]. destruct (SwissModel.get_node s p) as [n|] eqn:Hg; cbn [bind]; [|reflexivity].
  destruct (insert_own lim s p n W Hg) as (q & ->). cbn [bind fst snd]. rewrite Z.eqb_refl. cbn [guard bind].
  destruct (iter_next f s p) as [q'|]; cbn [bind]; [|reflexivity]. rewrite (IH lim s q' last W). destruct (walk f fuel s q' last); reflexivity.
Qed.

Lemma own_all : forall lim (s : swiss), occurs f key_of hash keq rep s -> own_insert_all f key_of hash keq lim s = let* _ := iterate f s in Ok (s, true).
Proof.
  intros lim s Ho. apply (occurs_wf f key_of hash keq KL rep Hrep) in Ho. unfold own_insert_all, iterate.
  destruct (begin_iter f s); cbn [bind]; [|reflexivity]. destruct (end_iter f s); cbn [bind]; [|reflexivity]. apply own_loop_walk. exact Ho.
Qed.
Lemma own_part : forall lim (s : swiss) p last, occurs f key_of hash keq rep s -> own_insert f key_of hash keq lim s p last = let* _ := walk f (iter_fuel s) s p last in Ok (s, true).
Proof. intros lim s p last Ho. apply (occurs_wf f key_of hash keq KL rep Hrep) in Ho. apply own_loop_walk. exact Ho. Qed.

Lemma own_assign_dead : forall lim (s : swiss), occurs f key_of hash keq rep s ->
  own_assign f key_of hash keq lim s = let* _ := begin_iter f s in if s_size s =? 0 then let* _ := iterate f s in Ok (s, true) else Err DeadObject.
Proof.
  intros lim s Ho. pose proof (occurs_wf f key_of hash keq KL rep Hrep s Ho) as W. unfold own_assign.
  destruct (begin_iter f s) as [p|] eqn:Hb; cbn [bind]; [|reflexivity]. rewrite (end_iter_ok f key_of hash keq s W). cbn [bind].
  destruct (Z.eqb_spec (s_size s) 0) as [Hz|Hz].
  - unfold SwissModel.clear. rewrite (proj2 (Z.eqb_eq _ _) Hz). cbn [bind]. rewrite (own_loop_walk _ lim s p (s_cap s) W). unfold iterate. rewrite Hb. cbn [bind]. rewrite (end_iter_ok f key_of hash keq s W). reflexivity.
  - destruct (clear_ok f key_of hash keq s W) as (s1 & -> & W1 & He & Hc & _). cbn [bind].
    destruct W as [W|W]; [destruct Hz; apply (w0_size s W)|]. pose proof (w_m _ _ _ _ s W) as M. pose proof (cap_bounds f s M) as Hcb.
    pose proof (to_iter_ok f s 0 M ltac:(lia)) as Hst. unfold begin_iter in Hb. rewrite Hb in Hst.
    assert (Hq : stops s 0 p) by (destruct Hst as [(x & Hx & Hs)|(_ & Hx)]; [injection Hx as <-; exact Hs|discriminate]).
    assert (Hp : 0 <= p < s_cap s).
    { pose proof Hq as (Hq1 & Hq2 & _). destruct (Z_lt_dec p (s_cap s)) as [|Hn]; [lia|]. exfalso. apply Hz. destruct (wf_size f key_of hash keq s (or_intror W)) as (-> & _).
      rewrite elems_rest by lia. destruct (stops_rest key_of hash s 0 p (w_n _ _ _ _ s W) ltac:(lia) Hq) as (-> & _). rewrite rest_end by lia. reflexivity. }
    unfold iter_fuel. cbn [own_loop]. destruct (Z.eqb_spec p (s_cap s)) as [|_]; [lia|].
    assert (Hd : SwissModel.get_node s1 p = Err DeadObject); [|rewrite Hd; reflexivity].
    destruct W1 as [W1|W1]; [pose proof (w0_cap s1 W1); lia|]. pose proof (w_m _ _ _ _ s1 W1) as M1.
    destruct (s_nodes s1 p) as [n|] eqn:En.
    + exfalso. assert (Hin : In (fst n) (elems s1)) by (rewrite (elems_at s1 p n ltac:(lia) En); apply in_or_app; right; left; reflexivity). rewrite He in Hin. destruct Hin.
    + unfold SwissModel.get_node, check_buf. rewrite (mw_buf f s1 M1). cbn [guard bind]. replace ((0 <=? p) && (p <? s_cap s1)) with true by lia. cbn [guard bind]. rewrite En. reflexivity.
Qed.
End Own.
