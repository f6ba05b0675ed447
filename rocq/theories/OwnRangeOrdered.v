(** Own ranges: ordered sparse and stable tables. *)
From Coq Require Import ZArith List Bool Lia Permutation.
From Coq Require Import ZifyBool ZifyNat.
From Verif Require Import Base BaseLemmas MapSpec Bits SwissModel SwissArith SwissCap SwissInv SwissOps SwissClean SwissIter SwissRun SwissRoom SwissRefine WorldSpec SwissMore SwissBounds SwissPlace
  LinkModel LinkProofs OrderedLinks SwissOrderedSpec SwissOrdered SwissOrderedRun SwissOrderedLinks SwissOrderedProofs SwissOrderedOps SwissOrderedRefine SwissOrderedStep SwissOrderedMoves SwissOrderedWorld SwissOrderedWorldProofs SwissOrderedFinal
  OwnRangeModel OwnRangeSwiss OwnRangeOrderedModel.
Import ListNotations.
Open Scope Z_scope.

Section Own.
Context {E K : Type}.
Variable f : simd.
Variable sz : Z.
Variable key_of : E -> K.
Variable hash : K -> Z.
Variable keq : K -> K -> bool.
Variable rep : E -> E -> E.
Variable clone : E -> E.
Variables pocca pocma : bool.
Hypothesis Hsz : 0 < sz.
Hypothesis KL : key_laws hash keq.
Hypothesis Hrep : forall a b, keq (key_of a) (key_of b) = true -> key_of (rep a b) = key_of a.
Hypothesis Hclone : forall e, key_of (clone e) = key_of e.
Notation oswiss := (oswiss E).
Notation zinv := (zinv f sz key_of hash keq).
Notation xoccurs := (xoccurs f sz key_of hash keq rep clone pocca pocma).

Lemma s_insert_own : forall v h (s : oswiss) i n, SwissInv.wf f key_of hash keq (os_t s) -> SwissModel.get_node (os_t s) i = Ok n ->
  exists q, s_do_insert f sz key_of hash keq v h s 0 (fst n) = Ok (h, s, Some (q, false)).
Proof.
  intros v h s i n W Hg. destruct (node_in f key_of hash keq (os_t s) i n Hg W) as (Hn & Hp & Hin). unfold s_do_insert.
  destruct (find_located f key_of hash keq KL (os_t s) (key_of (fst n)) W) as (r & -> & Hr). cbn [bind].
  destruct Hr as [(e & hh & _ & Hlt & _)|(_ & Ha)].
  - destruct (Z.eqb_spec r (s_cap (os_t s))) as [|_]; [lia|]. eauto.
  - exfalso. specialize (Ha _ Hin). rewrite (kl_refl _ _ KL) in Ha. discriminate.
Qed.

Lemma s_own_loop_walk : forall fuel v h (s : oswiss) a last l es, SwissInv.wf f key_of hash keq (os_t s) ->
  LinkModel.walk fuel h a last = Ok l -> s_deref_all sz s l = Ok es -> s_own_loop f sz key_of hash keq fuel v h s a last = Ok (h, s, true).
Proof.
  induction fuel as [|fuel IH]; intros v h s a last l es W Hw Hd; cbn [s_own_loop LinkModel.walk] in *; [discriminate|].
  destruct (a =? last); [reflexivity|]. destruct (next_link h a) as [b|] eqn:Hb; cbn [bind] in Hw; [|discriminate].
  destruct (LinkModel.walk fuel h b last) as [r|] eqn:Hr; cbn [bind] in Hw; [|discriminate]. injection Hw as <-. cbn [s_deref_all] in Hd.
  destruct (s_index sz s a) as [i|]; cbn [bind] in *; [|discriminate]. destruct (SwissModel.get_node (os_t s) i) as [n|] eqn:Hg; cbn [bind] in *; [|discriminate].
  destruct (s_deref_all sz s r) as [xs|] eqn:Hx; cbn [bind] in Hd; [|discriminate].
  destruct (s_insert_own v h s i n W Hg) as (q & ->). cbn [bind]. rewrite Z.eqb_refl. cbn [guard bind]. rewrite Hb. cbn [bind]. apply (IH v h s b last r xs W Hr Hx).
Qed.

Lemma s_own_part : forall v (w : xworld E) j a last l es, xoccurs w -> let h := xw_m w in let s := xw_c w j in
  LinkModel.walk (iter_fuel (os_t s)) h a last = Ok l -> s_deref_all sz s l = Ok es -> s_own_insert f sz key_of hash keq v h s a last = Ok (h, s, true).
Proof.
  intros v w j a last l es Ho h s Hw Hd. destruct (xoccurs_inv f sz key_of hash keq rep clone pocca pocma Hsz KL Hrep Hclone w Ho) as (ords & Hi).
  apply (s_own_loop_walk _ v h s a last l es); [|assumption|assumption]. apply (zi_wf _ _ _ _ _ _ _ _ (proj1 Hi j)).
Qed.
Lemma s_own_all : forall v (w : xworld E) j, xoccurs w -> s_own_insert_all f sz key_of hash keq v (xw_m w) (xw_c w j) = Ok (xw_m w, xw_c w j, true).
Proof.
  intros v w j Ho. destruct (xoccurs_inv f sz key_of hash keq rep clone pocca pocma Hsz KL Hrep Hclone w Ho) as (ords & Hi). pose proof (proj1 Hi j) as H.
  pose proof (SwissOrderedRefine.iterate_ok f sz key_of hash keq Hsz _ _ _ H) as Hit. unfold s_iterate in Hit. unfold s_own_insert_all.
  destruct (next_link (xw_m w) (os_hdr (xw_c w j))) as [a|]; cbn [bind] in *; [|discriminate].
  destruct (LinkModel.walk _ _ a _) as [l|] eqn:Hw; cbn [bind] in Hit; [|discriminate].
  apply (s_own_loop_walk _ v _ _ a _ l _ (zi_wf _ _ _ _ _ _ _ _ H) Hw Hit).
Qed.

Lemma s_own_assign_dead : forall v (w : xworld E) j, xoccurs w -> let s := xw_c w j in
  s_own_assign f sz key_of hash keq v (xw_m w) s = if s_size (os_t s) =? 0 then Ok (xw_m w, s, true) else Err DeadObject.
Proof.
  intros v w j Ho s. destruct (xoccurs_inv f sz key_of hash keq rep clone pocca pocma Hsz KL Hrep Hclone w Ho) as (ords & Hi). pose proof (proj1 Hi j) as H. fold s in H.
  pose proof (SwissOrderedRefine.iterate_ok f sz key_of hash keq Hsz _ _ _ H) as Hit. destruct (clear_links f sz key_of hash keq _ _ _ H) as (h1 & s1 & Hcl & I1 & _ & _ & Hc).
  destruct (zi_len f sz key_of hash keq _ _ _ H) as (Hl1 & Hl2). unfold s_own_assign.
  unfold s_iterate in Hit. destruct (next_link (xw_m w) (os_hdr s)) as [a|]; cbn [bind] in *; [|discriminate].
  destruct (LinkModel.walk _ _ a _) as [l|] eqn:Hw; cbn [bind] in Hit; [|discriminate].
  destruct (Z.eqb_spec (s_size (os_t s)) 0) as [Hz|Hz].
  - clear Hcl. unfold s_clear, SwissModel.clear. rewrite Hz. cbn [Z.eqb bind fst snd]. replace (with_t s (os_t s)) with s by (destruct s; reflexivity).
    apply (s_own_loop_walk _ v _ _ a _ l _ (zi_wf _ _ _ _ _ _ _ _ H) Hw Hit).
  - rewrite Hcl. cbn [bind fst snd]. unfold iter_fuel in *. generalize dependent (S (Z.to_nat (s_cap (os_t s)))). intros m Hw. cbn [s_own_loop LinkModel.walk] in *.
    destruct (a =? os_hdr s).
    + injection Hw as <-. cbn [s_deref_all] in Hit. injection Hit as Hn. rewrite <- Hn in Hl1. cbn in Hl1. lia.
    + destruct (next_link (xw_m w) a); cbn [bind] in Hw; [|discriminate]. destruct (LinkModel.walk m _ _ _) as [r|]; cbn [bind] in Hw; [|discriminate]. injection Hw as <-.
      cbn [s_deref_all] in Hit. destruct (s_index sz s a) as [i|] eqn:Hix; cbn [bind] in Hit; [|discriminate]. destruct (SwissModel.get_node (os_t s) i) as [n|] eqn:Hg; cbn [bind] in Hit; [|discriminate].
      assert (Hix1 : s_index sz s1 a = Ok i).
      { unfold s_clear in Hcl. destruct (if s_size (os_t s) =? 0 then Ok (xw_m w) else _) as [h2|]; cbn [bind] in Hcl; [|discriminate].
        destruct (clear f (os_t s)) as [t1|]; cbn [bind] in Hcl; [|discriminate]. injection Hcl as _ <-. unfold s_index in *. rewrite Hc. cbn [with_t os_base]. exact Hix. }
      rewrite Hix1. cbn [bind].
      destruct (node_in f key_of hash keq (os_t s) i n Hg (zi_wf _ _ _ _ _ _ _ _ H)) as (Hn & Hp & _).
      assert (Hd : SwissModel.get_node (os_t s1) i = Err DeadObject); [|rewrite Hd; reflexivity].
      pose proof (zi_wf _ _ _ _ _ _ _ _ I1) as W1. destruct W1 as [W1|W1]; [pose proof (w0_cap _ W1); lia|]. pose proof (w_m _ _ _ _ _ W1) as M1.
      unfold SwissModel.get_node, check_buf. rewrite (mw_buf f _ M1). cbn [guard bind]. replace ((0 <=? i) && (i <? s_cap (os_t s1))) with true by lia. cbn [guard bind].
      destruct (s_nodes (os_t s1) i) as [nn|] eqn:En; [|reflexivity]. exfalso. apply (proj2 (zi_tied _ _ _ _ _ _ _ _ I1 i)). congruence.
Qed.
End Own.
