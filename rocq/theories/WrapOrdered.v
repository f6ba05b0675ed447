(** Comparison and element access on the ordered tables. *)
From Coq Require Import ZArith List Bool Lia Permutation.
From Verif Require Import Base BaseLemmas MapSpec WrapSpec DenseSpec DenseModel DenseRun DenseInv DenseOps DenseEdit DenseRefine LinkModel OrderedSpec OrderedDense OrderedRun
  OrderedLinks OrderedRefine OrderedWorldSpec OrderedWorld OrderedFinal WrapProofs.
From Verif Require WrapModel.
Import ListNotations.
Open Scope Z_scope.


Section Dense.
Context {E K V : Type}.
Variable sz : Z.
Variable nk : nat.
Variable key_of : nat -> E -> K.
Variable hash : K -> Z.
Variable keq : K -> K -> bool.
Variable rep : E -> E -> E.
Variable clone : E -> E.
Variables pocca pocma : bool.
Variable mapped : E -> V.
Hypothesis Hsz : 0 < sz.
Hypothesis KL : key_laws hash keq.
Hypothesis rep_key : forall x e, key_of 0%nat (rep x e) = key_of 0%nat x.
Hypothesis clone_key : forall j e, (j < nk)%nat -> key_of j (clone e) = key_of j e.
Notation yoccurs := (yoccurs sz nk key_of hash keq rep clone pocca pocma).

Lemma equal_ordered : forall veq hw i j, eq_laws veq -> yoccurs hw ->
  exists li lj b, o_iterate sz (fst hw) (snd hw i) = Ok li /\ o_iterate sz (fst hw) (snd hw j) = Ok lj /\ WrapModel.o_equal sz veq (fst hw) (snd hw i) (snd hw j) = Ok b /\
    (b = true <-> same_elements veq li lj).
Proof.
  intros veq hw i j L H. destruct (occurs_oinv sz nk key_of hash keq rep clone pocca pocma Hsz KL rep_key clone_key hw i H) as (oi & _ & Hi).
  destruct (occurs_oinv sz nk key_of hash keq rep clone pocca pocma Hsz KL rep_key clone_key hw j H) as (oj & _ & Hj).
  eexists _, _, _. split; [exact Hi|]. split; [exact Hj|]. unfold WrapModel.o_equal. rewrite Hi, Hj. cbn [bind]. split; [reflexivity|]. apply is_permutation_ok. exact L.
Qed.

Lemma at_ordered : forall hw i v k, (0 < nk)%nat -> yoccurs hw ->
  exists l r, o_iterate sz (fst hw) (snd hw i) = Ok l /\ WrapModel.o_map_at mapped sz nk key_of hash keq rep v (fst hw, snd hw i) k = Ok r /\ at_spec (key_of 0%nat) mapped keq l k r.
Proof.
  intros hw i v k Hnk H. destruct (occurs_oinv sz nk key_of hash keq rep clone pocca pocma Hsz KL rep_key clone_key hw i H) as (ord & Hi & Ho). destruct Hi as (W & L).
  pose proof (inv_perm sz nk key_of hash keq _ _ _ (conj W L)) as P. eexists _. 
  unfold WrapModel.o_map_at. cbn [oexec]. destruct (find_node_ok nk key_of hash keq KL (o_d (snd hw i)) 0%nat k W Hnk) as [(x & n & p & Hn & Hk & Hf & _)|(Hno & o & Hf)]; rewrite Hf; cbn [bind fst]; unfold iter_of.
  - pose proof (node_live nk key_of hash keq _ x n W Hn) as X. unfold live in X. destruct (Z.eqb_spec x (d_size (o_d (snd hw i)))); [lia|].
    rewrite (o_at_slot sz nk key_of hash keq Hsz _ _ ord x n (conj W L) Hn). cbn [bind snd]. eexists. split; [exact Ho|]. split; [reflexivity|]. cbn [WrapModel.guard_at option_map at_spec]. exists (n_val n).
    split; [|auto]. apply (Permutation_in _ (Permutation_sym P)). apply (delems_in nk key_of hash keq _ _ W). exists x, n. auto.
  - rewrite Z.eqb_refl. unfold o_at. rewrite Z.eqb_refl. cbn [bind snd]. eexists. split; [exact Ho|]. split; [reflexivity|]. cbn [WrapModel.guard_at option_map at_spec]. intros e He. apply (proj2 (absent_iff nk key_of hash keq _ 0 k W) Hno). apply (Permutation_in _ P). exact He.
Qed.
End Dense.

Section Map.
Context {E K V : Type}.
Variable sz : Z.
Variable key_of : nat -> E -> K.
Variable hash : K -> Z.
Variable keq : K -> K -> bool.
Variable rep : E -> E -> E.
Variable clone : E -> E.
Variables pocca pocma : bool.
Variable mapped : E -> V.
Hypothesis Hsz : 0 < sz.
Hypothesis KL : key_laws hash keq.
Hypothesis rep_key : forall x e, key_of 0%nat (rep x e) = key_of 0%nat x.
Hypothesis clone_key : forall j e, (j < 1)%nat -> key_of j (clone e) = key_of j e.
Notation yoccurs := (yoccurs sz 1 key_of hash keq rep clone pocca pocma).

Lemma index_ordered : forall fresh hw i v k, (forall k, key_of 0%nat (fresh k) = k) -> yoccurs hw -> denv_ok (ov_d v) ->
  oblocked sz 1 key_of hash keq rep v (fst hw, snd hw i) (OInsert (fresh k)) \/
  exists l hs' r l', o_iterate sz (fst hw) (snd hw i) = Ok l /\ WrapModel.o_index mapped sz 1 key_of hash keq rep fresh v (fst hw, snd hw i) k = Ok (hs', r) /\
    o_iterate sz (fst hs') (snd hs') = Ok l' /\ (l' = l \/ l' = l ++ [fresh k]) /\ index_spec (key_of 0%nat) mapped keq l k (fresh k) l' r.
Proof.
  intros fresh hw i v k Hfr H Hv. destruct (occurs_oinv sz 1 key_of hash keq rep clone pocca pocma Hsz KL rep_key clone_key hw i H) as (ord & Hi & Ho).
  destruct (ostep_ok sz 1 key_of hash keq rep Hsz KL rep_key v _ _ _ (OInsert (fresh k)) Hi Hv I) as [Hb|(h' & s' & r & E1 & ord' & Hi' & _ & Hs)]; [left; exact Hb|right].
  unfold WrapModel.o_index. rewrite E1. cbn [bind fst snd]. pose proof (o_iterate_ok sz 1 key_of hash keq Hsz _ _ _ Hi') as Ho'.
  remember (ocont (snd hw i) ord) as l eqn:El. remember (ocont s' ord') as l' eqn:El'. inversion Hs; subst r; try (match goal with X : l ++ _ = l' |- _ => rewrite <- X in * end); try (match goal with X : l = l' |- _ => rewrite <- X in * end).
  - exists l, (h', s'), (Some (mapped (fresh k))), (l ++ [fresh k]). split; [exact Ho|]. split; [reflexivity|]. split; [exact Ho'|]. split; [right; reflexivity|]. right. left.
    match goal with X : dnew _ _ _ _ _ |- _ => pose proof (X 0%nat ltac:(lia)) as Hn end. rewrite Hfr in Hn. split; [exact Hn|]. split; [reflexivity|]. symmetry. apply Permutation_cons_append.
  - exists l, (h', s'), (Some (mapped x)), l. split; [exact Ho|]. split; [reflexivity|]. split; [exact Ho'|]. split; [left; reflexivity|]. left. split; [|apply Permutation_refl].
    exists x. match goal with X : dclash _ _ _ _ _ _ |- _ => destruct X as (j & Hj & Hin & Hk & _) end. assert (j = 0%nat) by lia. subst j. rewrite Hfr in Hk. auto.
  - exists l, (h', s'), None, l. split; [exact Ho|]. split; [reflexivity|]. split; [exact Ho'|]. split; [left; reflexivity|]. right. right. split; [reflexivity|]. apply Permutation_refl.
Qed.
End Map.
