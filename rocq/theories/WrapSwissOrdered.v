(** Comparison and element access on the ordered sparse and stable tables. *)
From Coq Require Import ZArith List Bool Lia Permutation.
From Verif Require Import Base BaseLemmas MapSpec Bits WrapSpec WorldSpec World SwissModel SwissInv SwissOps SwissRun SwissRefine
  LinkModel SwissOrderedSpec SwissOrdered SwissOrderedRun SwissOrderedLinks SwissOrderedProofs SwissOrderedOps SwissOrderedRefine SwissOrderedStep
  SwissOrderedWorldSpec SwissOrderedWorld SwissOrderedWorldProofs SwissOrderedFinal WrapProofs.
From Verif Require WrapModel.
Import ListNotations.
Open Scope Z_scope.

Section Sparse.
Context {E K V : Type}.
Variable f : simd.
Variable sz : Z.
Variable key_of : E -> K.
Variable hash : K -> Z.
Variable keq : K -> K -> bool.
Variable rep : E -> E -> E.
Variable clone : E -> E.
Variables pocca pocma : bool.
Variable mapped : E -> V.
Hypothesis Hsz : 0 < sz.
Hypothesis KL : key_laws hash keq.
Hypothesis Hrep : forall a b, keq (key_of a) (key_of b) = true -> key_of (rep a b) = key_of a.
Hypothesis Hclone : forall e, key_of (clone e) = key_of e.
Notation xoccurs := (xoccurs f sz key_of hash keq rep clone pocca pocma).

Lemma inv_of : forall (w : xworld E) i, xoccurs w -> exists ord, zinv f sz key_of hash keq (xw_m w) (xw_c w i) ord /\ s_iterate sz (xw_m w) (xw_c w i) = Ok (cont (xw_c w i) ord).
Proof.
  intros w i H. destruct (xoccurs_inv f sz key_of hash keq rep clone pocca pocma Hsz KL Hrep Hclone w H) as (ords & Hw). exists (ords i). split; [apply Hw|]. apply (iterate_ok f sz key_of hash keq Hsz _ _ _ (proj1 Hw i)).
Qed.
Lemma equal_ordered : forall veq (w : xworld E) i j, eq_laws veq -> xoccurs w ->
  exists li lj b, s_iterate sz (xw_m w) (xw_c w i) = Ok li /\ s_iterate sz (xw_m w) (xw_c w j) = Ok lj /\ WrapModel.z_equal sz veq (xw_m w) (xw_c w i) (xw_c w j) = Ok b /\
    (b = true <-> same_elements veq li lj).
Proof.
  intros veq w i j L H. destruct (inv_of w i H) as (oi & _ & Hi). destruct (inv_of w j H) as (oj & _ & Hj).
  eexists _, _, _. split; [exact Hi|]. split; [exact Hj|]. unfold WrapModel.z_equal. rewrite Hi, Hj. cbn [bind]. split; [reflexivity|]. apply is_permutation_ok. exact L.
Qed.
Lemma at_ordered : forall (w : xworld E) i v k, xoccurs w ->
  exists l r, s_iterate sz (xw_m w) (xw_c w i) = Ok l /\ WrapModel.z_at mapped f sz key_of hash keq rep v (xw_m w, xw_c w i) k = Ok r /\ at_spec key_of mapped keq l k r.
Proof.
  intros w i v k H. destruct (inv_of w i H) as (ord & Hi & Ho). exists (cont (xw_c w i) ord). unfold WrapModel.z_at. cbn [zexec].
  destruct (find_zinv f sz key_of hash keq rep KL Hrep (xw_m w) (xw_c w i) ord k Hi) as (r & Er & [(-> & Ha & _)|(Hne & e & hh & o1 & o2 & _ & Hs & Hn & _ & Hk & Hl)]); rewrite Er; cbn [bind].
  - unfold s_iter. rewrite Z.ltb_irrefl. unfold s_at. rewrite Z.eqb_refl. cbn [bind snd]. eexists. split; [exact Ho|]. split; [reflexivity|]. cbn [WrapModel.guard_at option_map at_spec]. intros e He. apply Ha. exact He.
  - destruct (value_ok f sz key_of hash keq Hsz _ _ _ r (e, hh) Hi Hn) as (V1 & _ & V2 & _). rewrite V1, V2. cbn [bind snd fst]. eexists. split; [exact Ho|]. split; [reflexivity|]. cbn [WrapModel.guard_at option_map at_spec].
    exists e. split; [|auto]. destruct Hl as (-> & _). apply in_or_app. right. left. reflexivity.
Qed.
Lemma index_ordered : forall fresh (w : xworld E) i v k, (forall k, key_of (fresh k) = k) -> xoccurs w -> env_ok (sv_e v) ->
  zblocked f sz key_of hash keq rep v (xw_m w, xw_c w i) (ZInsert (fresh k)) \/
  exists l hs' r l', s_iterate sz (xw_m w) (xw_c w i) = Ok l /\ WrapModel.z_index mapped f sz key_of hash keq rep fresh v (xw_m w, xw_c w i) k = Ok (hs', r) /\
    s_iterate sz (fst hs') (snd hs') = Ok l' /\ (l' = l \/ l' = l ++ [fresh k]) /\ index_spec key_of mapped keq l k (fresh k) l' r.
Proof.
  intros fresh w i v k Hfr H Hv. destruct (inv_of w i H) as (ord & Hi & Ho).
  destruct (zstep_ok f sz key_of hash keq rep Hsz KL Hrep v _ _ _ (ZInsert (fresh k)) Hi Hv I) as [Hb|(h' & s' & r & ord' & E1 & Hi' & _ & _ & Hs)]; [left; exact Hb|right].
  unfold WrapModel.z_index. rewrite E1. cbn [bind fst snd]. pose proof (iterate_ok f sz key_of hash keq Hsz _ _ _ Hi') as Ho'.
  remember (cont (xw_c w i) ord) as l eqn:El. remember (cont s' ord') as l' eqn:El'. inversion Hs; subst r; try (match goal with X : l ++ _ = l' |- _ => rewrite <- X in * end); try (match goal with X : l = l' |- _ => rewrite <- X in * end).
  - exists l, (h', s'), (Some (mapped (fresh k))), (l ++ [fresh k]). split; [exact Ho|]. split; [reflexivity|]. split; [exact Ho'|]. split; [right; reflexivity|]. right. left.
    match goal with X : MapSpec.absent _ _ _ _ |- _ => rewrite Hfr in X; split; [exact X|] end. split; [reflexivity|]. symmetry. apply Permutation_cons_append.
  - exists l, (h', s'), (Some (mapped x)), l. split; [exact Ho|]. split; [reflexivity|]. split; [exact Ho'|]. split; [left; reflexivity|]. left. split; [|apply Permutation_refl].
    exists x. match goal with X : MapSpec.located _ _ _ _ _ _ _ |- _ => destruct X as (Hl & Hk) end. rewrite Hfr in Hk. split; [rewrite Hl; apply in_or_app; right; left; reflexivity|]. split; [exact Hk|reflexivity].
  - exists l, (h', s'), None, l. split; [exact Ho|]. split; [reflexivity|]. split; [exact Ho'|]. split; [left; reflexivity|]. right. right. split; [reflexivity|]. apply Permutation_refl.
Qed.
End Sparse.
