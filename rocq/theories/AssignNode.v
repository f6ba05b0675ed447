(** insert_or_assign of a node handle on unordered and ordered stable maps, for containers
    that occur in programs. *)
From Coq Require Import ZArith List Bool Lia Permutation.
From Verif Require Import Base BaseLemmas Bits BitsProofs SwissModel SwissArith SwissCap SwissInv SwissOps SwissClean SwissIter SwissRoom MapSpec WorldSpec SwissRun SwissRefine SwissFinal SwissMore
  World WorldProofs WorldFinal LinkModel LinkProofs OrderedLinks OrderedMoves SwissOrderedSpec SwissOrdered SwissOrderedRun SwissOrderedLinks SwissOrderedProofs SwissOrderedOps SwissOrderedRefine SwissOrderedStep
  SwissOrderedWorldSpec SwissOrderedWorld SwissOrderedMoves SwissOrderedMerge SwissOrderedWorldProofs SwissOrderedFinal.
Import ListNotations.
Open Scope Z_scope.

Section Swiss.
Context {E K : Type}.
Variable f : simd.
Variable key_of : E -> K.
Variable hash : K -> Z.
Variable keq : K -> K -> bool.
Hypothesis KL : key_laws hash keq.
Variable rep : E -> E -> E.
Hypothesis Rep : forall a b, keq (key_of a) (key_of b) = true -> key_of (rep a b) = key_of a.

Lemma assign_handle_final : forall lim s e, occurs f key_of hash keq rep s -> lim < 2 ^ 59 ->
  exists s' o, assign_handle f key_of hash keq lim s (Some e) = Ok (s', o) /\ behaves f key_of hash keq rep s' (elems s') /\
    match o with
    | None => s' = s /\ absent key_of keq (key_of e) (elems s)
    | Some (p, true, _) => absent key_of keq (key_of e) (elems s) /\ Permutation (elems s') (e :: elems s) /\ holds s' p e
    | Some (p, false, _) => exists a x b, located key_of keq (key_of e) (elems s) a x b /\ elems s' = a ++ e :: b /\ holds s p x /\ holds s' p e /\
        forall q y, q <> p -> (holds s' q y <-> holds s q y)
    end.
Proof.
  intros lim s e Hs Hlim. pose proof (occurs_wf f key_of hash keq KL rep Rep s Hs) as W.
  destruct (assign_handle_ok f key_of hash keq KL lim s e W Hlim) as (s' & o & E1 & W' & _ & Ho).
  exists s', o. split; [exact E1|]. split; [apply (wf_behaves f key_of hash keq KL rep Rep); auto|].
  destruct o as [[[p b] tr]|]; [|exact Ho]. destruct Ho as (Hh & Ho). destruct b.
  - destruct Ho as (Ha & Hp). auto.
  - destruct Ho as (a & x & b & Hl & El & Hx & Hq). exists a, x, b. split; [exact Hl|]. split; [exact El|]. split; [exact Hx|]. split; [exact Hh|].
    intros q y Hne. unfold holds. rewrite (Hq q Hne). replace (s_cap s') with (s_cap s); [tauto|].
    unfold assign_handle in E1. destruct (find_node f key_of keq s (key_of e) (hash (key_of e))) as [r|]; [cbn [bind] in E1|discriminate].
    destruct (r =? s_cap s).
    + destruct (emplace_node f lim true s (hash (key_of e)) e) as [[s1 o]|]; [|discriminate]. cbn [bind] in E1. destruct o as [[? ?]|]; discriminate.
    + destruct (get_node s r); [|discriminate]. cbn [bind] in E1. injection E1 as <- _ _. reflexivity.
Qed.
End Swiss.

Section Ordered.
Context {E K : Type}.
Variable f : simd.
Variable sz : Z.
Variable key_of : E -> K.
Variable hash : K -> Z.
Variable keq : K -> K -> bool.
Variable rep : E -> E -> E.
Variable clone : E -> E.
Variables pocca pocma : bool.
Hypothesis Hsz : 0 < sz.
Hypothesis KL : key_laws hash keq.
Hypothesis Hrep : forall a b, keq (key_of a) (key_of b) = true -> key_of (rep a b) = key_of a.
Hypothesis Hclone : forall e, key_of (clone e) = key_of e.
Notation zinv := (zinv f sz key_of hash keq).
Notation xoccurs := (xoccurs f sz key_of hash keq rep clone pocca pocma).
Notation s_assign_node := (s_assign_node f sz key_of hash keq).

Lemma zinv_lists : forall h s ord, zinv h s ord -> zlists sz (h, s) (cont s ord).
Proof. intros h s ord H. split; [apply (iterate_ok f sz key_of hash keq Hsz); exact H|apply (backwards_ok f sz key_of hash keq Hsz); exact H]. Qed.

Lemma assign_found : forall (w : xworld E) v i l e, xoccurs w -> env_ok (sv_e v) -> let h := xw_m w in let s := xw_c w i in s_iterate sz h s = Ok l ->
  (exists x, In x l /\ keq (key_of x) (key_of e) = true) ->
  exists s' a p x q, s_assign_node v h s (Some e) = Ok (h, s', Some (a, false)) /\ located key_of keq (key_of e) l p x q /\
    s_value sz s a = Ok x /\ s_value sz s' a = Ok e /\ zlists sz (h, s') (p ++ e :: q) /\
    forall hist, zhistory_ok hist -> zrefines f sz key_of hash keq rep (h, s') (p ++ e :: q) hist.
Proof.
  intros w v i l e Hw Hv h s Hl (x & Hx & Hk).
  destruct (occurs_zinv f sz key_of hash keq rep clone pocca pocma Hsz KL Hrep Hclone w i l Hw Hl) as (ord & H & ->). fold h s in H.
  destruct (find_zinv f sz key_of hash keq (fun a _ => a) KL (fun _ _ _ => eq_refl) h s ord (key_of e) H) as (r & Hf & [(-> & Ha & _)|(Hne & y & hh & o1 & o2 & W & Ho & Hn & Hg & _)]).
  { exfalso. rewrite (Ha x Hx) in Hk. discriminate. }
  destruct (assign_node_links f sz key_of hash keq Hsz KL v h s ord e H Hv) as [(Hs & _)|[Hb|(h' & s' & o & ord' & E1 & H' & _ & _ & Ho')]].
  - exfalso. rewrite Hf in Hs. injection Hs as Hs. contradiction.
  - exfalso. unfold SwissOrdered.s_assign_node in Hb. rewrite Hf in Hb. cbn [bind] in Hb. destruct (Z.eqb_spec r (s_cap (os_t s))); [contradiction|]. rewrite Hg in Hb. discriminate.
  - destruct o as [[a b]|].
    2:{ destruct Ho' as (_ & Ha). exfalso. rewrite (Ha x Hx) in Hk. discriminate. }
    destruct b; [destruct Ho' as (Ha & _); exfalso; rewrite (Ha x Hx) in Hk; discriminate|].
    destruct Ho' as (-> & -> & p & z & q & Hloc & Hc & Hv1 & Hv2). exists s', a, p, z, q. split; [exact E1|]. split; [exact Hloc|]. split; [exact Hv1|]. split; [exact Hv2|].
    rewrite <- Hc. split; [apply zinv_lists; exact H'|]. intros hist Hh. apply (zinv_refines f sz key_of hash keq rep KL Hrep Hsz); assumption.
Qed.

Lemma assign_absent : forall (w : xworld E) v i l e, xoccurs w -> env_ok (sv_e v) -> let h := xw_m w in let s := xw_c w i in s_iterate sz h s = Ok l ->
  absent key_of keq (key_of e) l ->
  zswaps f key_of hash keq v s e \/ s_assign_node v h s (Some e) = Err BadPlacement \/
  exists h' s' o, s_assign_node v h s (Some e) = Ok (h', s', o) /\
    match o with
    | None => zlists sz (h', s') l
    | Some (a, b) => b = true /\ s_value sz s' a = Ok e /\ zlists sz (h', s') (l ++ [e]) /\
        forall hist, zhistory_ok hist -> zrefines f sz key_of hash keq rep (h', s') (l ++ [e]) hist
    end.
Proof.
  intros w v i l e Hw Hv h s Hl Ha. subst h s.
  destruct (occurs_zinv f sz key_of hash keq rep clone pocca pocma Hsz KL Hrep Hclone w i l Hw Hl) as (ord & H & ->).
  destruct (assign_node_links f sz key_of hash keq Hsz KL v _ _ ord e H Hv) as [Hs|[Hb|(h' & s' & o & ord' & E1 & H' & _ & _ & Ho')]]; [left; exact Hs|right; left; exact Hb|right; right].
  exists h', s', o. split; [exact E1|]. destruct o as [[a b]|].
  - destruct b.
    + destruct Ho' as (_ & Hc & Hv2). split; [reflexivity|]. split; [exact Hv2|].  rewrite <- Hc. split; [apply zinv_lists; exact H'|]. intros hist Hh. apply (zinv_refines f sz key_of hash keq rep KL Hrep Hsz); assumption.
    + destruct Ho' as (_ & _ & p & x & q & (Hloc & Hk) & _). exfalso. rewrite (Ha x) in Hk; [discriminate|]. rewrite Hloc. apply in_or_app. right. left. reflexivity.
  - destruct Ho' as (Hc & _).  rewrite <- Hc. apply zinv_lists. exact H'.
Qed.
End Ordered.
