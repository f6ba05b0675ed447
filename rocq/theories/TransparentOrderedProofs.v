(** Calls with another key type on ordered sparse and stable tables refine the list. *)
From Coq Require Import ZArith List Bool Lia Permutation.
From Verif Require Import Base BaseLemmas Bits MapSpec WorldSpec World SwissModel SwissInv SwissOps SwissRun SwissRefine
  LinkModel OrderedLinks SwissOrderedSpec SwissOrdered SwissOrderedRun SwissOrderedWorldSpec SwissOrderedWorld SwissOrderedLinks SwissOrderedProofs SwissOrderedRefine SwissOrderedStep SwissOrderedMoves SwissOrderedMerge SwissOrderedFinal
  TransparentSpec TransparentModel TransparentProofs TransparentOrderedSpec TransparentOrderedModel.
Import ListNotations.
Open Scope Z_scope.

Section Proofs.
Context {E K T V : Type}.
Variable f : simd.
Variable sz : Z.
Variable key_of : E -> K.
Variable hash : K -> Z.
Variable keq : K -> K -> bool.
Variable rep : E -> E -> E.
Hypothesis Hsz : 0 < sz.
Hypothesis KL : key_laws hash keq.
Hypothesis Hrep : forall a b, keq (key_of a) (key_of b) = true -> key_of (rep a b) = key_of a.
Variable hasht : T -> Z.
Variable eqt : K -> T -> bool.
Variable make : T -> V -> E.
Hypothesis TL : transparent_laws key_of hash keq hasht eqt make.
Notation zinv := (SwissOrderedProofs.zinv f sz key_of hash keq).
Notation sfr := (sfr sz).
Notation zexec := (zexec f sz key_of hash keq rep).
Notation ztexec := (ztexec f sz key_of hash keq rep hasht eqt make).
Notation ztrun := (ztrun f sz key_of hash keq rep hasht eqt make).
Notation ztblocked := (ztblocked f sz key_of hash keq rep hasht eqt make).
Notation ztspec := (ztspec key_of keq rep eqt make).
Notation ztspec_run := (ztspec_run key_of keq rep eqt make).
Notation kt := (@ukey E K key_of).

Lemma zu : forall t h s ord, zinv h s ord -> SwissOrderedProofs.zinv f sz kt (uhash hash hasht t) (ueq keq eqt t) h s ord.
Proof. intros t h s ord [W R D]. constructor; [apply (uwf f key_of hash keq hasht eqt t); exact W|exact R|exact D]. Qed.
Lemma zu_back : forall t h s ord, SwissOrderedProofs.zinv f sz kt (uhash hash hasht t) (ueq keq eqt t) h s ord -> zinv h s ord.
Proof. intros t h s ord [W R D]. constructor; [apply (uwf_back f key_of hash keq hasht eqt t); exact W|exact R|exact D]. Qed.

Definition ztok (v : senv) (h : heap) (s : oswiss E) (ord : list Z) (c : ztcall E K T V) : Prop :=
  exists h' s' r ord', ztexec v (h, s) c = Ok ((h', s'), r) /\ zinv h' s' ord' /\ sfr h s h' s' /\ ztspec c (cont s ord) (cont s' ord') r.

(** Calls that only compare with [t]. *)
Lemma by_unit : forall v h s ord t c zc, zinv h s ord -> env_ok (sv_e v) ->
  (zc = ZFind (inr tt) /\ c = ZTFind t) \/ (zc = ZContains (inr tt) /\ c = ZTContains t) \/ (zc = ZErase (inr tt) /\ c = ZTErase t) ->
  ztexec v (h, s) c = SwissOrderedRun.zexec f sz kt (uhash hash hasht t) (ueq keq eqt t) rep v (h, s) zc ->
  (forall l l' r, zspec kt (ueq keq eqt t) rep zc l l' r -> ztspec c l l' r) -> ztblocked v (h, s) c \/ ztok v h s ord c.
Proof.
  intros v h s ord t c zc H Hv Hc He Hs.
  destruct (zstep_ok f sz kt (uhash hash hasht t) (ueq keq eqt t) rep Hsz (ulaws key_of hash keq KL hasht eqt make TL t) (urep key_of keq rep Hrep eqt t) v h s ord zc (zu t h s ord H) Hv) as [[Hb|Hb]|(h' & s' & r & ord' & E1 & I1 & F1 & _ & S1)].
  - destruct Hc as [(-> & _)|[(-> & _)|(-> & _)]]; exact I.
  - destruct Hc as [(-> & _)|[(-> & _)|(-> & _)]]; contradiction.
  - left. rewrite <- He in Hb. destruct Hc as [(_ & ->)|[(_ & ->)|(_ & ->)]]; exact Hb.
  - right. exists h', s', r, ord'. split; [rewrite He; exact E1|]. split; [apply (zu_back t); exact I1|]. split; [exact F1|apply Hs; exact S1].
Qed.
Lemma find_same : forall (s : oswiss E) t h, find_node f (@either_key E K T key_of) (either_eq keq eqt) (os_t s) (inr t) h = find_node f kt (ueq keq eqt t) (os_t s) (inr tt) h.
Proof. intros s t h. apply find_node_ext. reflexivity. Qed.

(** Insertions: those of the element made from [t]. *)
Lemma try_is_insert : forall v hs t u, ztexec v hs (ZTTry t u) = zexec v hs (ZInsert (make t u)).
Proof.
  intros v (h, s) t u. cbn [TransparentOrderedModel.ztexec SwissOrderedRun.zexec]. unfold zt_try, s_do_insert. rewrite (tl_hash _ _ _ _ _ _ TL _ t (tl_make _ _ _ _ _ _ TL t u)).
  rewrite (find_node_ext E (K + T) K f (@either_key E K T key_of) (either_eq keq eqt) key_of keq (os_t s) (inr t) (key_of (make t u))); [reflexivity|]. intros e. apply (eqt_make key_of hash keq hasht eqt make TL).
Qed.
Lemma assign_is_assign : forall v hs t u, ztexec v hs (ZTAssign t u) = zexec v hs (ZAssign (make t u)).
Proof.
  intros v (h, s) t u. cbn [TransparentOrderedModel.ztexec SwissOrderedRun.zexec]. unfold zt_assign, s_do_insert_or_assign. rewrite (tl_hash _ _ _ _ _ _ TL _ t (tl_make _ _ _ _ _ _ TL t u)).
  rewrite (find_node_ext E (K + T) K f (@either_key E K T key_of) (either_eq keq eqt) key_of keq (os_t s) (inr t) (key_of (make t u))); [reflexivity|]. intros e. apply (eqt_make key_of hash keq hasht eqt make TL).
Qed.
Lemma made_absent : forall t u l, absent key_of keq (key_of (make t u)) l -> tabsent key_of eqt t l.
Proof. intros t u l H x Hx. rewrite (eqt_make key_of hash keq hasht eqt make TL t u). apply H. exact Hx. Qed.
Lemma made_located : forall t u l a x b, located key_of keq (key_of (make t u)) l a x b -> tlocated key_of eqt t l a x b.
Proof. intros t u l a x b (H1 & H2). split; [exact H1|]. rewrite (eqt_make key_of hash keq hasht eqt make TL t u). exact H2. Qed.

Lemma ztstep_ok : forall v h s ord c, zinv h s ord -> env_ok (sv_e v) -> ztcall_ok c -> ztblocked v (h, s) c \/ ztok v h s ord c.
Proof.
  intros v h s ord c H Hv Hc. destruct c as [c|t|t|t|t u|t u]; cbn [ztcall_ok] in Hc.
  - destruct (zstep_ok f sz key_of hash keq rep Hsz KL Hrep v h s ord c H Hv Hc) as [Hb|(h' & s' & r & ord' & E1 & I1 & F1 & _ & S1)]; [left; exact Hb|right].
    exists h', s', r, ord'. split; [exact E1|]. split; [exact I1|]. split; [exact F1|apply zt_on; exact S1].
  - apply (by_unit v h s ord t _ (ZFind (inr tt)) H Hv); [auto| |].
    + cbn [TransparentOrderedModel.ztexec SwissOrderedRun.zexec]. rewrite find_same. reflexivity.
    + intros l l' r S. inversion S; subst; [apply zt_find_absent; assumption|]. match goal with X : located _ _ _ _ _ _ _ |- _ => destruct X as [Lc Lk] end. eapply zt_find. split; [exact Lc|exact Lk].
  - apply (by_unit v h s ord t _ (ZContains (inr tt)) H Hv); [auto| |].
    + cbn [TransparentOrderedModel.ztexec SwissOrderedRun.zexec]. rewrite find_same. reflexivity.
    + intros l l' r S. inversion S; subst; [apply zt_contains_absent; assumption|]. match goal with X : located _ _ _ _ _ _ _ |- _ => destruct X as [Lc Lk] end. eapply zt_contains. split; [exact Lc|exact Lk].
  - apply (by_unit v h s ord t _ (ZErase (inr tt)) H Hv); [auto| |].
    + cbn [TransparentOrderedModel.ztexec SwissOrderedRun.zexec]. unfold s_erase_key. cbn [either_hash uhash]. rewrite find_same. reflexivity.
    + intros l l' r S. inversion S; subst; [apply zt_erase_absent; assumption|]. match goal with X : located _ _ _ _ _ _ _ |- _ => destruct X as [Lc Lk] end. eapply zt_erase. split; [exact Lc|exact Lk].
  - destruct (zstep_ok f sz key_of hash keq rep Hsz KL Hrep v h s ord (ZInsert (make t u)) H Hv I) as [Hb|(h' & s' & r & ord' & E1 & I1 & F1 & _ & S1)].
    + left. cbn [TransparentOrderedModel.ztblocked]. rewrite try_is_insert. exact Hb.
    + right. exists h', s', r, ord'. split; [rewrite try_is_insert; exact E1|]. split; [exact I1|]. split; [exact F1|].
      remember (cont s ord) as l eqn:El. remember (cont s' ord') as l' eqn:El'. inversion S1; subst; [apply zt_try_new; eapply made_absent; eassumption|eapply zt_try_old; eapply made_located; eassumption|apply zt_try_throw; eapply made_absent; eassumption].
  - destruct (zstep_ok f sz key_of hash keq rep Hsz KL Hrep v h s ord (ZAssign (make t u)) H Hv I) as [Hb|(h' & s' & r & ord' & E1 & I1 & F1 & _ & S1)].
    + left. cbn [TransparentOrderedModel.ztblocked]. rewrite assign_is_assign. exact Hb.
    + right. exists h', s', r, ord'. split; [rewrite assign_is_assign; exact E1|]. split; [exact I1|]. split; [exact F1|].
      remember (cont s ord) as l eqn:El. remember (cont s' ord') as l' eqn:El'. inversion S1; subst; [apply zt_assign_new; eapply made_absent; eassumption|eapply zt_assign_old; eapply made_located; eassumption|apply zt_assign_throw; eapply made_absent; eassumption].
Qed.
Lemma ztrun_ok : forall hist h s ord, zinv h s ord -> zthistory_ok hist ->
  (exists h' s' ord' rs, ztrun (h, s) hist = Ok ((h', s'), rs) /\ zinv h' s' ord' /\ sfr h s h' s' /\ ztspec_run (map snd hist) (cont s ord) (cont s' ord') rs) \/
  (exists h1 v c h2 h' s' ord' rs, hist = h1 ++ (v, c) :: h2 /\ ztrun (h, s) h1 = Ok ((h', s'), rs) /\ zinv h' s' ord' /\ ztspec_run (map snd h1) (cont s ord) (cont s' ord') rs /\ ztblocked v (h', s') c).
Proof.
  induction hist as [|(v, c) hist IH]; intros h s ord H Hh.
  - left. exists h, s, ord, []. split; [reflexivity|]. split; [exact H|]. split; [apply sfr_refl|constructor].
  - inversion Hh as [|? ? (Hv & Hc) Hh']; subst. cbn [fst snd] in *. destruct (ztstep_ok v h s ord c H Hv Hc) as [Hb|(h1 & s1 & r & ord1 & He & H1 & F1 & S1)].
    + right. exists [], v, c, hist, h, s, ord, []. split; [reflexivity|]. split; [reflexivity|]. split; [exact H|]. split; [constructor|exact Hb].
    + destruct (IH h1 s1 ord1 H1 Hh') as [(h' & s' & ord' & rs & Hr & H' & F' & S')|(p1 & v' & c' & p2 & h' & s' & ord' & rs & -> & Hr & H' & S' & Hb)].
      * left. exists h', s', ord', (r :: rs). cbn [TransparentOrderedModel.ztrun map]. rewrite He. cbn [bind]. rewrite Hr. cbn [bind]. split; [reflexivity|]. split; [exact H'|]. split; [apply (sfr_trans sz h s h1 s1); assumption|]. econstructor; eassumption.
      * right. exists ((v, c) :: p1), v', c', p2, h', s', ord', (r :: rs). split; [reflexivity|]. cbn [TransparentOrderedModel.ztrun map]. rewrite He. cbn [bind]. rewrite Hr. cbn [bind]. split; [reflexivity|]. split; [exact H'|].
        split; [econstructor; eassumption|exact Hb].
Qed.
Lemma zt_refines : forall clone pocca pocma, (forall e, key_of (clone e) = key_of e) ->
  forall w i l hist, xoccurs f sz key_of hash keq rep clone pocca pocma w -> s_iterate sz (xw_m w) (xw_c w i) = Ok l -> zthistory_ok hist ->
  ztrefines f sz key_of hash keq rep hasht eqt make (xw_m w, xw_c w i) l hist.
Proof.
  intros clone pocca pocma Hclone w i l hist Hw Hl Hh. destruct (occurs_zinv f sz key_of hash keq rep clone pocca pocma Hsz KL Hrep Hclone w i l Hw Hl) as (ord & H & ->).
  destruct (ztrun_ok hist _ _ ord H Hh) as [(h' & s' & ord' & rs & Hr & H' & F' & S')|(h1 & v & c & h2 & h' & s' & ord' & rs & He & Hr & H' & S' & Hb)].
  - left. exists (h', s'), rs, (cont s' ord'). cbn [fst snd]. split; [exact Hr|]. split; [exact S'|]. split; [apply (zi_lists f sz key_of hash keq Hsz); exact H'|]. split; [apply (distinct_zinv f sz key_of hash keq KL h'); exact H'|].
    intros a A1 A2 A3. apply (sfr_keeps sz Hsz _ _ _ _ F'); [apply (SwissOrderedFinal.slot_ix_none sz Hsz); assumption|exact A3].
  - right. exists h1, v, c, h2, (h', s'), rs, (cont s' ord'). split; [exact He|]. split; [exact Hr|]. split; [exact S'|]. split; [apply (zi_lists f sz key_of hash keq Hsz); exact H'|exact Hb].
Qed.
End Proofs.
