(** One call and sequences of calls on an ordered swiss table. *)
From Coq Require Import ZArith List Bool Lia Permutation.
From Verif Require Import Base BaseLemmas MapSpec Bits SwissModel SwissArith SwissCap SwissInv SwissOps SwissClean SwissIter SwissRun SwissRoom SwissRefine
  LinkModel LinkProofs OrderedLinks SwissOrderedSpec SwissOrdered SwissOrderedRun SwissOrderedLinks SwissOrderedProofs SwissOrderedOps SwissOrderedRefine.
Import ListNotations.
Open Scope Z_scope.

Section Z.
Context {E K : Type}.
Variable f : simd.
Variable sz : Z.
Variable key_of : E -> K.
Variable hash : K -> Z.
Variable keq : K -> K -> bool.
Variable rep : E -> E -> E.
Hypothesis Hsz : 0 < sz.
Hypothesis KL : key_laws hash keq.
Hypothesis Hrep : forall a b, keq (key_of a) (key_of b) = true -> key_of (rep a b) = key_of a.
Notation swiss := (@swiss E).
Notation oswiss := (oswiss E).
Notation wf1 := (wf1 f key_of hash keq).
Notation wf := (wf f key_of hash keq).
Notation inv := (inv f key_of hash keq).
Notation absent := (absent key_of keq).
Notation located := (located key_of keq).
Notation zinv := (zinv f sz key_of hash keq).
Notation sfr := (sfr sz).
Notation zspec := (zspec key_of keq rep).
Notation zexec := (zexec f sz key_of hash keq rep).
Notation zblocked := (zblocked f sz key_of hash keq rep).

Lemma absent_perm : forall k (l l' : list E), Permutation l l' -> absent k l -> absent k l'.
Proof. intros k l l' P H x Hx. apply H. apply (Permutation_in _ (Permutation_sym P) Hx). Qed.

(** A key in the table. *)
Lemma find_zinv : forall h s ord k, zinv h s ord -> exists r, find_node f key_of keq (os_t s) k (hash k) = Ok r /\
  ((r = s_cap (os_t s) /\ absent k (cont s ord) /\ absent k (elems (os_t s))) \/
   (r <> s_cap (os_t s) /\ exists e hh o1 o2, wf1 (os_t s) /\ ord = o1 ++ r :: o2 /\ s_nodes (os_t s) r = Some (e, hh) /\ get_node (os_t s) r = Ok (e, hh) /\ keq (key_of e) k = true /\
      located k (cont s ord) (cont s o1) e (cont s o2))).
Proof.
  intros h s ord k H. destruct (find_located f key_of hash keq KL (os_t s) k (zi_wf _ _ _ _ _ _ _ _ H)) as (r & Er & [(e & hh & W1 & Hr & Hn & Hg & _ & Hl)|(-> & Ha)]).
  - exists r. split; [exact Er|]. right. split; [lia|]. assert (Hi : In r ord) by (apply (zi_tied _ _ _ _ _ _ _ _ H); congruence). apply in_split in Hi. destruct Hi as (o1 & o2 & ->).
    exists e, hh, o1, o2. split; [exact W1|]. split; [reflexivity|]. split; [exact Hn|]. split; [exact Hg|]. split; [apply Hl|]. split; [|apply Hl]. apply (cont_split s o1 r o2 (e, hh) Hn).
  - eexists. split; [exact Er|]. left. split; [reflexivity|]. split; [|exact Ha]. apply (absent_perm _ _ _ (Permutation_sym (zi_perm f sz key_of hash keq _ _ _ H)) Ha).
Qed.
Definition swap_free (v : senv) (s : oswiss) (e : E) : Prop :=
  forall t p tr, make_room f (ev_lim (sv_e v)) (os_t s) (hash (key_of e)) = Ok (t, Some (p, tr)) -> swapless tr.
Lemma swaps_dec : forall v (s : oswiss) e, find_node f key_of keq (os_t s) (key_of e) (hash (key_of e)) = Ok (s_cap (os_t s)) ->
  zswaps f key_of hash keq v s e \/ swap_free v s e.
Proof.
  intros v s e Hf. destruct (make_room f (ev_lim (sv_e v)) (os_t s) (hash (key_of e))) as [(t, [(p, tr)|])|x] eqn:Em.
  2,3: right; intros t' p' tr' Hx; rewrite Em in Hx; discriminate.
  destruct (existsb (fun e => match e with EvSwap _ _ => true | _ => false end) tr) eqn:Ex.
  - left. split; [exact Hf|]. apply existsb_exists in Ex. destruct Ex as (x & Hx & Hb). destruct x as [| |a b]; try discriminate. exists t, p, tr, a, b. split; [exact Em|exact Hx].
  - right. intros t' p' tr' Hx a b Hi. rewrite Em in Hx. injection Hx as <- <- <-. assert (Hc : existsb (fun e => match e with EvSwap _ _ => true | _ => false end) tr = true) by (apply existsb_exists; exists (EvSwap a b); auto). congruence.
Qed.

(** What an insertion of an absent key at the end does. *)
Lemma insert_absent : forall v h s ord e, zinv h s ord -> env_ok (sv_e v) -> find_node f key_of keq (os_t s) (key_of e) (hash (key_of e)) = Ok (s_cap (os_t s)) -> absent (key_of e) (elems (os_t s)) ->
  zswaps f key_of hash keq v s e \/ s_emplace_node f sz v (ev_ctor (sv_e v)) h s 0 (hash (key_of e)) e = Err BadPlacement \/
  exists h' s' o ord', s_emplace_node f sz v (ev_ctor (sv_e v)) h s 0 (hash (key_of e)) e = Ok (h', s', o) /\ zinv h' s' ord' /\ sfr h s h' s' /\ (s_cap (os_t s') = 0 -> os_t s' = os_t s) /\
    match o with
    | None => cont s' ord' = cont s ord
    | Some p => s_nodes (os_t s') p = Some (e, hash (key_of e)) /\ cont s' ord' = cont s ord ++ [e]
    end.
Proof.
  intros v h s ord e H Hv Hf Ha. destruct (swaps_dec v s e Hf) as [Hs|Hs]; [left; exact Hs|right].
  rewrite <- (app_nil_r ord) in H. destruct (emplace_ok f sz key_of hash keq Hsz KL v (ev_ctor (sv_e v)) h s ord [] 0 e H Hv Ha) as [(Hb & _)|(h' & s' & o & ord' & E1 & I1 & F1 & Z1 & Ho & _)].
  - intros t p tr Hm. split; [apply (Hs t p tr Hm)|]. left. auto.
  - left. exact Hb.
  - right. exists h', s', o, ord'. split; [exact E1|]. split; [exact I1|]. split; [exact F1|]. split; [exact Z1|]. destruct o; [destruct Ho as (_ & N & C & _); split; assumption|]. rewrite app_nil_r in Ho. exact Ho.
Qed.

Definition zgood (s s' : oswiss) : Prop := inv (os_t s) -> inv (os_t s').
Lemma zgood_zero : forall h s ord s', zinv h s' ord -> (s_cap (os_t s') = 0 -> os_t s' = os_t s) -> zgood s s'.
Proof. intros h s ord s' H Hz (_ & Hi). split; [apply (zi_wf _ _ _ _ _ _ _ _ H)|]. intros H0. pose proof (Hz H0) as Hx. rewrite Hx in *. apply Hi. exact H0. Qed.

Definition zok (v : senv) (h : heap) (s : oswiss) (ord : list Z) (c : zcall E K) : Prop :=
  exists h' s' r ord', zexec v (h, s) c = Ok ((h', s'), r) /\ zinv h' s' ord' /\ sfr h s h' s' /\ zgood s s' /\ zspec c (cont s ord) (cont s' ord') r.
Lemma zstay : forall v h s ord c r, zinv h s ord -> zexec v (h, s) c = Ok ((h, s), r) -> zspec c (cont s ord) (cont s ord) r -> zok v h s ord c.
Proof. intros v h s ord c r H He Hs. exists h, s, r, ord. split; [exact He|]. split; [exact H|]. split; [apply sfr_refl|]. split; [intros Hi; exact Hi|exact Hs]. Qed.

Lemma zstep_ok : forall v h s ord c, zinv h s ord -> env_ok (sv_e v) -> zcall_ok c -> zblocked v (h, s) c \/ zok v h s ord c.
Proof.
  intros v h s ord c H Hv Hc. pose proof (zi_rl _ _ _ _ _ _ _ _ H) as L. destruct (zi_len f sz key_of hash keq _ _ _ H) as (Hlen & Hsize).
  destruct c as [e|e|k|i|i j|pred|k|k| | | |n|n| | |]; cbn [zcall_ok] in Hc.
  - (* insert *)
    destruct (find_zinv h s ord (key_of e) H) as (r & Er & [(-> & Ha & Ha')|(Hne & x & hh & o1 & o2 & W1 & Ho & Hn & Hg & Hk & Hl)]).
    + destruct (insert_absent v h s ord e H Hv Er Ha') as [Hs|[Hb|(h' & s' & o & ord' & E1 & I1 & F1 & Z1 & Hx)]].
      * left. left. exact Hs.
      * left. right. cbn [SwissOrderedRun.zexec]. unfold s_do_insert. rewrite Er. cbn [bind]. rewrite Z.eqb_refl, Hb. reflexivity.
      * right. assert (Ee : zexec v (h, s) (ZInsert e) = z_give sz (h', s', match o with None => None | Some q => Some (s_iter sz s' q, true) end)).
        { cbn [SwissOrderedRun.zexec]. unfold s_do_insert. rewrite Er. cbn [bind]. rewrite Z.eqb_refl, E1. reflexivity. }
        destruct o as [q|]; cbn [z_give] in Ee.
        -- destruct Hx as (Hq & Cq). destruct (value_ok f sz key_of hash keq Hsz _ _ _ _ _ I1 Hq) as (Ei & Ev & _ & _). rewrite Ei, Ev in Ee. cbn [bind fst] in Ee. exists h', s', (RInserted e true), ord'. split; [exact Ee|]. split; [exact I1|]. split; [exact F1|]. split; [apply (zgood_zero _ _ _ _ I1 Z1)|]. rewrite Cq. apply zs_insert_new. exact Ha.
        -- exists h', s', RThrow, ord'. split; [exact Ee|]. split; [exact I1|]. split; [exact F1|]. split; [apply (zgood_zero _ _ _ _ I1 Z1)|]. rewrite Hx. apply zs_throw_insert. exact Ha.
    + right. destruct (value_ok f sz key_of hash keq Hsz _ _ _ _ _ H Hn) as (Ei & Ev & _ & _). apply (zstay v h s ord _ (RInserted x false) H).
      * cbn [SwissOrderedRun.zexec]. unfold s_do_insert. rewrite Er. cbn [bind]. destruct (Z.eqb_spec r (s_cap (os_t s))) as [|_]; [contradiction|]. cbn [bind z_give]. rewrite Ei, Ev. reflexivity.
      * apply (zs_insert_old _ _ _ _ _ _ _ _ Hl).
  - (* insert_or_assign *)
    destruct (find_zinv h s ord (key_of e) H) as (r & Er & [(-> & Ha & Ha')|(Hne & x & hh & o1 & o2 & W1 & Ho & Hn & Hg & Hk & Hl)]).
    + destruct (insert_absent v h s ord e H Hv Er Ha') as [Hs|[Hb|(h' & s' & o & ord' & E1 & I1 & F1 & Z1 & Hx)]].
      * left. left. exact Hs.
      * left. right. cbn [SwissOrderedRun.zexec]. unfold s_do_insert_or_assign. rewrite Er. cbn [bind]. rewrite Z.eqb_refl, Hb. reflexivity.
      * right. assert (Ee : zexec v (h, s) (ZAssign e) = z_give sz (h', s', match o with None => None | Some q => Some (s_iter sz s' q, true) end)).
        { cbn [SwissOrderedRun.zexec]. unfold s_do_insert_or_assign. rewrite Er. cbn [bind]. rewrite Z.eqb_refl, E1. reflexivity. }
        destruct o as [q|]; cbn [z_give] in Ee.
        -- destruct Hx as (Hq & Cq). destruct (value_ok f sz key_of hash keq Hsz _ _ _ _ _ I1 Hq) as (Ei & Ev & _ & _). rewrite Ei, Ev in Ee. cbn [bind fst] in Ee. exists h', s', (RInserted e true), ord'. split; [exact Ee|]. split; [exact I1|]. split; [exact F1|]. split; [apply (zgood_zero _ _ _ _ I1 Z1)|]. rewrite Cq. apply zs_assign_new. exact Ha.
        -- exists h', s', RThrow, ord'. split; [exact Ee|]. split; [exact I1|]. split; [exact F1|]. split; [apply (zgood_zero _ _ _ _ I1 Z1)|]. rewrite Hx. apply zs_throw_assign. exact Ha.
    + right. assert (Ek : key_of (rep x e) = key_of x) by (apply Hrep; exact Hk). pose proof (replace_ok f key_of hash keq (os_t s) r x hh (rep x e) W1 Hn Ek) as W'.
      set (t' := mk (s_buf (os_t s)) (s_cap (os_t s)) (s_meta (os_t s)) (upd (s_nodes (os_t s)) r (Some (rep x e, hh))) (s_size (os_t s)) (s_nempty (os_t s))) in *.
      assert (I' : zinv h (with_t s t') ord).
      { constructor; cbn [with_t os_t]; [right; exact W'|exact L|]. intros i. unfold t'. cbn [s_nodes]. destruct (Z.eq_dec i r) as [->|Hir]; [rewrite upd_same|rewrite upd_other by exact Hir; apply (zi_tied _ _ _ _ _ _ _ _ H)].
        split; [discriminate|]. intros _. apply (zi_tied _ _ _ _ _ _ _ _ H). congruence. }
      assert (Hn' : s_nodes (os_t (with_t s t')) r = Some (rep x e, hh)) by (cbn [with_t os_t]; unfold t'; cbn [s_nodes]; apply upd_same).
      destruct (value_ok f sz key_of hash keq Hsz _ _ _ _ _ I' Hn') as (Ei & Ev & _ & _). exists h, (with_t s t'), (RInserted (rep x e) false), ord. split; [|split; [exact I'|split; [|split]]].
      * cbn [SwissOrderedRun.zexec]. unfold s_do_insert_or_assign. rewrite Er. cbn [bind]. destruct (Z.eqb_spec r (s_cap (os_t s))) as [|_]; [contradiction|]. rewrite Hg. cbn [bind fst snd z_give]. fold t'. change (s_iter sz s r) with (s_iter sz (with_t s t') r). rewrite Ei, Ev. reflexivity.
      * split; [reflexivity|]. apply frame_refl.
      * intros _. apply inv_wf1. exact W'.
      * subst ord. rewrite (cont_split (with_t s t') o1 r o2 _ Hn'). assert (Hnd : ~ In r (o1 ++ o2)) by (apply NoDup_remove_2; apply (rl_nd _ _ _ _ _ _ L)).
        assert (Ex : forall o, (forall i, In i o -> In i (o1 ++ o2)) -> cont (with_t s t') o = cont s o) by (intros o Hio; unfold cont; cbn [with_t os_t]; apply seqn_ext; intros i Hi; unfold t'; cbn [s_nodes]; apply upd_other; intros ->; apply Hnd; apply Hio; exact Hi).
        rewrite (Ex o1), (Ex o2) by (intros i Hi; apply in_or_app; tauto). cbn [fst]. apply zs_assign_old. exact Hl.
  - (* erase(key) *)
    right. destruct (find_zinv h s ord k H) as (r & Er & [(-> & Ha & Ha')|(Hne & x & hh & o1 & o2 & W1 & Ho & Hn & Hg & Hk & Hl)]).
    + apply (zstay v h s ord _ (RErased None false) H); [|apply zs_erase_absent; exact Ha]. cbn [SwissOrderedRun.zexec]. unfold s_erase_key. rewrite Er. cbn [bind]. rewrite Z.eqb_refl. cbn [bind fst snd z_erased]. unfold s_at. rewrite Z.eqb_refl. reflexivity.
    + subst ord. destruct (do_erase_ok f sz key_of hash keq Hsz KL _ _ _ _ _ H) as (h1 & s1 & E1 & I1 & F1 & N1 & B1 & C1 & _ & _).
      exists h1, s1, (RErased (hd_error (cont s o2)) true), (o1 ++ o2). assert (Eo : forall o, (forall i, In i o -> In i (o1 ++ o2)) -> cont s1 o = cont s o) by (intros o Hio; apply (erased_cont f sz key_of hash keq _ _ _ _ _ _ _ H N1); exact Hio).
      split; [|split; [exact I1|split; [exact F1|split; [apply (zgood_zero _ _ _ _ I1); intros Hz; exfalso; rewrite C1 in Hz; pose proof (cap_bounds f _ (w_m _ _ _ _ _ W1)); lia|]]]].
      * cbn [SwissOrderedRun.zexec]. unfold s_erase_key. rewrite Er. cbn [bind]. destruct (Z.eqb_spec r (s_cap (os_t s))) as [|_]; [contradiction|]. rewrite E1. cbn [bind fst snd z_erased]. rewrite <- B1, <- (proj1 F1). rewrite (at_ok f sz key_of hash keq Hsz _ _ _ _ I1). cbn [bind]. rewrite (Eo o2) by (intros i Hi; apply in_or_app; tauto). reflexivity.
      * rewrite (Eo (o1 ++ o2)) by auto. unfold cont at 2. rewrite seqn_app. apply (zs_erase _ _ _ _ _ _ _ _ Hl).
  - (* erase(it) *)
    destruct (Z_le_gt_dec 0 i) as [Hi0|Hi0]; [destruct (Z_lt_ge_dec i (s_size (os_t s))) as [Hi1|Hi1]|]; [right|left; left; cbn [snd]; lia|left; left; cbn [snd]; lia].
    destruct (nth_error ord (Z.to_nat i)) as [pos|] eqn:En; [|apply nth_error_None in En; lia]. apply nth_error_split in En. destruct En as (o1 & o2 & -> & Hl1).
    destruct (do_erase_ok f sz key_of hash keq Hsz KL _ _ _ _ _ H) as (h1 & s1 & E1 & I1 & F1 & N1 & B1 & C1 & _ & _).
    destruct (zi_slot f sz key_of hash keq Hsz _ _ _ pos H ltac:(apply in_or_app; right; left; reflexivity)) as (Hr & _ & _ & n & Hn & _).
    assert (Eo : forall o, (forall j, In j o -> In j (o1 ++ o2)) -> cont s1 o = cont s o) by (intros o Hio; apply (erased_cont f sz key_of hash keq _ _ _ _ _ _ _ H N1); exact Hio).
    exists h1, s1, (RErased (hd_error (cont s o2)) true), (o1 ++ o2). split; [|split; [exact I1|split; [exact F1|split; [apply (zgood_zero _ _ _ _ I1); intros Hz; exfalso; lia|]]]].
    + cbn [SwissOrderedRun.zexec]. replace i with (Z.of_nat (length o1)) by lia. rewrite (nth_ok f sz key_of hash keq Hsz _ _ _ _ H). cbn [bind place_at]. pose proof (erase_at_ok f sz key_of hash keq Hsz _ _ _ _ _ H) as Ea. unfold sslot in Ea. rewrite Ea, E1. cbn [bind z_erased]. rewrite <- B1, <- (proj1 F1). rewrite (at_ok f sz key_of hash keq Hsz _ _ _ _ I1). cbn [bind]. rewrite (Eo o2) by (intros j Hj; apply in_or_app; tauto). reflexivity.
    + rewrite (Eo (o1 ++ o2)) by auto. rewrite (cont_split s o1 pos o2 n Hn). unfold cont at 3. rewrite seqn_app. fold (cont s o1) (cont s o2).
      assert (Hlc : length (cont s o1) = length o1) by (apply seqn_len; intros j Hj; apply (zi_tied _ _ _ _ _ _ _ _ H); apply in_or_app; left; exact Hj). replace i with (Z.of_nat (length (cont s o1))) by lia. apply zs_erase_at.
  - (* erase(first, last) *)
    destruct (Z_le_gt_dec 0 i) as [Hi0|Hi0]; [|left; left; cbn [snd]; lia]. destruct (Z_le_gt_dec i j) as [Hij|Hij]; [|left; left; cbn [snd]; lia]. destruct (Z_le_gt_dec j (s_size (os_t s))) as [Hj|Hj]; [|left; left; cbn [snd]; lia].
    assert (Hsp : exists o1 m o2, ord = o1 ++ m ++ o2 /\ Z.of_nat (length o1) = i /\ Z.of_nat (length (o1 ++ m)) = j).
    { exists (firstn (Z.to_nat i) ord), (firstn (Z.to_nat (j - i)) (skipn (Z.to_nat i) ord)), (skipn (Z.to_nat (j - i)) (skipn (Z.to_nat i) ord)). rewrite !firstn_skipn. split; [reflexivity|]. rewrite app_length, !firstn_length, skipn_length. lia. }
    destruct Hsp as (o1 & m & o2 & -> & Hl1 & Hl2). destruct (erase_range_ok f sz key_of hash keq Hsz KL _ _ _ _ _ H) as (h1 & s1 & E1 & I1 & C1 & F1 & B1 & Cp1).
    destruct m as [|x m]; [destruct o2 as [|y o2]|].
    2:{ left. left. right. rewrite !app_length in *. cbn [length snd] in *. lia. }
    + right. exists h1, s1, (RErased None true), (o1 ++ []). split; [|split; [exact I1|split; [exact F1|split]]].
      * cbn [SwissOrderedRun.zexec]. rewrite <- Hl1, <- Hl2. cbn [app] in *. rewrite app_nil_r. rewrite (nth_ok f sz key_of hash keq Hsz h s o1 [] H). cbn [bind]. rewrite E1. cbn [bind z_erased]. unfold s_at. rewrite (proj1 F1), Z.eqb_refl. reflexivity.
      * intros (_ & Hz). split; [apply (zi_wf _ _ _ _ _ _ _ _ I1)|]. unfold s_erase_range in E1. cbn [app place_at] in E1. unfold iter_fuel in E1. cbn [s_erase_range_loop] in E1. rewrite Z.eqb_refl in E1. injection E1 as _ <- . exact Hz.
      * rewrite C1. cbn [app]. rewrite !app_nil_r in *. assert (Hlc : length (cont s o1) = length o1) by exact Hlen.
        assert (Hx := zs_erase_range key_of keq rep (cont s o1) [] []). cbn [app] in Hx. rewrite !app_nil_r in Hx. rewrite <- Hl1, <- Hl2, <- Hlc. exact Hx.
    + right. exists h1, s1, (RErased (hd_error (cont s o2)) true), (o1 ++ o2). split; [|split; [exact I1|split; [exact F1|split]]].
      * cbn [SwissOrderedRun.zexec]. rewrite <- Hl1, <- Hl2. rewrite (nth_ok f sz key_of hash keq Hsz h s o1 ((x :: m) ++ o2) H). cbn [bind]. rewrite app_assoc in H. rewrite (nth_ok f sz key_of hash keq Hsz h s _ _ H). cbn [bind]. rewrite E1. cbn [bind z_erased]. rewrite <- B1, <- (proj1 F1), (at_ok f sz key_of hash keq Hsz _ _ _ _ I1).
        cbn [bind]. unfold cont in C1. rewrite !seqn_app in C1. apply app_inj in C1; [|rewrite !seqn_len; [reflexivity| |]; intros q Hq; [apply (zi_tied _ _ _ _ _ _ _ _ H)|apply (zi_tied _ _ _ _ _ _ _ _ I1)]; rewrite ?in_app_iff in *; tauto]. destruct C1 as (_ & C1). fold (cont s1 o2) (cont s o2) in C1. rewrite C1. reflexivity.
      * apply (zgood_zero _ _ _ _ I1). intros Hz. exfalso. destruct (zi_slot f sz key_of hash keq Hsz _ _ _ x H ltac:(apply in_or_app; right; left; reflexivity)) as (Hr & _). lia.
      * rewrite C1. unfold cont. rewrite !seqn_app. fold (cont s o1) (cont s (x :: m)) (cont s o2).
        assert (Hlc : length (cont s o1) = length o1) by (apply seqn_len; intros q Hq; apply (zi_tied _ _ _ _ _ _ _ _ H); apply in_or_app; left; exact Hq).
        assert (Hlm : length (cont s o1 ++ cont s (x :: m)) = length (o1 ++ x :: m)) by (rewrite !app_length, Hlc; f_equal; apply seqn_len; intros q Hq; apply (zi_tied _ _ _ _ _ _ _ _ H); rewrite !in_app_iff; tauto).
        rewrite <- Hl1, <- Hl2, <- Hlc, <- Hlm. apply zs_erase_range.
  - (* erase_if *)
    right. destruct (erase_if_ok f sz key_of hash keq Hsz KL pred _ _ _ H) as (h1 & s1 & o' & E1 & I1 & C1 & F1 & Z1). exists h1, s1, (RNum (Z.of_nat (length (filter pred (cont s ord))))), o'. split; [|split; [exact I1|split; [exact F1|split]]].
    + cbn [SwissOrderedRun.zexec]. rewrite E1. reflexivity.
    + apply (zgood_zero _ _ _ _ I1). intros Hz. rewrite (Z1 Hz). reflexivity.
    + rewrite C1. apply zs_erase_if.
  - (* find *)
    right. destruct (find_zinv h s ord k H) as (r & Er & [(-> & Ha & Ha')|(Hne & x & hh & o1 & o2 & W1 & Ho & Hn & Hg & Hk & Hl)]).
    + apply (zstay v h s ord _ (RFound None) H); [|apply zs_find_absent; exact Ha]. cbn [SwissOrderedRun.zexec]. rewrite Er. cbn [bind]. unfold s_iter. rewrite Z.ltb_irrefl. unfold s_at. rewrite Z.eqb_refl. reflexivity.
    + destruct (value_ok f sz key_of hash keq Hsz _ _ _ _ _ H Hn) as (Ei & _ & Ea & _). apply (zstay v h s ord _ (RFound (Some x)) H); [|apply (zs_find _ _ _ _ _ _ _ _ Hl)]. cbn [SwissOrderedRun.zexec]. rewrite Er. cbn [bind]. rewrite Ei, Ea. reflexivity.
  - (* contains *)
    right. destruct (find_zinv h s ord k H) as (r & Er & [(-> & Ha & Ha')|(Hne & x & hh & o1 & o2 & W1 & Ho & Hn & Hg & Hk & Hl)]).
    + apply (zstay v h s ord _ (RBool false) H); [|apply zs_contains_absent; exact Ha]. cbn [SwissOrderedRun.zexec]. rewrite Er. cbn [bind]. rewrite Z.eqb_refl. reflexivity.
    + apply (zstay v h s ord _ (RBool true) H); [|apply (zs_contains _ _ _ _ _ _ _ _ Hl)]. cbn [SwissOrderedRun.zexec]. rewrite Er. cbn [bind]. destruct (Z.eqb_spec r (s_cap (os_t s))) as [|_]; [contradiction|reflexivity].
  - (* front *)
    destruct ord as [|i o]; [left; left; cbn [snd length] in *; exact Hsize|right]. destruct (zi_slot f sz key_of hash keq Hsz _ _ _ i H (or_introl eq_refl)) as (_ & _ & _ & n & Hn & _). destruct (value_ok f sz key_of hash keq Hsz _ _ _ _ _ H Hn) as (_ & Ev & _).
    apply (zstay v h s _ _ (RFound (Some (fst n))) H).
    + cbn [SwissOrderedRun.zexec]. unfold s_front. rewrite (begin_at sz _ _ _ _ _ L). cbn [bind place_at]. unfold sslot in Ev. rewrite Ev. reflexivity.
    + unfold cont. rewrite (seqn_cons _ _ _ _ Hn). apply zs_front.
  - (* back *)
    destruct ord as [|i0 o0]; [left; left; cbn [snd length] in *; exact Hsize|right]. destruct (exists_last (l := i0 :: o0) ltac:(discriminate)) as (o & i & Eo). rewrite Eo in *.
    destruct (zi_slot f sz key_of hash keq Hsz _ _ _ i H ltac:(apply in_or_app; right; left; reflexivity)) as (_ & _ & _ & n & Hn & _). destruct (value_ok f sz key_of hash keq Hsz _ _ _ _ _ H Hn) as (_ & Ev & _).
    apply (zstay v h s _ _ (RFound (Some (fst n))) H).
    + cbn [SwissOrderedRun.zexec]. unfold s_back. rewrite (back_link sz _ _ _ _ _ L), map_app, app_comm_cons. cbn [map]. rewrite last_last. cbn [bind]. unfold sslot in Ev. rewrite Ev. reflexivity.
    + rewrite (cont_split s o i [] n Hn). apply zs_back.
  - (* clear *)
    right. destruct (clear_links f sz key_of hash keq _ _ _ H) as (h1 & s1 & E1 & I1 & F1 & Z1 & C1). exists h1, s1, RUnit, []. split; [cbn [SwissOrderedRun.zexec]; rewrite E1; reflexivity|]. split; [exact I1|]. split; [exact F1|]. split; [|apply zs_clear].
    apply (zgood_zero _ _ _ _ I1). intros Hz. rewrite Z1 by lia. reflexivity.
  - (* reserve *)
    destruct (reserve_ok f key_of hash keq KL (ev_lim (sv_e v)) (os_t s) n (zi_wf _ _ _ _ _ _ _ _ H) Hv Hc) as (t1 & o & E1 & R1 & _).
    destruct (resized_ok f sz key_of hash keq Hsz v h s ord t1 o H R1) as [Hb|(h1 & s1 & o' & E2 & Et & I1 & C1 & F1)].
    + intros tr ->. apply (reserve_swapless f _ _ _ _ _ E1).
    + left. right. cbn [SwissOrderedRun.zexec]. unfold s_reserve. rewrite E1. cbn [bind]. rewrite Hb. reflexivity.
    + right. eexists h1, s1, _, o'. split; [cbn [SwissOrderedRun.zexec]; unfold s_reserve; rewrite E1; cbn [bind]; rewrite E2; reflexivity|]. split; [exact I1|]. split; [exact F1|]. split; [|rewrite C1; destruct o; [apply zs_reserve|apply zs_throw_reserve]].
      apply (zgood_zero _ _ _ _ I1). intros Hz. rewrite Et in *. destruct o; cbn [resized] in R1; [destruct R1 as (_ & _ & _ & _ & [Hx|Hx]); [contradiction|exact Hx]|exact R1].
  - (* rehash *)
    destruct (rehash_ok f key_of hash keq KL (ev_lim (sv_e v)) (os_t s) n (zi_wf _ _ _ _ _ _ _ _ H) Hv ltac:(unfold two64; lia) (or_introl (proj1 Hc))) as (t1 & o & E1 & R1 & _).
    destruct (resized_ok f sz key_of hash keq Hsz v h s ord t1 o H R1) as [Hb|(h1 & s1 & o' & E2 & Et & I1 & C1 & F1)].
    + intros tr ->. apply (rehash_swapless f _ _ _ _ _ E1).
    + left. right. cbn [SwissOrderedRun.zexec]. unfold s_rehash. rewrite E1. cbn [bind]. rewrite Hb. reflexivity.
    + right. eexists h1, s1, _, o'. split; [cbn [SwissOrderedRun.zexec]; unfold s_rehash; rewrite E1; cbn [bind]; rewrite E2; reflexivity|]. split; [exact I1|]. split; [exact F1|]. split; [|rewrite C1; destruct o; [apply zs_rehash|apply zs_throw_rehash]].
      apply (zgood_zero _ _ _ _ I1). intros Hz. rewrite Et in *. destruct o; cbn [resized] in R1; [destruct R1 as (_ & _ & _ & _ & [Hx|Hx]); [contradiction|exact Hx]|exact R1].
  - (* size *)
    right. apply (zstay v h s ord _ (RNum (s_size (os_t s))) H); [reflexivity|]. rewrite Hsize, <- Hlen. apply zs_size.
  - (* iteration *)
    right. apply (zstay v h s ord _ (RList (cont s ord)) H); [|apply zs_iterate]. cbn [SwissOrderedRun.zexec]. rewrite (iterate_ok f sz key_of hash keq Hsz _ _ _ H). reflexivity.
  - right. apply (zstay v h s ord _ (RList (rev (cont s ord))) H); [|apply zs_backwards]. cbn [SwissOrderedRun.zexec]. rewrite (backwards_ok f sz key_of hash keq Hsz _ _ _ H). reflexivity.
Qed.
End Z.
