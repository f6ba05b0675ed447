(** Insertion, erasure, traversal of ordered swiss tables. *)
From Coq Require Import ZArith List Bool Lia Permutation.
From Verif Require Import Base BaseLemmas MapSpec Bits SwissModel SwissArith SwissCap SwissInv SwissOps SwissClean SwissIter SwissRun SwissRoom SwissRefine
  LinkModel LinkProofs OrderedLinks SwissOrderedSpec SwissOrdered SwissOrderedRun SwissOrderedLinks SwissOrderedProofs.
Import ListNotations.
Open Scope Z_scope.

Lemma app_inj : forall A (a b c d : list A), a ++ b = c ++ d -> length a = length c -> a = c /\ b = d.
Proof.
  intros A a. induction a as [|x a IH]; intros b c d H Hl; (destruct c as [|y c]; [try discriminate|try discriminate]); [auto|]. cbn [app length] in *. injection H as <- H. injection Hl as Hl. destruct (IH _ _ _ H Hl). subst. auto.
Qed.

Section Z.
Context {E K : Type}.
Variable f : simd.
Variable sz : Z.
Variable key_of : E -> K.
Variable hash : K -> Z.
Variable keq : K -> K -> bool.
Hypothesis Hsz : 0 < sz.
Hypothesis KL : key_laws hash keq.
Notation swiss := (@swiss E).
Notation oswiss := (oswiss E).
Notation wf1 := (wf1 f key_of hash keq).
Notation wf := (wf f key_of hash keq).
Notation absent := (absent key_of keq).
Notation zinv := (zinv f sz key_of hash keq).
Notation sfr := (sfr sz).
Notation slot s := (fun i => os_base s + i * sz).
Notation place_of s ord := (place_at sz (os_hdr s) (os_base s) ord).

(** Where a hint puts the new node: behind the last element (null), in front (end()), behind
    the element it points to if the nodes stay where they are. *)
Definition hinted (s : oswiss) (tr : list ev) (hint : Z) (o1 o2 : list Z) : Prop :=
  (hint = 0 /\ o2 = []) \/
  (hint <> 0 /\ hint = os_hdr s /\ o1 = []) \/
  (hint <> 0 /\ tr = [] /\ hint = last (os_hdr s :: map (slot s) o1) (os_hdr s)).

Lemma emplace_ok : forall v ctor h s o1 o2 hint e, zinv h s (o1 ++ o2) -> ev_lim (sv_e v) < 2 ^ 59 -> absent (key_of e) (elems (os_t s)) ->
  (forall t p tr, make_room f (ev_lim (sv_e v)) (os_t s) (hash (key_of e)) = Ok (t, Some (p, tr)) -> swapless tr /\ hinted s tr hint o1 o2) ->
  (s_emplace_node f sz v ctor h s hint (hash (key_of e)) e = Err BadPlacement /\ ~ (s_cap (os_t s) <> 0 /\ 0 < s_nempty (os_t s))) \/
  exists h' s' o ord, s_emplace_node f sz v ctor h s hint (hash (key_of e)) e = Ok (h', s', o) /\ zinv h' s' ord /\ sfr h s h' s' /\
    (s_cap (os_t s') = 0 -> os_t s' = os_t s) /\
    match o with
    | None => cont s' ord = cont s (o1 ++ o2)
    | Some p => ctor = true /\ s_nodes (os_t s') p = Some (e, hash (key_of e)) /\ cont s' ord = cont s o1 ++ e :: cont s o2 /\
        (s_cap (os_t s) <> 0 -> 0 < s_nempty (os_t s) -> exists q, ord = o1 ++ q :: o2)
    end /\
    (s_cap (os_t s) <> 0 -> 0 < s_nempty (os_t s) -> ctor = true ->
       o <> None /\ s_cap (os_t s') = s_cap (os_t s) /\ os_base s' = os_base s /\ s_nempty (os_t s) - 1 <= s_nempty (os_t s') /\ s_size (os_t s') = s_size (os_t s) + 1).
Proof.
  intros v ctor h s o1 o2 hint e H Hlim Hab Hroom. unfold s_emplace_node.
  destruct (make_room_ok f key_of hash keq KL (ev_lim (sv_e v)) (os_t s) (hash (key_of e)) (zi_wf _ _ _ _ _ _ _ _ H) Hlim) as (t1 & o & Em & Ho & Hfast). rewrite Em. cbn [bind].
  destruct o as [(p, tr)|].
  2:{ destruct Ho as (-> & _). right. exists h, (with_t s (os_t s)), None, (o1 ++ o2). assert (Es : with_t s (os_t s) = s) by (destruct s; reflexivity). rewrite Es. split; [reflexivity|]. split; [exact H|]. split; [apply sfr_refl|]. split; [reflexivity|]. split; [reflexivity|].
      intros H1 H2. destruct (Hfast H1 H2) as (_ & p & Hp). discriminate. }
  destruct Ho as (W1 & Pm & Hsize & Htr & Hp & Hav & Hfirst & Hne & _). destruct (Hroom _ _ _ Em) as (Hsw & Hh).
  destruct (events_ok f sz key_of hash keq Hsz v h s (o1 ++ o2) tr t1 H Htr (or_intror W1) Hsw) as [Ee|(h1 & s1 & g & E1 & Et1 & I1 & C1 & F1 & Hnil)].
  { left. rewrite Ee. split; [reflexivity|]. intros (A & B). destruct (Hfast A B) as (_ & p' & Hp'). injection Hp' as _ ->. discriminate Ee. }
  rewrite E1. cbn [bind].
  right. destruct F1 as (Fh & F1).
  assert (Hcap1 : s_cap t1 <> 0) by (pose proof (cap_bounds f t1 (w_m _ _ _ _ _ W1)); lia).
  destruct ctor; cbn [negb].
  2:{ exists h1, s1, None, (map g (o1 ++ o2)). split; [reflexivity|]. split; [exact I1|]. split; [split; assumption|]. split; [rewrite Et1; contradiction|]. split; [exact C1|]. intros H1 H2. discriminate. }
  assert (Hab1 : forall x, In x (elems t1) -> keq (key_of x) (key_of e) = false) by (intros x Hx; apply Hab; apply (Permutation_in _ Pm Hx)).
  destruct (place_ok f key_of hash keq KL t1 p e W1 Hp Hav Hfirst Hne Hab1) as (t4 & Ep & W4 & Hcap4 & P4 & N4 & Hs4 & He4). cbv zeta in Ep.
  apply bind_Ok in Ep. destruct Ep as (t2 & Ep2 & Ep). rewrite Ep2. cbn [bind].
  assert (Hnone : s_nodes t1 p = None).
  { unfold put_node in Ep2. apply bind_Ok in Ep2. destruct Ep2 as (u1 & _ & Ep2). apply bind_Ok in Ep2. destruct Ep2 as (u2 & _ & Ep2). destruct (s_nodes t1 p); [discriminate|reflexivity]. }
  rewrite map_app in I1, C1. pose proof (zi_rl _ _ _ _ _ _ _ _ I1) as L1. unfold rl in L1. rewrite Et1 in L1.
  assert (Hpi : ~ In p (map g o1 ++ map g o2)) by (intros Hi; apply (zi_tied _ _ _ _ _ _ _ _ I1) in Hi; rewrite Et1 in Hi; congruence).
  assert (Hprev : (if hint =? 0 then prev_link h1 (os_hdr s1) else Ok hint) = Ok (last (os_hdr s1 :: map (slot s1) (map g o1)) (os_hdr s1))).
  { destruct Hh as [(-> & ->)|[(Hh0 & Hh1 & ->)|(Hh0 & Ht0 & Hh1)]].
    - rewrite Z.eqb_refl. cbn [map app] in L1. rewrite app_nil_r in L1. apply (back_link sz) in L1. exact L1.
    - destruct (Z.eqb_spec hint 0) as [|_]; [contradiction|]. cbn [map last]. congruence.
    - destruct (Z.eqb_spec hint 0) as [|_]; [contradiction|]. destruct (Hnil Ht0) as (_ & Hb & Hg). rewrite Fh, Hb, Hh1. do 4 f_equal. rewrite map_app in Hg. apply (f_equal (firstn (length o1))) in Hg.
      rewrite !firstn_app, map_length, Nat.sub_diag in Hg. cbn [firstn] in Hg. rewrite !app_nil_r, firstn_all in Hg. rewrite <- (map_length g o1) in Hg at 1. rewrite firstn_all in Hg. symmetry. exact Hg. }
  rewrite Hprev. cbn [bind].
  destruct (insert_links sz Hsz h1 (os_hdr s1) (os_base s1) (s_cap t1) (map g o1) (map g o2) _ p L1 Hp Hpi eq_refl) as (h2 & E2 & L2 & F2).
  unfold sslot. rewrite E2. cbn [bind]. apply bind_Ok in Ep. destruct Ep as (tm & Ep3 & Ep). rewrite Ep3. cbn [bind]. apply bind_Ok in Ep. destruct Ep as (t5 & Ep5 & Ep). rewrite Ep5. cbn [bind]. injection Ep as Ep. rewrite Ep.
  assert (Eother : forall i, In i (map g o1 ++ map g o2) -> s_nodes t4 i = s_nodes t1 i) by (intros i Hi; rewrite N4; apply upd_other; intros ->; contradiction).
  eexists h2, (with_t s1 t4), (Some p), (map g o1 ++ p :: map g o2). split; [reflexivity|].
  assert (I2 : zinv h2 (with_t s1 t4) (map g o1 ++ p :: map g o2)).
  { constructor; cbn [with_t os_t os_hdr os_base]; [right; exact W4|unfold rl; cbn [with_t os_t os_hdr os_base]; rewrite Hcap4; exact L2|].
    intros i. rewrite N4. destruct (Z.eq_dec i p) as [->|Hip]; [rewrite upd_same; split; [discriminate|intros _; apply in_or_app; right; left; reflexivity]|]. rewrite upd_other by exact Hip.
    pose proof (zi_tied _ _ _ _ _ _ _ _ I1 i) as T1. rewrite Et1 in T1. rewrite <- T1, !in_app_iff. cbn [In]. split; [intros [?|[?|?]]; auto; congruence|tauto]. }
  split; [exact I2|]. split; [split; [exact Fh|]|].
  { cbn [with_t os_t os_hdr os_base]. rewrite Hcap4. rewrite Et1 in F1. apply (frame_trans _ _ _ _ _ _ _ _ _ _ _ _ _ F1 F2). }
  split; [cbn [with_t os_t]; rewrite Hcap4; contradiction|]. split.
  - split; [reflexivity|]. split; [cbn [with_t os_t]; rewrite N4; apply upd_same|]. split.
    + unfold cont in *. cbn [with_t os_t]. rewrite seqn_app, (seqn_cons _ p _ (e, hash (key_of e))) by (rewrite N4; apply upd_same). rewrite (seqn_ext (s_nodes t1) (s_nodes t4) (map g o1)), (seqn_ext (s_nodes t1) (s_nodes t4) (map g o2)) by (intros i Hi; apply Eother; apply in_or_app; tauto).
      rewrite !seqn_app, Et1 in C1. cbn [fst].
      assert (El : forall o, (forall i, In i o -> In i (o1 ++ o2)) -> length (seqn (s_nodes t1) (map g o)) = length (seqn (s_nodes (os_t s)) o)).
      { intros o Hi. rewrite !seqn_len; [apply map_length| |].
        - intros i Hx. apply (zi_tied _ _ _ _ _ _ _ _ H). apply Hi. exact Hx.
        - intros i Hx. rewrite <- Et1. apply (zi_tied _ _ _ _ _ _ _ _ I1). rewrite <- map_app. apply in_map_iff in Hx. destruct Hx as (j & <- & Hj). apply in_map. apply Hi. exact Hj. }
      apply app_inj in C1. 2:{ apply El. intros i Hi. apply in_or_app. left. exact Hi. } destruct C1 as (C1 & C2). rewrite C1, C2. reflexivity.
    + intros Hc0 Hn0. destruct (Hfast Hc0 Hn0) as (-> & p' & Hp'). injection Hp' as _ Ht0. destruct (Hnil Ht0) as (_ & _ & Hg). exists p. rewrite map_app in Hg. apply app_inj in Hg; [|apply map_length]. destruct Hg as (-> & ->). reflexivity.
  - intros Hc0 Hn0 _. destruct (Hfast Hc0 Hn0) as (Hst & p' & Hp'). injection Hp' as _ Ht0. split; [discriminate|]. cbn [with_t os_t os_base]. destruct (Hnil Ht0) as (_ & Hb & _). split; [congruence|]. split; [exact Hb|]. split; [rewrite He4, Hst; destruct (s_meta (os_t s) p =? m_empty); lia|rewrite Hs4, Hst; reflexivity].
Qed.

(** ** Erasure. *)
Lemma do_erase_ok : forall h s o1 pos o2, zinv h s (o1 ++ pos :: o2) ->
  exists h' s', s_do_erase f sz h s pos = Ok (h', s', place_of s o2) /\ zinv h' s' (o1 ++ o2) /\ sfr h s h' s' /\
    s_nodes (os_t s') = upd (s_nodes (os_t s)) pos None /\ os_base s' = os_base s /\ s_cap (os_t s') = s_cap (os_t s) /\ s_nempty (os_t s') = s_nempty (os_t s) /\
    h' (sslot sz s pos) = h (sslot sz s pos).
Proof.
  intros h s o1 pos o2 H. destruct (zi_slot f sz key_of hash keq Hsz _ _ _ pos H ltac:(apply in_or_app; right; left; reflexivity)) as (Hr & Hh & Hi & n & Hn & Hg).
  destruct (wf_some f key_of hash keq _ _ _ (zi_wf _ _ _ _ _ _ _ _ H) Hn) as (W1 & _). destruct (erase_core f key_of hash keq KL _ _ _ W1 Hn) as (_ & t1 & t2 & E1 & E2 & _ & _ & _ & _ & _ & W2 & Hc2 & N2 & _ & _ & _ & P2 & Hs2 & He2).
  pose proof (zi_rl _ _ _ _ _ _ _ _ H) as L. destruct (erase_links sz Hsz _ _ _ _ _ _ _ L) as (h1 & El & L1 & F1 & Enx & Ekeep).
  unfold s_do_erase, s_erase_node. rewrite E1. cbn [bind]. unfold sslot. rewrite Enx. cbn [bind]. rewrite El. cbn [bind with_t os_t]. rewrite E2. cbn [bind].
  exists h1, (with_t s t2). split; [reflexivity|]. pose proof (NoDup_remove_2 _ _ _ (rl_nd _ _ _ _ _ _ L)) as Hnd. split; [|split; [|repeat split; auto]].
  - constructor; cbn [with_t os_t]; [right; exact W2|unfold rl; cbn [with_t os_t os_hdr os_base]; rewrite Hc2; exact L1|]. intros i. rewrite N2. destruct (Z.eq_dec i pos) as [->|Hip]; [rewrite upd_same; split; [contradiction|congruence]|].
    rewrite upd_other by exact Hip. rewrite <- (zi_tied _ _ _ _ _ _ _ _ H i), !in_app_iff. cbn [In]. split; [tauto|intros [?|[?|?]]; auto; congruence].
  - split; [reflexivity|]. cbn [with_t os_t os_hdr os_base]. rewrite Hc2. exact F1.
Qed.
Lemma erased_cont : forall h s o1 pos o2 (s' : oswiss) o, zinv h s (o1 ++ pos :: o2) -> s_nodes (os_t s') = upd (s_nodes (os_t s)) pos None -> (forall i, In i o -> In i (o1 ++ o2)) -> cont s' o = cont s o.
Proof.
  intros h s o1 pos o2 s' o H N Ho. unfold cont. apply seqn_ext. intros i Hi. rewrite N. apply upd_other. intros ->. apply Ho in Hi. revert Hi. apply NoDup_remove_2. apply (rl_nd _ _ _ _ _ _ (zi_rl _ _ _ _ _ _ _ _ H)).
Qed.
(** The element an iterator points to. *)
Lemma at_ok : forall h s o1 o2, zinv h s (o1 ++ o2) -> s_at sz s (place_of s o2) = Ok (hd_error (cont s o2)).
Proof.
  intros h s o1 o2 H. unfold s_at. destruct o2 as [|i o2]; cbn [place_at].
  - rewrite Z.eqb_refl. reflexivity.
  - destruct (zi_slot f sz key_of hash keq Hsz _ _ _ i H ltac:(apply in_or_app; right; left; reflexivity)) as (Hr & Hh & Hi & n & Hn & Hg). unfold sslot in *. destruct (Z.eqb_spec (os_base s + i * sz) (os_hdr s)) as [|_]; [contradiction|].
    rewrite Hi. cbn [bind]. rewrite Hg. cbn [bind]. unfold cont. rewrite (seqn_cons _ _ _ _ Hn). reflexivity.
Qed.
Lemma advance_ok : forall n h s o1 o2, zinv h s (o1 ++ o2) -> (n <= length o2)%nat -> s_advance n h (place_of s o2) = Ok (place_of s (skipn n o2)).
Proof.
  intros n. induction n as [|n IH]; intros h s o1 o2 H Hn; [reflexivity|]. destruct o2 as [|i o2]; [cbn [length] in Hn; lia|]. cbn [s_advance place_at skipn length] in *. rewrite (next_at sz Hsz _ _ _ _ _ _ _ (zi_rl _ _ _ _ _ _ _ _ H)). cbn [bind].
  apply (IH h s (o1 ++ [i])); [rewrite <- app_assoc; exact H|lia].
Qed.
Lemma nth_ok : forall h s o1 o2, zinv h s (o1 ++ o2) -> s_nth h s (Z.of_nat (length o1)) = Ok (place_of s o2).
Proof.
  intros h s o1 o2 H. unfold s_nth. rewrite (begin_at sz _ _ _ _ _ (zi_rl _ _ _ _ _ _ _ _ H)). cbn [bind]. rewrite Nat2Z.id. rewrite (advance_ok _ h s []) by (exact H || (rewrite app_length; lia)).
  rewrite skipn_app, skipn_all, Nat.sub_diag. reflexivity.
Qed.
(** erase(iterator). *)
Lemma erase_at_ok : forall h s o1 pos o2, zinv h s (o1 ++ pos :: o2) -> s_erase_at f sz h s (sslot sz s pos) = s_do_erase f sz h s pos.
Proof.
  intros h s o1 pos o2 H. destruct (zi_slot f sz key_of hash keq Hsz _ _ _ pos H ltac:(apply in_or_app; right; left; reflexivity)) as (_ & Hh & Hi & _).
  unfold s_erase_at. destruct (Z.eqb_spec (sslot sz s pos) (os_hdr s)) as [|_]; [contradiction|]. rewrite Hi. reflexivity.
Qed.
Lemma slot_ne : forall (s : oswiss) i j, i <> j -> os_base s + i * sz <> os_base s + j * sz.
Proof. intros s i j Hij He. apply (slot_inj sz Hsz) in He. contradiction. Qed.
Lemma range_loop : forall m fuel h s o1 o2 first last0 result, zinv h s (o1 ++ m ++ o2) -> prev_link h last0 = Ok (last (os_hdr s :: map (slot s) (o1 ++ m)) (os_hdr s)) ->
  (m = [] -> last0 = first) -> (forall x r, m = x :: r -> first = os_base s + x * sz /\ last0 <> first) -> (length m < fuel)%nat ->
  exists h' s', s_erase_range_loop f sz fuel h s first last0 result = Ok (h', s', match m with [] => result | _ => place_of s o2 end) /\ zinv h' s' (o1 ++ o2) /\
    cont s' (o1 ++ o2) = cont s (o1 ++ o2) /\ sfr h s h' s' /\ os_base s' = os_base s /\ s_cap (os_t s') = s_cap (os_t s).
Proof.
  intros m. induction m as [|i m IH] using rev_ind; intros fuel h s o1 o2 first last0 result H Hprev Hnil Hcons Hf; (destruct fuel as [|fuel]; [lia|]); cbn [s_erase_range_loop].
  - rewrite (Hnil eq_refl), Z.eqb_refl. exists h, s. split; [reflexivity|]. split; [exact H|]. split; [reflexivity|]. split; [apply sfr_refl|]. auto.
  - assert (Hm : exists x r, m ++ [i] = x :: r) by (destruct m; cbn [app]; eauto). destruct Hm as (x & r & Hm). destruct (Hcons x r Hm) as (Hfirst & Hne). destruct (Z.eqb_spec last0 first) as [|_]; [contradiction|].
    rewrite Hprev. cbn [bind]. rewrite app_assoc, map_app, app_comm_cons. cbn [map]. rewrite last_last.
    rewrite <- app_assoc in H. cbn [app] in H. rewrite app_assoc in H. fold (sslot sz s i). rewrite (erase_at_ok _ _ _ _ _ H). destruct (do_erase_ok _ _ _ _ _ H) as (h1 & s1 & E1 & I1 & F1 & N1 & B1 & C1 & _ & K1). rewrite E1. cbn [bind].
    pose proof (zi_rl _ _ _ _ _ _ _ _ H) as L. pose proof (rl_nd _ _ _ _ _ _ L) as Hnd.
    rewrite <- app_assoc in I1. destruct F1 as (Fh & F1).
    destruct (IH fuel h1 s1 o1 o2 first (sslot sz s i) (place_of s o2) I1) as (h2 & s2 & E2 & I2 & C2 & F2 & B2 & Cp2).
    + pose proof (prev_of sz _ _ _ _ _ _ _ L) as Hp. rewrite Fh, B1. unfold prev_link, get_link in *. rewrite K1. exact Hp.
    + intros ->. cbn [app] in Hm. injection Hm as <- <-. symmetry. exact Hfirst.
    + intros x' r' ->. cbn [app] in Hm. injection Hm as <- Hr. rewrite B1. split; [exact Hfirst|]. rewrite Hfirst. apply slot_ne. intros ->. apply NoDup_remove_2 in Hnd. apply Hnd. rewrite !in_app_iff. left. right. left. reflexivity.
    + rewrite app_length in Hf. cbn [length] in Hf. lia.
    + exists h2, s2. rewrite Hm. split; [|split; [exact I2|split; [|split; [|split; congruence]]]].
      * rewrite E2. do 2 f_equal. rewrite Fh, B1. destruct m; reflexivity.
      * rewrite C2. apply (erased_cont _ _ _ _ _ _ _ H N1). intros j Hj. rewrite <- app_assoc, !in_app_iff in *. tauto.
      * apply (sfr_trans sz _ _ h1 s1); [split; assumption|exact F2].
Qed.
End Z.
