(** Own ranges: unordered dense tables. *)
From Coq Require Import ZArith List Bool Lia.
From Verif Require Import Base BaseLemmas MapSpec Float32 Float32Facts DenseSpec DenseModel DenseRun DenseChain DenseInv DenseOps DenseEdit DenseErase DenseRefine DenseWorld DenseFinal OwnRangeModel.
Import ListNotations.
Open Scope Z_scope.

Section Own.
Context {E K : Type}.
Variable nk : nat.
Variable key_of : nat -> E -> K.
Variable hash : K -> Z.
Variable keq : K -> K -> bool.
Variable rep : E -> E -> E.
Variable clone : E -> E.
Variables pocca pocma : bool.
Hypothesis KL : key_laws hash keq.
Hypothesis rep_key : forall x e, key_of 0%nat (rep x e) = key_of 0%nat x.
Hypothesis clone_key : forall j e, (j < nk)%nat -> key_of j (clone e) = key_of j e.
Hypothesis Hnk : (0 < nk)%nat.
Notation dense := (dense E).
Notation dwf := (dwf nk key_of hash keq).
Notation doccurs := (doccurs nk key_of hash keq rep clone pocca pocma).
Notation drefines := (drefines nk key_of hash keq rep).
Variables dlim slim : Z.
Hypothesis Hd : dlim < 2 ^ 59.
Hypothesis Hs : slim < 2 ^ 60.

Definition inside (s : dense) (l : list Z) : Prop := forall i, In i l -> live s i.

(** One step: with room in the array, insertion of an element of the table adds nothing. *)
Lemma step_room : forall (s : dense) i, dwf s -> d_size s < d_cap s -> live s i ->
  exists s' o, d_own_step nk key_of hash keq dlim slim (d_cap s) s i = Ok (s', o) /\ elems_same s s' /\
    match o with None => dwf s' \/ broken s' | Some _ => dwf s' /\ d_cap s' = d_cap s end.
Proof.
  intros s i W Hroom Hi. unfold d_own_step, do_insert, make_room, maybe_resize. destruct (Z.eqb_spec (d_cap s) (d_size s)) as [|_]; [lia|]. cbn [bind].
  destruct (maybe_rehash_ok nk key_of hash keq slim s W Hs) as (s1 & o & -> & (He & Hr) & Hc). cbn [bind fst snd].
  destruct o as [u|]; [|exists s1, None; split; [reflexivity|]; split; [exact He|destruct Hr as [Hr|(_ & Hr)]; auto]].
  destruct (Hc ltac:(discriminate)) as (Hcap & Hb & _). rewrite Hcap, Z.eqb_refl. cbn [guard bind].
  assert (Hl : live s1 i) by (unfold live in *; destruct He as (-> & _); exact Hi). destruct (w_live _ _ _ _ _ Hr _ Hl) as (n & Hn). rewrite (get_node_ok s1 _ n (w_mem _ _ _ _ _ Hr) Hn). cbn [bind].
  destruct (wf_lookup nk key_of hash keq rep KL s1 (n_val n) Hr Hb) as (xs & -> & Hcase). cbn [bind].
  destruct Hcase as [(j & m & Hx & Hm & _)|(_ & Hno & _)].
  - rewrite Hx. cbn [bind]. eexists s1, _. split; [reflexivity|]. cbn. auto.
  - exfalso. apply (Hno 0%nat (proj2 (js_in nk 0%nat) Hnk) i Hl). exists n. split; [exact Hn|]. apply (kl_refl _ _ KL).
Qed.

Lemma loop_room : forall l (s : dense), dwf s -> d_size s < d_cap s -> inside s l ->
  exists s' b, d_own_loop nk key_of hash keq dlim slim (d_cap s) s l = Ok (s', b) /\ elems_same s s' /\ (b = true -> d_cap s' = d_cap s) /\ (if b then dwf s' else dwf s' \/ broken s').
Proof.
  induction l as [|i l IH]; intros s W Hroom Hin; cbn [d_own_loop].
  - exists s, true. split; [reflexivity|]. split; [apply es_refl|auto].
  - destruct (step_room s i W Hroom (Hin i (or_introl eq_refl))) as (s1 & o & -> & He & Ho). cbn [bind fst snd].
    destruct o as [u|]; [|exists s1, false; split; [reflexivity|]; split; [exact He|]; split; [discriminate|exact Ho]].
    destruct Ho as (W1 & Hc). destruct (IH s1 W1) as (s2 & b & E2 & He2 & Hc2 & Hb2).
    + destruct He as (-> & _). rewrite Hc. exact Hroom.
    + intros j Hj. specialize (Hin j (or_intror Hj)). unfold live in *. destruct He as (-> & _). exact Hin.
    + rewrite Hc in E2. exists s2, b. split; [exact E2|]. split; [eapply es_trans; eassumption|]. split; [|exact Hb2]. intros Hbt. rewrite (Hc2 Hbt). exact Hc.
Qed.

(** reserve without a new element array. *)
Lemma reserve_room : forall (s : dense) n, dwf s -> 0 <= n <= d_cap s -> n < 2 ^ 59 ->
  exists s' o, reserve nk dlim slim s n = Ok (s', o) /\ room nk key_of hash keq s s' o /\ (o <> None -> d_cap s' = d_cap s).
Proof. clear Hnk.
  intros s n W Hn Hn2. unfold reserve. destruct (Z.ltb_spec (d_cap s) n) as [|_]; [lia|]. cbn [bind].
  destruct (w_mlf _ _ _ _ _ W) as (Hp & Hq & Hpq). destruct (trunc_ok n (d_mlf s)) as (m & -> & Hm); try lia. cbn [bind].
  destruct (rehash_ok nk key_of hash keq slim s m W Hs Hm) as (s' & o & E1 & Hr & Ho & _). exists s', o. split; [exact E1|]. split; [exact Hr|]. intros Hne. apply (Ho Hne).
Qed.

Lemma positions : forall (s : dense) lo n, Z.of_nat (lo + n) <= d_size s -> inside s (map Z.of_nat (seq lo n)).
Proof. intros s lo n H i Hi. apply in_map_iff in Hi. destruct Hi as (x & <- & Hx). apply in_seq in Hx. unfold live. lia. Qed.

Definition d_kept (s s' : dense) (b : bool) : Prop :=
  delems s' = delems s /\ (if b then forall hist, dhistory_ok nk hist -> drefines s' (delems s) hist
                           else d_sok s' = false \/ forall hist, dhistory_ok nk hist -> drefines s' (delems s) hist).
Lemma kept_of : forall (s s' : dense) (b : bool), elems_same s s' -> (if b then dwf s' else dwf s' \/ broken s') -> d_kept s s' b.
Proof.
  intros s s' b He Hb. pose proof (delems_same _ _ He) as Hde. split; [exact Hde|]. rewrite <- Hde.
  destruct b; [intros; apply wf_refines; assumption|]. destruct Hb as [Hb|Hb]; [right|left; exact Hb]. intros. apply wf_refines; assumption.
Qed.

Lemma own_room : forall (s : dense) lo n, doccurs s -> Z.of_nat (lo + n) <= d_size s -> d_size s + Z.of_nat n <= d_cap s ->
  exists s' b, d_own_insert nk key_of hash keq dlim slim s lo n = Ok (s', b) /\ d_kept s s' b.
Proof.
  intros s lo n Ho Hn Hroom. apply (occurs_wf nk key_of hash keq rep clone pocca pocma KL rep_key clone_key) in Ho. pose proof (w_size _ _ _ _ _ Ho) as Hsz. pose proof (w_cap _ _ _ _ _ Ho) as Hcp.
  unfold d_own_insert, d_own_range. rewrite map_length, seq_length. rewrite Z.mod_small by (unfold two64; lia).
  destruct (reserve_room s (d_size s + Z.of_nat n) Ho ltac:(lia) ltac:(lia)) as (s1 & o & -> & (He & Hr) & Hc). cbn [bind fst snd].
  destruct o as [u|]; [|exists s1, false; split; [reflexivity|]; apply kept_of; [exact He|destruct Hr as [Hr|(_ & Hr)]; auto]].
  rewrite <- (Hc ltac:(discriminate)). destruct n as [|n].
  - exists s1, true. split; [reflexivity|]. apply kept_of; assumption.
  - destruct (loop_room (map Z.of_nat (seq lo (S n))) s1 Hr) as (s2 & b & E2 & He2 & _ & Hb).
    + destruct He as (-> & _). rewrite (Hc ltac:(discriminate)). lia.
    + apply positions. destruct He as (-> & _). exact Hn.
    + exists s2, b. split; [exact E2|]. apply kept_of; [eapply es_trans; eassumption|exact Hb].
Qed.

(** Otherwise the array is replaced before the first element is read. *)
Lemma step_freed : forall c0 (s : dense) i, dwf s -> d_size s < d_cap s -> d_cap s <> c0 ->
  d_own_step nk key_of hash keq dlim slim c0 s i = Err UseAfterFree \/
  exists s', d_own_step nk key_of hash keq dlim slim c0 s i = Ok (s', None) /\ elems_same s s' /\ (dwf s' \/ broken s').
Proof. clear Hnk.
  intros c0 s i W Hroom Hc0. unfold d_own_step, make_room, maybe_resize. destruct (Z.eqb_spec (d_cap s) (d_size s)) as [|_]; [lia|]. cbn [bind].
  destruct (maybe_rehash_ok nk key_of hash keq slim s W Hs) as (s1 & o & -> & (He & Hr) & Hc). cbn [bind fst snd].
  destruct o as [u|]; [left|right; exists s1; split; [reflexivity|]; split; [exact He|destruct Hr as [Hr|(_ & Hr)]; auto]].
  destruct (Hc ltac:(discriminate)) as (-> & _). destruct (Z.eqb_spec (d_cap s) c0) as [|_]; [contradiction|]. reflexivity.
Qed.

Lemma own_freed : forall (s : dense) lo n, doccurs s -> (0 < n)%nat -> Z.of_nat (lo + n) <= d_size s -> d_cap s < d_size s + Z.of_nat n ->
  d_own_insert nk key_of hash keq dlim slim s lo n = Err UseAfterFree \/
  exists s', d_own_insert nk key_of hash keq dlim slim s lo n = Ok (s', false) /\ d_kept s s' false.
Proof. clear Hnk.
  intros s lo n Ho Hpos Hn Hroom. apply (occurs_wf nk key_of hash keq rep clone pocca pocma KL rep_key clone_key) in Ho. pose proof (w_size _ _ _ _ _ Ho) as Hsz. pose proof (w_cap _ _ _ _ _ Ho) as Hcp.
  unfold d_own_insert, d_own_range. rewrite map_length, seq_length. rewrite Z.mod_small by (unfold two64; lia). set (m := d_size s + Z.of_nat n) in *.
  unfold reserve. destruct (Z.ltb_spec (d_cap s) m) as [_|]; [|lia].
  destruct (resize_data_ok nk key_of hash keq dlim s m Ho ltac:(lia) Hd) as [(_ & ->)|(Hm & s1 & -> & W1 & He & Hc & Hb & Hmlf & _)]; cbn [bind fst snd].
  - right. exists s. split; [reflexivity|]. apply kept_of; [apply es_refl|left; exact Ho].
  - destruct (w_mlf _ _ _ _ _ W1) as (Hp & Hq & Hpq). destruct (trunc_ok m (d_mlf s1)) as (t & -> & Ht); try lia. cbn [bind].
    destruct (rehash_ok nk key_of hash keq slim s1 t W1 Hs Ht) as (s2 & o & -> & (He2 & Hr2) & Ho2 & _). cbn [bind fst snd].
    assert (He' : elems_same s s2) by (eapply es_trans; eassumption).
    destruct o as [u|]; [|right; exists s2; split; [reflexivity|]; apply kept_of; [exact He'|destruct Hr2 as [Hr2|(_ & Hr2)]; auto]].
    destruct (Ho2 ltac:(discriminate)) as (Hc2 & _). destruct n as [|n]; [lia|]. cbn [seq map d_own_loop].
    destruct (step_freed (d_cap s) s2 (Z.of_nat lo) Hr2) as [->|(s3 & -> & He3 & Hr3)].
    + destruct He' as (-> & _). lia.
    + lia.
    + left. reflexivity.
    + right. exists s3. split; [reflexivity|]. apply kept_of; [eapply es_trans; eassumption|exact Hr3].
Qed.

(** assign destroys the elements first. *)
Lemma own_assign_dead : forall (s : dense) lo n, doccurs s -> (0 < n)%nat -> Z.of_nat (lo + n) <= d_size s ->
  d_own_assign nk key_of hash keq dlim slim s lo n = Err DeadObject \/
  exists s', d_own_assign nk key_of hash keq dlim slim s lo n = Ok (s', false) /\ delems s' = [].
Proof. clear Hnk.
  intros s lo n Ho Hpos Hn. apply (occurs_wf nk key_of hash keq rep clone pocca pocma KL rep_key clone_key) in Ho. pose proof (w_size _ _ _ _ _ Ho) as Hsz. pose proof (w_cap _ _ _ _ _ Ho) as Hcp.
  unfold d_own_assign. destruct (clear_ok nk key_of hash keq s Ho) as (s0 & -> & W0 & Hde & Hc0 & _). cbn [bind].
  assert (H0 : d_size s0 = 0) by (pose proof (delems_len nk key_of hash keq s0 W0) as Hl; rewrite Hde in Hl; pose proof (w_size _ _ _ _ _ W0); cbn in Hl; lia).
  unfold d_own_range. rewrite map_length, seq_length, H0. rewrite Z.mod_small by (unfold two64; lia).
  destruct (reserve_room s0 (0 + Z.of_nat n) W0 ltac:(lia) ltac:(lia)) as (s1 & o & -> & (He & Hr) & Hc). cbn [bind fst snd].
  destruct o as [u|]; [|right; exists s1; split; [reflexivity|]; rewrite (delems_same _ _ He); exact Hde].
  pose proof (Hc ltac:(discriminate)) as Hc1. assert (H1 : d_size s1 = 0) by (destruct He as (-> & _); exact H0).
  destruct n as [|n]; [lia|]. cbn [seq map d_own_loop].
  unfold d_own_step, make_room, maybe_resize. destruct (Z.eqb_spec (d_cap s1) (d_size s1)) as [|_]; [lia|]. cbn [bind].
  destruct (maybe_rehash_ok nk key_of hash keq slim s1 Hr Hs) as (s2 & o2 & -> & (He2 & Hr2) & Hc2). cbn [bind fst snd].
  destruct o2 as [u2|]; [left|right; exists s2; split; [reflexivity|]; rewrite (delems_same _ _ He2), (delems_same _ _ He); exact Hde].
  destruct (Hc2 ltac:(discriminate)) as (Hcap & _). replace (d_cap s2 =? d_cap s) with true by lia. cbn [guard bind].
  unfold get_node. replace (d_cap s2 =? 0) with false by lia. cbn [negb guard bind].
  rewrite (om_dok _ (w_mem _ _ _ _ _ Hr2)). cbn [guard bind]. replace ((0 <=? Z.of_nat lo) && (Z.of_nat lo <? d_cap s2)) with true by lia. cbn [guard bind].
  rewrite (w_dead _ _ _ _ _ Hr2); [reflexivity|]. unfold live. destruct He2 as (-> & _). lia.
Qed.
End Own.
