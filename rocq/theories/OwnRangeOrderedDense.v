(** Own ranges: ordered dense tables. *)
From Coq Require Import ZArith List Bool Lia Permutation.
From Verif Require Import Base BaseLemmas MapSpec Float32 Float32Facts DenseSpec DenseModel DenseRun DenseChain DenseInv DenseOps DenseEdit DenseErase DenseRefine DenseWorldSpec DenseMore
  LinkModel LinkProofs OrderedSpec OrderedDense OrderedRun OrderedLinks OrderedProofs OrderedRefine OrderedWorld OrderedFinal RangeSpec RangeModel RangeProofs OwnRangeOrderedModel.
Import ListNotations.
Open Scope Z_scope.

Section Own.
Context {E K : Type}.
Variable sz : Z.
Variable nk : nat.
Variable key_of : nat -> E -> K.
Variable hash : K -> Z.
Variable keq : K -> K -> bool.
Variable rep : E -> E -> E.
Variable clone : E -> E.
Variables pocca pocma : bool.
Hypothesis Hsz : 0 < sz.
Hypothesis KL : key_laws hash keq.
Hypothesis rep_key : forall x e, key_of 0%nat (rep x e) = key_of 0%nat x.
Hypothesis clone_key : forall j e, (j < nk)%nat -> key_of j (clone e) = key_of j e.
Hypothesis Hnk : (0 < nk)%nat.
Notation odense := (odense E).
Notation dwf := (dwf nk key_of hash keq).
Notation oinv := (oinv sz nk key_of hash keq).
Notation yoccurs := (yoccurs sz nk key_of hash keq rep clone pocca pocma).
Notation o_holds := (o_holds sz nk key_of hash keq rep).

(** Where the iterators point to: the dense table may be another with the same elements. *)
Definition like (s s' : odense) : Prop := o_hdr s' = o_hdr s /\ o_base s' = o_base s /\ d_cap (o_d s') = d_cap (o_d s) /\ elems_same (o_d s) (o_d s').
Lemma like_refl : forall s, like s s. Proof. intros s. repeat split. Qed.
Lemma like_trans : forall a b c, like a b -> like b c -> like a c.
Proof. intros a b c (A1 & A2 & A3 & A4) (B1 & B2 & B3 & B4). split; [congruence|]. split; [congruence|]. split; [congruence|]. eapply es_trans; eassumption. Qed.

Lemma node_got : forall (d : dense E) i n, get_node d i = Ok n -> d_nodes d i = Some n.
Proof.
  intros d i n Hg. unfold get_node in Hg. destruct (guard _ NullDeref); cbn [bind] in Hg; [|discriminate]. destruct (guard _ UseAfterFree); cbn [bind] in Hg; [|discriminate]. destruct (guard _ OutOfBounds); cbn [bind] in Hg; [|discriminate].
  destruct (d_nodes d i); [congruence|discriminate].
Qed.
Lemma o_step_room : forall v h (s : odense) a i n, dwf (o_d s) -> denv_ok (ov_d v) -> d_size (o_d s) < d_cap (o_d s) -> index_of sz s a = Ok i -> get_node (o_d s) i = Ok n ->
  exists s' o, o_own_step sz nk key_of hash keq v (d_cap (o_d s)) h s a = Ok (h, s', o) /\
    like s s' /\ match o with None => dwf (o_d s') \/ broken (o_d s') | Some _ => dwf (o_d s') end.
Proof.
  intros v h s a i n W (_ & Hs) Hroom Hix Hg. unfold o_own_step, o_do_insert, o_make_room, o_maybe_resize. destruct (Z.eqb_spec (d_cap (o_d s)) (d_size (o_d s))) as [|_]; [lia|]. cbn [bind].
  destruct (maybe_rehash_ok nk key_of hash keq (dv_slim (ov_d v)) (o_d s) W Hs) as (s1 & o & Hm & (He & Hr) & Hc). rewrite Hm. cbn [bind fst snd].
  destruct o as [u|].
  2:{ exists (with_d s s1), None. split; [reflexivity|]. cbn [with_d o_d]. split; [|destruct Hr as [Hr|(_ & Hr)]; auto].
      split; [reflexivity|]. split; [reflexivity|]. split; [|exact He]. cbn [with_d o_d]. destruct (maybe_rehash_none_dims _ _ _ _ Hm); congruence. }
  destruct (Hc ltac:(discriminate)) as (Hcap & Hb & _). cbn [with_d o_d]. rewrite Hcap, Z.eqb_refl. cbn [guard bind].
  assert (Hl : like s (with_d s s1)) by (split; [reflexivity|]; split; [reflexivity|]; split; [exact Hcap|exact He]).
  unfold index_of in *. cbn [with_d o_base o_d]. rewrite Hcap. destruct (slot_ix (o_base s) sz (d_cap (o_d s)) a) as [i'|]; [|discriminate]. injection Hix as ->. cbn [bind].
  pose proof (node_got _ _ _ Hg) as Hn.
  assert (Hl1 : live s1 i) by (pose proof (node_live nk key_of hash keq _ i n W Hn) as X; unfold live in *; destruct He as (-> & _); exact X).
  destruct (w_live _ _ _ _ _ Hr _ Hl1) as (m & Hm1). rewrite (get_node_ok s1 _ m (w_mem _ _ _ _ _ Hr) Hm1). cbn [bind]. 
  destruct (wf_lookup nk key_of hash keq rep KL s1 (n_val m) Hr Hb) as (xs & -> & Hcase). cbn [bind].
  destruct Hcase as [(j & m' & Hx & Hm' & _)|(_ & Hno & _)].
  - rewrite Hx. cbn [bind]. eexists (with_d s s1), _. split; [reflexivity|]. cbn. auto.
  - exfalso. apply (Hno 0%nat (proj2 (js_in nk 0%nat) Hnk) i Hl1). exists m. split; [exact Hm1|]. apply (kl_refl _ _ KL).
Qed.

Lemma like_index : forall (s s' : odense) a, like s s' -> index_of sz s' a = index_of sz s a.
Proof. intros s s' a (_ & H2 & H3 & _). unfold index_of. rewrite H2, H3. reflexivity. Qed.
Lemma like_deref : forall (s s' : odense) l es, like s s' -> dwf (o_d s) -> dwf (o_d s') -> deref_all sz s l = Ok es -> exists es', deref_all sz s' l = Ok es'.
Proof.
  intros s s' l. induction l as [|a l IH]; intros es Hl W W' Hd; cbn [deref_all] in *; [eauto|]. rewrite (like_index s s' a Hl). destruct (index_of sz s a) as [i|]; cbn [bind] in *; [|discriminate].
  destruct (get_node (o_d s) i) as [n|] eqn:Hg; cbn [bind] in Hd; [|discriminate]. destruct (deref_all sz s l) as [xs|]; cbn [bind] in Hd; [|discriminate].
  pose proof (node_got _ _ _ Hg) as Hn. pose proof (node_live nk key_of hash keq _ i n W Hn) as Hli.
  assert (Hli' : live (o_d s') i) by (unfold live in *; destruct Hl as (_ & _ & _ & -> & _); exact Hli). destruct (w_live _ _ _ _ _ W' _ Hli') as (m & Hm). rewrite (get_node_ok _ _ m (w_mem _ _ _ _ _ W') Hm). cbn [bind].
  destruct (IH xs Hl W W' eq_refl) as (es' & ->). cbn [bind]. eauto.
Qed.

Lemma o_loop_room : forall fuel v h (s : odense) a last l es, dwf (o_d s) -> denv_ok (ov_d v) -> d_size (o_d s) < d_cap (o_d s) ->
  walk fuel h a last = Ok l -> deref_all sz s l = Ok es ->
  exists s' b, o_own_loop sz nk key_of hash keq fuel v (d_cap (o_d s)) h s a last = Ok (h, s', b) /\ like s s' /\ if b then dwf (o_d s') else dwf (o_d s') \/ broken (o_d s').
Proof.
  induction fuel as [|fuel IH]; intros v h s a last l es W V Hroom Hw Hd; cbn [o_own_loop walk] in *; [discriminate|].
  destruct (a =? last); [exists s, true; split; [reflexivity|]; split; [apply like_refl|exact W]|]. destruct (next_link h a) as [b|] eqn:Hb; cbn [bind] in Hw; [|discriminate].
  destruct (walk fuel h b last) as [r|] eqn:Hr; cbn [bind] in Hw; [|discriminate]. injection Hw as <-. cbn [deref_all] in Hd.
  destruct (index_of sz s a) as [i|] eqn:Hix; cbn [bind] in Hd; [|discriminate]. destruct (get_node (o_d s) i) as [n|] eqn:Hg; cbn [bind] in Hd; [|discriminate].
  destruct (deref_all sz s r) as [xs|] eqn:Hx; cbn [bind] in Hd; [|discriminate].
  destruct (o_step_room v h s a i n W V Hroom Hix Hg) as (s1 & o & -> & Hl & Ho). cbn [bind].
  destruct o as [u|]; [|exists s1, false; auto]. rewrite Hb. cbn [bind].
  destruct (like_deref s s1 r xs Hl W Ho Hx) as (xs' & Hx'). pose proof Hl as (_ & _ & Hcap & Hes & _).
  destruct (IH v h s1 b last r xs' Ho V ltac:(lia) Hr Hx') as (s2 & bb & E2 & Hl2 & H2). rewrite Hcap in E2. exists s2, bb. split; [exact E2|]. split; [eapply like_trans; eassumption|exact H2].
Qed.

Lemma oinv_holds : forall h s ord, oinv h s ord -> o_holds h s (ocont s ord).
Proof.
  intros h s ord H. split; [apply (o_iterate_ok sz nk key_of hash keq Hsz _ _ _ H)|]. split; [apply (o_backwards_ok sz nk key_of hash keq Hsz _ _ _ H)|]. intros hist Hist. apply inv_refines; assumption.
Qed.
Lemma like_lnk : forall h (s s' : odense) ord, like s s' -> lnk sz h s ord -> lnk sz h s' ord.
Proof. intros h s s' ord (H1 & H2 & H3 & H4 & _) L. unfold lnk in *. rewrite H1, H2, H3, H4. exact L. Qed.
Lemma same_cont : forall (s s' : odense) ord, elems_same (o_d s) (o_d s') -> ocont s' ord = ocont s ord.
Proof. intros s s' ord He. unfold ocont. rewrite (delems_same _ _ He). reflexivity. Qed.

Lemma o_room_ok : forall v h (s : odense) ord a last l es, oinv h s ord -> denv_ok (ov_d v) -> d_size (o_d s) < d_cap (o_d s) ->
  walk (S (Z.to_nat (d_size (o_d s)))) h a last = Ok l -> deref_all sz s l = Ok es ->
  exists s' b, o_own_insert sz nk key_of hash keq v h s a last = Ok (h, s', b) /\ (if b then o_holds h s' (ocont s ord) else d_sok (o_d s') = false \/ o_holds h s' (ocont s ord)).
Proof.
  intros v h s ord a last l es H V Hroom Hw Hd. destruct (o_loop_room _ v h s a last l es (proj1 H) V Hroom Hw Hd) as (s' & b & E1 & Hl & Hb). exists s', b. split; [exact E1|].
  assert (Hh : dwf (o_d s') -> o_holds h s' (ocont s ord)).
  { intros W'. rewrite <- (same_cont s s') by apply Hl. apply oinv_holds. split; [exact W'|]. apply (like_lnk _ _ _ _ Hl (proj2 H)). }
  destruct b; [apply Hh; exact Hb|]. destruct Hb as [Hb|Hb]; [right; apply Hh; exact Hb|left; exact Hb].
Qed.
Lemma o_own_part : forall v hw j l0 a last l es, yoccurs hw -> let h := fst hw in let s := snd hw j in o_iterate sz h s = Ok l0 -> denv_ok (ov_d v) -> d_size (o_d s) < d_cap (o_d s) ->
  walk (S (Z.to_nat (d_size (o_d s)))) h a last = Ok l -> deref_all sz s l = Ok es ->
  exists s' b, o_own_insert sz nk key_of hash keq v h s a last = Ok (h, s', b) /\ (if b then o_holds h s' l0 else d_sok (o_d s') = false \/ o_holds h s' l0).
Proof.
  intros v hw j l0 a last l es Ho h s Hi V Hroom Hw Hd. destruct (occurs_oinv sz nk key_of hash keq rep clone pocca pocma Hsz KL rep_key clone_key hw j Ho) as (ord & H & Hc). unfold h, s in Hi. rewrite Hc in Hi. injection Hi as <-.
  apply (o_room_ok v h s ord a last l es); assumption.
Qed.
Lemma o_own_all : forall v hw j l0, yoccurs hw -> let h := fst hw in let s := snd hw j in o_iterate sz h s = Ok l0 -> denv_ok (ov_d v) -> d_size (o_d s) < d_cap (o_d s) ->
  exists s' b, o_own_insert_all sz nk key_of hash keq v h s = Ok (h, s', b) /\ (if b then o_holds h s' l0 else d_sok (o_d s') = false \/ o_holds h s' l0).
Proof.
  intros v hw j l0 Ho h s Hi V Hroom. pose proof Hi as Hit. unfold o_iterate in Hit. unfold o_own_insert_all. destruct (next_link h (o_hdr s)) as [a|]; cbn [bind] in *; [|discriminate].
  destruct (walk _ h a (o_hdr s)) as [l|] eqn:Hw; cbn [bind] in Hit; [|discriminate]. apply (o_own_part v hw j l0 a (o_hdr s) l l0); assumption.
Qed.

(** A full element array is replaced before the first element is read. *)
Lemma o_own_freed : forall v hw j l0 a last, yoccurs hw -> let h := fst hw in let s := snd hw j in o_iterate sz h s = Ok l0 -> denv_ok (ov_d v) -> d_size (o_d s) = d_cap (o_d s) -> a <> last ->
  let x := o_own_insert sz nk key_of hash keq v h s a last in
  x = Err UseAfterFree \/ x = Err BadPlacement \/ exists h' s', x = Ok (h', s', false) /\ (d_sok (o_d s') = false \/ o_holds h' s' l0).
Proof. clear Hnk.
  intros v hw j l0 a last Ho h s Hi V Hfull Hne x. destruct (occurs_oinv sz nk key_of hash keq rep clone pocca pocma Hsz KL rep_key clone_key hw j Ho) as (ord & H & Hc). unfold h, s in Hi. rewrite Hc in Hi. injection Hi as <-. fold h s in H.
  unfold x, o_own_insert. cbn [o_own_loop]. destruct (Z.eqb_spec a last) as [|_]; [contradiction|]. unfold o_own_step.
  assert (Hh : hint_at sz s 0 ord []) by (left; auto). assert (Hk : hint_kept v s 0 ord) by (left; reflexivity). assert (Hord : ord = ord ++ []) by (rewrite app_nil_r; reflexivity).
  destruct (o_make_room_sim sz nk key_of hash keq Hsz v h s ord 0 ord [] (proj1 H) V (proj2 H) Hord Hh Hk) as [->|(h1 & s1 & hint1 & o & -> & Hm & L1 & _ & _)]; [right; left; reflexivity|]. cbn [bind].
  destruct (make_room_ok nk key_of hash keq _ _ (o_d s) (proj1 H) (proj1 V) (proj2 V)) as (d1 & o' & Hm' & (Hes & Hr) & Hcap). rewrite Hm in Hm'. injection Hm' as <- <-.
  destruct o as [u|].
  - left. destruct (Hcap ltac:(discriminate)) as (Hc1 & _). destruct Hes as (Hsz1 & _). destruct (Z.eqb_spec (d_cap (o_d s1)) (d_cap (o_d s))) as [X|_]; [lia|]. reflexivity.
  - right. right. exists h1, s1. split; [reflexivity|]. destruct Hr as [Hr|(_ & Hr)]; [right|left; exact Hr]. fold s. rewrite <- (same_cont s s1 ord Hes). apply oinv_holds. split; assumption.
Qed.

(** assign destroys the elements first. *)
Lemma o_own_assign_dead : forall v hw j l0, yoccurs hw -> let h := fst hw in let s := snd hw j in o_iterate sz h s = Ok l0 -> l0 <> [] -> denv_ok (ov_d v) ->
  let x := o_own_assign sz nk key_of hash keq v h s in
  x = Err DeadObject \/ exists h' s', x = Ok (h', s', false) /\ (d_sok (o_d s') = false \/ o_holds h' s' []).
Proof. clear Hnk.
  intros v hw j l0 Ho h s Hi Hne V x. destruct (occurs_oinv sz nk key_of hash keq rep clone pocca pocma Hsz KL rep_key clone_key hw j Ho) as (ord & H & Hc). fold h s in Hc, H.
  pose proof Hi as Hit. unfold o_iterate in Hit. unfold x, o_own_assign. destruct (next_link h (o_hdr s)) as [a|]; cbn [bind] in *; [|discriminate].
  destruct (clear_ok nk key_of hash keq (o_d s) (proj1 H)) as (d1 & Hcl & W1 & Hde & Hcap & _).
  assert (H0 : d_size d1 = 0) by (pose proof (delems_len nk key_of hash keq d1 W1) as Hl; rewrite Hde in Hl; pose proof (w_size _ _ _ _ _ W1); cbn in Hl; lia).
  destruct (o_clear_sim sz h s ord d1 (proj2 H) Hcl H0 Hcap) as (h1 & -> & L1 & _). cbn [bind fst snd]. set (s1 := with_d s d1) in *.
  cbn [o_own_loop walk] in *. destruct (a =? o_hdr s); [cbn [bind deref_all] in Hit; congruence|]. destruct (next_link h a) as [b|]; cbn [bind] in Hit; [|discriminate].
  destruct (walk (Z.to_nat (d_size (o_d s))) h b (o_hdr s)) as [r|]; cbn [bind] in Hit; [|discriminate]. cbn [deref_all] in Hit.
  destruct (index_of sz s a) as [i|] eqn:Hix; cbn [bind] in Hit; [|discriminate]. destruct (get_node (o_d s) i) as [n|] eqn:Hg; cbn [bind] in Hit; [|discriminate].
  pose proof (node_live nk key_of hash keq _ i n (proj1 H) (node_got _ _ _ Hg)) as Hli. pose proof (w_size _ _ _ _ _ (proj1 H)) as Hsize. unfold live in Hli.
  unfold o_own_step, o_make_room, o_maybe_resize. change (o_d s1) with d1. destruct (Z.eqb_spec (d_cap d1) (d_size d1)) as [|_]; [lia|]. cbn [bind]. change (o_d s1) with d1.
  destruct (maybe_rehash_ok nk key_of hash keq (dv_slim (ov_d v)) d1 W1 (proj2 V)) as (d2 & o & Hm & (He2 & Hr2) & Hc2). rewrite Hm. cbn [bind].
  assert (Hcap2 : d_cap d2 = d_cap d1) by (destruct o as [u|]; [apply (Hc2 ltac:(discriminate))|destruct (maybe_rehash_none_dims _ _ _ _ Hm); congruence]).
  destruct o as [u|].
  - left. cbn [with_d o_d]. rewrite Hcap2, Hcap, Z.eqb_refl. cbn [guard bind]. unfold index_of in *. cbn [with_d o_d o_base]. change (o_base s1) with (o_base s). rewrite Hcap2, Hcap.
    destruct (slot_ix (o_base s) sz (d_cap (o_d s)) a) as [i'|]; [|discriminate]. injection Hix as ->. cbn [bind]. unfold get_node. replace (d_cap d2 =? 0) with false by lia. cbn [negb guard bind].
    rewrite (om_dok _ (w_mem _ _ _ _ _ Hr2)). cbn [guard bind]. replace ((0 <=? i) && (i <? d_cap d2)) with true by lia. cbn [guard bind].
    rewrite (w_dead _ _ _ _ _ Hr2); [reflexivity|]. unfold live. destruct He2 as (-> & _). lia.
  - right. exists h1, (with_d s1 d2). split; [reflexivity|]. cbn [with_d o_d]. destruct Hr2 as [Hr2|(_ & Hr2)]; [right|left; exact Hr2].
    change (@nil E) with (ocont (with_d s1 d2) []). apply oinv_holds. split; [exact Hr2|]. apply lnk_dims; [exact L1|apply He2|exact Hcap2].
Qed.
End Own.
