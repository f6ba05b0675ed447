(** Tables after copying an element threw. *)
From Coq Require Import ZArith List Bool Lia Permutation.
From Coq Require Import ZifyBool ZifyNat.
From Verif Require Import Base BaseLemmas Bits BitsProofs SwissModel SwissArith SwissCap SwissInv SwissOps SwissClean
  SwissIter SwissRoom MapSpec SwissRun SwissRefine SwissFinal SwissMore SwissCopy CopyModel.
Import ListNotations.
Open Scope Z_scope.

Section Swiss.
Context {E K : Type}.
Variable f : simd.
Variable key_of : E -> K.
Variable hash : K -> Z.
Variable keq : K -> K -> bool.
Variable clone : E -> E.
Hypothesis Hclone : forall e, key_of (clone e) = key_of e.
Notation swiss := (@swiss E).
Local Notation mwf := (mwf f).
Local Notation ncons := (ncons key_of hash).
Local Notation wf1 := (wf1 f key_of hash keq).
Local Notation wf := (wf f key_of hash keq).
Local Notation image := (image f).
Local Notation scans := (scans f).
Let g (n : E * Z) : E * Z := (clone (fst n), snd n).

Lemma image_start : forall (o t : swiss) i, 0 <= i <= s_cap o -> image g o t i -> elems t = map clone (map fst (collect (s_nodes o) i)).
Proof.
  intros o t i Hi (M & C & Hn & _). unfold elems. rewrite C. rewrite (collect_split _ _ i (s_cap o)) by lia.
  rewrite (rest_none _ (s_nodes t) i (s_cap o)); [|lia|].
  - rewrite app_nil_r. rewrite (collect_ext _ (s_nodes t) (fun j => option_map g (s_nodes o j))).
    + rewrite collect_map, !map_map. reflexivity.
    + intros j Hj. rewrite Hn. destruct (Z.leb_spec 0 j), (Z.ltb_spec j i); (lia || reflexivity).
  - intros j Hj. rewrite Hn. destruct (Z.leb_spec 0 j), (Z.ltb_spec j i); (lia || reflexivity).
Qed.
Lemma image_cons : forall (o t : swiss) i, 0 <= i <= s_cap o -> ncons o -> image g o t i -> ncons t.
Proof.
  intros o t i Hi No (M & C & Hn & Hm). split.
  - rewrite C. intros j Hj. rewrite Hn, Hm by exact Hj. destruct (Z.leb_spec 0 j); [|lia]. cbn [andb].
    pose proof (ncons_occ key_of hash o j No Hj) as Ho. destruct No as [N1 _]. specialize (N1 j Hj).
    destruct (Z.ltb_spec j i); cbn [andb]; [|reflexivity]. rewrite Ho. destruct (s_nodes o j) as [[e h]|]; cbn [option_map]; [|reflexivity].
    unfold g. cbn [fst snd]. rewrite Hclone. exact N1.
  - rewrite C. intros j Hj. rewrite Hn. destruct (Z.leb_spec 0 j), (Z.ltb_spec j i); (reflexivity || lia).
Qed.
Lemma iterate_cons : forall t : swiss, mwf t -> ncons t -> scans (iterate f t) (fun l => map snd l = elems t).
Proof.
  intros t M N. pose proof (cap_bounds f t M) as Hcb. unfold iterate, begin_iter. eapply scans_bind; [apply to_iter_ok; [exact M|lia]|]. intros q Hq.
  rewrite (end_iter_mwf f t M). cbn [bind]. pose proof Hq as (Hq1 & Hq2 & _).
  eapply scans_imp.
  - apply (walk_ok f key_of hash t M N); [lia|apply (stops_rest key_of hash t 0 q N ltac:(lia) Hq)|unfold iter_fuel; lia].
  - intros l ->. rewrite slots_from_elems, elems_rest by lia. f_equal. symmetry. apply (stops_rest key_of hash t 0 q N ltac:(lia) Hq).
Qed.

(** The loop stopped, or not, by the exception. *)
Lemma copy_until_ok : forall (o : swiss), wf1 o -> forall k i n t, image g o t (Z.of_nat i) -> Z.of_nat (i + k) = s_cap o ->
  exists t' b, copy_until f clone n o (map Z.of_nat (seq i k)) t = Ok (t', b) /\ s_size t' = s_size t /\
    if b then (length (rest (s_nodes o) (Z.of_nat i) (s_cap o)) <= n)%nat /\ foldM (copy_step f clone o) (map Z.of_nat (seq i k)) t = Ok t'
    else exists j, Z.of_nat i <= j < s_cap o /\ image g o t' j /\ (length (collect (s_nodes o) j) = length (collect (s_nodes o) (Z.of_nat i)) + n)%nat /\
      (n < length (rest (s_nodes o) (Z.of_nat i) (s_cap o)))%nat.
Proof.
  intros o Ho. pose proof (w_m _ _ _ _ o Ho) as M. pose proof (w_n _ _ _ _ o Ho) as N. pose proof (cap_bounds f o M) as Hcb. pose proof (W_pos f) as HW.
  induction k as [|k IH]; intros i n t Hi Hk; cbn [seq map copy_until foldM].
  - exists t, true. split; [reflexivity|]. split; [reflexivity|]. split; [|reflexivity]. rewrite rest_end by lia. cbn [length]. lia.
  - unfold copy_step at 1. rewrite get_meta_ok by ((apply (mw_buf f o M)) || lia). cbn [bind].
    pose proof (ncons_occ key_of hash o (Z.of_nat i) N ltac:(lia)) as Hocc. rewrite Hocc.
    assert (Hr : rest (s_nodes o) (Z.of_nat i) (s_cap o) =
      match s_nodes o (Z.of_nat i) with Some x => [x] | None => [] end ++ rest (s_nodes o) (Z.of_nat (S i)) (s_cap o)).
    { replace (Z.of_nat (S i)) with (Z.of_nat i + 1) by lia. apply rest_cons. lia. }
    assert (Hc : collect (s_nodes o) (Z.of_nat (S i)) = collect (s_nodes o) (Z.of_nat i) ++ match s_nodes o (Z.of_nat i) with Some x => [x] | None => [] end).
    { replace (Z.of_nat (S i)) with (Z.of_nat i + 1) by lia. apply collect_succ. lia. }
    destruct (s_nodes o (Z.of_nat i)) as [x|] eqn:En.
    + rewrite (get_node_ok o (Z.of_nat i) x) by ((apply (mw_buf f o M)) || lia || exact En). cbn [bind]. destruct n as [|n].
      { exists t, false. split; [reflexivity|]. split; [reflexivity|]. exists (Z.of_nat i). split; [lia|]. split; [exact Hi|]. split; [lia|]. rewrite Hr. cbn [app length]. lia. }
      destruct (image_step f key_of hash g o t (Z.of_nat i) x N ltac:(lia) Hi En) as (t1 & t2 & E1 & E2 & I2 & S2). fold (g x). rewrite E1. cbn [bind]. rewrite E2. cbn [bind].
      replace (Z.of_nat i + 1) with (Z.of_nat (S i)) in I2 by lia.
      destruct (IH (S i) n t2 I2 ltac:(lia)) as (t' & b & Ec & Es & Hb). exists t', b. split; [exact Ec|]. split; [congruence|].
      rewrite Hr. cbn [app length]. destruct b.
      * destruct Hb as [Hb1 Hb2]. split; [lia|exact Hb2].
      * destruct Hb as (j & Hj & Ij & Hl & Hn). exists j. split; [lia|]. split; [exact Ij|]. rewrite Hc, app_length in Hl. cbn [length] in Hl. split; lia.
    + assert (I2 : image g o t (Z.of_nat (S i))).
      { replace (Z.of_nat (S i)) with (Z.of_nat i + 1) by lia. apply image_skip; (lia || assumption). }
      destruct (IH (S i) n t I2 ltac:(lia)) as (t' & b & Ec & Es & Hb). exists t', b. split; [exact Ec|]. split; [exact Es|].
      rewrite Hr. cbn [app]. cbn [bind]. destruct b; [exact Hb|]. destruct Hb as (j & Hj & Ij & Hl & Hn). exists j. split; [lia|]. split; [exact Ij|].
      rewrite Hc, app_nil_r in Hl. auto.
Qed.

(** A table with the copies of the first elements that counts none of them. *)
Definition uncounted (n : nat) (l : list E) (t : swiss) : Prop :=
  size t = 0 /\ elems t = map clone (firstn n l) /\
  (forall k, contains f key_of hash keq t k = Ok false) /\ clear f t = Ok t /\ destroy f t = Ok t /\
  scans (iterate f t) (fun x => map snd x = map clone (firstn n l)).

Lemma copy_data_throws : forall n lim (s o : swiss), wf1 o -> (n < length (elems o))%nat -> s_size s = 0 ->
  s_cap s < s_cap o \/ (s_cap s = s_cap o /\ s_buf s = Live /\ forall j, s_nodes s j = None) ->
  s_cap o <= lim ->
  exists t, c_copy_data f clone n lim s o = Ok (t, false) /\ uncounted n (elems o) t /\ s_buf t = Live /\ s_cap t = s_cap o.
Proof.
  intros n lim s o Ho Hn Hs0 Hcap Hlim. pose proof (w_m _ _ _ _ o Ho) as M. pose proof (cap_bounds f o M) as Hcb.
  pose proof (wf1_elems_length f key_of hash keq o Ho) as Hl.
  unfold c_copy_data. rewrite Hs0. cbn [Z.eqb guard bind].
  destruct (Z.eqb_spec (s_size o) 0) as [E0|_]; [exfalso; lia|].
  assert (Hre : exists s1, reallocate lim s (s_cap o) = Ok (s1, true) /\ s_buf s1 = Live /\ s_cap s1 = s_cap o /\
    (forall j, s_nodes s1 j = None) /\ s_size s1 = 0).
  { unfold reallocate. destruct Hcap as [Hcap|(Hcap & HB & HN)].
    - destruct (Z.ltb_spec (s_cap s) (s_cap o)); [|lia]. destruct (Z.ltb_spec lim (s_cap o)); [lia|].
      eexists. split; [reflexivity|]. cbn [s_buf s_cap s_nodes s_size]. auto.
    - destruct (Z.ltb_spec (s_cap s) (s_cap o)); [lia|]. exists s. auto. }
  destruct Hre as (s1 & -> & B1 & C1 & N1 & S1). cbn [bind negb].
  destruct (fill_empty_image f g o s1 B1 C1 (mw_cap f o M) N1) as (s2 & -> & I2 & S2). cbn [bind].
  destruct (copy_until_ok o Ho (Z.to_nat (s_cap o)) 0 n s2 I2 ltac:(lia)) as (t & b & Ec & Es & Hb).
  unfold zrange. rewrite Ec. cbn [bind]. change (Z.of_nat 0) with 0 in Hb. assert (Hel : length (rest (s_nodes o) 0 (s_cap o)) = length (elems o)).
  { rewrite elems_rest by lia. rewrite map_length. reflexivity. }
  rewrite Hel in Hb. destruct b; [lia|]. destruct Hb as (j & Hj & Ij & Hlen & _). cbn [negb]. exists t. split; [reflexivity|].
  rewrite (collect_0 _ (s_nodes o) 0) in Hlen by lia. cbn [length Nat.add] in Hlen.
  assert (He : elems t = map clone (firstn n (elems o))).
  { rewrite (image_start o t j ltac:(lia) Ij). f_equal. unfold elems. rewrite (collect_split _ _ j (s_cap o)), map_app by lia.
    rewrite <- Hlen. rewrite <- (map_length fst (collect (s_nodes o) j)). rewrite firstn_app, Nat.sub_diag, firstn_O, app_nil_r, firstn_all. reflexivity. }
  assert (Hz : s_size t = 0) by congruence. pose proof Ij as (Mt & Ct & _).
  split; [|split; [apply (mw_buf f t Mt)|exact Ct]].
  split; [exact Hz|]. split; [exact He|]. unfold contains, find_node, clear, destroy. rewrite Hz. cbn [Z.eqb bind].
  split; [intros k; rewrite Z.eqb_refl; reflexivity|]. split; [reflexivity|]. split; [reflexivity|]. rewrite <- He.
  apply iterate_cons; [exact Mt|]. exact (image_cons o t j ltac:(lia) (w_n _ _ _ _ o Ho) Ij).
Qed.

Lemma copy_data_same : forall n lim (s o : swiss), wf1 o -> (length (elems o) <= n)%nat -> s_size s = 0 ->
  s_cap s < s_cap o \/ (s_cap s = s_cap o /\ s_buf s = Live /\ forall j, s_nodes s j = None) ->
  c_copy_data f clone n lim s o = copy_data f clone lim s o.
Proof.
  intros n lim s o Ho Hn Hs0 Hcap. pose proof (w_m _ _ _ _ o Ho) as M. pose proof (cap_bounds f o M) as Hcb.
  unfold c_copy_data, copy_data. rewrite Hs0. cbn [Z.eqb guard bind]. destruct (s_size o =? 0); [reflexivity|].
  assert (Hre : reallocate lim s (s_cap o) = Ok (s, true) /\ s_buf s = Live /\ s_cap s = s_cap o /\ (forall j, s_nodes s j = None) \/
    exists s1 okb, reallocate lim s (s_cap o) = Ok (s1, okb) /\ (okb = true -> s_buf s1 = Live /\ s_cap s1 = s_cap o /\ forall j, s_nodes s1 j = None)).
  { unfold reallocate. destruct Hcap as [Hcap|(Hcap & HB & HN)]; [right|left].
    - destruct (Z.ltb_spec (s_cap s) (s_cap o)); [|lia]. destruct (Z.ltb_spec lim (s_cap o)); eexists; eexists; (split; [reflexivity|]); [discriminate|].
      cbn [s_buf s_cap s_nodes]. auto.
    - destruct (Z.ltb_spec (s_cap s) (s_cap o)); [lia|]. auto. }
  assert (Hre' : exists s1 okb, reallocate lim s (s_cap o) = Ok (s1, okb) /\ (okb = true -> s_buf s1 = Live /\ s_cap s1 = s_cap o /\ forall j, s_nodes s1 j = None)).
  { destruct Hre as [(X & Y)|X]; [|exact X]. exists s, true. auto. }
  destruct Hre' as (s1 & okb & -> & H1). cbn [bind]. destruct okb; [|reflexivity]. destruct (H1 eq_refl) as (B1 & C1 & N1). cbn [negb].
  destruct (fill_empty_image f g o s1 B1 C1 (mw_cap f o M) N1) as (s2 & -> & I2 & S2). cbn [bind].
  destruct (copy_until_ok o Ho (Z.to_nat (s_cap o)) 0 n s2 I2 ltac:(lia)) as (t & b & Ec & Es & Hb). unfold zrange. rewrite Ec. cbn [bind].
  destruct b.
  - destruct Hb as [_ ->]. reflexivity.
  - exfalso. destruct Hb as (_ & _ & _ & _ & Hb). change (Z.of_nat 0) with 0 in Hb. rewrite elems_rest, map_length in Hn by lia. lia.
Qed.

(** The target of an assignment. *)
Lemma target_ok : forall pocca (s o : swiss), wf s -> wf1 o -> pocca = true \/ s_cap s <= s_cap o ->
  exists s1, erase_nodes f s = Ok s1 /\ s_size (buffer_assign pocca s1) = 0 /\
    (s_cap (buffer_assign pocca s1) < s_cap o \/ (s_cap (buffer_assign pocca s1) = s_cap o /\ s_buf (buffer_assign pocca s1) = Live /\ forall j, s_nodes (buffer_assign pocca s1) j = None)).
Proof.
  intros pocca s o Hs Ho Hp. pose proof (cap_bounds f o (w_m _ _ _ _ o Ho)) as Hcb.
  destruct (assign_target f key_of hash keq pocca s Hs) as (s1 & E1 & S1 & N1 & C1 & B1 & _). exists s1. split; [exact E1|]. split; [exact S1|].
  rewrite C1, B1. destruct pocca; [left; lia|]. destruct Hp as [Hp|Hp]; [discriminate|].
  destruct (Z.eq_dec (s_cap s) (s_cap o)) as [Ec|]; [right|left; lia]. split; [exact Ec|]. split; [|exact N1].
  destruct Hs as [Hs|Hs]; [rewrite (w0_cap s Hs) in Ec; lia|]. apply (mw_buf f s (w_m _ _ _ _ s Hs)).
Qed.

Lemma copy_assign_throws : forall n pocca lim (s o : swiss), wf s -> wf o -> (n < length (elems o))%nat ->
  pocca = true \/ s_cap s <= s_cap o -> s_cap o <= lim ->
  exists t, c_copy_assign f clone n pocca lim s o = Ok (t, false) /\ uncounted n (elems o) t.
Proof.
  intros n pocca lim s o Hs Ho Hn Hp Hlim. destruct Ho as [Ho|Ho]; [rewrite (elems_empty o (w0_cap o Ho)) in Hn; cbn [length] in Hn; lia|].
  destruct (target_ok pocca s o Hs Ho Hp) as (s1 & E1 & S1 & T1). unfold c_copy_assign. rewrite E1. cbn [bind].
  destruct (copy_data_throws n lim _ o Ho Hn S1 T1 Hlim) as (t & Et & Hu & _). exists t. auto.
Qed.
Lemma copy_ctor_throws : forall n lim (o : swiss), wf o -> (n < length (elems o))%nat -> s_cap o <= lim ->
  exists t, c_copy_ctor f clone n lim o = Ok (t, false) /\ elems t = map clone (firstn n (elems o)) /\ s_buf t = Live /\ bucket_count t = bucket_count o.
Proof.
  intros n lim o Ho Hn Hlim. destruct Ho as [Ho|Ho]; [rewrite (elems_empty o (w0_cap o Ho)) in Hn; cbn [length] in Hn; lia|].
  pose proof (cap_bounds f o (w_m _ _ _ _ o Ho)) as Hcb.
  destruct (copy_data_throws n lim empty_swiss o Ho Hn eq_refl ltac:(left; cbn [empty_swiss s_cap]; lia) Hlim) as (t & Et & (_ & He & _) & Hb & Hc).
  exists t. split; [exact Et|]. split; [exact He|]. split; [exact Hb|exact Hc].
Qed.
Lemma copy_same : forall n lim (o : swiss), wf o -> (length (elems o) <= n)%nat ->
  c_copy_ctor f clone n lim o = copy_ctor f clone lim o /\
  forall pocca s, wf s -> pocca = true \/ s_cap s <= s_cap o -> c_copy_assign f clone n pocca lim s o = copy_assign f clone pocca lim s o.
Proof.
  intros n lim o Ho Hn. destruct Ho as [Ho|Ho].
  - assert (H0 : forall s, c_copy_data f clone n lim s o = copy_data f clone lim s o).
    { intros s. unfold c_copy_data, copy_data. rewrite (w0_size o Ho). destruct (s_size s =? 0); reflexivity. }
    split; [apply H0|]. intros pocca s _ _. unfold c_copy_assign, copy_assign. destruct (erase_nodes f s) as [s1|]; [|reflexivity]. cbn [bind]. apply H0.
  - pose proof (cap_bounds f o (w_m _ _ _ _ o Ho)) as Hcb. split.
    + apply copy_data_same; [exact Ho|exact Hn|reflexivity|left; cbn [empty_swiss s_cap]; lia].
    + intros pocca s Hs Hp. destruct (target_ok pocca s o Hs Ho Hp) as (s1 & E1 & S1 & T1). unfold c_copy_assign, copy_assign. rewrite E1. cbn [bind].
      apply copy_data_same; assumption.
Qed.
End Swiss.
