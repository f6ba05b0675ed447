(** Statements about reachable tables, in the form used by the property files. *)
From Coq Require Import ZArith List Bool Lia Permutation.
From Coq Require Import ZifyBool ZifyNat.
From Verif Require Import Base BaseLemmas Bits BitsProofs SwissModel SwissArith SwissCap SwissInv SwissOps SwissClean
  SwissIter SwissRoom MapSpec SwissRun SwissRefine.
Import ListNotations.
Open Scope Z_scope.

Section Final.
Context {E K : Type}.
Variable f : simd.
Variable key_of : E -> K.
Variable hash : K -> Z.
Variable keq : K -> K -> bool.
Local Notation swiss := (@swiss E).
Local Notation wf1 := (wf1 f key_of hash keq).
Local Notation wf := (wf f key_of hash keq).
Local Notation inv := (inv f key_of hash keq).

Hypothesis KL : key_laws hash keq.

(** ** Live elements of a table, slot by slot. *)
Lemma elems_In : forall (s : swiss) e, In e (elems s) <-> exists p, holds s p e.
Proof.
  intros s e. unfold elems, holds. rewrite in_map_iff. split.
  - intros ([e' h] & <- & Hin). apply collect_In in Hin. destruct Hin as (i & Hi & Ei). exists i. split; [exact Hi|]. exists h. exact Ei.
  - intros (p & Hp & h & Ep). exists (e, h). split; [reflexivity|]. apply collect_In. eauto.
Qed.

(** ** Lookup. *)
Lemma lookup_defined : forall s k, wf s ->
  (exists b, contains f key_of hash keq s k = Ok b /\ (b = true <-> exists e, In e (elems s) /\ keq (key_of e) k = true)) /\
  (exists o, find f key_of hash keq s k = Ok o /\
     match o with
     | Some e => In e (elems s) /\ keq (key_of e) k = true
     | None => forall e, In e (elems s) -> keq (key_of e) k = false
     end) /\
  (narrow f /\ (exists e, In e (elems s) /\ keq (key_of e) k = true) /\ erase_key f key_of hash keq s k = Err BitScanZero \/
   exists s' q b, erase_key f key_of hash keq s k = Ok (s', q, b) /\ 0 <= q <= s_cap s').
Proof.
  intros s k H. destruct (find_located f key_of hash keq KL s k H) as (r & Er & Hr).
  unfold contains, find, erase_key. rewrite Er. cbn [bind].
  destruct Hr as [(x & h & W1 & Hr & En & Eg & Ha & Hl)|(-> & Habs)].
  - assert (Hin : In x (elems s)).
    { destruct Hl as [-> _]. apply in_or_app. right. left. reflexivity. }
    destruct Hl as [_ Hk]. split; [|split].
    + destruct (Z.eqb_spec r (s_cap s)); [lia|]. eexists. split; [reflexivity|]. cbn [negb]. split; [intros _; exists x; auto|reflexivity].
    + rewrite to_iter_here by ((apply (w_m _ _ _ _ s W1)) || assumption || lia). cbn [bind].
      rewrite (end_iter_ok f key_of hash keq s H). cbn [bind]. destruct (Z.eqb_spec r (s_cap s)); [lia|].
      rewrite Eg. cbn [bind fst]. eexists. split; [reflexivity|]. split; assumption.
    + destruct (Z.eqb_spec r (s_cap s)); [lia|].
      destruct (do_erase_ok f key_of hash keq KL s r (x, h) W1 En) as [([s' q] & -> & W' & C' & _ & _ & _ & Hq & Hst & _)|(Hn & ->)].
      * right. cbn [bind]. eexists. eexists. eexists. split; [reflexivity|]. destruct Hst as (Hq' & _). lia.
      * left. cbn [bind]. split; [exact Hn|]. split; [eauto|reflexivity].
  - pose proof (wf_cap_nonneg f key_of hash keq s H). rewrite Z.eqb_refl. split; [|split].
    + eexists. split; [reflexivity|]. cbn [negb]. split; [discriminate|]. intros (e & Hin & Hk). rewrite (Habs e Hin) in Hk. discriminate.
    + fold (end_iter f s). rewrite (end_iter_ok f key_of hash keq s H). cbn [bind]. rewrite Z.eqb_refl. eexists. split; [reflexivity|]. exact Habs.
    + right. rewrite (end_iter_ok f key_of hash keq s H). cbn [bind]. eexists. eexists. eexists. split; [reflexivity|]. lia.
Qed.

(** ** Iteration. *)
Lemma slots_from_In : forall (s : swiss) p q e, In (q, e) (slots_from s p) <-> p <= q < s_cap s /\ exists h, s_nodes s q = Some (e, h).
Proof.
  intros s p q e. unfold slots_from, rest. rewrite collect_In. split.
  - intros (i & Hi & Ei). destruct (s_nodes s (p + i)) as [[e' h]|] eqn:En; [|discriminate]. cbn [fst] in Ei.
    injection Ei as <- <-. split; [lia|]. eauto.
  - intros (Hq & h & En). exists (q - p). split; [lia|]. replace (p + (q - p)) with q by lia. rewrite En. reflexivity.
Qed.

Lemma slots_from_NoDup : forall (s : swiss) p, NoDup (map fst (slots_from s p)).
Proof.
  intros s p. unfold slots_from, rest. generalize (s_cap s - p). intros d.
  destruct (Z_le_dec 0 d) as [Hd|]; [|rewrite collect_0 by lia; constructor]. revert d Hd. apply cnt_ind.
  - rewrite collect_0 by lia. constructor.
  - intros d Hd IH. rewrite collect_succ, map_app by lia. apply NoDup_app_intro.
    + exact IH.
    + destruct (s_nodes s (p + d)); cbn [map]; constructor; [intros []|constructor].
    + intros x H1 H2. apply in_map_iff in H1. destruct H1 as ([q e] & <- & H1). apply collect_In in H1.
      destruct H1 as (i & Hi & Ei). destruct (s_nodes s (p + i)); [|discriminate]. injection Ei as <- <-.
      cbn [fst] in H2. destruct (s_nodes s (p + d)); cbn [map fst In] in H2; [|contradiction]. destruct H2 as [H2|[]]. lia.
Qed.

Lemma iterate_exact : forall s, wf s -> f = SSE2 \/ f = SSSE3 ->
  exists l, iterate f s = Ok l /\ NoDup (map fst l) /\ (forall p e, In (p, e) l <-> holds s p e) /\
    Z.of_nat (length l) = size s.
Proof.
  intros s H Hf. destruct (scans_wide f _ _ _ (iterate_ok f key_of hash keq s H)) as (l & -> & ->).
  { unfold narrow. destruct Hf; subst; intros [|]; discriminate. }
  eexists. split; [reflexivity|]. split; [apply slots_from_NoDup|]. split; [intros p e; apply slots_from_In|].
  rewrite <- (map_length snd), slots_from_elems. rewrite <- elems_rest by (pose proof (wf_cap_nonneg f key_of hash keq s H); lia).
  unfold size. symmetry. apply (wf_size f key_of hash keq s H).
Qed.

(** ** Reserve. *)
Lemma insert_all_room : forall l lim (s : swiss), inv s -> lim < 2 ^ 59 ->
  keys_distinct key_of keq l -> (forall e, In e l -> absent key_of keq (key_of e) (elems s)) ->
  Z.of_nat (length l) <= s_nempty s ->
  exists s', insert_all f key_of hash keq lim s l = Ok (s', true) /\ s_cap s' = s_cap s /\ inv s' /\
    Permutation (elems s') (l ++ elems s).
Proof.
  induction l as [|e l IH]; intros lim s Hi Hlim Hd Habs Hroom; cbn [insert_all].
  - exists s. split; [reflexivity|]. split; [reflexivity|]. split; [exact Hi|apply Permutation_refl].
  - cbn [length] in Hroom. inversion Hd as [|? ? Hd1 Hd2]; subst. pose proof Hi as [H Hc0].
    assert (Hcn : s_cap s <> 0) by lia.
    assert (Hae : absent key_of keq (key_of e) (elems s)) by (apply Habs; left; reflexivity).
    unfold do_insert. destruct (find_located f key_of hash keq KL s (key_of e) H) as (r & -> & Hr). cbn [bind].
    destruct Hr as [(x & h & W1 & Hr & En & Eg & Ha & Hl1 & Hl2)|(-> & _)].
    { exfalso. rewrite (Hae x) in Hl2; [discriminate|]. rewrite Hl1. apply in_or_app. right. left. reflexivity. }
    rewrite Z.eqb_refl.
    destruct (emplace_ok f key_of hash keq KL lim true s e H Hlim Hae) as (s1 & o & -> & Ho & _ & Hroom1). cbn [bind].
    destruct (Hroom1 Hcn ltac:(lia) eq_refl) as (Hon & C1 & Ne1 & S1).
    destruct o as [[p tr]|]; [|congruence]. destruct Ho as (W1 & P1 & _).
    destruct (IH lim s1 (inv_wf1 f key_of hash keq s1 W1) Hlim Hd2) as (s' & -> & C' & I' & P').
    + intros e' He' x Hx. apply (Permutation_in x P1) in Hx. destruct Hx as [<-|Hx].
      * rewrite Forall_forall in Hd1. apply Hd1. exact He'.
      * apply (Habs e'); [right; exact He'|exact Hx].
    + lia.
    + exists s'. split; [reflexivity|]. split; [congruence|]. split; [exact I'|].
      rewrite P', P1. cbn [app]. symmetry. apply Permutation_middle.
Qed.

Lemma reserve_room : forall lim lim' (s : swiss) n s' tr, inv s -> lim < 2 ^ 59 -> lim' < 2 ^ 59 -> 0 <= n < 2 ^ 64 ->
  reserve f lim s n = Ok (s', Some tr) ->
  Permutation (elems s') (elems s) /\
  forall l, keys_distinct key_of keq l -> (forall e, In e l -> absent key_of keq (key_of e) (elems s)) ->
    size s + Z.of_nat (length l) <= n ->
    exists s'', insert_all f key_of hash keq lim' s' l = Ok (s'', true) /\ bucket_count s'' = bucket_count s' /\
      Permutation (elems s'') (l ++ elems s).
Proof.
  intros lim lim' s n s' tr Hi Hlim Hlim' Hn Er. pose proof Hi as [H Hc0].
  destruct (reserve_ok f key_of hash keq KL lim s n H Hlim Hn) as (s1 & o & E1 & Hr & Hroom).
  rewrite Er in E1. injection E1 as <- <-. destruct Hr as (W' & P' & S' & _ & Hs). split; [exact P'|].
  intros l Hd Habs Hlen. unfold size in Hlen. specialize (Hroom ltac:(discriminate)).
  assert (Hi' : inv s').
  { destruct Hs as [Hs| ->]; [|exact Hi]. split; [exact W'|]. intros; lia. }
  destruct (insert_all_room l lim' s' Hi' Hlim' Hd) as (s2 & E2 & C2 & _ & P2).
  - intros e He x Hx. apply (Habs e He). apply (Permutation_in x P'). exact Hx.
  - lia.
  - exists s2. split; [exact E2|]. split; [exact C2|]. rewrite P2, P'. reflexivity.
Qed.

Lemma reserve_defined : forall lim (s : swiss) n, inv s -> lim < 2 ^ 59 -> 0 <= n < 2 ^ 64 ->
  exists s' o, reserve f lim s n = Ok (s', o) /\ (o = None -> s' = s).
Proof.
  intros lim s n [H _] Hlim Hn. destruct (reserve_ok f key_of hash keq KL lim s n H Hlim Hn) as (s1 & o & E1 & Hr & _).
  exists s1, o. split; [exact E1|]. intros ->. exact Hr.
Qed.

Lemma reserve_spec : forall lim lim' (s : swiss) n, inv s -> lim < 2 ^ 59 -> lim' < 2 ^ 59 -> 0 <= n < 2 ^ 64 ->
  exists s' o, reserve f lim s n = Ok (s', o) /\
    match o with
    | None => s' = s
    | Some _ => Permutation (elems s') (elems s) /\
        forall l, keys_distinct key_of keq l -> (forall e, In e l -> absent key_of keq (key_of e) (elems s)) ->
          size s + Z.of_nat (length l) <= n ->
          exists s'', insert_all f key_of hash keq lim' s' l = Ok (s'', true) /\ bucket_count s'' = bucket_count s' /\
            Permutation (elems s'') (l ++ elems s)
    end.
Proof.
  intros lim lim' s n Hi Hl Hl' Hn. destruct (reserve_defined lim s n Hi Hl Hn) as (s' & o & E1 & Ho).
  exists s', o. split; [exact E1|]. destruct o as [tr|]; [|apply Ho; reflexivity].
  exact (reserve_room lim lim' s n s' tr Hi Hl Hl' Hn E1).
Qed.

(** ** Rehash. *)
Lemma rehash_contents : forall lim (s : swiss) n, inv s -> lim < 2 ^ 59 -> 0 <= n < 2 ^ 64 -> 0 < n \/ size s <= 1 ->
  exists s' o, rehash f lim s n = Ok (s', o) /\
    match o with
    | None => s' = s
    | Some _ => Permutation (elems s') (elems s) /\ n <= bucket_count s' /\
        (0 < n -> n <= capacity f s') /\
        (forall k, exists b, contains f key_of hash keq s' k = Ok b /\
           (b = true <-> exists e, In e (elems s) /\ keq (key_of e) k = true))
    end.
Proof.
  intros lim s n [H _] Hlim Hn Hd. destruct (rehash_ok f key_of hash keq KL lim s n H Hlim Hn Hd) as (s' & o & E1 & Hr & Hc).
  exists s', o. split; [exact E1|]. destruct o as [tr|]; [|exact Hr]. destruct Hr as (W' & P' & _).
  destruct (Hc ltac:(discriminate)) as [Hc1 Hc2]. split; [exact P'|]. split; [exact Hc1|]. split; [exact Hc2|].
  intros k. destruct (lookup_defined s' k W') as [(b & Eb & Hb) _]. exists b. split; [exact Eb|].
  rewrite Hb. split; intros (e & He & Hk); exists e; (split; [|exact Hk]).
  - apply (Permutation_in e P'). exact He.
  - apply (Permutation_in e (Permutation_sym P')). exact He.
Qed.

(** In a table of one slot that is taken, no slot is found. *)
Lemma full_one_slot : forall (t : swiss) h, mwf f t -> s_cap t = 1 -> is_occupied (s_meta t 0) = true ->
  find_available f t h = Ok 1.
Proof.
  intros t h M C Ho. pose proof (W_pos f) as HW.
  destruct (find_available_ok f t M h) as (r & -> & Hr); [rewrite C; lia|].
  unfold avail_spec in Hr. rewrite C in Hr. destruct Hr as [(Hr & Ha & _)|(_ & -> & _)]; [|reflexivity].
  assert (r = 0) by lia. subst r. rewrite (occ_avail _ Ho) in Ha. discriminate.
Qed.

Lemma rehash_zero_undefined : forall (s : swiss) lim, wf s -> 1 <= lim -> 2 <= size s -> rehash f lim s 0 = Err OutOfBounds.
Proof.
  intros s lim H Hlim Hsz. unfold size in Hsz. pose proof (wf_size f key_of hash keq s H) as [Hlen _].
  destruct H as [H|H]; [rewrite (w0_size s H) in Hsz; lia|].
  pose proof (w_m _ _ _ _ s H) as M. pose proof (w_n _ _ _ _ s H) as N. pose proof (cap_bounds f s M) as Hcb. pose proof (W_pos f) as HW.
  unfold rehash. destruct (Z.eqb_spec (s_size s) 0); [lia|]. cbn [andb Z.eqb orb].
  rewrite size_to_min_capacity_0. cbn [Z.lor align_capacity Z.eqb bind].
  unfold do_rehash. destruct (Z.ltb_spec lim 1); [lia|]. cbn [Z.eqb].
  (* the number of occupied slots among the first i *)
  set (o := fun i => cnt (fun j => match s_nodes s j with Some _ => true | None => false end) i).
  assert (Hfold : forall i, 0 <= i <= s_cap s ->
    match foldM (rehash_step f s) (zrange i) (mk Live 1 (fill_empty_meta 1) (fun _ => None) (s_size s) (s_nempty s), []) with
    | Ok (t, _) => o i <= 1 /\ mwf f t /\ s_cap t = 1 /\
        (o i = 0 -> is_available (s_meta t 0) = true /\ s_nodes t 0 = None) /\
        (o i = 1 -> is_occupied (s_meta t 0) = true)
    | Err er => er = OutOfBounds
    end).
  { intros i [Hi1 Hi2]. revert Hi2. revert i Hi1. apply (cnt_ind (fun i => i <= s_cap s ->
    match foldM (rehash_step f s) (zrange i) (mk Live 1 (fill_empty_meta 1) (fun _ => None) (s_size s) (s_nempty s), []) with
    | Ok (t, _) => o i <= 1 /\ mwf f t /\ s_cap t = 1 /\
        (o i = 0 -> is_available (s_meta t 0) = true /\ s_nodes t 0 = None) /\
        (o i = 1 -> is_occupied (s_meta t 0) = true)
    | Err er => er = OutOfBounds
    end)).
    - intros _. cbn [zrange Z.to_nat seq map foldM]. unfold o. rewrite cnt_0 by lia. split; [lia|].
      split; [apply (fresh_mwf f 1 (s_size s) (s_nempty s) good_cap_1)|]. split; [reflexivity|]. split; [|lia].
      intros _. split; reflexivity.
    - intros i Hi IH Hi2. specialize (IH ltac:(lia)). rewrite zrange_succ, foldM_app by exact Hi.
      destruct (foldM (rehash_step f s) (zrange i) _) as [[t mv]|er]; [|cbn [bind]; exact IH].
      cbn [bind foldM]. destruct IH as (Ho1 & Mt & Ct & Hz & Ho).
      unfold rehash_step at 1. rewrite get_meta_ok by ((apply (mw_buf f s M)) || lia). cbn [bind].
      rewrite (ncons_occ key_of hash s i N) by lia.
      assert (Hos : o (i + 1) = o i + if s_nodes s i then 1 else 0).
      { unfold o. rewrite cnt_succ by lia. destruct (s_nodes s i); reflexivity. }
      destruct (s_nodes s i) as [n1|] eqn:En.
      + rewrite (get_node_ok s i n1) by ((apply (mw_buf f s M)) || lia || exact En). cbn [bind].
        assert (Hoi : o i = 0 \/ o i = 1).
        { assert (0 <= o i) by apply cnt_bounds, Hi. lia. }
        destruct Hoi as [Hoi|Hoi].
        * destruct (Hz Hoi) as [Ha Hn0].
          destruct (find_available_ok f t Mt (snd n1)) as (r & -> & Hr); [rewrite Ct; lia|].
          unfold avail_spec in Hr. rewrite Ct in Hr. destruct Hr as [(Hr & _ & _)|(_ & _ & Hall)].
          2:{ rewrite Hall in Ha by lia. discriminate. }
          assert (r = 0) by lia. subst r. cbn [bind].
          rewrite put_node_ok by ((apply (mw_buf f t Mt)) || lia || exact Hn0). cbn [bind].
          destruct (set_metadata_ok f (mk (s_buf t) (s_cap t) (s_meta t) (upd (s_nodes t) 0 (Some n1)) (s_size t) (s_nempty t)) 0 (h2_of (snd n1)))
            as (t2 & -> & M2 & (B2 & C2 & _) & Hm & _).
          { eapply mwf_ext; [..|exact Mt]; reflexivity. } { cbn [s_cap]. lia. } { apply node_byte_h2. }
          cbn [bind]. cbn [s_cap] in C2. split; [lia|]. split; [exact M2|]. split; [congruence|]. split; [lia|].
          intros _. rewrite Hm. apply occ_h2.
        * rewrite (full_one_slot t (snd n1) Mt Ct (Ho Hoi)). cbn [bind]. unfold put_node, check_buf.
          rewrite (mw_buf f t Mt), Ct. reflexivity.
      + cbn [bind]. split; [lia|]. split; [exact Mt|]. split; [exact Ct|]. rewrite Hos, Z.add_0_r. auto. }
  specialize (Hfold (s_cap s) ltac:(lia)).
  destruct (foldM (rehash_step f s) (zrange (s_cap s)) _) as [[t mv]|er]; [|cbn [bind]; rewrite Hfold; reflexivity].
  exfalso. destruct Hfold as (Ho1 & _). unfold o in Ho1. rewrite <- collect_length in Ho1 by lia.
  unfold elems in Hlen. rewrite map_length in Hlen. lia.
Qed.

(** ** Load factor. *)
Lemma load_bound : forall s, inv s ->
  size s <= capacity f s <= bucket_count s /\
  (15 <= bucket_count s ->
   cnt (fun i => negb (s_meta s i =? m_empty)) (bucket_count s) <= capacity f s /\ capacity f s < bucket_count s /\
   8 * capacity f s <= 7 * (bucket_count s + 1)).
Proof.
  intros s [H _]. pose proof (wf_size f key_of hash keq s H) as [_ Hb]. pose proof (wf_cap_nonneg f key_of hash keq s H) as Hc.
  unfold size, capacity, bucket_count. pose proof (max_size_bounds f (s_cap s) ltac:(lia)). split; [lia|].
  intros H15. destruct H as [H|H]; [rewrite (w0_cap s H) in *; lia|].
  pose proof (w_m _ _ _ _ s H) as M. pose proof (W_pos f) as HW.
  pose proof (max_size_spare f (s_cap s) (mw_cap f s M) ltac:(lia)) as Hsp.
  pose proof (cnt_compl (fun i => s_meta s i =? m_empty) (s_cap s) ltac:(lia)) as Hcc. cbv beta in Hcc.
  pose proof (w_nempty _ _ _ _ s H) as Hn. pose proof (w_nempty0 _ _ _ _ s H). unfold n_emp in Hn.
  split; [lia|]. split; [lia|].
  destruct (mw_cap f s M) as (k & Hk & Ek). unfold capacity_to_max_size.
  assert (Hk3 : 3 <= k). { destruct (Z_le_dec 3 k); [assumption|]. assert (2 ^ k <= 2 ^ 2) by (apply Z.pow_le_mono_r; lia). lia. }
  assert (E8 : s_cap s = 8 * (2 ^ (k - 3) - 1) + 7).
  { rewrite Ek. replace k with (3 + (k - 3)) at 1 by lia. rewrite Z.pow_add_r by lia. change (2 ^ 3) with 8. lia. }
  assert (Hd : s_cap s / 8 = 2 ^ (k - 3) - 1).
  { rewrite E8. rewrite Z.mul_comm, Z.div_add_l by lia. rewrite (Z.div_small 7 8) by lia. lia. }
  rewrite Hd. destruct (W f =? 8); [destruct (Z.eqb_spec (s_cap s) 7); [lia|]|]; lia.
Qed.

(** ** Failed allocations. *)
Lemma failed_insert : forall lim ok (s : swiss) e, inv s -> lim < 2 ^ 59 ->
  exists s' o, do_insert f key_of hash keq lim ok s e = Ok (s', o) /\
    (o = None -> Permutation (elems s') (elems s) /\ inv s' /\ (ok = true -> s' = s)).
Proof.
  intros lim ok s e Hi Hlim. pose proof Hi as [H _]. unfold do_insert.
  destruct (find_located f key_of hash keq KL s (key_of e) H) as (r & -> & Hr). cbn [bind].
  destruct Hr as [(x & h & W1 & Hr & _)|(-> & Habs)].
  - destruct (Z.eqb_spec r (s_cap s)); [lia|]. eexists. eexists. split; [reflexivity|]. discriminate.
  - rewrite Z.eqb_refl. destruct (emplace_ok f key_of hash keq KL lim ok s e H Hlim Habs) as (s1 & o & -> & Ho & Hs & _). cbn [bind].
    eexists. eexists. split; [reflexivity|]. destruct o as [[p tr]|]; [discriminate|]. intros _.
    destruct Ho as [W' P']. split; [exact P'|]. destruct (Hs eq_refl) as [->|(-> & W1)].
    + split; [exact Hi|]. reflexivity.
    + split; [apply inv_wf1; exact W1|]. discriminate.
Qed.

Lemma failed_allocation : forall lim (s : swiss), inv s -> lim < 2 ^ 59 ->
  (forall ok e, exists s' o, do_insert f key_of hash keq lim ok s e = Ok (s', o) /\
     (o = None -> Permutation (elems s') (elems s) /\ (ok = true -> s' = s) /\
        forall k, exists b, contains f key_of hash keq s' k = Ok b /\
          (b = true <-> exists x, In x (elems s) /\ keq (key_of x) k = true))) /\
  (forall n, 0 <= n < 2 ^ 64 -> exists s' o, reserve f lim s n = Ok (s', o) /\ (o = None -> s' = s)) /\
  (forall n, 0 < n < 2 ^ 64 -> exists s' o, rehash f lim s n = Ok (s', o) /\ (o = None -> s' = s)).
Proof.
  intros lim s Hi Hlim. split; [|split].
  - intros ok e. destruct (failed_insert lim ok s e Hi Hlim) as (s' & o & E1 & Ho). exists s', o. split; [exact E1|].
    intros Hn. destruct (Ho Hn) as (P & I' & Hs). split; [exact P|]. split; [exact Hs|]. intros k.
    destruct (lookup_defined s' k (proj1 I')) as [(b & Eb & Hb) _]. exists b. split; [exact Eb|].
    rewrite Hb. split; intros (x & Hx & Hk); exists x; (split; [|exact Hk]).
    + apply (Permutation_in x P). exact Hx.
    + apply (Permutation_in x (Permutation_sym P)). exact Hx.
  - intros n Hn. apply reserve_defined; assumption.
  - intros n Hn. destruct (rehash_contents lim s n Hi Hlim ltac:(lia) (or_introl (proj1 Hn))) as (s' & o & E1 & Ho).
    exists s', o. split; [exact E1|]. intros ->. exact Ho.
Qed.

(** ** Inserting a key that is present. *)
Lemma insert_present : forall lim ok (s : swiss) e, inv s ->
  (exists x, In x (elems s) /\ keq (key_of x) (key_of e) = true) ->
  exists p x, do_insert f key_of hash keq lim ok s e = Ok (s, Some (p, false, [])) /\ holds s p x /\ keq (key_of x) (key_of e) = true.
Proof.
  intros lim ok s e [H _] (x & Hx & Hk). unfold do_insert.
  destruct (find_located f key_of hash keq KL s (key_of e) H) as (r & -> & Hr). cbn [bind].
  destruct Hr as [(y & h & W1 & Hr & En & Eg & Ha & Hl1 & Hl2)|(-> & Habs)].
  - destruct (Z.eqb_spec r (s_cap s)); [lia|]. exists r, y. split; [reflexivity|]. split; [split; [exact Hr|exists h; exact En]|exact Hl2].
  - exfalso. rewrite (Habs x Hx) in Hk. discriminate.
Qed.

Variable rep : E -> E -> E.
Hypothesis Hrep : forall a b, keq (key_of a) (key_of b) = true -> key_of (rep a b) = key_of a.
Local Notation run := (run f key_of hash keq rep).

(** ** Histories. *)
Lemma history_refines : forall h, history_ok h ->
  (exists s rs l, run empty_swiss h = Ok (s, rs) /\ spec_run key_of keq rep (map snd h) [] l rs) \/
  (narrow f /\ (exists v c, In (v, c) h /\ scanning c) /\ run empty_swiss h = Err BitScanZero).
Proof.
  intros h Hh. destruct (run_ok f key_of hash keq KL rep Hrep h empty_swiss (proj1 (empty_inv f key_of hash keq)) Hh)
    as [(s & rs & E1 & _ & Hr)|Hn]; [left|right; exact Hn].
  exists s, rs, (elems s). split; [exact E1|]. exact Hr.
Qed.

Lemma history_refines_wide : forall h, f = SSE2 \/ f = SSSE3 -> history_ok h ->
  exists s rs l, run empty_swiss h = Ok (s, rs) /\ spec_run key_of keq rep (map snd h) [] l rs.
Proof.
  intros h Hf Hh. destruct (history_refines h Hh) as [H|(Hn & _)]; [exact H|].
  destruct Hn as [->| ->], Hf; discriminate.
Qed.

Local Notation reachable := (reachable f key_of hash keq rep).

Lemma reachable_inv : forall s, reachable s -> inv s.
Proof. intros s (h & rs & Hh & E1). eapply run_reachable; eauto. Qed.

End Final.
