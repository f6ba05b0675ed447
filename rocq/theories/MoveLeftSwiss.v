(** Tables moved element by element after moving an element threw. *)
From Coq Require Import ZArith List Bool Lia Permutation.
From Coq Require Import ZifyBool ZifyNat.
From Verif Require Import Base BaseLemmas Bits BitsProofs SwissModel SwissArith SwissCap SwissInv SwissOps SwissClean
  SwissIter SwissRoom MapSpec SwissRun SwissRefine SwissFinal SwissMore SwissCopy CopyModel CopyProofs MoveLeftModel.
Import ListNotations.
Open Scope Z_scope.

Section Swiss.
Context {E K : Type}.
Variable f : simd.
Variable key_of : E -> K.
Variable hash : K -> Z.
Variable keq : K -> K -> bool.
Hypothesis KL : key_laws hash keq.
Notation swiss := (@swiss E).
Local Notation mwf := (mwf f).
Local Notation wf1 := (wf1 f key_of hash keq).
Local Notation wf := (wf f key_of hash keq).
Local Notation image := (image f).
Local Notation scans := (scans f).
Let same (e : E) : E := e.
Let g (n : E * Z) : E * Z := (same (fst n), snd n).
Local Notation uncounted := (uncounted f key_of hash keq same).

(** The source after the elements below slot [j] were relocated. *)
Record gone (o o1 : swiss) (j : Z) : Prop := {
  go_buf : s_buf o1 = s_buf o;
  go_cap : s_cap o1 = s_cap o;
  go_meta : s_meta o1 = s_meta o;
  go_size : s_size o1 = s_size o;
  go_nodes : forall k, s_nodes o1 k = if (0 <=? k) && (k <? j) then None else s_nodes o k
}.
Lemma gone_0 : forall o : swiss, gone o o 0.
Proof. intros o. constructor; try reflexivity. intros k. destruct (Z.leb_spec 0 k), (Z.ltb_spec k 0); (lia || reflexivity). Qed.
Lemma gone_skip : forall (o o1 : swiss) i, gone o o1 i -> s_nodes o i = None -> gone o o1 (i + 1).
Proof.
  intros o o1 i [B C M S N] Hn. constructor; auto. intros k. rewrite N.
  destruct (Z.eq_dec k i) as [->|]; [rewrite Hn; repeat match goal with |- context [if ?c then _ else _] => destruct c end; reflexivity|].
  destruct (Z.leb_spec 0 k), (Z.ltb_spec k i), (Z.ltb_spec k (i + 1)); (lia || reflexivity).
Qed.

(** The loop does to the target what copying does. *)
Lemma move_until_ok : forall (o : swiss), wf1 o -> forall k i n t o1 t' b, gone o o1 (Z.of_nat i) -> Z.of_nat (i + k) = s_cap o ->
  copy_until f same n o (map Z.of_nat (seq i k)) t = Ok (t', b) ->
  exists o2, move_until f n (map Z.of_nat (seq i k)) t o1 = Ok (t', o2, b) /\
    if b then foldM (move_step f) (map Z.of_nat (seq i k)) (t, o1) = Ok (t', o2)
    else exists j, Z.of_nat i <= j < s_cap o /\ gone o o2 j /\ (length (collect (s_nodes o) j) = length (collect (s_nodes o) (Z.of_nat i)) + n)%nat /\ (n = 0%nat -> o2 = o1).
Proof.
  intros o Ho. pose proof (w_m _ _ _ _ o Ho) as M. pose proof (w_n _ _ _ _ o Ho) as N. pose proof (cap_bounds f o M) as Hcb. pose proof (W_pos f) as HW.
  induction k as [|k IH]; intros i n t o1 t' b G Hk Hc; cbn [seq map copy_until move_until foldM] in *.
  - injection Hc as <- <-. exists o1. auto.
  - pose proof G as [GB GC GM GS GN].
    rewrite get_meta_ok in Hc by ((apply (mw_buf f o M)) || lia). cbn [bind] in Hc.
    unfold move_step at 1. rewrite get_meta_ok by ((rewrite GB; apply (mw_buf f o M)) || lia). rewrite GM. cbn [bind].
    pose proof (ncons_occ key_of hash o (Z.of_nat i) N ltac:(lia)) as Hocc. rewrite Hocc in Hc. rewrite Hocc.
    assert (Hn1 : s_nodes o1 (Z.of_nat i) = s_nodes o (Z.of_nat i)).
    { rewrite GN. destruct (Z.leb_spec 0 (Z.of_nat i)), (Z.ltb_spec (Z.of_nat i) (Z.of_nat i)); (lia || reflexivity). }
    assert (Hl : collect (s_nodes o) (Z.of_nat (S i)) = collect (s_nodes o) (Z.of_nat i) ++ match s_nodes o (Z.of_nat i) with Some x => [x] | None => [] end).
    { replace (Z.of_nat (S i)) with (Z.of_nat i + 1) by lia. apply collect_succ. lia. }
    destruct (s_nodes o (Z.of_nat i)) as [x|] eqn:En.
    + rewrite (get_node_ok o (Z.of_nat i) x) in Hc by ((apply (mw_buf f o M)) || lia || exact En). cbn [bind] in Hc.
      rewrite (get_node_ok o1 (Z.of_nat i) x) by ((rewrite GB; apply (mw_buf f o M)) || lia || congruence). cbn [bind].
      destruct n as [|n].
      { injection Hc as <- <-. exists o1. split; [reflexivity|]. exists (Z.of_nat i). split; [lia|]. split; [exact G|]. split; [lia|reflexivity]. }
      unfold same at 1 in Hc. rewrite <- surjective_pairing in Hc.
      destruct (put_node t (Z.of_nat i) x) as [t1|]; [|discriminate]. cbn [bind] in *.
      rewrite (kill_node_ok o1 (Z.of_nat i) x) by ((rewrite GB; apply (mw_buf f o M)) || lia || congruence). cbn [bind].
      destruct (set_metadata f t1 (Z.of_nat i) (s_meta o (Z.of_nat i))) as [t2|]; [|discriminate]. cbn [bind] in *.
      match goal with |- context [move_until f n _ t2 ?o3] => assert (G3 : gone o o3 (Z.of_nat (S i))) end.
      { constructor; cbn [s_buf s_cap s_meta s_size s_nodes]; auto. intros q. unfold upd. replace (Z.of_nat (S i)) with (Z.of_nat i + 1) by lia. rewrite GN.
        destruct (Z.eqb_spec q (Z.of_nat i)) as [->|];
        repeat match goal with |- context [?a <=? ?b] => destruct (Z.leb_spec a b) | |- context [?a <? ?b] => destruct (Z.ltb_spec a b) end; cbn [andb]; (lia || reflexivity). }
      destruct (IH (S i) n t2 _ t' b G3 ltac:(lia) Hc) as (o2 & Em & Hb). exists o2. split; [exact Em|]. destruct b; [exact Hb|].
      destruct Hb as (j & Hj & Gj & Hlj & _). exists j. split; [lia|]. split; [exact Gj|]. rewrite Hl, app_length in Hlj. cbn [length] in Hlj. split; [lia|lia].
    + assert (G3 : gone o o1 (Z.of_nat (S i))) by (replace (Z.of_nat (S i)) with (Z.of_nat i + 1) by lia; apply gone_skip; assumption).
      destruct (IH (S i) n t o1 t' b G3 ltac:(lia) Hc) as (o2 & Em & Hb). exists o2. split; [exact Em|]. cbn [bind]. destruct b; [exact Hb|].
      destruct Hb as (j & Hj & Gj & Hlj & H0). exists j. split; [lia|]. split; [exact Gj|]. rewrite Hl, app_nil_r in Hlj. split; [lia|exact H0].
Qed.

(** Such a source cannot be destroyed, cleared, searched for what it lost, or iterated. *)
Definition drained (n : nat) (o o1 : swiss) : Prop :=
  size o1 = size o /\ elems o1 = skipn n (elems o) /\
  destroy f o1 = Err DeadObject /\ clear f o1 = Err DeadObject /\
  (forall e, In e (firstn n (elems o)) -> contains f key_of hash keq o1 (key_of e) = Err DeadObject) /\
  (iterate f o1 = Err DeadObject \/ (narrow f /\ iterate f o1 = Err BitScanZero)).

Lemma first_full : forall (N : Z -> option (E * Z)) j, 0 <= j -> collect N j <> [] ->
  exists p x, 0 <= p < j /\ N p = Some x /\ forall k, 0 <= k < p -> N k = None.
Proof.
  intros N j Hj. pattern j. apply natlike_ind; [intros H; rewrite collect_0 in H by lia; contradiction| |exact Hj].
  clear j Hj. intros j Hj IH H. unfold Z.succ in *. rewrite collect_succ in H by lia. destruct (collect N j) as [|y l] eqn:Ec.
  - destruct (N j) as [x|] eqn:En; [|contradiction]. exists j, x. split; [lia|]. split; [exact En|]. intros k Hk.
    destruct (N k) as [z|] eqn:Ez; [|reflexivity]. exfalso. assert (Hi : In z (collect N j)) by (apply collect_In; eauto). rewrite Ec in Hi. destruct Hi.
  - destruct IH as (p & x & Hp & Hx & Hk); [discriminate|]. exists p, x. split; [lia|]. auto.
Qed.

Section Drained.
Variables (o o1 : swiss) (j : Z).
Hypothesis Ho : wf1 o.
Hypothesis G : gone o o1 j.
Hypothesis Hj : 0 <= j <= s_cap o.

Lemma drained_get : forall q n, get_node o q = Ok n -> get_node o1 q = Err DeadObject \/ (get_node o1 q = Ok n /\ s_nodes o1 q = Some n).
Proof.
  destruct G as [GB GC GM GS GN]. intros q n H. unfold get_node, check_buf in *. rewrite GB, GC, GN in *.
  destruct (s_buf o); cbn [bind] in *; try discriminate. destruct (guard ((0 <=? q) && (q <? s_cap o)) OutOfBounds); cbn [bind] in *; [|discriminate].
  destruct (s_nodes o q) as [m|]; [|discriminate]. injection H as ->. destruct ((0 <=? q) && (q <? j)); [left; reflexivity|right; auto].
Qed.
Lemma drained_lanes : forall k p l hit, scan_lanes key_of keq o k p l = Ok hit ->
  scan_lanes key_of keq o1 k p l = Err DeadObject \/ (scan_lanes key_of keq o1 k p l = Ok hit /\ forall q, hit = Some q -> s_nodes o1 q <> None).
Proof.
  intros k p. induction l as [|a l IH]; intros hit H; cbn [scan_lanes] in *.
  - injection H as <-. right. split; [reflexivity|discriminate].
  - rewrite (go_cap _ _ _ G). destruct (get_node o (probe_off (s_cap o) p a)) as [n|] eqn:En; [|discriminate]. cbn [bind] in H.
    destruct (drained_get _ _ En) as [->|[-> Hs]]; [left; reflexivity|]. cbn [bind]. destruct (keq (key_of (fst n)) k).
    + injection H as <-. right. split; [reflexivity|]. intros q Hq. injection Hq as <-. congruence.
    + apply IH. exact H.
Qed.
Lemma drained_block : forall p, load_block f o1 p = load_block f o p.
Proof. destruct G as [GB GC GM GS GN]. intros p. unfold load_block, check_buf. rewrite GB, GC, GM. reflexivity. Qed.
Lemma drained_find : forall k h fuel p r, find_loop f key_of keq fuel o k h p = Ok r -> r <> s_cap o -> s_nodes o1 r = None ->
  find_loop f key_of keq fuel o1 k h p = Err DeadObject.
Proof.
  intros k h. induction fuel as [|fuel IH]; intros p r H Hr Hn; cbn [find_loop] in *; [discriminate|].
  rewrite drained_block. destruct (load_block f o (snd p)) as [blk|]; [|discriminate]. cbn [bind] in *.
  destruct (eq_lanes f blk (h2_of h)) as [lanes|]; [|discriminate]. cbn [bind] in *.
  destruct (scan_lanes key_of keq o k p lanes) as [hit|] eqn:Es; [|discriminate]. cbn [bind] in *.
  destruct (drained_lanes k p lanes hit Es) as [->|[-> Hh]]; [reflexivity|]. cbn [bind]. destruct hit as [q|].
  - injection H as ->. exfalso. exact (Hh r eq_refl Hn).
  - rewrite (go_cap _ _ _ G). destruct (negb (mask_is_empty (match_empty f blk))); [congruence|].
    unfold assert_probe in *. rewrite (go_cap _ _ _ G). destruct (guard (fst p <? s_cap o) AssertFailed); [|discriminate]. cbn [bind] in *.
    apply (IH _ r H Hr Hn).
Qed.
Lemma drained_contains : forall i e h, 0 <= i < j -> s_nodes o i = Some (e, h) -> contains f key_of hash keq o1 (key_of e) = Err DeadObject.
Proof.
  intros i e h Hi En. unfold contains. destruct (find_node_wf f key_of hash keq KL o (key_of e) (or_intror Ho)) as (r & Er & [(Hr & e' & h' & Er' & Hk)|(-> & Hno)]).
  - assert (Hri : r = i) by (apply (w_u _ _ _ _ o Ho r i e' e h' h Er' En Hk)). subst r.
    unfold find_node in *. rewrite (go_size _ _ _ G). destruct (s_size o =? 0); [injection Er as Er; lia|].
    unfold probe_fuel in *. rewrite (go_cap _ _ _ G). rewrite (drained_find _ _ _ _ i Er); [reflexivity|lia|].
    rewrite (go_nodes _ _ _ G). destruct (Z.leb_spec 0 i), (Z.ltb_spec i j); (lia || reflexivity).
  - exfalso. assert (Hin : In e (elems o)).
    { unfold elems. apply in_map_iff. exists (e, h). split; [reflexivity|]. apply collect_In. exists i. split; [lia|exact En]. }
    specialize (Hno e Hin). rewrite (kl_refl hash keq KL) in Hno. discriminate.
Qed.

Lemma drained_all : forall n, length (collect (s_nodes o) j) = n -> (0 < n)%nat -> drained n o o1.
Proof.
  intros n Hn H0. pose proof (w_m _ _ _ _ o Ho) as M. pose proof (w_n _ _ _ _ o Ho) as N. pose proof (cap_bounds f o M) as Hcb. pose proof (W_pos f) as HW.
  assert (M1 : mwf o1) by (apply (mwf_ext f o o1); [apply (go_buf _ _ _ G)|apply (go_cap _ _ _ G)|apply (go_meta _ _ _ G)|exact M]).
  destruct (first_full (s_nodes o) j) as (p & x & Hp & Hx & Hbefore); [lia|intros Hc; rewrite Hc in Hn; cbn [length] in Hn; lia|].
  assert (Hocc : is_occupied (s_meta o p) = true) by (rewrite (ncons_occ key_of hash o p N) by lia; rewrite Hx; reflexivity).
  assert (Hfree : forall k, 0 <= k < p -> is_occupied (s_meta o k) = false) by (intros k Hk; rewrite (ncons_occ key_of hash o k N) by lia; rewrite Hbefore by lia; reflexivity).
  assert (Hav : forall k, 0 <= k < p -> is_available (s_meta o k) = true).
  { intros k Hk. destruct N as [N _]. specialize (N k ltac:(lia)). rewrite Hbefore in N by lia. exact N. }
  assert (Hd : get_node o1 p = Err DeadObject).
  { unfold get_node, check_buf, guard. rewrite (mw_buf f o1 M1), (go_cap _ _ _ G), (go_nodes _ _ _ G). cbn [bind].
    destruct (Z.leb_spec 0 p), (Z.ltb_spec p (s_cap o)), (Z.ltb_spec p j); (lia || reflexivity). }
  assert (Her : erase_nodes f o1 = Err DeadObject).
  { unfold erase_nodes. rewrite (go_cap _ _ _ G). unfold zrange. replace (Z.to_nat (s_cap o)) with (Z.to_nat p + S (Z.to_nat (s_cap o - p - 1)))%nat by lia.
    rewrite seq_app, map_app. cbn [Nat.add].
    assert (Hpre : forall m a r, Z.of_nat (a + m) <= p ->
      foldM (fun t i => let* b := get_meta f t i in if is_occupied b then kill_node t i else Ok t) (map Z.of_nat (seq a m) ++ r) o1 =
      foldM (fun t i => let* b := get_meta f t i in if is_occupied b then kill_node t i else Ok t) r o1).
    { induction m as [|m IH]; intros a r Hm; [reflexivity|]. cbn [seq map app foldM].
      rewrite get_meta_ok by ((apply (mw_buf f o1 M1)) || (rewrite (go_cap _ _ _ G); lia)). cbn [bind]. rewrite (go_meta _ _ _ G), Hfree by lia. cbn [bind]. apply IH. lia. }
    rewrite Hpre by lia. cbn [seq map foldM]. replace (Z.of_nat (Z.to_nat p)) with p by lia.
    rewrite get_meta_ok by ((apply (mw_buf f o1 M1)) || (rewrite (go_cap _ _ _ G); lia)). cbn [bind]. rewrite (go_meta _ _ _ G), Hocc.
    unfold kill_node. rewrite Hd. reflexivity. }
  assert (Hel : Z.of_nat (length (elems o)) = s_size o) by (symmetry; apply (wf1_elems_length f key_of hash keq o Ho) || (pose proof (wf1_elems_length f key_of hash keq o Ho); lia)).
  assert (Hsplit : elems o = map fst (collect (s_nodes o) j) ++ map fst (rest (s_nodes o) j (s_cap o))).
  { unfold elems. rewrite (collect_split _ _ j (s_cap o)), map_app by lia. reflexivity. }
  assert (Hsz : (s_size o1 =? 0) = false).
  { apply Z.eqb_neq. rewrite (go_size _ _ _ G), <- Hel, Hsplit, app_length, map_length. lia. }
  split; [apply (go_size _ _ _ G)|]. split; [|split; [|split; [|split]]].
  - rewrite Hsplit, <- Hn, <- (map_length fst (collect (s_nodes o) j)), skipn_app, Nat.sub_diag, skipn_all. cbn [app skipn].
    unfold elems. rewrite (go_cap _ _ _ G), (collect_split _ _ j (s_cap o)) by lia. rewrite (collect_none _ (s_nodes o1) j).
    + cbn [app]. f_equal. apply rest_ext. intros i Hi. rewrite (go_nodes _ _ _ G). destruct (Z.leb_spec 0 i), (Z.ltb_spec i j); (lia || reflexivity).
    + intros i Hi. rewrite (go_nodes _ _ _ G). destruct (Z.leb_spec 0 i), (Z.ltb_spec i j); (lia || reflexivity).
  - unfold destroy. rewrite Hsz. exact Her.
  - unfold clear. rewrite Hsz, Her. reflexivity.
  - intros e He. rewrite Hsplit, <- Hn, <- (map_length fst (collect (s_nodes o) j)), firstn_app, Nat.sub_diag, firstn_O, app_nil_r, firstn_all in He.
    apply in_map_iff in He. destruct He as ([e' h] & He' & Hin). cbn [fst] in He'. subst e'. apply collect_In in Hin. destruct Hin as (i & Hi & Hs).
    exact (drained_contains i e h Hi Hs).
  - unfold iterate, begin_iter. destruct (to_iter_ok f o1 0 M1 ltac:(rewrite (go_cap _ _ _ G); lia)) as [(q & -> & Hq & Hqa & Hqo)|[Hnr ->]]; [|right; auto].
    left. cbn [bind]. rewrite (end_iter_mwf f o1 M1). cbn [bind]. rewrite (go_meta _ _ _ G), (go_cap _ _ _ G) in *.
    assert (q = p). { destruct (Z.lt_trichotomy q p) as [Hl|[He|Hl]]; [rewrite (Hav q) in Hqo by lia; discriminate|exact He|].
      specialize (Hqa p ltac:(lia)). rewrite (occ_avail _ Hocc) in Hqa. discriminate. }
    subst q. unfold iter_fuel. rewrite (go_cap _ _ _ G). destruct (Z.to_nat _) as [|fu] eqn:Ef; [exfalso; lia|]. cbn [walk]. destruct (Z.eqb_spec p (s_cap o)); [lia|].
    rewrite Hd. reflexivity.
Qed.
End Drained.

Lemma realloc_room : forall lim (s o : swiss), 0 < s_cap o ->
  s_cap s < s_cap o \/ (s_cap s = s_cap o /\ s_buf s = Live /\ forall j, s_nodes s j = None) -> s_size s = 0 ->
  exists s1 okb, reallocate lim s (s_cap o) = Ok (s1, okb) /\ s_size s1 = 0 /\ (s_cap o <= lim -> okb = true) /\ (okb = true -> s_buf s1 = Live /\ s_cap s1 = s_cap o /\ forall j, s_nodes s1 j = None).
Proof.
  clear. intros lim s o Hp Hcap H0. unfold reallocate. destruct Hcap as [Hcap|(Hcap & HB & HN)].
  - destruct (Z.ltb_spec (s_cap s) (s_cap o)); [|lia]. destruct (Z.ltb_spec lim (s_cap o)).
    + eexists. exists false. split; [reflexivity|]. cbn [s_size]. split; [exact H0|]. split; [lia|discriminate].
    + eexists. exists true. split; [reflexivity|]. cbn [s_buf s_cap s_nodes s_size]. auto 6.
  - destruct (Z.ltb_spec (s_cap s) (s_cap o)); [lia|]. exists s, true. auto 8.
Qed.
Lemma m_move_data_throws : forall n lim (s o : swiss), wf1 o -> (n < length (elems o))%nat -> s_size s = 0 ->
  s_cap s < s_cap o \/ (s_cap s = s_cap o /\ s_buf s = Live /\ forall j, s_nodes s j = None) -> s_cap o <= lim ->
  exists t o1, m_move_data f n lim s o = Ok (t, o1, false) /\ uncounted n (elems o) t /\ s_buf t = Live /\ s_cap t = s_cap o /\
    (n = 0%nat -> o1 = o) /\ ((0 < n)%nat -> drained n o o1).
Proof.
  intros n lim s o Ho Hn Hs0 Hcap Hlim. pose proof (w_m _ _ _ _ o Ho) as M. pose proof (cap_bounds f o M) as Hcb.
  pose proof (wf1_elems_length f key_of hash keq o Ho) as Hl.
  destruct (copy_data_throws f key_of hash keq same (fun e => eq_refl) n lim s o Ho Hn Hs0 Hcap Hlim) as (t & Et & Hu & Bt & Ct).
  unfold c_copy_data in Et. unfold m_move_data. rewrite Hs0 in *. cbn [Z.eqb guard bind] in *.
  destruct (Z.eqb_spec (s_size o) 0) as [E0|_]; [exfalso; lia|].
  destruct (realloc_room lim s o ltac:(lia) Hcap Hs0) as (s1 & okb & Er & S1 & Hok & Hr). rewrite Er in *. cbn [bind] in *. rewrite (Hok Hlim) in *. cbn [negb] in *.
  destruct (fill_empty s1) as [s2|]; [|discriminate]. cbn [bind] in *.
  destruct (copy_until f same n o (zrange (s_cap o)) s2) as [[t' b]|] eqn:Ec; [|discriminate]. cbn [bind] in Et.
  destruct b; cbn [negb] in Et; [discriminate|]. injection Et as ->.
  destruct (move_until_ok o Ho (Z.to_nat (s_cap o)) 0 n s2 o t false (gone_0 o) ltac:(lia) Ec) as (o1 & Em & j & Hj & Gj & Hlen & H0).
  unfold zrange. rewrite Em. cbn [bind negb]. exists t, o1. split; [reflexivity|]. split; [exact Hu|]. split; [exact Bt|]. split; [exact Ct|]. split; [exact H0|].
  intros Hn0. change (Z.of_nat 0) with 0 in *. rewrite (collect_0 _ (s_nodes o) 0) in Hlen by lia. cbn [length Nat.add] in Hlen.
  apply (drained_all o o1 j Ho Gj ltac:(lia) n Hlen Hn0).
Qed.
Lemma m_move_data_same : forall n lim (s o : swiss), wf1 o -> (length (elems o) <= n)%nat -> s_size s = 0 ->
  s_cap s < s_cap o \/ (s_cap s = s_cap o /\ s_buf s = Live /\ forall j, s_nodes s j = None) ->
  m_move_data f n lim s o = move_data f lim s o.
Proof.
  intros n lim s o Ho Hn Hs0 Hcap. pose proof (w_m _ _ _ _ o Ho) as M. pose proof (cap_bounds f o M) as Hcb.
  unfold m_move_data, move_data. rewrite Hs0. cbn [Z.eqb guard bind]. destruct (s_size o =? 0); [reflexivity|].
  destruct (realloc_room lim s o ltac:(lia) Hcap Hs0) as (s1 & okb & -> & S1 & _ & Hr). cbn [bind]. destruct okb; [|reflexivity]. destruct (Hr eq_refl) as (B1 & C1 & N1). cbn [negb].
  destruct (fill_empty_image f g o s1 B1 C1 (mw_cap f o M) N1) as (s2 & -> & I2 & S2). cbn [bind].
  destruct (copy_until_ok f key_of hash keq same o Ho (Z.to_nat (s_cap o)) 0 n s2 I2 ltac:(lia)) as (t & b & Ec & Es & Hb). destruct b.
  - destruct (move_until_ok o Ho (Z.to_nat (s_cap o)) 0 n s2 o t true (gone_0 o) ltac:(lia) Ec) as (o1 & Em & Ef). unfold zrange. rewrite Em, Ef. reflexivity.
  - exfalso. destruct Hb as (_ & _ & _ & _ & Hb). change (Z.of_nat 0) with 0 in Hb. rewrite elems_rest, map_length in Hn by lia. lia.
Qed.

Lemma move_ctor_throws : forall ne n lim (o : swiss), wf o -> (n < length (elems o))%nat -> s_cap o <= lim ->
  (ne = true -> m_move_ctor f ne n lim o = Err Terminated) /\
  (ne = false -> exists t o1, m_move_ctor f ne n lim o = Ok (t, o1, false) /\ uncounted n (elems o) t /\ s_buf t = Live /\ s_cap t = s_cap o /\
    (n = 0%nat -> o1 = o) /\ ((0 < n)%nat -> drained n o o1)).
Proof.
  intros ne n lim o Ho Hn Hlim. destruct Ho as [Ho|Ho]; [rewrite (elems_empty o (w0_cap o Ho)) in Hn; cbn [length] in Hn; lia|].
  pose proof (cap_bounds f o (w_m _ _ _ _ o Ho)) as Hcb. unfold m_move_ctor.
  destruct (m_move_data_throws n lim empty_swiss o Ho Hn eq_refl ltac:(left; cbn [empty_swiss s_cap]; lia) Hlim) as (t & o1 & -> & H). unfold leaves. cbn [bind snd negb].
  split; intros ->; [reflexivity|]. exists t, o1. cbn [andb]. split; [reflexivity|exact H].
Qed.
Lemma move_assign_throws : forall ne n lim (s o : swiss), wf s -> wf o -> (n < length (elems o))%nat -> s_cap s <= s_cap o -> s_cap o <= lim ->
  (ne = true -> m_move_assign f ne n lim s o = Err Terminated) /\
  (ne = false -> exists t o1, m_move_assign f ne n lim s o = Ok (t, o1, false) /\ uncounted n (elems o) t /\
    (n = 0%nat -> o1 = o) /\ ((0 < n)%nat -> drained n o o1)).
Proof.
  intros ne n lim s o Hs Ho Hn Hp Hlim. destruct Ho as [Ho|Ho]; [rewrite (elems_empty o (w0_cap o Ho)) in Hn; cbn [length] in Hn; lia|].
  destruct (target_ok f key_of hash keq false s o Hs Ho (or_intror Hp)) as (s1 & E1 & S1 & T1). unfold m_move_assign. rewrite E1. cbn [bind].
  destruct (m_move_data_throws n lim _ o Ho Hn S1 T1 Hlim) as (t & o1 & Em & Hu & _ & _ & H). cbn [buffer_assign] in Em. rewrite Em. unfold leaves. cbn [bind snd negb].
  split; intros ->; [reflexivity|]. exists t, o1. cbn [andb]. auto.
Qed.
Lemma move_same : forall n lim (o : swiss), wf o -> (length (elems o) <= n)%nat ->
  m_move_ctor f false n lim o = move_ctor f false lim o /\
  forall s, wf s -> s_cap s <= s_cap o -> m_move_assign f false n lim s o = move_assign f false false lim s o.
Proof.
  intros n lim o Ho Hn.
  assert (Hid : forall A B (x : res (A * B * bool)), leaves false x = x) by (intros A B [[[a b] c]|e]; reflexivity).
  unfold m_move_ctor, move_ctor, m_move_assign, move_assign, move_from. setoid_rewrite Hid. destruct Ho as [Ho|Ho].
  - assert (H0 : forall s, m_move_data f n lim s o = move_data f lim s o).
    { intros s. unfold m_move_data, move_data. rewrite (w0_size o Ho). destruct (s_size s =? 0); reflexivity. }
    split; [apply H0|]. intros s _ _. destruct (erase_nodes f s) as [s1|]; [|reflexivity]. cbn [bind]. apply H0.
  - pose proof (cap_bounds f o (w_m _ _ _ _ o Ho)) as Hcb. split.
    + apply m_move_data_same; [exact Ho|exact Hn|reflexivity|left; cbn [empty_swiss s_cap]; lia].
    + intros s Hs Hp. destruct (target_ok f key_of hash keq false s o Hs Ho (or_intror Hp)) as (s1 & E1 & S1 & T1). rewrite E1. cbn [bind buffer_assign].
      apply m_move_data_same; assumption.
Qed.
End Swiss.

(** Reachable tables. *)
From Verif Require Import World WorldProofs.
Section Final.
Context {E K : Type}.
Variable f : simd.
Variable key_of : E -> K.
Variable hash : K -> Z.
Variable keq : K -> K -> bool.
Hypothesis KL : key_laws hash keq.
Variable rep : E -> E -> E.
Hypothesis R : forall a b, keq (key_of a) (key_of b) = true -> key_of (rep a b) = key_of a.
Notation swiss := (@swiss E).
Notation occurs := (occurs f key_of hash keq rep).
Let wf_of := occurs_wf f key_of hash keq KL rep R.

Lemma left_first : forall lim (o : swiss), occurs o ->
  (forall n, (length (elems o) <= n)%nat ->
     m_move_ctor f false n lim o = move_ctor f false lim o /\
     forall s, occurs s -> bucket_count s <= bucket_count o -> m_move_assign f false n lim s o = move_assign f false false lim s o) /\
  (elems o <> [] -> bucket_count o <= lim ->
     (exists t, m_move_ctor f false 0 lim o = Ok (t, o, false)) /\
     forall s, occurs s -> bucket_count s <= bucket_count o ->
       exists t, m_move_assign f false 0 lim s o = Ok (t, o, false) /\ size t = 0 /\ elems t = [] /\ forall k, contains f key_of hash keq t k = Ok false).
Proof.
  intros lim o Ho. pose proof (wf_of o Ho) as W. split.
  - intros n Hn. destruct (move_same f key_of hash keq n lim o W Hn) as [H1 H2]. split; [exact H1|]. intros s Hs. exact (H2 s (wf_of s Hs)).
  - intros He Hl. assert (Hn : (0 < length (elems o))%nat) by (destruct (elems o); [contradiction|cbn [length]; lia]). split.
    + destruct (move_ctor_throws f key_of hash keq KL false 0 lim o W Hn Hl) as [_ H]. destruct (H eq_refl) as (t & o1 & Em & _ & _ & _ & H0 & _). rewrite (H0 eq_refl) in Em. eauto.
    + intros s Hs Hb. destruct (move_assign_throws f key_of hash keq KL false 0 lim s o (wf_of s Hs) W Hn Hb Hl) as [_ H].
      destruct (H eq_refl) as (t & o1 & Em & (U1 & U2 & U3 & _) & H0 & _). rewrite (H0 eq_refl) in Em. exists t. auto.
Qed.
Lemma left_later : forall n lim (o : swiss), occurs o -> (0 < n < length (elems o))%nat -> bucket_count o <= lim ->
  m_move_ctor f true n lim o = Err Terminated /\
  (exists t o1, m_move_ctor f false n lim o = Ok (t, o1, false) /\ drained f key_of hash keq n o o1 /\ elems t = firstn n (elems o) /\ s_buf t = Live /\ bucket_count t = bucket_count o) /\
  forall s, occurs s -> bucket_count s <= bucket_count o ->
    m_move_assign f true n lim s o = Err Terminated /\
    exists t o1, m_move_assign f false n lim s o = Ok (t, o1, false) /\ drained f key_of hash keq n o o1 /\
      size t = 0 /\ elems t = firstn n (elems o) /\ (forall k, contains f key_of hash keq t k = Ok false) /\ clear f t = Ok t /\ destroy f t = Ok t.
Proof.
  intros n lim o Ho [H0 Hn] Hl. pose proof (wf_of o Ho) as W. split; [apply (move_ctor_throws f key_of hash keq KL true n lim o W Hn Hl); reflexivity|]. split.
  - destruct (move_ctor_throws f key_of hash keq KL false n lim o W Hn Hl) as [_ H]. destruct (H eq_refl) as (t & o1 & Em & (U1 & U2 & _) & B & C & _ & D). rewrite map_id in U2. exists t, o1. auto 8.
  - intros s Hs Hb. split; [apply (move_assign_throws f key_of hash keq KL true n lim s o (wf_of s Hs) W Hn Hb Hl); reflexivity|].
    destruct (move_assign_throws f key_of hash keq KL false n lim s o (wf_of s Hs) W Hn Hb Hl) as [_ H].
    destruct (H eq_refl) as (t & o1 & Em & (U1 & U2 & U3 & U4 & U5 & _) & _ & D). rewrite map_id in U2. exists t, o1. auto 10.
Qed.
(** A call that no exception leaves does not depend on the [noexcept] clause. *)
Lemma quiet : forall ne n lim (o : swiss), occurs o -> (length (elems o) <= n)%nat ->
  (forall t o1, move_ctor f false lim o = Ok (t, o1, true) -> m_move_ctor f ne n lim o = Ok (t, o1, true)) /\
  forall s t o1, occurs s -> bucket_count s <= bucket_count o -> move_assign f false false lim s o = Ok (t, o1, true) -> m_move_assign f ne n lim s o = Ok (t, o1, true).
Proof.
  intros ne n lim o Ho Hn. destruct (left_first lim o Ho) as [H _]. destruct (H n Hn) as [H1 H2].
  assert (X : forall (x : res (swiss * swiss * bool)) t o1, leaves false x = Ok (t, o1, true) -> leaves ne x = Ok (t, o1, true)).
  { intros x t o1 Hx. unfold leaves in *. destruct x as [y|]; [|discriminate]. cbn [bind andb] in *. injection Hx as ->. cbn [snd negb]. rewrite andb_false_r. reflexivity. }
  split; [intros t o1 He; apply X; rewrite <- He; exact H1|]. intros s t o1 Hs Hb He. apply X. rewrite <- He. apply H2; assumption.
Qed.
End Final.
