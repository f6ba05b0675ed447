(** Tables after a move of an element threw. *)
From Coq Require Import ZArith List Bool Lia Permutation.
From Coq Require Import ZifyBool ZifyNat.
From Verif Require Import Base BaseLemmas Bits BitsProofs MapSpec SwissModel SwissRun SwissArith SwissCap SwissInv SwissOps SwissClean SwissIter SwissRoom MoveModel.
Import ListNotations.
Open Scope Z_scope.

Section Swiss.
Context {E K : Type}.
Variable f : simd.
Variable key_of : E -> K.
Variable hash : K -> Z.
Variable keq : K -> K -> bool.
Variable rep : E -> E -> E.
Hypothesis KL : key_laws hash keq.
Notation swiss := (@swiss E).
Notation wf := (wf f key_of hash keq).

Definition full (s : swiss) (i : Z) : bool := match s_nodes s i with Some _ => true | None => false end.

(** ** The loop of do_rehash. *)
Lemma until_app : forall (s : swiss) l1 l2 m acc,
  (forall i, In i l1 -> exists b, get_meta f s i = Ok b /\ is_occupied b = full s i) -> (length (filter (full s) l1) <= m)%nat ->
  relocate_until f m s (l1 ++ l2) acc =
  let* x := foldM (rehash_step f s) l1 acc in relocate_until f (m - length (filter (full s) l1)) s l2 x.
Proof.
  intros s l1 l2. induction l1 as [|i l1 IH]; intros m acc Hg Hm; cbn [app foldM filter length].
  - cbn [bind]. f_equal. lia.
  - cbn [relocate_until]. destruct (Hg i (or_introl eq_refl)) as (b & Eb & Eo). cbn [filter] in Hm.
    assert (Hg' : forall j, In j l1 -> exists b, get_meta f s j = Ok b /\ is_occupied b = full s j) by (intros j Hj; apply Hg; right; exact Hj).
    rewrite Eb. cbn [bind]. rewrite Eo. destruct (full s i) eqn:Ef.
    + cbn [length] in *. destruct m as [|m]; [lia|]. destruct (rehash_step f s acc i) as [x|] eqn:Es; cbn [bind]; [|reflexivity].
      rewrite IH by (exact Hg' || lia). reflexivity.
    + assert (Es : rehash_step f s acc i = Ok acc) by (unfold rehash_step; destruct acc; rewrite Eb; cbn [bind]; rewrite Eo; reflexivity).
      rewrite Es. cbn [bind]. apply IH; [exact Hg'|exact Hm].
Qed.

Lemma slot_bytes : forall s : swiss, wf1 f key_of hash keq s -> forall i, In i (zrange (s_cap s)) -> exists b, get_meta f s i = Ok b /\ is_occupied b = full s i.
Proof.
  intros s H i Hi. apply zrange_In in Hi. pose proof (w_m _ _ _ _ s H) as M. pose proof (W_pos f).
  exists (s_meta s i). split; [apply get_meta_ok; [apply (mw_buf f s M)|lia]|].
  unfold full. rewrite (ncons_occ key_of hash s i (w_n _ _ _ _ s H) Hi). destruct (s_nodes s i) as [[? ?]|]; reflexivity.
Qed.

(** The slot of the element with [m] others before it. *)
Lemma nth_full : forall (s : swiss) m n, 0 <= n -> (m < length (collect (s_nodes s) n))%nat ->
  exists i x, 0 <= i < n /\ s_nodes s i = Some x /\ length (collect (s_nodes s) i) = m.
Proof.
  intros s m. apply (cnt_ind (fun n => (m < length (collect (s_nodes s) n))%nat -> exists i x, 0 <= i < n /\ s_nodes s i = Some x /\ length (collect (s_nodes s) i) = m)).
  - rewrite collect_0 by lia. cbn [length]. lia.
  - intros n Hn IH Hm. destruct (Nat.lt_ge_cases m (length (collect (s_nodes s) n))) as [Hl|Hl].
    + destruct (IH Hl) as (i & x & Hi & Hx & Hc). exists i, x. split; [lia|auto].
    + rewrite collect_succ, app_length in Hm by lia. destruct (s_nodes s n) as [x|] eqn:Ex; cbn [length] in Hm; [|lia].
      exists n, x. split; [lia|]. split; [exact Ex|lia].
Qed.

Lemma filter_full : forall (s : swiss) n, length (filter (full s) (zrange n)) = length (collect (s_nodes s) n).
Proof.
  intros s n. unfold collect, full. induction (zrange n) as [|i l IH]; [reflexivity|]. cbn [filter flat_map]. rewrite app_length.
  destruct (s_nodes s i); cbn [length]; lia.
Qed.

Lemma zrange_split : forall i n, 0 <= i < n -> exists l, zrange n = zrange i ++ i :: l.
Proof.
  intros i n [Hi Hn]. remember (n - (i + 1)) as d eqn:Ed. assert (Hd : 0 <= d) by lia. replace n with (i + 1 + d) by lia. clear n Hn Ed.
  revert d Hd. apply cnt_ind.
  - exists []. rewrite Z.add_0_r. apply zrange_succ. lia.
  - intros d Hd (l & IH). exists (l ++ [i + 1 + d]). rewrite Z.add_assoc, zrange_succ by lia. rewrite IH, <- app_assoc. reflexivity.
Qed.

(** The relocation loop stopped at the move after [m] others. *)
Lemma until_stops : forall (s : swiss) c m, wf s -> good_cap c -> s_size s <= capacity_to_max_size f c -> Z.of_nat m < s_size s ->
  exists i t mv, 0 <= i < s_cap s /\ length (collect (s_nodes s) i) = m /\ s_nodes s i <> None /\
    relocate_until f m s (zrange (s_cap s)) (fresh c (s_size s) (s_nempty s), []) = Ok ((t, mv), false) /\
    rehash_inv f key_of hash s c i (t, mv).
Proof.
  intros s c m H Hc Hsz Hm. destruct H as [H0|H1]; [rewrite (w0_size s H0) in Hm; lia|].
  pose proof (w_m _ _ _ _ s H1) as M. pose proof (cap_bounds f s M) as Hcb.
  destruct (nth_full s m (s_cap s)) as (i & x & Hi & Hx & Hl); [lia| |].
  { pose proof (wf1_elems_length f key_of hash keq s H1) as He. unfold elems in He. rewrite map_length in He. lia. }
  destruct (zrange_split i (s_cap s) Hi) as (l & El).
  destruct (rehash_prefix f key_of hash keq s c (or_intror H1) Hc Hsz i ltac:(lia)) as ([t mv] & Ef & Hinv).
  destruct (rehash_prefix f key_of hash keq s c (or_intror H1) Hc Hsz (i + 1) ltac:(lia)) as (tm & Ef1 & _).
  exists i, t, mv. split; [exact Hi|]. split; [exact Hl|]. split; [congruence|]. split; [|exact Hinv].
  rewrite El, until_app; [|intros j Hj; apply (slot_bytes s H1); rewrite El; apply in_or_app; left; exact Hj|rewrite filter_full; lia].
  rewrite Ef. cbn [bind]. rewrite filter_full, Hl, Nat.sub_diag. cbn [relocate_until].
  rewrite zrange_succ, foldM_app, Ef in Ef1 by lia. cbn [bind foldM] in Ef1. unfold rehash_step in Ef1.
  destruct (slot_bytes s H1 i) as (b & Eb & Eo); [apply zrange_In; exact Hi|]. rewrite Eb in Ef1 |- *. cbn [bind] in *. rewrite Eo in Ef1 |- *.
  unfold full in Ef1 |- *. rewrite Hx in Ef1 |- *. cbn [fst].
  destruct (get_node s i) as [nd|]; [|discriminate]. cbn [bind] in *.
  destruct (find_available f t (snd nd)) as [p|]; [|discriminate]. reflexivity.
Qed.

Lemma distinct_prefix : forall l1 l2 : list E, distinct key_of keq (l1 ++ l2) -> distinct key_of keq l1.
Proof.
  intros l1 l2. unfold distinct. induction l1 as [|x l1 IH]; intros H; [constructor|]. cbn [app] in H. inversion H as [|? ? Hf Ho]; subst.
  constructor; [apply Forall_app in Hf; apply Hf|apply IH; exact Ho].
Qed.

Definition repaired (t : swiss) : swiss := set_nempty (set_size t (n_occ t)) (capacity_to_max_size f (s_cap t) - n_occ t).

Lemma stopped_wf : forall (s : swiss) c i t mv, wf s -> good_cap c -> s_size s <= capacity_to_max_size f c -> 0 <= i < s_cap s -> s_nodes s i <> None ->
  rehash_inv f key_of hash s c i (t, mv) -> wf1 f key_of hash keq (repaired t) /\ n_occ t < s_size s.
Proof.
  intros s c i t mv H Hc Hsz Hi Hx [M N C S D P Perm _]. cbn [fst] in *. destruct H as [H0|H1]; [rewrite (w0_cap s H0) in Hi; lia|].
  pose proof (good_cap_bounds c Hc) as Hcb. pose proof (max_size_bounds f c ltac:(lia)) as Hmx.
  assert (Hocc : n_occ t = Z.of_nat (length (collect (s_nodes s) i))).
  { rewrite <- (elems_length key_of hash t N) by lia. unfold elems. rewrite map_length, C, (Permutation_length Perm). reflexivity. }
  assert (Hlt : n_occ t < s_size s).
  { rewrite Hocc. pose proof (wf1_elems_length f key_of hash keq s H1) as He. unfold elems in He. rewrite map_length in He.
    destruct (s_nodes s i) as [x|] eqn:Ex; [|congruence]. rewrite (collect_at _ _ i (s_cap s) x Hi Ex), app_length in He. cbn [length] in He. lia. }
  split; [|exact Hlt]. constructor; cbn [repaired set_nempty set_size s_size s_nempty s_cap].
  - eapply mwf_ext; [..|exact M]; reflexivity.
  - exact N.
  - apply (distinct_uniq key_of hash keq); [exact KL|cbn [repaired set_nempty set_size s_cap]; lia|apply N|].
    change (elems (repaired t)) with (elems t). eapply distinct_perm; [exact KL| |].
    { apply Permutation_sym. unfold elems. rewrite C. apply Permutation_map. exact Perm. }
    assert (Hd : distinct key_of keq (elems s)) by (apply (distinct_uniq key_of hash keq); [exact KL|pose proof (cap_bounds f s (w_m _ _ _ _ s H1)); lia|apply H1|apply H1]).
    unfold elems in Hd. rewrite (collect_split _ _ i (s_cap s)), map_app in Hd by lia. apply distinct_prefix in Hd. exact Hd.
  - exact P.
  - reflexivity.
  - change (n_occ (repaired t)) with (n_occ t). change (n_emp (repaired t)) with (n_emp t).
    pose proof (count_split f t M) as Hs. rewrite (cnt_ext _ (fun _ => false)) in Hs.
    + rewrite C in *. assert (cnt (fun _ => false) c = 0) as Hz; [|lia].
      pose proof (cnt_bounds (fun _ : Z => false) c ltac:(lia)). destruct (Z.eq_dec (cnt (fun _ : Z => false) c) 0); [assumption|].
      destruct (cnt_pos (fun _ => false) c) as (? & _ & ?); [lia|discriminate].
    + intros j Hj. pose proof (D j ltac:(lia)). lia.
  - rewrite C. lia.
Qed.

Lemma next_repaired : forall (t : swiss) fuel p, next_occupied f fuel (repaired t) p = next_occupied f fuel t p.
Proof.
  intros t fuel. induction fuel as [|fuel IH]; intros p; [reflexivity|]. cbn [next_occupied].
  change (get_meta f (repaired t) p) with (get_meta f t p). destruct (get_meta f t p) as [b|]; [|reflexivity]. cbn [bind].
  destruct (is_available b); [|reflexivity]. change (load_block f (repaired t) p) with (load_block f t p). destruct (load_block f t p) as [k|]; [|reflexivity]. cbn [bind].
  destruct (count_available f k); cbn [bind]; [apply IH|reflexivity].
Qed.
Lemma iterate_repaired : forall t : swiss, iterate f (repaired t) = iterate f t.
Proof.
  intros t. assert (Ht : forall p, to_iter f (repaired t) p = to_iter f t p).
  { intros p. unfold to_iter. change (s_buf (repaired t)) with (s_buf t). change (iter_fuel (repaired t)) with (iter_fuel t). destruct (s_buf t); [reflexivity|apply next_repaired..]. }
  unfold iterate, begin_iter, end_iter. change (s_cap (repaired t)) with (s_cap t). rewrite !Ht. change (iter_fuel (repaired t)) with (iter_fuel t).
  destruct (to_iter f t 0) as [p|]; [|reflexivity]. cbn [bind]. destruct (to_iter f t (s_cap t)) as [q|]; [|reflexivity]. cbn [bind].
  revert p. generalize (iter_fuel t) as fuel. induction fuel as [|fuel IH]; intros p; [reflexivity|]. cbn [walk]. destruct (p =? q); [reflexivity|].
  change (get_node (repaired t) p) with (get_node t p). destruct (get_node t p) as [n|]; [|reflexivity]. cbn [bind].
  unfold iter_next. change (iter_fuel (repaired t)) with (iter_fuel t). rewrite next_repaired. destruct (next_occupied f (iter_fuel t) t (p + 1)) as [r|]; [|reflexivity]. cbn [bind].
  rewrite IH. reflexivity.
Qed.

Lemma stopped_find : forall (s : swiss) c i t mv, wf s -> good_cap c -> s_size s <= capacity_to_max_size f c -> 0 <= i < s_cap s -> s_nodes s i <> None ->
  rehash_inv f key_of hash s c i (t, mv) -> forall k, exists r, find_node f key_of keq t k (hash k) = Ok r /\
    ((0 <= r < s_cap t /\ has_key key_of keq t k r) \/ (r = s_cap t /\ forall j, ~ has_key key_of keq t k j)).
Proof.
  intros s c i t mv H Hc Hsz Hi Hx Hinv k. destruct (stopped_wf s c i t mv H Hc Hsz Hi Hx Hinv) as [Hr Hlt].
  destruct Hinv as [M N C S D P Perm _]. cbn [fst] in *. unfold find_node.
  assert (0 <= n_occ t) by (unfold n_occ; apply cnt_bounds; pose proof (cap_bounds f t M); lia).
  destruct (Z.eqb_spec (s_size t) 0); [lia|]. rewrite (probe_start_at f) by apply (mw_cap f t M).
  apply (find_loop_ok f key_of hash keq KL t M N P k).
  - intros HW. exact (wf1_empty_slot f key_of hash keq (repaired t) Hr HW).
  - pose proof (SwissArith.nwin_pos f (s_cap t)). pose proof (cap_bounds f t M). lia.
  - pose proof (probe_fuel_ok f t M). lia.
  - intros j Hj Hv. pose proof (vis_spec f (s_cap t) (hash k) j (mw_cap f t M)). lia.
Qed.

Lemma stopped_lost : forall (s : swiss) c i t mv, wf s -> good_cap c -> s_size s <= capacity_to_max_size f c -> 0 <= i < s_cap s -> s_nodes s i <> None ->
  rehash_inv f key_of hash s c i (t, mv) -> lost f key_of hash keq (length (collect (s_nodes s) i)) (elems s) t.
Proof.
  intros s c i t mv H Hc Hsz Hi Hx Hinv. destruct (stopped_wf s c i t mv H Hc Hsz Hi Hx Hinv) as [Hr Hlt].
  pose proof (stopped_find s c i t mv H Hc Hsz Hi Hx Hinv) as Hf. destruct Hinv as [M N C S D P Perm _]. cbn [fst] in *.
  assert (Ht : Permutation (elems t) (map fst (collect (s_nodes s) i))) by (unfold elems; rewrite C; apply Permutation_map; exact Perm).
  assert (Hsp : elems s = map fst (collect (s_nodes s) i) ++ map fst (rest (s_nodes s) i (s_cap s))).
  { unfold elems. rewrite (collect_split _ _ i (s_cap s)), map_app by lia. reflexivity. }
  set (a := map fst (collect (s_nodes s) i)) in *. set (b := map fst (rest (s_nodes s) i (s_cap s))) in *.
  assert (Ef : firstn (length (collect (s_nodes s) i)) (elems s) = a).
  { rewrite Hsp. replace (length (collect (s_nodes s) i)) with (length a + 0)%nat by (unfold a; rewrite map_length; lia). rewrite firstn_app_2. apply app_nil_r. }
  assert (Es : skipn (length (collect (s_nodes s) i)) (elems s) = b).
  { rewrite Hsp. replace (length (collect (s_nodes s) i)) with (length a) by (unfold a; apply map_length). rewrite skipn_app, skipn_all, Nat.sub_diag. reflexivity. }
  pose proof (iterate_elems f key_of hash keq (repaired t) (or_intror Hr)) as Hit. rewrite iterate_repaired in Hit. change (elems (repaired t)) with (elems t) in Hit.
  unfold lost. rewrite Ef, Es. split; [|split; [|split; [|split]]].
  - unfold size. rewrite S. apply (wf_size f key_of hash keq s H).
  - intros l1 El. destruct Hit as [(l & E1 & E2)|(_ & E1)]; rewrite El in E1; [|discriminate]. injection E1 as ->. rewrite E2. exact Ht.
  - intros Hw. destruct (scans_wide f _ _ _ Hit) as (l & -> & _); [unfold narrow; destruct Hw as [Hw|Hw]; rewrite Hw; intros [X|X]; discriminate X|]. eauto.
  - intros x Hin. unfold contains. destruct (Hf (key_of x)) as (r & -> & [(Hrng & _)|(_ & Hno)]); cbn [bind]; [f_equal; lia|]. exfalso.
    apply (Permutation_in x (Permutation_sym Ht)) in Hin. unfold elems in Hin. apply in_map_iff in Hin. destruct Hin as ([e h] & <- & Hin).
    apply collect_In in Hin. destruct Hin as (j & _ & Ej). apply (Hno j). exists e, h. split; [exact Ej|apply (kl_refl _ _ KL)].
  - intros x Hin. unfold contains. destruct (Hf (key_of x)) as (r & -> & [(Hrng & e & h & En & Ek)|(Hrng & Hno)]); cbn [bind]; [|f_equal; lia]. exfalso.
    assert (Hin2 : In e a). { apply (Permutation_in e Ht). unfold elems. apply in_map_iff. exists (e, h). split; [reflexivity|]. apply collect_In. exists r. auto. }
    pose proof (wf_distinct f key_of hash keq KL s H) as Hd. rewrite Hsp in Hd. unfold distinct in Hd.
    clear - Hd Hin Hin2 Ek. induction a as [|y a IH]; [contradiction|]. cbn [app] in Hd. inversion Hd as [|? ? Hfa Ho]; subst. destruct Hin2 as [<-|Hin2]; [|exact (IH Hin2 Ho)].
    rewrite Forall_forall in Hfa. specialize (Hfa x (in_or_app _ _ _ (or_intror Hin))). congruence.
Qed.

Lemma m_rehash_lost : forall m lim (s : swiss) c, wf s -> good_cap c -> s_size s <= capacity_to_max_size f c -> c <= lim -> Z.of_nat m < s_size s ->
  exists t, m_rehash f m lim s c = Ok (t, None) /\ lost f key_of hash keq m (elems s) t.
Proof.
  intros m lim s c H Hc Hsz Hl Hm. unfold m_rehash. destruct (Z.ltb_spec lim c); [lia|]. pose proof (good_cap_bounds c Hc). destruct (Z.eqb_spec c 0); [lia|].
  fold (@fresh E c (s_size s) (s_nempty s)).
  destruct (until_stops s c m H Hc Hsz Hm) as (i & t & mv & Hi & Hlen & Hx & -> & Hinv). cbn [bind]. exists t. split; [reflexivity|].
  rewrite <- Hlen. exact (stopped_lost s c i t mv H Hc Hsz Hi Hx Hinv).
Qed.

(** ** Calls. *)
Lemma set_metadata_cap : forall (s s' : swiss) p b, set_metadata f s p b = Ok s' -> s_cap s' = s_cap s.
Proof.
  intros s s' p b. unfold set_metadata, put_meta. destruct (check_buf s) as [u|]; [|discriminate]. cbn [bind]. destruct (guard _ _) as [u1|]; [|discriminate]. cbn [bind].
  destruct (check_buf _) as [u2|]; [|discriminate]. cbn [bind]. destruct (guard _ _) as [u3|]; [|discriminate]. cbn [bind]. intros H. injection H as <-. reflexivity.
Qed.
Lemma emplace_cap : forall lim ok (s s1 s2 : swiss) h e o o2, make_room f lim s h = Ok (s1, o) -> emplace_node f lim ok s h e = Ok (s2, o2) -> s_cap s2 = s_cap s1.
Proof.
  intros lim ok s s1 s2 h e o o2 Em. unfold emplace_node. rewrite Em. cbn [bind]. destruct o as [[p tr]|]; [|intros H; injection H as <- _; reflexivity].
  destruct (negb ok); [intros H; injection H as <- _; reflexivity|]. unfold put_node. destruct (check_buf s1); [|discriminate]. cbn [bind]. destruct (guard _ _); [|discriminate]. cbn [bind].
  destruct (s_nodes s1 p); [discriminate|]. cbn [bind]. destruct (get_meta f _ p); [|discriminate]. cbn [bind].
  destruct (set_metadata f _ p _) as [s4|] eqn:E4; [|discriminate]. cbn [bind]. intros H. injection H as <- _. cbn [set_size s_cap]. apply set_metadata_cap in E4. exact E4.
Qed.

Lemma double_cap : forall s : swiss, wf1 f key_of hash keq s -> 2 * s_cap s + 1 < 2 ^ 59 -> sub64 (mul64 (add64 (s_cap s) 1) 2) 1 = 2 * s_cap s + 1 /\ good_cap (2 * s_cap s + 1) /\ s_size s <= capacity_to_max_size f (2 * s_cap s + 1).
Proof.
  intros s H Hl. pose proof (w_m _ _ _ _ s H) as M. pose proof (cap_bounds f s M) as Hcb. rewrite add64_small, mul64_small, sub64_small by (rewrite two64_val; lia).
  split; [lia|]. destruct (mw_cap f s M) as (k & Hk & Ek). split.
  - replace (2 * s_cap s + 1) with (2 ^ (k + 1) - 1) by (rewrite Z.pow_add_r by lia; lia). apply good_cap_of_pow; [lia|]. rewrite Z.pow_add_r by lia. lia.
  - pose proof (wf_size f key_of hash keq s (or_intror H)) as [_ Hs]. pose proof (max_size_mono f (s_cap s) (2 * s_cap s + 1) ltac:(lia)). lia.
Qed.

Lemma room_lost : forall m lim (s s1 : swiss) h o, wf s -> lim < 2 ^ 59 -> make_room f lim s h = Ok (s1, o) -> s_cap s1 <> s_cap s -> Z.of_nat m < s_size s ->
  exists t, m_make_room f m lim s h = Ok (t, None) /\ lost f key_of hash keq m (elems s) t.
Proof.
  intros m lim s s1 h o H Hlim Em Hc Hm. destruct H as [H0|H1]; [rewrite (w0_size s H0) in Hm; lia|]. unfold make_room in Em. unfold m_make_room.
  pose proof (w_m _ _ _ _ s H1) as M. pose proof (cap_bounds f s M) as Hcb. destruct (Z.eqb_spec (s_cap s) 0); [lia|].
  destruct (find_available f s h) as [p|]; [|discriminate]. cbn [bind] in *. destruct (get_meta f s p) as [tm|]; [|discriminate]. cbn [bind] in *.
  destruct ((s_nempty s =? 0) && negb (tm =? m_deleted)); [|injection Em as <- _; congruence].
  change (SwissModel.W f) with (width f) in Em.
  destruct ((width f <? s_cap s) && (mul64 (s_size s) 32 <=? mul64 (s_cap s) 25)) eqn:Eb.
  - exfalso. rewrite (mul64_small (s_size s)), (mul64_small (s_cap s)) in Eb
      by (pose proof (wf_size f key_of hash keq s (or_intror H1)) as [_ Hs]; pose proof (max_size_bounds f (s_cap s) ltac:(lia)); rewrite two64_val; lia).
    destruct (rehash_deleted_ok f key_of hash keq KL s H1) as (t & tr & Et & _ & Ct & _); [unfold SwissModel.W; lia|lia|].
    rewrite Et in Em. cbn [bind fst snd] in Em. destruct (find_available f t h); [|discriminate]. injection Em as <- _. congruence.
  - unfold do_rehash in Em. set (c := sub64 (mul64 (add64 (s_cap s) 1) 2) 1) in *.
    destruct (Z.ltb_spec lim c) as [Hl|Hl]; [injection Em as <- _; congruence|].
    assert (Hd : c = 2 * s_cap s + 1) by (unfold c; rewrite add64_small, mul64_small, sub64_small by (rewrite two64_val; lia); lia).
    destruct (double_cap s H1 ltac:(lia)) as (_ & Hg & Hs). clearbody c. subst c.
    destruct (m_rehash_lost m lim s (2 * s_cap s + 1) (or_intror H1) Hg Hs Hl Hm) as (t & -> & Ht). cbn [bind]. exists t. split; [reflexivity|exact Ht].
Qed.

Lemma reserve_lost : forall m lim (s s1 : swiss) n o, wf s -> lim < 2 ^ 59 -> 0 <= n < two64 -> reserve f lim s n = Ok (s1, o) -> s_cap s1 <> s_cap s -> Z.of_nat m < s_size s ->
  add64 (s_size s) (s_nempty s) <? n = true /\ exists c t, align_capacity (size_to_min_capacity f n) = Ok c /\ m_rehash f m lim s c = Ok (t, None) /\ lost f key_of hash keq m (elems s) t.
Proof.
  intros m lim s s1 n o H Hlim Hn Er Hc Hm. unfold reserve in Er. pose proof (wf_size f key_of hash keq s H) as [Hsz Hb]. pose proof (wf_cap_nonneg f key_of hash keq s H) as Hcn.
  pose proof (max_size_bounds f (s_cap s) ltac:(lia)) as Hmb.
  assert (Hne : 0 <= s_nempty s < 2 ^ 59) by (destruct H as [H|H]; [apply (w0_nempty s H)|pose proof (wf1_nempty f key_of hash keq s H); lia]).
  rewrite add64_small in * by (rewrite two64_val; lia). destruct (Z.ltb_spec (s_size s + s_nempty s) n) as [Hlt|Hge]; [|injection Er as <- _; congruence].
  split; [reflexivity|]. destruct (align_capacity (size_to_min_capacity f n)) as [c|] eqn:Ec; [|discriminate]. cbn [bind] in Er.
  assert (Hl : c <= lim) by (unfold do_rehash in Er; destruct (Z.ltb_spec lim c) as [Hl|Hl]; [injection Er as <- _; congruence|exact Hl]).
  destruct (Z_lt_dec n (2 ^ 62)) as [Hs|Hs].
  - pose proof (min_capacity_bound f n ltac:(lia)) as Hmc.
    destruct (align_capacity_spec (size_to_min_capacity f n) ltac:(lia)) as (k & Ek & Hk & Hk2 & _). rewrite Ec in Ek. injection Ek as ->.
    pose proof (max_size_sufficient f n (2 ^ k - 1) ltac:(lia) Hk2) as Hsuf.
    destruct (m_rehash_lost m lim s (2 ^ k - 1) H) as (t & Et & Ht); [apply good_cap_of_pow; lia|lia|exact Hl|exact Hm|]. exists (2 ^ k - 1), t. auto.
  - exfalso. destruct (align_capacity_huge _ (size_to_min_capacity_huge f n ltac:(lia))) as (c' & Ec' & Hc59). rewrite Ec in Ec'. injection Ec' as ->. lia.
Qed.

Lemma rehash_target : forall (s : swiss) n k, wf s -> 0 < n < two64 -> align_capacity (Z.lor n (size_to_min_capacity f n)) = Ok k -> k < 2 ^ 59 -> s_cap s < k ->
  good_cap k /\ s_size s <= capacity_to_max_size f k.
Proof.
  intros s n k H Hn Ek Hk Hc. pose proof (wf_size f key_of hash keq s H) as [_ Hb]. pose proof (wf_cap_nonneg f key_of hash keq s H) as Hcn.
  pose proof (max_size_mono f (s_cap s) k ltac:(lia)) as Hmm. split; [|lia]. destruct (Z_lt_dec n (2 ^ 62)) as [Hs|Hs].
  - pose proof (min_capacity_bound f n ltac:(lia)) as Hmc. pose proof (lor_bounds n (size_to_min_capacity f n) 63 ltac:(lia) ltac:(lia) ltac:(lia)) as Hlor.
    destruct (align_capacity_spec (Z.lor n (size_to_min_capacity f n)) ltac:(lia)) as (j & Ej & Hj & _). rewrite Ek in Ej. injection Ej as ->. apply good_cap_of_pow; lia.
  - exfalso. pose proof (size_to_min_capacity_huge f n ltac:(lia)) as Hmc.
    pose proof (lor_bounds n (size_to_min_capacity f n) 64 ltac:(lia) ltac:(rewrite two64_val in *; lia) ltac:(rewrite two64_val in *; lia)) as Hlor.
    destruct (align_capacity_huge (Z.lor n (size_to_min_capacity f n)) ltac:(rewrite two64_val; lia)) as (c & Ec & Hc59). rewrite Ek in Ec. injection Ec as ->. lia.
Qed.

Lemma grow_lost : forall m v (s s1 : swiss) c r, wf s -> env_ok v -> call_ok c -> (exists e, c = CInsert e \/ c = CAssign e) \/ (exists n, c = CReserve n \/ c = CRehash n) ->
  exec f key_of hash keq rep v s c = Ok (s1, r) -> bucket_count s1 <> bucket_count s -> Z.of_nat m < size s ->
  exists t, m_exec f key_of hash keq rep m v s c = Ok (t, RThrow) /\ lost f key_of hash keq m (elems s) t.
Proof.
  intros m v s s1 c r H Hv Hok Hc Ex Hb Hm. unfold bucket_count in Hb. unfold size in Hm.
  destruct Hc as [(e & He)|(n & [-> | ->])].
  - assert (X : exists p, find_node f key_of keq s (key_of e) (hash (key_of e)) = Ok p /\ (p = s_cap s -> exists s2 o2 s3 o3, make_room f (ev_lim v) s (hash (key_of e)) = Ok (s2, o2) /\ s_cap s2 = s_cap s3 /\ s_cap s3 = s_cap s1 /\ emplace_node f (ev_lim v) (ev_ctor v) s (hash (key_of e)) e = Ok (s3, o3)) /\ (p <> s_cap s -> s_cap s1 = s_cap s)).
    { assert (Hg : forall (x : swiss * ins_result), give_inserted f x = Ok (s1, r) -> s1 = fst x).
      { intros [x o] Eg. unfold give_inserted in Eg. destruct o as [[[q b] tr]|]; [|injection Eg as <- _; reflexivity]. destruct (to_iter f x q) as [q'|]; [|discriminate]. cbn [bind] in Eg. destruct (get_node x q'); [|discriminate]. injection Eg as <- _. reflexivity. }
      assert (Hr : forall s3 o3, emplace_node f (ev_lim v) (ev_ctor v) s (hash (key_of e)) e = Ok (s3, o3) -> exists s2 o2, make_room f (ev_lim v) s (hash (key_of e)) = Ok (s2, o2) /\ s_cap s2 = s_cap s3).
      { intros s3 o3 Ee. destruct (make_room f (ev_lim v) s (hash (key_of e))) as [[s2 o2]|] eqn:Em; [|unfold emplace_node in Ee; rewrite Em in Ee; discriminate].
        exists s2, o2. split; [reflexivity|]. symmetry. exact (emplace_cap _ _ _ _ _ _ _ _ _ Em Ee). }
      destruct He as [-> | ->]; cbn [exec] in Ex; [unfold do_insert in Ex|unfold do_insert_or_assign in Ex]; cbv zeta in Ex;
        (destruct (find_node f key_of keq s (key_of e) (hash (key_of e))) as [p|] eqn:Ef; [|discriminate]); cbn [bind] in Ex; exists p; (split; [reflexivity|]);
        (destruct (Z.eqb_spec p (s_cap s)) as [Ep|Ep]; split; try congruence; intros _).
      - destruct (emplace_node f (ev_lim v) (ev_ctor v) s (hash (key_of e)) e) as [[s3 o3]|] eqn:Ee; [|discriminate]. cbn [bind] in Ex. apply Hg in Ex. cbn [fst] in Ex. subst s3.
        destruct (Hr _ _ eq_refl) as (s2 & o2 & Em & Ec). exists s2, o2, s1, o3. auto.
      - cbn [bind] in Ex. apply Hg in Ex. cbn [fst] in Ex. congruence.
      - destruct (emplace_node f (ev_lim v) (ev_ctor v) s (hash (key_of e)) e) as [[s3 o3]|] eqn:Ee; [|discriminate]. cbn [bind] in Ex. apply Hg in Ex. cbn [fst] in Ex. subst s3.
        destruct (Hr _ _ eq_refl) as (s2 & o2 & Em & Ec). exists s2, o2, s1, o3. auto.
      - destruct (get_node s p); [|discriminate]. cbn [bind] in Ex. apply Hg in Ex. cbn [fst] in Ex. rewrite Ex. reflexivity. }
    destruct X as (p & Ef & Hroom & Hnot). destruct (Z.eq_dec p (s_cap s)) as [Ep|Ep]; [|exfalso; apply Hb, Hnot, Ep].
    destruct (Hroom Ep) as (s2 & o2 & s3 & o3 & Em & C1 & C2 & _).
    destruct (room_lost m (ev_lim v) s s2 _ o2 H Hv Em ltac:(congruence) Hm) as (t & Et & Ht). exists t. split; [|exact Ht].
    destruct He as [-> | ->]; cbn [m_exec]; cbv zeta; rewrite Ef; cbn [bind]; rewrite Ep, Z.eqb_refl, Et; reflexivity.
  - cbn [exec] in Ex. destruct (reserve f (ev_lim v) s n) as [[s2 o]|] eqn:Er; [|discriminate]. cbn [bind] in Ex. unfold give_unit in Ex.
    assert (s2 = s1) by (destruct o; injection Ex as <- _; reflexivity). subst s2. cbn [call_ok] in Hok.
    destruct (reserve_lost m (ev_lim v) s s1 n o H Hv Hok Er Hb Hm) as (Hlt & k & t & Ek & Et & Ht). exists t. split; [|exact Ht].
    cbn [m_exec]. rewrite Hlt, Ek. cbn [bind]. rewrite Et. reflexivity.
  - cbn [exec] in Ex. destruct (rehash f (ev_lim v) s n) as [[s2 o]|] eqn:Er; [|discriminate]. cbn [bind] in Ex. unfold give_unit in Ex.
    assert (s2 = s1) by (destruct o; injection Ex as <- _; reflexivity). subst s2. cbn [call_ok] in Hok. cbn [m_exec]. unfold rehash in Er.
    destruct ((n =? 0) && (s_size s =? 0)); [injection Er as <- _; congruence|]. destruct (align_capacity _) as [k|] eqn:Ek; [|discriminate]. cbn [bind] in Er |- *.
    destruct ((n =? 0) || (s_cap s <? k)) eqn:Eb; [|injection Er as <- _; congruence].
    assert (Hl : k <= ev_lim v) by (unfold do_rehash in Er; destruct (Z.ltb_spec (ev_lim v) k) as [Hl|Hl]; [injection Er as <- _; congruence|exact Hl]).
    destruct (rehash_target s n k H ltac:(rewrite two64_val; lia) Ek ltac:(unfold env_ok in Hv; lia) ltac:(lia)) as [Hg Hs].
    destruct (m_rehash_lost m (ev_lim v) s k H Hg Hs Hl Hm) as (t & -> & Ht). exists t. split; [reflexivity|exact Ht].
Qed.
End Swiss.
