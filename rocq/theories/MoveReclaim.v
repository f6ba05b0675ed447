(** Sparse tables after a move threw while the slots of erased elements were reclaimed. *)
From Coq Require Import ZArith List Bool Lia Permutation.
From Coq Require Import ZifyBool ZifyNat.
From Verif Require Import Base BaseLemmas Bits BitsProofs MapSpec SwissModel SwissRun SwissArith SwissCap SwissInv SwissOps SwissClean SwissIter SwissRoom MoveModel MoveProofs.
Import ListNotations.
Open Scope Z_scope.

Section Swiss.
Context {E K : Type}.
Variable f : simd.
Variable key_of : E -> K.
Variable hash : K -> Z.
Variable keq : K -> K -> bool.
Variable rep : E -> E -> E.
Notation swiss := (@swiss E).
Notation wf1 := (wf1 f key_of hash keq).
Notation rd_inv := (rd_inv f key_of hash).
Notation W := (SwissModel.W f).

(** ** Where the loop stops. *)
Lemma process_stops : forall s : swiss, W <= s_cap s + 1 -> forall fuel t i tr m t' tr', rd_inv s t tr -> 0 <= i < s_cap s -> s_meta t i = m_deleted ->
  process_node f fuel t i tr = Ok (t', tr') -> (length tr + m < length tr')%nat ->
  exists t1 tr1, m_process f fuel m t i tr = Ok (t1, tr1, None) /\ rd_inv s t1 tr1 /\ s_meta t1 i = m_deleted.
Proof.
  intros s HWc. induction fuel as [|fuel IH]; intros t i tr m t' tr' Inv Hi Hdel Ep Hm; [discriminate|].
  cbn [process_node] in Ep. cbn [m_process]. pose proof (rd_m _ _ _ _ _ _ Inv) as M. pose proof (rd_cap _ _ _ _ _ _ Inv) as C. pose proof (mw_buf f t M) as Hbuf.
  pose proof (mw_cap f t M) as Hgc. rewrite C in Hgc. pose proof (good_cap_bounds _ Hgc) as Hcb.
  pose proof (rd_nodes _ _ _ _ _ _ Inv i Hi) as Ndi. destruct (s_nodes t i) as [[e h]|] eqn:Ei; [|rewrite Hdel in Ndi; discriminate]. destruct Ndi as [Eh _].
  rewrite (get_node_ok t i (e, h)) in Ep |- * by (auto; rewrite C; exact Hi). cbn [bind snd] in *.
  assert (Hav : exists j, 0 <= j < s_cap t /\ is_available (s_meta t j) = true) by (exists i; rewrite C; split; [exact Hi|rewrite Hdel; reflexivity]).
  destruct (find_available_ok f t M h (fun _ => Hav)) as (p & Efa & Hsp). rewrite Efa in Ep |- *. cbn [bind] in *.
  assert (Hsp' : 0 <= p < s_cap s /\ is_available (s_meta t p) = true /\ forall j, 0 <= j < s_cap s -> vis f (s_cap s) h j < vis f (s_cap s) h p -> is_available (s_meta t j) = false).
  { unfold avail_spec in Hsp. destruct Hsp as [Hsp|(_ & _ & Hall)]; [rewrite C in Hsp; exact Hsp|]. exfalso. destruct Hav as (j & Hj & Ej). rewrite Hall in Ej by exact Hj. discriminate. }
  destruct Hsp' as (Hp & Hpa & Hfirst). clear Hsp.
  destruct (block_idx f (s_cap t) h p =? block_idx f (s_cap t) h i) eqn:Eb.
  { destruct (set_metadata f t i (h2_of h)); [|discriminate]. cbn [bind] in Ep. injection Ep as _ <-. lia. }
  assert (Hpi : p <> i) by (intros ->; rewrite Z.eqb_refl in Eb; discriminate).
  rewrite get_meta_ok in Ep |- * by (auto; rewrite C; pose proof (W_pos f); lia). cbn [bind] in *.
  destruct m as [|m]; [exists t, tr; auto|].
  destruct (Z.eqb_spec (s_meta t p) m_empty) as [Ee|Ee].
  { exfalso. destruct (put_node t p (e, h)) as [x1|]; [|discriminate]. cbn [bind] in Ep. destruct (kill_node x1 i) as [x2|]; [|discriminate]. cbn [bind] in Ep.
    destruct (set_metadata f x2 i m_empty) as [x3|]; [|discriminate]. cbn [bind] in Ep. destruct (set_metadata f x3 p (h2_of h)) as [x4|]; [|discriminate]. cbn [bind] in Ep.
    injection Ep as _ <-. rewrite app_length in Hm. cbn [length] in Hm. lia. }
  assert (Epd : s_meta t p = m_deleted).
  { destruct (node_byte_cases _ (mw_bytes f t M p ltac:(rewrite C; exact Hp))) as [(Eb' & _)|[(Eb' & _)|(_ & Ea & _)]]; congruence. }
  pose proof (rd_nodes _ _ _ _ _ _ Inv p Hp) as Ndp. destruct (s_nodes t p) as [[e2 h2]|] eqn:Enp; [|congruence].
  rewrite (get_node_ok t p (e2, h2)) in Ep |- * by (auto; rewrite C; exact Hp). cbn [bind] in *.
  destruct (exchange_ok f key_of hash s t i p e h e2 h2 tr Inv Hi Hp Hpi Hdel Epd Ei Enp Hfirst) as (t2 & Et2 & Inv2 & Hm1 & Hm2).
  rewrite Et2 in Ep |- *. cbn [bind] in *.
  apply (IH t2 i (tr ++ [EvSwap i p]) m t' tr' Inv2 Hi); [rewrite Hm2 by auto; exact Hdel|exact Ep|rewrite app_length; cbn [length]; lia].
Qed.

Lemma process_len : forall fuel (t t' : swiss) i tr tr', process_node f fuel t i tr = Ok (t', tr') -> (length tr <= length tr')%nat /\
  forall m, (length tr' <= length tr + m)%nat -> m_process f fuel m t i tr = Ok (t', tr', Some (length tr + m - length tr')%nat).
Proof.
  induction fuel as [|fuel IH]; intros s s' i tr tr' Ep; [discriminate|]. cbn [process_node] in Ep. cbn [m_process].
  destruct (get_node s i) as [n|]; [|discriminate]. cbn [bind] in *. destruct (find_available f s (snd n)) as [p|]; [|discriminate]. cbn [bind] in *.
  destruct (block_idx f (s_cap s) (snd n) p =? block_idx f (s_cap s) (snd n) i).
  - destruct (set_metadata f s i (h2_of (snd n))) as [s1|]; [|discriminate]. cbn [bind] in *. injection Ep as <- <-. split; [lia|]. intros m _. do 3 f_equal. lia.
  - destruct (get_meta f s p) as [tm|]; [|discriminate]. cbn [bind] in *. destruct (tm =? m_empty).
    + destruct (put_node s p n) as [s1|]; [|discriminate]. cbn [bind] in *. destruct (kill_node s1 i) as [s2|]; [|discriminate]. cbn [bind] in *.
      destruct (set_metadata f s2 i m_empty) as [s3|]; [|discriminate]. cbn [bind] in *. destruct (set_metadata f s3 p (h2_of (snd n))) as [s4|]; [|discriminate]. cbn [bind] in *.
      injection Ep as <- <-. rewrite app_length. cbn [length]. split; [lia|]. intros m Hm. destruct m as [|m]; [lia|]. do 3 f_equal. lia.
    + destruct (get_node s p) as [n2|]; [|discriminate]. cbn [bind] in *. destruct (set_metadata f _ p (h2_of (snd n))) as [s2|]; [|discriminate]. cbn [bind] in *.
      destruct (IH _ _ _ _ _ Ep) as (Hl & Hp). rewrite app_length in *. cbn [length] in *. split; [lia|].
      intros m Hm. destruct m as [|m]; [lia|]. rewrite Hp by lia. do 3 f_equal. lia.
Qed.

Lemma relocate_stops : forall s : swiss, W <= s_cap s + 1 -> forall l t tr m t' tr', (forall i, In i l -> 0 <= i < s_cap s) -> rd_inv s t tr ->
  foldM (relocate_step f) l (t, tr) = Ok (t', tr') -> (length tr + m < length tr')%nat ->
  exists t1 tr1 i, m_relocate f m l t tr = Ok (t1, tr1, false) /\ rd_inv s t1 tr1 /\ 0 <= i < s_cap s /\ s_meta t1 i = m_deleted.
Proof.
  intros s HWc. induction l as [|i l IH]; intros t tr m t' tr' Hl Inv Ef Hm; cbn [foldM m_relocate] in *; [injection Ef as _ <-; lia|].
  pose proof (rd_m _ _ _ _ _ _ Inv) as M. pose proof (rd_cap _ _ _ _ _ _ Inv) as C. pose proof (Hl i (or_introl eq_refl)) as Hi.
  unfold relocate_step in Ef at 1. rewrite get_meta_ok in Ef |- * by (apply (mw_buf f t M) || (rewrite C; pose proof (W_pos f); lia)). cbn [bind] in *.
  destruct (Z.eqb_spec (s_meta t i) m_deleted) as [Em|Em]; [|exact (IH t tr m t' tr' (fun j Hj => Hl j (or_intror Hj)) Inv Ef Hm)].
  destruct (process_node f _ t i tr) as [[t1 tr1]|] eqn:Ep; [|discriminate]. cbn [bind] in Ef.
  destruct (process_len _ _ _ _ _ _ Ep) as (Hle & Hsame).
  destruct (le_lt_dec (length tr1) (length tr + m)) as [Hd|Hd].
  - rewrite (Hsame m Hd). cbn [bind].
    destruct (process_node_ok f key_of hash s HWc (S (Z.to_nat (s_cap t))) t i tr Inv Hi Em) as (ta & tra & Ea & Inva & _).
    { rewrite C. pose proof (cnt_bounds (fun j => s_meta t j =? m_deleted) (s_cap s) ltac:(lia)). lia. }
    rewrite Ep in Ea. injection Ea as <- <-. apply (IH t1 tr1 _ t' tr' (fun j Hj => Hl j (or_intror Hj)) Inva Ef). lia.
  - destruct (process_stops s HWc _ t i tr m t1 tr1 Inv Hi Em Ep Hd) as (ta & tra & -> & Inva & Ha). cbn [bind]. exists ta, tra, i. auto.
Qed.

(** ** The elements left: those in slots not marked deleted. *)
Definition gone (t : swiss) (j : Z) : bool := s_meta t j =? m_deleted.
Definition hid (t : swiss) : swiss := mk (s_buf t) (s_cap t) (s_meta t) (fun j => if gone t j then None else s_nodes t j) (s_size t) (s_nempty t).
Definition mended (t : swiss) : swiss := set_nempty (set_size t (n_occ t)) (n_emp t - (s_cap t - capacity_to_max_size f (s_cap t))).

Lemma collect_parts : forall A (n : Z -> option A) (g : Z -> bool) c, 0 <= c ->
  Permutation (collect n c) (collect (fun j => if g j then None else n j) c ++ collect (fun j => if g j then n j else None) c).
Proof.
  intros A n g. apply (cnt_ind (fun c => Permutation (collect n c) (collect (fun j => if g j then None else n j) c ++ collect (fun j => if g j then n j else None) c))).
  - rewrite !collect_0 by lia. constructor.
  - intros c Hc IH. rewrite !collect_succ by lia. destruct (g c).
    + rewrite app_nil_r, app_assoc. apply Permutation_app_tail. exact IH.
    + rewrite app_nil_r. eapply Permutation_trans; [apply Permutation_app_tail; exact IH|]. rewrite <- !app_assoc. apply Permutation_app_head. apply Permutation_app_comm.
Qed.

Lemma hid_node : forall (t : swiss) p, get_node (hid t) p = get_node t p \/ get_node (hid t) p = Err DeadObject.
Proof.
  intros t p. unfold get_node, check_buf. cbn [hid s_buf s_cap s_nodes]. destruct (match s_buf t with Null => _ | _ => _ end) as [u|]; [|left; reflexivity]. cbn [bind].
  destruct (guard _ _); [|left; reflexivity]. cbn [bind]. destruct (gone t p); [right; reflexivity|left; reflexivity].
Qed.
Lemma hid_scan : forall (t : swiss) k p l r, scan_lanes key_of keq (hid t) k p l = Ok r -> scan_lanes key_of keq t k p l = Ok r.
Proof.
  intros t k p l. induction l as [|x l IH]; intros r; cbn [scan_lanes]; [auto|]. change (s_cap (hid t)) with (s_cap t).
  destruct (hid_node t (probe_off (s_cap t) p x)) as [-> | ->]; [|discriminate]. destruct (get_node t _) as [n|]; [|discriminate]. cbn [bind]. destruct (keq (key_of (fst n)) k); [auto|apply IH].
Qed.
Lemma hid_find : forall (t : swiss) k h fuel p r, find_loop f key_of keq fuel (hid t) k h p = Ok r -> find_loop f key_of keq fuel t k h p = Ok r.
Proof.
  intros t k h. induction fuel as [|fuel IH]; intros p r; cbn [find_loop]; [discriminate|]. change (load_block f (hid t) (snd p)) with (load_block f t (snd p)).
  destruct (load_block f t (snd p)) as [b|]; [|discriminate]. cbn [bind]. destruct (eq_lanes f b (h2_of h)) as [lanes|]; [|discriminate]. cbn [bind].
  destruct (scan_lanes key_of keq (hid t) k p lanes) as [hit|] eqn:Es; [|discriminate]. rewrite (hid_scan _ _ _ _ _ Es). cbn [bind]. destruct hit as [off|]; [auto|].
  change (s_cap (hid t)) with (s_cap t). destruct (negb _); [auto|]. change (assert_probe (hid t) (fst p)) with (assert_probe t (fst p)). destruct (assert_probe t (fst p)); [|discriminate]. cbn [bind]. apply IH.
Qed.

Lemma hid_next : forall (t : swiss) fuel p, next_occupied f fuel (hid t) p = next_occupied f fuel t p.
Proof.
  intros t fuel. induction fuel as [|fuel IH]; intros p; [reflexivity|]. cbn [next_occupied].
  change (get_meta f (hid t) p) with (get_meta f t p). destruct (get_meta f t p) as [b|]; [|reflexivity]. cbn [bind].
  destruct (is_available b); [|reflexivity]. change (load_block f (hid t) p) with (load_block f t p). destruct (load_block f t p) as [k|]; [|reflexivity]. cbn [bind].
  destruct (count_available f k); cbn [bind]; [apply IH|reflexivity].
Qed.
Lemma mended_next : forall (t : swiss) fuel p, next_occupied f fuel (mended t) p = next_occupied f fuel t p.
Proof.
  intros t fuel. induction fuel as [|fuel IH]; intros p; [reflexivity|]. cbn [next_occupied].
  change (get_meta f (mended t) p) with (get_meta f t p). destruct (get_meta f t p) as [b|]; [|reflexivity]. cbn [bind].
  destruct (is_available b); [|reflexivity]. change (load_block f (mended t) p) with (load_block f t p). destruct (load_block f t p) as [k|]; [|reflexivity]. cbn [bind].
  destruct (count_available f k); cbn [bind]; [apply IH|reflexivity].
Qed.
Lemma mended_iterate : forall t : swiss, iterate f (mended t) = iterate f t.
Proof.
  intros t. assert (Ht : forall p, to_iter f (mended t) p = to_iter f t p).
  { intros p. unfold to_iter. change (s_buf (mended t)) with (s_buf t). change (iter_fuel (mended t)) with (iter_fuel t). destruct (s_buf t); [reflexivity|apply mended_next..]. }
  unfold iterate, begin_iter, end_iter. change (s_cap (mended t)) with (s_cap t). rewrite !Ht. change (iter_fuel (mended t)) with (iter_fuel t).
  destruct (to_iter f t 0) as [p|]; [|reflexivity]. cbn [bind]. destruct (to_iter f t (s_cap t)) as [q|]; [|reflexivity]. cbn [bind].
  revert p. generalize (iter_fuel t) as fuel. induction fuel as [|fuel IH]; intros p; [reflexivity|]. cbn [walk]. destruct (p =? q); [reflexivity|].
  change (get_node (mended t) p) with (get_node t p). destruct (get_node t p) as [n|]; [|reflexivity]. cbn [bind].
  unfold iter_next. change (iter_fuel (mended t)) with (iter_fuel t). rewrite mended_next. destruct (next_occupied f (iter_fuel t) t (p + 1)) as [r|]; [|reflexivity]. cbn [bind].
  rewrite IH. reflexivity.
Qed.
Lemma hid_iterate : forall t : swiss, iterate f (hid t) = iterate f t \/ iterate f (hid t) = Err DeadObject.
Proof.
  intros t. assert (Ht : forall p, to_iter f (hid t) p = to_iter f t p).
  { intros p. unfold to_iter. change (s_buf (hid t)) with (s_buf t). change (iter_fuel (hid t)) with (iter_fuel t). destruct (s_buf t); [reflexivity|apply hid_next..]. }
  unfold iterate, begin_iter, end_iter. change (s_cap (hid t)) with (s_cap t). rewrite !Ht. change (iter_fuel (hid t)) with (iter_fuel t).
  destruct (to_iter f t 0) as [p|]; [|left; reflexivity]. cbn [bind]. destruct (to_iter f t (s_cap t)) as [q|]; [|left; reflexivity]. cbn [bind].
  revert p. generalize (iter_fuel t) as fuel. induction fuel as [|fuel IH]; intros p; [left; reflexivity|]. cbn [walk]. destruct (p =? q); [left; reflexivity|].
  destruct (hid_node t p) as [-> | ->]; [|right; reflexivity]. destruct (get_node t p) as [n|]; [|left; reflexivity]. cbn [bind].
  unfold iter_next. change (iter_fuel (hid t)) with (iter_fuel t). rewrite hid_next. destruct (next_occupied f (iter_fuel t) t (p + 1)) as [r|]; [|left; reflexivity]. cbn [bind].
  destruct (IH r) as [-> | ->]; [left; reflexivity|right; reflexivity].
Qed.

Hypothesis KL : key_laws hash keq.

Lemma hid_wf : forall (s t : swiss) tr, wf1 s -> rd_inv s t tr -> wf1 (mended (hid t)).
Proof.
  intros s t tr H Inv. destruct Inv as [M C S Nd Out Pl Perm _]. pose proof (cap_bounds f t M) as Hcb. pose proof (wf1_elems_length f key_of hash keq s H) as Hsl.
  assert (Mh : mwf f (hid t)) by (eapply mwf_ext; [..|exact M]; reflexivity).
  assert (Nh : ncons key_of hash (hid t)).
  { split; cbn [hid s_cap s_nodes s_meta].
    - intros j Hj. rewrite C in Hj. specialize (Nd j Hj). unfold gone. destruct (Z.eqb_spec (s_meta t j) m_deleted) as [Ed|Ed]; [rewrite Ed; reflexivity|].
      destruct (s_nodes t j) as [[e h]|]; [destruct Nd as [Eh [Em|Em]]; [auto|contradiction]|rewrite Nd; reflexivity].
    - intros j Hj. rewrite C in Hj. rewrite (Out j Hj). destruct (gone t j); reflexivity. }
  assert (Hd : distinct key_of keq (elems s)) by (apply (wf_distinct f key_of hash keq KL s (or_intror H))).
  constructor; cbn [mended set_nempty set_size s_size s_nempty s_cap].
  - eapply mwf_ext; [..|exact Mh]; reflexivity.
  - exact Nh.
  - apply (distinct_uniq key_of hash keq); [exact KL|cbn [mended set_nempty set_size hid s_cap]; lia|apply Nh|]. change (elems (mended (hid t))) with (elems (hid t)).
    apply (distinct_perm key_of hash keq KL _ (elems t)) in Hd.
    + apply (distinct_perm key_of hash keq KL _ _ (Permutation_map fst (collect_parts _ (s_nodes t) (gone t) (s_cap t) ltac:(lia)))) in Hd. rewrite map_app in Hd. apply distinct_prefix in Hd. exact Hd.
    + apply Permutation_sym. unfold elems. rewrite C. apply Permutation_map. exact Perm.
  - intros j e h Ej q Hq Hv. cbn [mended hid set_nempty set_size s_cap s_nodes s_meta] in *. rewrite C in *.
    unfold gone in Ej. destruct (Z.eqb_spec (s_meta t j) m_deleted) as [Ed|Ed]; [discriminate|].
    assert (Hj : 0 <= j < s_cap s) by (destruct (Z_le_dec 0 j), (Z_lt_dec j (s_cap s)); try lia; rewrite Out in Ej by lia; discriminate).
    pose proof (Nd j Hj) as Ndj. rewrite Ej in Ndj. destruct Ndj as [_ [Em|Em]]; [|contradiction].
    intros Ee. pose proof (Pl j e h Ej Em q Hq Hv) as Hna. rewrite Ee in Hna. discriminate.
  - reflexivity.
  - reflexivity.
  - change (n_emp (hid t)) with (n_emp t). change (s_cap (hid t)) with (s_cap t).
    assert (He : cnt (fun i => match s_nodes t i with Some _ => true | None => false end) (s_cap t) = s_size s).
    { rewrite <- collect_length by lia. rewrite C, (Permutation_length Perm). unfold elems in Hsl. rewrite map_length in Hsl. exact Hsl. }
    pose proof (cnt_compl (fun i => match s_nodes t i with Some _ => true | None => false end) (s_cap t) ltac:(lia)) as Hc. cbv beta in Hc.
    assert (cnt (fun i => negb match s_nodes t i with Some _ => true | None => false end) (s_cap t) <= n_emp t).
    { apply cnt_le; [lia|]. intros i Hi Hn. rewrite C in Hi. specialize (Nd i Hi). destruct (s_nodes t i); [discriminate|]. rewrite Nd. reflexivity. }
    pose proof (wf_size f key_of hash keq s (or_intror H)) as [_ Hmx]. rewrite <- C in Hmx. lia.
Qed.

Lemma hid_mislaid : forall (s t : swiss) tr i, wf1 s -> rd_inv s t tr -> 0 <= i < s_cap s -> s_meta t i = m_deleted -> mislaid f key_of hash keq (elems s) t.
Proof.
  intros s t tr i H Inv Hi Hdel. pose proof (hid_wf s t tr H Inv) as Hw. pose proof (wf1_elems_length f key_of hash keq s H) as Hsl.
  pose proof Inv as [M C S Nd Out Pl Perm _]. pose proof (cap_bounds f t M) as Hcb.
  assert (Hpos : 0 < s_size t).
  { rewrite S, <- Hsl. pose proof (Nd i Hi) as Ndi. destruct (s_nodes t i) as [n|] eqn:Ei; [|rewrite Hdel in Ndi; discriminate].
    assert (In n (collect (s_nodes s) (s_cap s))) by (apply (Permutation_in _ Perm); apply collect_In; exists i; auto). unfold elems. rewrite map_length.
    destruct (collect (s_nodes s) (s_cap s)); [contradiction|cbn [length]; lia]. }
  assert (Hpe : Permutation (elems s) (elems (hid t) ++ map fst (collect (fun j => if gone t j then s_nodes t j else None) (s_cap t)))).
  { eapply Permutation_trans; [apply Permutation_sym, Permutation_map; exact Perm|]. unfold elems. rewrite <- map_app. apply Permutation_map. cbn [hid s_nodes s_cap]. rewrite <- C. apply collect_parts. lia. }
  pose proof (distinct_perm key_of hash keq KL _ _ Hpe (wf_distinct f key_of hash keq KL s (or_intror H))) as Hd.
  assert (Hf : forall k, exists r, find_node f key_of keq t k (hash k) = Ok r /\
    ((0 <= r < s_cap t /\ has_key key_of keq (hid t) k r) \/ (r = s_cap t /\ forall j, ~ has_key key_of keq (hid t) k j))).
  { intros k. pose proof (w_m _ _ _ _ _ Hw) as Mw. assert (Mh : mwf f (hid t)) by (eapply mwf_ext; [..|exact Mw]; reflexivity).
    unfold find_node. destruct (Z.eqb_spec (s_size t) 0); [lia|]. rewrite (probe_start_at f) by apply (mw_cap f t M).
    destruct (find_loop_ok f key_of hash keq KL (hid t) Mh (w_n _ _ _ _ _ Hw) (w_p _ _ _ _ _ Hw) k (fun HW => wf1_empty_slot f key_of hash keq (mended (hid t)) Hw HW) (probe_fuel f t) 0) as (r & Er & Hr).
    - pose proof (SwissArith.nwin_pos f (s_cap t)). cbn [hid s_cap]. lia.
    - pose proof (probe_fuel_ok f t M). cbn [hid s_cap]. lia.
    - cbn [hid s_cap]. intros j Hj Hv. pose proof (vis_spec f (s_cap t) (hash k) j (mw_cap f t M)). lia.
    - exists r. split; [apply hid_find; exact Er|exact Hr]. }
  assert (Hit : scans f (iterate f t) (fun l => map snd l = elems (hid t))).
  { pose proof (iterate_elems f key_of hash keq (mended (hid t)) (or_intror Hw)) as X. rewrite mended_iterate in X. change (elems (mended (hid t))) with (elems (hid t)) in X.
    destruct (hid_iterate t) as [<- |Ee]; [exact X|]. rewrite Ee in X. destruct X as [(l & X & _)|(_ & X)]; discriminate. }
  split; [unfold size; rewrite S; symmetry; exact Hsl|].
  exists (elems (hid t)), (map fst (collect (fun j => if gone t j then s_nodes t j else None) (s_cap t))). split; [exact Hpe|]. split; [|split; [|split; [|split]]].
  - intros Hn. apply map_eq_nil in Hn. pose proof (Nd i Hi) as Ndi. destruct (s_nodes t i) as [n|] eqn:Ei; [|rewrite Hdel in Ndi; discriminate].
    assert (X : In n (collect (fun j => if gone t j then s_nodes t j else None) (s_cap t))); [|rewrite Hn in X; destruct X].
    apply collect_In. exists i. rewrite C. split; [exact Hi|]. unfold gone. rewrite Hdel. exact Ei.
  - intros l1 El. destruct Hit as [(l & E1 & E2)|(_ & E1)]; rewrite El in E1; [|discriminate]. injection E1 as ->. rewrite E2. apply Permutation_refl.
  - intros Hwd. destruct (scans_wide f _ _ _ Hit) as (l & -> & _); [unfold narrow; destruct Hwd as [Hwd|Hwd]; rewrite Hwd; intros [X|X]; discriminate X|]. eauto.
  - intros x Hin. unfold contains. destruct (Hf (key_of x)) as (r & -> & [(Hrng & _)|(_ & Hno)]); cbn [bind]; [f_equal; lia|]. exfalso.
    unfold elems in Hin. apply in_map_iff in Hin. destruct Hin as ([e h] & <- & Hin). apply collect_In in Hin. destruct Hin as (j & _ & Ej). apply (Hno j). exists e, h. split; [exact Ej|apply (kl_refl _ _ KL)].
  - intros x Hin. unfold contains. destruct (Hf (key_of x)) as (r & -> & [(Hrng & e & h & En & Ek)|(Hrng & Hno)]); cbn [bind]; [|f_equal; lia]. exfalso.
    assert (Hin2 : In e (elems (hid t))) by (unfold elems; apply in_map_iff; exists (e, h); split; [reflexivity|]; apply collect_In; exists r; auto).
    unfold distinct in Hd. revert Hd Hin Hin2 Ek. clear. generalize (elems (hid t)) as a. generalize (map fst (collect (fun j => if gone t j then s_nodes t j else None) (s_cap t))) as b.
    intros b a. induction a as [|y a IH]; intros Hd Hin Hin2 Ek; [contradiction|]. cbn [app] in Hd. inversion Hd as [|? ? Hfa Ho]; subst. destruct Hin2 as [<-|Hin2]; [|exact (IH Ho Hin Hin2 Ek)].
    rewrite Forall_forall in Hfa. specialize (Hfa x (in_or_app _ _ _ (or_intror Hin))). congruence.
Qed.

(** ** Calls. *)
Lemma deleted_mislaid : forall m (s s' : swiss) tr, wf1 s -> W < s_cap s -> s_size s * 32 <= s_cap s * 25 -> rehash_deleted f s = Ok (s', tr) -> (m < length tr)%nat ->
  exists t, m_rehash_deleted f m s = Ok (t, None) /\ mislaid f key_of hash keq (elems s) t.
Proof.
  intros m s s' tr H HW Hld Er Hm. unfold rehash_deleted in Er. unfold m_rehash_deleted. change (width f) with W.
  destruct (reset_phase_ok f key_of hash keq s H HW) as (s1 & s2 & s3 & E1 & E2 & E3 & Inv). rewrite E1 in Er |- *. cbn [bind] in *. rewrite E2 in Er |- *. cbn [bind] in *. rewrite E3 in Er |- *. cbn [bind] in *.
  destruct (foldM (relocate_step f) _ (s3, [])) as [[s4 t4]|] eqn:Ef; [|discriminate]. cbn [bind] in Er. injection Er as <- <-.
  destruct (relocate_stops s ltac:(lia) _ _ _ m _ _ (fun i Hi => proj1 (zrange_In (s_cap s) i) Hi) Inv Ef Hm) as (t1 & tr1 & i & -> & Inv1 & Hi & Hd). cbn [bind].
  exists t1. split; [reflexivity|]. exact (hid_mislaid s t1 tr1 i H Inv1 Hi Hd).
Qed.

Lemma lost_mislaid : forall m (l : list E) t, (m < length l)%nat -> lost f key_of hash keq m l t -> mislaid f key_of hash keq l t.
Proof.
  intros m l t Hm (A & B & C & D & F). split; [exact A|]. exists (firstn m l), (skipn m l). rewrite firstn_skipn. split; [apply Permutation_refl|]. split; [|auto].
  intros Hn. assert (X : length (skipn m l) = 0%nat) by (rewrite Hn; reflexivity). rewrite skipn_length in X. lia.
Qed.

Lemma fold_count : forall (s : swiss) l acc acc', (forall i, In i l -> exists b, get_meta f s i = Ok b /\ is_occupied b = full s i) ->
  foldM (rehash_step f s) l acc = Ok acc' -> length (snd acc') = (length (snd acc) + length (filter (full s) l))%nat.
Proof.
  intros s l. induction l as [|i l IH]; intros acc acc' Hb Ef; cbn [foldM filter] in *; [injection Ef as <-; cbn [length]; lia|].
  destruct (rehash_step f s acc i) as [x|] eqn:Es; [|discriminate]. cbn [bind] in Ef. rewrite (IH x acc' (fun j Hj => Hb j (or_intror Hj)) Ef).
  destruct (Hb i (or_introl eq_refl)) as (b & Eb & Ho). unfold rehash_step in Es. destruct acc as [t mv]. rewrite Eb in Es. cbn [bind] in Es. rewrite Ho in Es. destruct (full s i).
  - destruct (get_node s i) as [n|]; [|discriminate]. cbn [bind] in Es. destruct (find_available f t (snd n)) as [p|]; [|discriminate]. cbn [bind] in Es.
    destruct (put_node t p n) as [t1|]; [|discriminate]. cbn [bind] in Es. destruct (set_metadata f t1 p (h2_of (snd n))) as [t2|]; [|discriminate]. cbn [bind] in Es.
    injection Es as <-. cbn [snd length]. rewrite app_length. cbn [length]. lia.
  - injection Es as <-. reflexivity.
Qed.
Lemma rehash_steps : forall lim (s s' : swiss) c tr, wf f key_of hash keq s -> do_rehash f lim s c = Ok (s', Some tr) -> c <= lim /\ steps tr <= s_size s.
Proof.
  intros lim s s' c tr H Er. unfold do_rehash in Er. destruct (Z.ltb_spec lim c); [discriminate|]. split; [lia|].
  pose proof (wf_size f key_of hash keq s H) as [Hs Hb]. destruct (c =? 0); cbn [bind] in Er; [injection Er as _ <-; cbn; lia|].
  destruct (foldM _ _ _) as [[t mv]|] eqn:Ef; [|discriminate]. cbn [bind] in Er. injection Er as _ <-. cbn [steps fold_right ev_steps]. destruct H as [H|H].
  - rewrite (w0_cap s H) in Ef. cbn in Ef. injection Ef as _ <-. cbn [length]. lia.
  - apply fold_count in Ef; [|apply (slot_bytes f key_of hash keq s H)]. cbn [snd length plus] in Ef. rewrite filter_full in Ef. rewrite Ef, Hs. unfold elems. rewrite map_length. lia.
Qed.
Lemma process_steps : forall fuel (s s' : swiss) i tr tr', process_node f fuel s i tr = Ok (s', tr') -> steps tr = Z.of_nat (length tr) -> steps tr' = Z.of_nat (length tr').
Proof.
  assert (Hadd : forall tr x, ev_steps x = 1 -> steps tr = Z.of_nat (length tr) -> steps (tr ++ [x]) = Z.of_nat (length (tr ++ [x]))).
  { intros tr x Hx. induction tr as [|y tr IH]; cbn [app steps fold_right length] in *; [lia|]. intros Hy. fold (steps tr) in *. fold (steps (tr ++ [x])).
    assert (Ha : forall a b, steps (a ++ b) = steps a + steps b) by (induction a as [|z a IHa]; intros b; cbn [app steps fold_right]; [reflexivity|]; fold (steps (a ++ b)); fold (steps a); rewrite IHa; lia).
    rewrite Ha, app_length. cbn [steps fold_right length]. lia. }
  induction fuel as [|fuel IH]; intros s s' i tr tr' Ep Ht; [discriminate|]. cbn [process_node] in Ep.
  destruct (get_node s i) as [n|]; [|discriminate]. cbn [bind] in *. destruct (find_available f s (snd n)) as [p|]; [|discriminate]. cbn [bind] in *.
  destruct (block_idx f (s_cap s) (snd n) p =? block_idx f (s_cap s) (snd n) i).
  - destruct (set_metadata f s i (h2_of (snd n))) as [s1|]; [|discriminate]. cbn [bind] in *. injection Ep as <- <-. exact Ht.
  - destruct (get_meta f s p) as [tm|]; [|discriminate]. cbn [bind] in *. destruct (tm =? m_empty).
    + destruct (put_node s p n) as [s1|]; [|discriminate]. cbn [bind] in *. destruct (kill_node s1 i) as [s2|]; [|discriminate]. cbn [bind] in *.
      destruct (set_metadata f s2 i m_empty) as [s3|]; [|discriminate]. cbn [bind] in *. destruct (set_metadata f s3 p (h2_of (snd n))) as [s4|]; [|discriminate]. cbn [bind] in *.
      injection Ep as <- <-. apply Hadd; [reflexivity|exact Ht].
    + destruct (get_node s p) as [n2|]; [|discriminate]. cbn [bind] in *. destruct (set_metadata f _ p (h2_of (snd n))) as [s2|]; [|discriminate]. cbn [bind] in *.
      apply (IH _ _ _ _ _ Ep). apply Hadd; [reflexivity|exact Ht].
Qed.
Lemma deleted_steps : forall (s s' : swiss) tr, rehash_deleted f s = Ok (s', tr) -> steps tr = Z.of_nat (length tr).
Proof.
  intros s s' tr Er. unfold rehash_deleted in Er. destruct (foldM (reset_block f) _ s) as [s1|]; [|discriminate]. cbn [bind] in *. destruct (copy_tail f s1) as [s2|]; [|discriminate]. cbn [bind] in *.
  destruct (put_meta f s2 (s_cap s) m_sentinel) as [s3|]; [|discriminate]. cbn [bind] in *.
  destruct (foldM (relocate_step f) _ (s3, [])) as [[s4 t4]|] eqn:Ef; [|discriminate]. cbn [bind] in *. injection Er as <- <-.
  assert (X : forall l (x y : swiss) a b, foldM (relocate_step f) l (x, a) = Ok (y, b) -> steps a = Z.of_nat (length a) -> steps b = Z.of_nat (length b)); [|apply (X _ _ _ _ _ Ef); reflexivity].
  clear. induction l as [|i l IH]; intros x y a b Ef Ha; cbn [foldM] in Ef; [injection Ef as _ <-; exact Ha|].
  unfold relocate_step in Ef at 1. destruct (get_meta f x i) as [v|]; [|discriminate]. cbn [bind] in *. destruct (v =? m_deleted); [|cbn [bind] in Ef; exact (IH _ _ _ _ Ef Ha)].
  destruct (process_node f _ x i a) as [[s1 tr1]|] eqn:Ep; [|discriminate]. cbn [bind] in *. exact (IH _ _ _ _ Ef (process_steps _ _ _ _ _ _ Ep Ha)).
Qed.

Lemma room_mislaid : forall m lim (s s1 : swiss) h q tr, wf f key_of hash keq s -> lim < 2 ^ 59 -> make_room f lim s h = Ok (s1, Some (q, tr)) -> Z.of_nat m < steps tr ->
  exists t, m_make_room f m lim s h = Ok (t, None) /\ mislaid f key_of hash keq (elems s) t.
Proof.
  intros m lim s s1 h q tr H Hlim Em Hm. pose proof (wf_size f key_of hash keq s H) as [Hs Hb]. unfold make_room in Em. unfold m_make_room. destruct H as [H0|H1].
  { exfalso. rewrite (w0_cap s H0) in Em. cbn [Z.eqb] in Em. destruct (do_rehash f lim s 1) as [[x o]|] eqn:Ed; [|discriminate]. cbn [bind] in Em. destruct o as [tr0|]; [|discriminate].
    destruct (find_available f x h); [|discriminate]. injection Em as <- <- <-. pose proof (rehash_steps _ _ _ _ _ (or_introl H0) Ed) as [_ X]. rewrite (w0_size s H0) in X. lia. }
  pose proof (w_m _ _ _ _ s H1) as M. pose proof (cap_bounds f s M) as Hcb. destruct (Z.eqb_spec (s_cap s) 0); [lia|].
  destruct (find_available f s h) as [p|]; [|discriminate]. cbn [bind] in *. destruct (get_meta f s p) as [tm|]; [|discriminate]. cbn [bind] in *.
  destruct ((s_nempty s =? 0) && negb (tm =? m_deleted)); [|injection Em as _ _ <-; cbn in Hm; lia].
  change (SwissModel.W f) with (width f) in Em.
  destruct ((width f <? s_cap s) && (mul64 (s_size s) 32 <=? mul64 (s_cap s) 25)) eqn:Eb.
  - rewrite (mul64_small (s_size s)), (mul64_small (s_cap s)) in Eb by (pose proof (max_size_bounds f (s_cap s) ltac:(lia)); rewrite two64_val; lia).
    destruct (rehash_deleted f s) as [[x tr0]|] eqn:Ed; [|discriminate]. cbn [bind fst snd] in Em. destruct (find_available f x h); [|discriminate]. injection Em as <- <- <-.
    pose proof (deleted_steps _ _ _ Ed) as Hst. destruct (deleted_mislaid m s x tr0 H1) as (t & -> & Ht); [unfold SwissModel.W; lia|lia|exact Ed|lia|]. cbn [bind]. exists t. auto.
  - destruct (do_rehash f lim s (sub64 (mul64 (add64 (s_cap s) 1) 2) 1)) as [[x o]|] eqn:Ed; [|discriminate]. cbn [bind] in Em. destruct o as [tr0|]; [|discriminate].
    destruct (find_available f x h); [|discriminate]. injection Em as <- <- <-. destruct (rehash_steps _ _ _ _ _ (or_intror H1) Ed) as [Hl Hst].
    set (c := sub64 (mul64 (add64 (s_cap s) 1) 2) 1) in *.
    assert (Hd : c = 2 * s_cap s + 1) by (unfold c; rewrite add64_small, mul64_small, sub64_small by (rewrite two64_val; lia); lia).
    destruct (double_cap f key_of hash keq s H1 ltac:(lia)) as (_ & Hg & Hsz). clearbody c. subst c.
    destruct (m_rehash_lost f key_of hash keq rep KL m lim s (2 * s_cap s + 1) (or_intror H1) Hg Hsz Hl ltac:(lia)) as (t & -> & Ht). cbn [bind]. exists t. split; [reflexivity|].
    apply (lost_mislaid m); [lia|exact Ht].
Qed.

Lemma exec_mislaid : forall m v (s s1 : swiss) c r, wf f key_of hash keq s -> env_ok v -> call_ok c -> exec f key_of hash keq rep v s c = Ok (s1, r) -> Z.of_nat m < steps_in f key_of hash keq v s c ->
  exists t, m_exec f key_of hash keq rep m v s c = Ok (t, RThrow) /\ mislaid f key_of hash keq (elems s) t.
Proof.
  intros m v s s1 c r H Hv Hok Ex Hm.
  assert (Hins : forall e, c = CInsert e \/ c = CAssign e -> exists t, m_exec f key_of hash keq rep m v s c = Ok (t, RThrow) /\ mislaid f key_of hash keq (elems s) t).
  { intros e He.
    assert (Hmv : steps_in f key_of hash keq v s c = match find_node f key_of keq s (key_of e) (hash (key_of e)) with
      | Ok p => if p =? s_cap s then match make_room f (ev_lim v) s (hash (key_of e)) with Ok (_, Some (_, tr)) => steps tr | _ => 0 end else 0 | Err _ => 0 end) by (destruct He as [-> | ->]; reflexivity).
    rewrite Hmv in Hm. destruct (find_node f key_of keq s (key_of e) (hash (key_of e))) as [p|] eqn:Ef; [|lia]. destruct (p =? s_cap s) eqn:Ep; [|lia].
    destruct (make_room f (ev_lim v) s (hash (key_of e))) as [[x o]|] eqn:Em; [|lia]. destruct o as [[q tr]|]; [|lia].
    destruct (room_mislaid m (ev_lim v) s x _ q tr H Hv Em Hm) as (t & Et & Ht). exists t. split; [|exact Ht].
    destruct He as [-> | ->]; cbn [m_exec]; cbv zeta; rewrite Ef; cbn [bind]; rewrite Ep, Et; reflexivity. }
  destruct c; try (cbn [steps_in] in Hm; lia); try (eapply Hins; eauto; fail).
  2:{ cbn [exec m_exec steps_in call_ok] in *. pose proof (wf_size f key_of hash keq s H) as [Hs Hb]. destruct (rehash f (ev_lim v) s n) as [[x o]|] eqn:Er; [|lia]. destruct o as [tr|]; [|lia].
    unfold rehash in Er. destruct ((n =? 0) && (s_size s =? 0)) eqn:Ez; [injection Er as _ <-; cbn in Hm; lia|]. destruct (align_capacity _) as [k|] eqn:Ek; [|discriminate]. cbn [bind] in Er |- *.
    destruct ((n =? 0) || (s_cap s <? k)) eqn:Eb; [|injection Er as _ <-; cbn in Hm; lia]. destruct (rehash_steps _ _ _ _ _ H Er) as [Hl Hst].
    destruct (rehash_target f key_of hash keq s n k H ltac:(rewrite two64_val; lia) Ek ltac:(unfold env_ok in Hv; lia) ltac:(lia)) as [Hg Hz].
    destruct (m_rehash_lost f key_of hash keq rep KL m (ev_lim v) s k H Hg Hz Hl ltac:(lia)) as (t & -> & Ht). cbn [bind fst snd]. exists t. split; [reflexivity|]. apply (lost_mislaid m); [lia|exact Ht]. }
  cbn [exec m_exec steps_in call_ok] in *. pose proof (wf_size f key_of hash keq s H) as [Hs Hb]. destruct (reserve f (ev_lim v) s n) as [[x o]|] eqn:Er; [|lia]. destruct o as [tr|]; [|lia].
  unfold reserve in Er. destruct (add64 (s_size s) (s_nempty s) <? n) eqn:Eb; [|injection Er as _ <-; cbn in Hm; lia].
  destruct (align_capacity (size_to_min_capacity f n)) as [k|] eqn:Ek; [|discriminate]. cbn [bind] in *. destruct (rehash_steps _ _ _ _ _ H Er) as [Hl Hst].
  pose proof (wf_cap_nonneg f key_of hash keq s H) as Hcn. pose proof (max_size_bounds f (s_cap s) ltac:(lia)) as Hmb.
  assert (Hne : 0 <= s_nempty s < 2 ^ 59) by (destruct H as [H|H]; [apply (w0_nempty s H)|pose proof (wf1_nempty f key_of hash keq s H); lia]).
  assert (Hcl : s_cap s < 2 ^ 59) by (destruct H as [H|H]; [rewrite (w0_cap s H); lia|apply (cap_bounds f s (w_m _ _ _ _ s H))]).
  rewrite add64_small in Eb by (rewrite two64_val; lia).
  assert (G : good_cap k /\ s_size s <= capacity_to_max_size f k).
  { destruct (Z_lt_dec n (2 ^ 62)) as [Hn|Hn].
    - pose proof (min_capacity_bound f n ltac:(lia)) as Hmc. destruct (align_capacity_spec (size_to_min_capacity f n) ltac:(lia)) as (j & Ej & Hj & Hj2 & _). rewrite Ek in Ej. injection Ej as ->.
      pose proof (max_size_sufficient f n (2 ^ j - 1) ltac:(lia) Hj2). split; [apply good_cap_of_pow; unfold env_ok in Hv; lia|lia].
    - exfalso. destruct (align_capacity_huge _ (size_to_min_capacity_huge f n ltac:(rewrite two64_val; lia))) as (c' & Ec' & Hc59). rewrite Ek in Ec'. injection Ec' as ->. unfold env_ok in Hv. lia. }
  destruct (m_rehash_lost f key_of hash keq rep KL m (ev_lim v) s k H (proj1 G) (proj2 G) Hl ltac:(lia)) as (t & -> & Ht). cbn [bind fst snd]. exists t. split; [reflexivity|]. apply (lost_mislaid m); [lia|exact Ht].
Qed.

Lemma exec_mislaid_list : forall m v (s s1 : swiss) c r l, wf f key_of hash keq s -> env_ok v -> call_ok c -> exec f key_of hash keq rep v s c = Ok (s1, r) -> iterate f s = Ok l ->
  Z.of_nat m < steps_in f key_of hash keq v s c -> exists t, m_exec f key_of hash keq rep m v s c = Ok (t, RThrow) /\ mislaid f key_of hash keq (map snd l) t.
Proof.
  intros m v s s1 c r l H Hv Hok Ex El Hm. destruct (iterate_elems f key_of hash keq s H) as [(l0 & E0 & Em)|(_ & E0)]; rewrite El in E0; [|discriminate].
  injection E0 as <-. rewrite Em. exact (exec_mislaid m v s s1 c r H Hv Hok Ex Hm).
Qed.
End Swiss.
