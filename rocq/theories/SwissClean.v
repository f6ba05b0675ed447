(** The in-place rehash (rehash_deleted) keeps the contents and establishes the invariant. *)
From Coq Require Import ZArith List Bool Lia Permutation.
From Coq Require Import ZifyBool ZifyNat.
From Verif Require Import Base BaseLemmas Bits BitsProofs SwissModel SwissArith SwissCap MapSpec SwissInv SwissOps.
Import ListNotations.
Open Scope Z_scope.

(** Effect of a list of node movements on the node array. *)
Inductive replay {A} (cap : Z) (n0 : Z -> option A) : list ev -> (Z -> option A) -> Prop :=
| rp_nil : replay cap n0 [] n0
| rp_move : forall tr n1 a b x, replay cap n0 tr n1 -> n1 a = Some x -> n1 b = None -> 0 <= b < cap ->
    replay cap n0 (tr ++ [EvMove a b]) (upd (upd n1 b (Some x)) a None)
| rp_swap : forall tr n1 a b x y, replay cap n0 tr n1 -> n1 a = Some x -> n1 b = Some y -> a <> b ->
    replay cap n0 (tr ++ [EvSwap a b]) (upd (upd n1 a (Some y)) b (Some x)).

Section Swiss.
Context {E K : Type}.
Variable f : simd.
Variable key_of : E -> K.
Variable hash : K -> Z.
Variable keq : K -> K -> bool.
Local Notation W := (W f).
Local Notation swiss := (@swiss E).
Local Notation mwf := (mwf f).
Local Notation ncons := (ncons key_of hash).
Local Notation probe_ok := (probe_ok f).
Local Notation wf1 := (wf1 f key_of hash keq).

(** ** Block-wise reset. *)
Lemma write_block_ok : forall (s : swiss) p l, s_buf s = Live -> 0 <= p -> p + Z.of_nat (length l) <= s_cap s + W ->
  exists s', write_block f s p l = Ok s' /\ same_but_meta s s' /\
    forall q, s_meta s' q = if (p <=? q) && (q <? p + Z.of_nat (length l)) then nth (Z.to_nat (q - p)) l 0 else s_meta s q.
Proof.
  intros s p l Hb Hp Hlen. unfold write_block.
  apply (foldM_zrange_inv _ _ (fun i t => same_but_meta s t /\
    forall q, s_meta t q = if (p <=? q) && (q <? p + i) then nth (Z.to_nat (q - p)) l 0 else s_meta s q)).
  - lia.
  - split; [repeat split|]. intros q. destruct (Z.leb_spec p q), (Z.ltb_spec q (p + 0)); try reflexivity; lia.
  - intros i t Hi ((B & C & N & S & Ne) & Hm). rewrite put_meta_ok by (rewrite ?C; congruence || lia).
    eexists. split; [reflexivity|]. split; [repeat split; assumption|]. cbn [s_meta].
    intros q. destruct (Z.eq_dec q (p + i)) as [->|Hq].
    + rewrite upd_same. destruct (Z.leb_spec p (p + i)), (Z.ltb_spec (p + i) (p + (i + 1))); try lia.
      cbn [andb]. f_equal. lia.
    + rewrite upd_other by assumption. rewrite Hm.
      destruct (Z.leb_spec p q), (Z.ltb_spec q (p + i)), (Z.ltb_spec q (p + (i + 1))); try lia; reflexivity.
Qed.

Definition reset_byte (v : Z) : Z := if is_occupied v then m_deleted else m_empty.

Lemma load_block_raw : forall (s : swiss) p, s_buf s = Live -> 0 <= p <= s_cap s ->
  load_block f s p = Ok (map (fun i => s_meta s (p + i)) (zrange W)).
Proof.
  intros s p Hb Hp. unfold load_block, check_buf, guard. rewrite Hb. cbn [bind].
  destruct (Z.leb_spec 0 p); [|lia]. destruct (Z.leb_spec p (s_cap s)); [|lia]. reflexivity.
Qed.

Lemma reset_blocks_ok : forall (s : swiss) nb, mwf s -> 0 <= nb -> nb * W <= s_cap s + 1 ->
  exists s', foldM (reset_block f) (zrange nb) s = Ok s' /\ same_but_meta s s' /\
    forall q, s_meta s' q = if (0 <=? q) && (q <? nb * W) then reset_byte (s_meta s q) else s_meta s q.
Proof.
  intros s nb M Hnb Hle. pose proof (W_pos f) as HW. pose proof (cap_bounds f s M) as Hcb.
  apply (foldM_zrange_inv _ _ (fun b t => same_but_meta s t /\
    forall q, s_meta t q = if (0 <=? q) && (q <? b * W) then reset_byte (s_meta s q) else s_meta s q)).
  - exact Hnb.
  - split; [repeat split|]. intros q. destruct (Z.leb_spec 0 q), (Z.ltb_spec q (0 * W)); try reflexivity; lia.
  - intros b t Hb ((B & C & N & S & Ne) & Hm). unfold reset_block.
    assert (HbW : b * W + W <= s_cap s + 1) by nia.
    rewrite load_block_raw by (rewrite ?B, ?C; (apply (mw_buf f s M) || nia)). cbn [bind].
    assert (Hblk : map (fun i => s_meta t (b * W + i)) (zrange W) = map (fun i => s_meta s (b * W + i)) (zrange W)).
    { apply map_ext_in. intros i Hi. apply zrange_In in Hi. rewrite Hm.
      destruct (Z.leb_spec 0 (b * W + i)), (Z.ltb_spec (b * W + i) (b * W)); try reflexivity; lia. }
    rewrite Hblk.
    destruct (load_block_ok f s M (b * W) ltac:(nia)) as (blk & Eb & Hv & _).
    rewrite load_block_raw in Eb by ((apply (mw_buf f s M)) || nia). injection Eb as Eb. rewrite Eb.
    rewrite reset_occupied_spec by exact Hv. rewrite <- Eb. rewrite map_map. fold reset_byte.
    assert (Hll : Z.of_nat (length (map (fun i => if is_occupied (s_meta s (b * W + i)) then m_deleted else m_empty) (zrange W))) = W).
    { rewrite map_length, zrange_length. lia. }
    match goal with |- context [write_block f t (b * W) ?L] => set (l := L) in *; destruct (write_block_ok t (b * W) l) as (t' & Et & (B' & C' & N' & S' & Ne') & Hm') end.
    { rewrite B. apply (mw_buf f s M). }
    { nia. }
    { rewrite Hll, C. lia. }
    rewrite Et. eexists. split; [reflexivity|]. split; [repeat split; congruence|].
    intros q. rewrite Hm', Hll. destruct ((b * W <=? q) && (q <? b * W + W)) eqn:Eq.
    + unfold l. rewrite (nth_map_lt _ _ _ _ 0) by (rewrite zrange_length; lia).
      rewrite zrange_nth by lia. rewrite Z2Nat.id by lia. replace (b * W + (q - b * W)) with q by lia.
      destruct (Z.leb_spec 0 q), (Z.ltb_spec q ((b + 1) * W)); try nia. reflexivity.
    + rewrite Hm. destruct (Z.leb_spec 0 q), (Z.ltb_spec q (b * W)), (Z.ltb_spec q ((b + 1) * W)); cbn [andb]; try reflexivity; nia.
Qed.

Lemma copy_tail_ok : forall (s : swiss), s_buf s = Live -> W - 1 <= s_cap s ->
  exists s', copy_tail f s = Ok s' /\ same_but_meta s s' /\
    forall q, s_meta s' q = if (s_cap s + 1 <=? q) && (q <? s_cap s + W) then s_meta s (q - (s_cap s + 1)) else s_meta s q.
Proof.
  intros s Hb HW. pose proof (W_pos f) as HWp. unfold copy_tail.
  destruct (foldM_zrange_inv _ (fun t j => let* v := get_meta f t j in put_meta f t (s_cap s + 1 + j) v)
   (fun i t => same_but_meta s t /\ forall q, s_meta t q =
     if (s_cap s + 1 <=? q) && (q <? s_cap s + 1 + i) then s_meta s (q - (s_cap s + 1)) else s_meta s q)
   (W - 1) s) as (t & Et & Hs & Hm).
  - lia.
  - split; [repeat split|]. intros q. destruct (Z.leb_spec (s_cap s + 1) q), (Z.ltb_spec q (s_cap s + 1 + 0)); try reflexivity; lia.
  - intros i t Hi ((B & C & N & S & Ne) & Hm). rewrite get_meta_ok by (rewrite ?C; congruence || lia). cbn [bind].
    rewrite put_meta_ok by (rewrite ?C; congruence || lia). eexists. split; [reflexivity|].
    split; [repeat split; assumption|]. cbn [s_meta]. intros q.
    destruct (Z.eq_dec q (s_cap s + 1 + i)) as [->|Hq].
    + rewrite upd_same, Hm. destruct (Z.leb_spec (s_cap s + 1) i); [lia|]. cbn [andb].
      destruct (Z.leb_spec (s_cap s + 1) (s_cap s + 1 + i)), (Z.ltb_spec (s_cap s + 1 + i) (s_cap s + 1 + (i + 1))); try lia.
      cbn [andb]. f_equal. lia.
    + rewrite upd_other by assumption. rewrite Hm.
      destruct (Z.leb_spec (s_cap s + 1) q), (Z.ltb_spec q (s_cap s + 1 + i)), (Z.ltb_spec q (s_cap s + 1 + (i + 1))); try lia; reflexivity.
  - exists t. split; [exact Et|]. split; [exact Hs|]. intros q. rewrite Hm.
    replace (s_cap s + 1 + (W - 1)) with (s_cap s + W) by lia. reflexivity.
Qed.

(** ** Relocation. *)
Record rd_inv (s : swiss) (t : swiss) (tr : list ev) : Prop := {
  rd_m : mwf t;
  rd_cap : s_cap t = s_cap s;
  rd_size : s_size t = s_size s;
  rd_nodes : forall j, 0 <= j < s_cap s ->
    match s_nodes t j with
    | Some (e, h) => h = hash (key_of e) /\ (s_meta t j = h2_of h \/ s_meta t j = m_deleted)
    | None => s_meta t j = m_empty
    end;
  rd_out : forall j, ~ (0 <= j < s_cap s) -> s_nodes t j = None;
  rd_placed : forall j e h, s_nodes t j = Some (e, h) -> s_meta t j = h2_of h ->
    forall q, 0 <= q < s_cap s -> vis f (s_cap s) h q < vis f (s_cap s) h j -> is_available (s_meta t q) = false;
  rd_perm : Permutation (collect (s_nodes t) (s_cap s)) (collect (s_nodes s) (s_cap s));
  rd_replay : replay (s_cap s) (s_nodes s) tr (s_nodes t)
}.

Lemma h2_not_deleted : forall h, h2_of h <> m_deleted.
Proof. intros h. pose proof (h2_range h). unfold m_deleted. lia. Qed.
Lemma h2_not_empty : forall h, h2_of h <> m_empty.
Proof. intros h. pose proof (h2_range h). unfold m_empty. lia. Qed.

Lemma collect_swap : forall A (n : Z -> option A) i j x y cap, 0 <= i < cap -> 0 <= j < cap -> i <> j ->
  n i = Some x -> n j = Some y ->
  Permutation (collect (upd (upd n i (Some y)) j (Some x)) cap) (collect n cap).
Proof.
  intros A n i j x y cap Hi Hj Hij Ei Ej.
  set (n0 := upd (upd n i None) j None).
  assert (H1 : Permutation (collect n cap) (x :: y :: collect n0 cap)).
  { eapply Permutation_trans.
    - apply (collect_put _ (upd n i None) n i x); [exact Hi|apply upd_same|exact Ei|].
      intros q _ Hq. symmetry. apply upd_other; exact Hq.
    - apply perm_skip. apply (collect_put _ n0 (upd n i None) j y); [exact Hj|apply upd_same| |].
      + rewrite upd_other by auto. exact Ej.
      + intros q _ Hq. symmetry. apply upd_other; exact Hq. }
  eapply Permutation_trans; [|apply Permutation_sym, H1].
  assert (H2 : Permutation (collect (upd (upd n i (Some y)) j (Some x)) cap) (x :: collect (upd (upd n i (Some y)) j None) cap)).
  { apply (collect_put _ _ _ j x); [exact Hj|apply upd_same|apply upd_same|].
    intros q _ Hq. rewrite !(upd_other _ _ j q) by exact Hq. reflexivity. }
  eapply Permutation_trans; [exact H2|]. apply perm_skip.
  apply (collect_put _ n0 _ i y); [exact Hi| | |].
  - unfold n0. rewrite upd_other by exact Hij. apply upd_same.
  - rewrite upd_other by exact Hij. apply upd_same.
  - intros q _ Hq. unfold n0. destruct (Z.eq_dec q j) as [->|]; [rewrite !upd_same; reflexivity|].
    rewrite !(upd_other _ _ j q) by assumption. rewrite !(upd_other _ _ i q) by exact Hq. reflexivity.
Qed.

Lemma collect_move : forall A (n : Z -> option A) i j x cap, 0 <= i < cap -> 0 <= j < cap -> i <> j ->
  n i = Some x -> n j = None ->
  Permutation (collect (upd (upd n j (Some x)) i None) cap) (collect n cap).
Proof.
  intros A n i j x cap Hi Hj Hij Ei Ej.
  set (n0 := upd n i None).
  assert (H1 : Permutation (collect n cap) (x :: collect n0 cap)).
  { apply (collect_put _ n0 n i x); [exact Hi|apply upd_same|exact Ei|].
    intros q _ Hq. symmetry. apply upd_other; exact Hq. }
  eapply Permutation_trans; [|apply Permutation_sym, H1].
  apply (collect_put _ n0 _ j x); [exact Hj| | |].
  - unfold n0. rewrite upd_other by auto. exact Ej.
  - rewrite upd_other by auto. apply upd_same.
  - intros q _ Hq. unfold n0. destruct (Z.eq_dec q i) as [->|]; [rewrite !upd_same; reflexivity|].
    rewrite !(upd_other _ _ i q) by assumption. apply upd_other. exact Hq.
Qed.

Section Relocate.
Variable s : swiss.
Hypothesis HWc : W <= s_cap s + 1.
Let cap := s_cap s.

(** One exchange: [i] is being processed, [p] is the first available slot for its element. *)
Lemma exchange_ok : forall t i p e h e2 h2 tr, rd_inv s t tr -> 0 <= i < cap -> 0 <= p < cap -> p <> i ->
  s_meta t i = m_deleted -> s_meta t p = m_deleted -> s_nodes t i = Some (e, h) -> s_nodes t p = Some (e2, h2) ->
  (forall j, 0 <= j < cap -> vis f cap h j < vis f cap h p -> is_available (s_meta t j) = false) ->
  exists t2, set_metadata f (mk (s_buf t) (s_cap t) (s_meta t) (upd (upd (s_nodes t) i (Some (e2, h2))) p (Some (e, h))) (s_size t) (s_nempty t)) p (h2_of h) = Ok t2 /\
    rd_inv s t2 (tr ++ [EvSwap i p]) /\ s_meta t2 p = h2_of h /\ (forall j, 0 <= j < cap -> j <> p -> s_meta t2 j = s_meta t j).
Proof.
  intros t i p e h e2 h2 tr [M C S Nd Out Pl Perm Rp] Hi Hp Hpi Hdel Epd Ei Ep Hfirst.
  pose proof (Nd i Hi) as Ndi. rewrite Ei in Ndi. destruct Ndi as [Eh _]. pose proof (Nd p Hp) as Ndp. rewrite Ep in Ndp. destruct Ndp as [Eh2 _].
  set (t1 := mk _ _ _ _ _ _).
  destruct (set_metadata_ok f t1 p (h2_of h)) as (t2 & -> & M2 & (B2 & C2 & N2 & S2 & E2) & Hm1 & Hm2).
  { eapply mwf_ext; [..|exact M]; reflexivity. } { cbn [t1 s_cap]. rewrite C. exact Hp. } { apply node_byte_h2. }
  cbn [t1 s_buf s_cap s_meta s_nodes s_size s_nempty] in *. rewrite C in Hm2, C2. fold cap in Hm2.
  exists t2. split; [reflexivity|]. split; [|split; [exact Hm1|intros j Hj Hjp; apply Hm2; lia]].
  constructor; fold cap.
  - exact M2.
  - exact C2.
  - congruence.
  - intros j Hj. rewrite N2. destruct (Z.eq_dec j p) as [->|Hjp]; [rewrite upd_same; auto|].
    rewrite upd_other by exact Hjp. rewrite Hm2 by lia.
    destruct (Z.eq_dec j i) as [->|Hji]; [rewrite upd_same; auto|].
    rewrite upd_other by exact Hji. apply Nd. exact Hj.
  - intros j Hj. rewrite N2, !upd_other by (unfold cap in *; lia). apply Out. exact Hj.
  - rewrite N2. intros j e' h' Ej Em q Hq Hv.
    destruct (Z.eq_dec q p) as [->|Hqp]; [rewrite Hm1; apply occ_avail, occ_h2|].
    rewrite Hm2 by lia. destruct (Z.eq_dec j p) as [->|Hjp].
    + rewrite upd_same in Ej. injection Ej as <- <-. apply Hfirst; assumption.
    + rewrite upd_other in Ej by exact Hjp. destruct (Z.eq_dec j i) as [->|Hji].
      { exfalso. rewrite Hm2, Hdel in Em by lia. symmetry in Em. eapply h2_not_deleted; exact Em. }
      rewrite upd_other in Ej by exact Hji.
      assert (Hj : 0 <= j < cap).
      { destruct (Z_le_dec 0 j), (Z_lt_dec j cap); try lia; rewrite Out in Ej by (fold cap; lia); discriminate. }
      rewrite Hm2 in Em by lia. eapply Pl; eauto.
  - rewrite N2. eapply Permutation_trans; [|exact Perm]. apply collect_swap; auto.
  - rewrite N2. apply rp_swap; auto.
Qed.

Lemma process_node_ok : forall fuel t i tr, rd_inv s t tr -> 0 <= i < cap -> s_meta t i = m_deleted ->
  cnt (fun j => s_meta t j =? m_deleted) cap < Z.of_nat fuel ->
  exists t' tr', process_node f fuel t i tr = Ok (t', tr') /\ rd_inv s t' tr' /\
    s_meta t' i <> m_deleted /\
    (forall j, 0 <= j < cap -> s_meta t j <> m_deleted -> s_meta t' j <> m_deleted).
Proof.
  induction fuel as [|fuel IH]; intros t i tr [M C S Nd Out Pl Perm Rp] Hi Hdel Hcnt.
  { pose proof (cnt_bounds (fun j => s_meta t j =? m_deleted) cap ltac:(lia)). lia. }
  cbn [process_node]. pose proof (W_pos f) as HWp.
  assert (Hgc : good_cap cap) by (unfold cap; rewrite <- C; apply (mw_cap f t M)).
  pose proof (good_cap_bounds cap Hgc) as Hcb.
  assert (Hbuf : s_buf t = Live) by apply (mw_buf f t M).
  pose proof (Nd i Hi) as Ndi. destruct (s_nodes t i) as [[e h]|] eqn:Ei.
  2:{ rewrite Hdel in Ndi. discriminate. }
  destruct Ndi as [Eh _].
  rewrite (get_node_ok t i (e, h)) by (auto; rewrite C; exact Hi). cbn [bind snd].
  assert (Hav : exists j, 0 <= j < s_cap t /\ is_available (s_meta t j) = true).
  { exists i. rewrite C. split; [exact Hi|]. rewrite Hdel. reflexivity. }
  destruct (find_available_ok f t M h (fun _ => Hav)) as (p & -> & Hsp). cbn [bind].
  assert (Hsp' : 0 <= p < cap /\ is_available (s_meta t p) = true /\
    forall j, 0 <= j < cap -> vis f cap h j < vis f cap h p -> is_available (s_meta t j) = false).
  { unfold avail_spec in Hsp. destruct Hsp as [Hsp|(_ & _ & Hall)]; [rewrite C in Hsp; exact Hsp|]. exfalso.
    destruct Hav as (j & Hj & Ej). rewrite Hall in Ej by exact Hj. discriminate. }
  destruct Hsp' as (Hp & Hpa & Hfirst). clear Hsp. rewrite C. fold cap.
  rewrite !block_idx_blk by (auto; lia).
  destruct (Z.eqb_spec (blk f cap h p) (blk f cap h i)) as [Eb|Eb].
  - apply vis_eq_blk in Eb; [|exact Hgc].
    destruct (set_metadata_ok f t i (h2_of h) M) as (t' & -> & M' & (B' & C' & N' & S' & E') & Hm1 & Hm2).
    { rewrite C. exact Hi. } { apply node_byte_h2. }
    cbn [bind]. exists t', tr. split; [reflexivity|]. rewrite C in Hm2. fold cap in Hm2.
    split; [|split].
    + constructor; fold cap.
      * exact M'.
      * unfold cap; congruence.
      * congruence.
      * intros j Hj. rewrite N'. pose proof (Nd j Hj) as Ndj. destruct (Z.eq_dec j i) as [->|Hji].
        { rewrite Ei, Hm1. auto. }
        rewrite Hm2 by lia. exact Ndj.
      * rewrite N'. exact Out.
      * rewrite N'. intros j e' h' Ej Em q Hq Hv.
        destruct (Z.eq_dec q i) as [->|Hqi]; [rewrite Hm1; apply occ_avail, occ_h2|].
        rewrite Hm2 by lia. destruct (Z.eq_dec j i) as [->|Hji].
        { rewrite Ei in Ej. injection Ej as <- <-. apply Hfirst; [exact Hq|lia]. }
        assert (Hj : 0 <= j < cap).
        { destruct (Z_le_dec 0 j), (Z_lt_dec j cap); try lia; rewrite Out in Ej by (fold cap; lia); discriminate. }
        rewrite Hm2 in Em by lia. eapply Pl; eauto.
      * rewrite N'. exact Perm.
      * rewrite N'. exact Rp.
    + rewrite Hm1. apply h2_not_deleted.
    + intros j Hj Hd. destruct (Z.eq_dec j i) as [->|Hji]; [rewrite Hm1; apply h2_not_deleted|].
      rewrite Hm2 by lia. exact Hd.
  - assert (Hpi : p <> i) by congruence.
    rewrite get_meta_ok by (auto; rewrite C; fold cap; lia). cbn [bind].
    pose proof (Nd p Hp) as Ndp.
    destruct (Z.eqb_spec (s_meta t p) m_empty) as [Ee|Ee].
    + destruct (s_nodes t p) as [[e0 h0]|] eqn:Ep.
      { destruct Ndp as [_ [Em|Em]]; rewrite Em in Ee; [exfalso; eapply h2_not_empty; exact Ee|discriminate]. }
      rewrite put_node_ok by (auto; rewrite C; exact Hp). cbn [bind].
      rewrite (kill_node_ok _ i (e, h)); cbn [s_buf s_cap s_nodes s_meta s_size s_nempty]; [|exact Hbuf|rewrite C; exact Hi|rewrite upd_other by auto; exact Ei].
      cbn [bind]. set (t2 := mk _ _ _ _ _ _).
      destruct (set_metadata_ok f t2 i m_empty) as (t3 & -> & M3 & (B3 & C3 & N3 & S3 & E3) & Hm31 & Hm32).
      { eapply mwf_ext; [..|exact M]; reflexivity. } { cbn [t2 s_cap]. rewrite C. exact Hi. } { left. reflexivity. }
      cbn [bind]. cbn [t2 s_buf s_cap s_meta s_nodes s_size s_nempty] in *.
      destruct (set_metadata_ok f t3 p (h2_of h) M3) as (t4 & -> & M4 & (B4 & C4 & N4 & S4 & E4) & Hm41 & Hm42).
      { rewrite C3, C. exact Hp. } { apply node_byte_h2. }
      cbn [bind]. eexists. eexists. split; [reflexivity|].
      rewrite C3, C in Hm42. rewrite C in Hm32. fold cap in Hm32, Hm42.
      assert (Hmi : s_meta t4 i = m_empty) by (rewrite Hm42 by lia; exact Hm31).
      assert (Hmo : forall q, 0 <= q < cap -> q <> i -> q <> p -> s_meta t4 q = s_meta t q).
      { intros q Hq H1 H2. rewrite Hm42, Hm32 by lia. reflexivity. }
      split; [|split].
      * constructor; fold cap.
        -- exact M4.
        -- unfold cap. congruence.
        -- congruence.
        -- intros j Hj. rewrite N4, N3. destruct (Z.eq_dec j i) as [->|Hji]; [rewrite upd_same; exact Hmi|].
           rewrite upd_other by exact Hji. destruct (Z.eq_dec j p) as [->|Hjp]; [rewrite upd_same; auto|].
           rewrite upd_other by exact Hjp. rewrite Hmo by assumption. apply Nd. exact Hj.
        -- intros j Hj. rewrite N4, N3, !upd_other by lia. apply Out. exact Hj.
        -- rewrite N4, N3. intros j e' h' Ej Em q Hq Hv.
           destruct (Z.eq_dec j i) as [->|Hji]; [rewrite upd_same in Ej; discriminate|].
           rewrite upd_other in Ej by exact Hji.
           destruct (Z.eq_dec q p) as [->|Hqp]; [rewrite Hm41; apply occ_avail, occ_h2|].
           destruct (Z.eq_dec j p) as [->|Hjp].
           ++ rewrite upd_same in Ej. injection Ej as <- <-. specialize (Hfirst q Hq Hv).
              destruct (Z.eq_dec q i) as [->|Hqi]; [rewrite Hdel in Hfirst; discriminate|].
              rewrite Hmo by assumption. exact Hfirst.
           ++ rewrite upd_other in Ej by exact Hjp.
              assert (Hj : 0 <= j < cap).
              { destruct (Z_le_dec 0 j), (Z_lt_dec j cap); try lia; rewrite Out in Ej by (fold cap; lia); discriminate. }
              rewrite Hmo in Em by assumption. pose proof (Pl j e' h' Ej Em q Hq Hv) as Hna.
              destruct (Z.eq_dec q i) as [->|Hqi]; [rewrite Hdel in Hna; discriminate|].
              rewrite Hmo by assumption. exact Hna.
        -- rewrite N4, N3. eapply Permutation_trans; [|exact Perm]. apply collect_move; auto.
        -- rewrite N4, N3. apply rp_move; assumption.
      * rewrite Hmi. discriminate.
      * intros j Hj Hd. destruct (Z.eq_dec j i) as [->|Hji]; [congruence|].
        destruct (Z.eq_dec j p) as [->|Hjp]; [rewrite Hm41; apply h2_not_deleted|].
        rewrite Hmo by assumption. exact Hd.
    + assert (Epd : s_meta t p = m_deleted).
      { destruct (node_byte_cases _ (mw_bytes f t M p ltac:(rewrite C; exact Hp))) as [(Eb' & _)|[(Eb' & _)|(_ & Ea & _)]]; congruence. }
      destruct (s_nodes t p) as [[e2 h2]|] eqn:Ep.
      2:{ congruence. }
      rewrite (get_node_ok t p (e2, h2)) by (auto; rewrite C; exact Hp). cbn [bind].
      destruct (exchange_ok t i p e h e2 h2 tr (Build_rd_inv s t tr M C S Nd Out Pl Perm Rp) Hi Hp Hpi Hdel Epd Ei Ep Hfirst) as (t2 & Et2 & Inv2 & Hm1 & Hm2).
      rewrite C in Et2. fold cap in Et2. rewrite Et2. cbn [bind].
      destruct (IH t2 i (tr ++ [EvSwap i p]) Inv2 Hi) as (t' & tr' & Et & Inv & Hd1 & Hd2).
      * rewrite Hm2 by (exact Hi || auto). exact Hdel.
      * assert (cnt (fun j => s_meta t j =? m_deleted) cap = cnt (fun j => s_meta t2 j =? m_deleted) cap + 1); [|lia].
        apply cnt_flip with p; [exact Hp| | |].
        -- intros j Hj Hjp. rewrite Hm2 by lia. reflexivity.
        -- rewrite Hm1. pose proof (h2_not_deleted h). lia.
        -- lia.
      * rewrite Et. exists t', tr'. split; [reflexivity|]. split; [exact Inv|]. split; [exact Hd1|].
        intros j Hj Hd. apply Hd2; [exact Hj|]. destruct (Z.eq_dec j p) as [->|Hjp]; [congruence|].
        rewrite Hm2 by lia. exact Hd.
Qed.

End Relocate.

(** Every occupied slot is marked deleted, every other one empty. *)
Lemma reset_phase_ok : forall s, wf1 s -> W < s_cap s ->
  exists s1 s2 s3, foldM (reset_block f) (zrange ((s_cap s + W - 1) / W)) s = Ok s1 /\ copy_tail f s1 = Ok s2 /\ put_meta f s2 (s_cap s) m_sentinel = Ok s3 /\ rd_inv s s3 [].
Proof.
  intros s H HWc. pose proof (w_m _ _ _ _ s H) as M. pose proof (w_n _ _ _ _ s H) as N.
  pose proof (W_pos f) as HWp. pose proof (cap_bounds f s M) as Hcb. pose proof (mw_cap f s M) as Hgc.
  set (cap := s_cap s) in *.
  destruct (good_cap_split f cap Hgc) as [(H1 & H2 & H3) | (H1 & H2 & m & Hm & E1 & E2)]; [lia|].
  assert (Hnb : (cap + W - 1) / W * W = cap + 1).
  { replace (cap + W - 1) with (2 ^ m * W + (W - 2)) by lia.
    rewrite Z.div_add_l by lia. rewrite (Z.div_small (W - 2)) by lia. lia. }
  destruct (reset_blocks_ok s ((cap + W - 1) / W) M) as (s1 & Ee1 & (B1 & C1 & N1 & S1 & Ne1) & Hm1).
  { apply Z.div_pos; lia. } { fold cap. lia. }
  fold cap in Hm1. rewrite Hnb in Hm1. fold cap in C1.
  destruct (copy_tail_ok s1) as (s2 & Ee2 & (B2 & C2 & N2 & S2 & Ne2) & Hm2).
  { rewrite B1. apply (mw_buf f s M). } { lia. }
  rewrite C1 in Hm2, C2.
  assert (B2' : s_buf s2 = Live) by (rewrite B2, B1; apply (mw_buf f s M)).
  exists s1, s2. rewrite put_meta_ok by (auto; lia). eexists. split; [exact Ee1|]. split; [exact Ee2|]. split; [reflexivity|].
  set (s3 := mk _ _ _ _ _ _).
  assert (Hm3 : forall q, 0 <= q < cap -> s_meta s3 q = reset_byte (s_meta s q)).
  { intros q Hq. cbn [s3 s_meta]. rewrite upd_other by lia. rewrite Hm2.
    destruct (Z.leb_spec (cap + 1) q); [lia|]. cbn [andb]. rewrite Hm1.
    destruct (Z.leb_spec 0 q), (Z.ltb_spec q (cap + 1)); try lia. reflexivity. }
  assert (Hrb : forall q, 0 <= q < cap -> reset_byte (s_meta s q) = if s_nodes s q then m_deleted else m_empty).
  { intros q Hq. unfold reset_byte. rewrite (ncons_occ key_of hash s q N Hq).
    destruct (s_nodes s q); reflexivity. }
  constructor; fold cap.
    - constructor; cbn [s3 s_buf s_cap s_meta]; rewrite ?C2.
      + exact B2'.
      + exact Hgc.
      + intros i Hi. pose proof (Hm3 i Hi) as Hm3i. cbn [s3 s_meta] in Hm3i. rewrite Hm3i. unfold reset_byte.
        destruct (is_occupied (s_meta s i)); [right; left; reflexivity|left; reflexivity].
      + apply upd_same.
      + intros j Hj. destruct (Z.ltb_spec j cap); [|lia].
        pose proof (Hm3 j ltac:(lia)) as Hm3j. cbn [s3 s_meta] in Hm3j. rewrite Hm3j.
        rewrite upd_other by lia. rewrite Hm2.
        destruct (Z.leb_spec (cap + 1) (cap + 1 + j)), (Z.ltb_spec (cap + 1 + j) (cap + W)); try lia. cbn [andb].
        replace (cap + 1 + j - (cap + 1)) with j by lia. rewrite Hm1.
        destruct (Z.leb_spec 0 j), (Z.ltb_spec j (cap + 1)); try lia. reflexivity.
    - exact C2.
    - cbn [s3 s_size]. congruence.
    - intros j Hj. rewrite Hm3, Hrb by exact Hj. cbn [s3 s_nodes]. rewrite N2, N1.
      destruct N as [Na _]. specialize (Na j Hj). destruct (s_nodes s j) as [[e h]|]; [|reflexivity].
      split; [apply Na|right; reflexivity].
    - intros j Hj. cbn [s3 s_nodes]. rewrite N2, N1. apply N. exact Hj.
    - intros j e h Ej Em q Hq Hv. cbn [s3 s_nodes] in Ej. rewrite N2, N1 in Ej.
      assert (Hj : 0 <= j < cap).
      { destruct (Z_le_dec 0 j), (Z_lt_dec j cap); try lia; rewrite (proj2 N) in Ej by (fold cap; lia); discriminate. }
      rewrite Hm3, Hrb, Ej in Em by exact Hj. exfalso. symmetry in Em. eapply h2_not_deleted; exact Em.
    - cbn [s3 s_nodes]. rewrite N2, N1. reflexivity.
    - cbn [s3 s_nodes]. rewrite N2, N1. constructor.
Qed.

Hypothesis KL : key_laws hash keq.

Lemma rehash_deleted_ok : forall s, wf1 s -> W < s_cap s -> s_size s * 32 <= s_cap s * 25 ->
  exists s' tr, rehash_deleted f s = Ok (s', tr) /\ wf1 s' /\ s_cap s' = s_cap s /\
    Permutation (elems s') (elems s) /\ s_size s' = s_size s /\
    s_nempty s' = capacity_to_max_size f (s_cap s) - s_size s /\ 0 < s_nempty s' /\
    (forall j, 0 <= j < s_cap s -> s_meta s' j <> m_deleted) /\
    replay (s_cap s) (s_nodes s) tr (s_nodes s').
Proof.
  intros s H HWc Hld. pose proof (w_m _ _ _ _ s H) as M. pose proof (w_n _ _ _ _ s H) as N.
  pose proof (W_pos f) as HWp. pose proof (cap_bounds f s M) as Hcb. pose proof (mw_cap f s M) as Hgc.
  pose proof (wf1_size_max f key_of hash keq s H) as Hszm.
  set (cap := s_cap s) in *.
  destruct (good_cap_split f cap Hgc) as [(H1 & H2 & H3) | (H1 & H2 & m & Hm & E1 & E2)]; [lia|].
  unfold rehash_deleted. destruct (reset_phase_ok s H HWc) as (s1 & s2 & s3 & -> & Ee2 & Ee3 & Inv0). cbn [bind]. rewrite Ee2. cbn [bind]. rewrite Ee3. cbn [bind]. fold cap.
  destruct (foldM_zrange_inv _ (relocate_step f)
     (fun i acc => rd_inv s (fst acc) (snd acc) /\ forall j, 0 <= j < i -> s_meta (fst acc) j <> m_deleted) cap (s3, []))
    as ([t tr] & -> & Inv & Hnd).
  - lia.
  - split; [exact Inv0|]. intros j Hj. lia.
  - intros i [t tr] Hi [Inv Hd]. cbn [fst snd] in *. unfold relocate_step.
    pose proof (rd_m _ _ _ Inv) as Mt. pose proof (rd_cap _ _ _ Inv) as Ct. fold cap in Ct.
    rewrite get_meta_ok by ((apply (mw_buf f t Mt)) || lia). cbn [bind].
    destruct (Z.eqb_spec (s_meta t i) m_deleted) as [Em|Em].
    + destruct (process_node_ok s H1 (S (Z.to_nat (s_cap t))) t i tr Inv Hi Em) as (t' & tr' & -> & Inv' & Hd1 & Hd2).
      { fold cap. rewrite Ct. pose proof (cnt_bounds (fun j => s_meta t j =? m_deleted) cap ltac:(lia)). lia. }
      eexists. split; [reflexivity|]. cbn [fst snd]. split; [exact Inv'|].
      intros j Hj. destruct (Z.eq_dec j i) as [->|]; [exact Hd1|]. apply Hd2; [fold cap; lia|]. apply Hd. lia.
    + eexists. split; [reflexivity|]. cbn [fst snd]. split; [exact Inv|].
      intros j Hj. destruct (Z.eq_dec j i) as [->|]; [exact Em|]. apply Hd. lia.
  - cbn [bind fst snd] in *. eexists. eexists. split; [reflexivity|].
    destruct Inv as [Mt Ct St Nd Out Pl Perm Rp]. fold cap in Ct, Nd, Out, Pl, Perm.
    assert (Hmax : s_size s < capacity_to_max_size f cap).
    { unfold capacity_to_max_size.
      assert (Hc8 : cap = 8 * (cap / 8) + cap mod 8 /\ 0 <= cap mod 8 < 8).
      { split; [apply Z.div_mod; lia|apply Z.mod_pos_bound; lia]. }
      destruct (W =? 8); [destruct (Z.eqb_spec cap 7)|]; lia. }
    pose proof (max_size_bounds f cap ltac:(lia)) as Hmb.
    rewrite sub64_small by (rewrite two64_val; lia).
    assert (Nt : ncons t).
    { split; rewrite Ct; [|exact Out]. intros j Hj. specialize (Nd j Hj). destruct (s_nodes t j) as [[e h]|].
      - destruct Nd as [Eh [Em|Em]]; [auto|]. exfalso. exact (Hnd j Hj Em).
      - rewrite Nd. reflexivity. }
    assert (Hpe : Permutation (elems t) (elems s)).
    { unfold elems. rewrite Ct. apply Permutation_map. exact Perm. }
    assert (Hocc : n_occ t = s_size s).
    { rewrite <- (elems_length key_of hash t Nt) by lia. rewrite (Permutation_length Hpe).
      apply (wf1_elems_length f key_of hash keq). exact H. }
    split; [|split; [exact Ct|split; [exact Hpe|split; [exact St|split; [reflexivity|split; [cbn [set_nempty s_nempty]; lia|split; [exact Hnd|exact Rp]]]]]]].
    constructor; cbn [set_nempty s_size s_nempty s_cap].
    + eapply mwf_ext; [..|exact Mt]; reflexivity.
    + exact Nt.
    + apply (distinct_uniq key_of hash keq); [exact KL|cbn [set_nempty s_cap]; lia|apply Nt|].
      eapply distinct_perm; [exact KL|apply Permutation_sym, Hpe|].
      apply (distinct_uniq key_of hash keq); [exact KL|lia|apply N|apply H].
    + intros i e h Ei j Hj Hv. cbn [set_nempty s_cap s_nodes s_meta] in *. rewrite Ct in *.
      assert (Hi : 0 <= i < cap).
      { destruct (Z_le_dec 0 i), (Z_lt_dec i cap); try lia; rewrite Out in Ei by lia; discriminate. }
      pose proof (Nd i Hi) as Ndi. rewrite Ei in Ndi. destruct Ndi as [_ [Em|Em]]; [|exfalso; exact (Hnd i Hi Em)].
      pose proof (Pl i e h Ei Em j Hj Hv) as Hna. intros Ee. rewrite Ee in Hna. discriminate.
    + change (n_occ (set_nempty t (capacity_to_max_size f cap - s_size s))) with (n_occ t). congruence.
    + change (n_emp (set_nempty t (capacity_to_max_size f cap - s_size s))) with (n_emp t).
      pose proof (count_split f t Mt) as Hs. rewrite (cnt_ext _ (fun _ => false)) in Hs.
      * rewrite Ct in *. assert (cnt (fun _ => false) cap = 0) as Hz; [|lia].
        { pose proof (cnt_bounds (fun _ : Z => false) cap ltac:(lia)).
          destruct (Z.eq_dec (cnt (fun _ : Z => false) cap) 0); [assumption|].
          destruct (cnt_pos (fun _ => false) cap) as (? & _ & ?); [lia|discriminate]. }
      * intros i Hi. pose proof (Hnd i ltac:(lia)). lia.
    + lia.
Qed.

End Swiss.
