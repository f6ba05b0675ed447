(** The number of elements the unordered open-addressing table moves. *)
From Coq Require Import ZArith List Bool Lia Permutation.
From Coq Require Import ZifyBool ZifyNat.
From Verif Require Import Base BaseLemmas Bits BitsProofs SwissModel SwissArith SwissCap SwissInv SwissOps SwissClean
  SwissIter SwissRoom MapSpec SwissRun SwissRefine BoundsSpec SwissBounds PlaceSpec SwissPlace CostSpec.
Import ListNotations.
Open Scope Z_scope.

Lemma moves_app : forall a b, moves (a ++ b) = moves a + moves b.
Proof. induction a as [|x a IH]; intros b; cbn [app moves fold_right]; [reflexivity|]. fold (moves (a ++ b)). fold (moves a). rewrite IH. lia. Qed.

Section Cost.
Context {E K : Type}.
Variable f : simd.
Variable key_of : E -> K.
Variable hash : K -> Z.
Variable keq : K -> K -> bool.
Local Notation swiss := (@swiss E).
Local Notation wf1 := (wf1 f key_of hash keq).
Local Notation wf := (wf f key_of hash keq).
Local Notation mwf := (mwf f).
Local Notation W := (SwissModel.W f).
Local Notation max_of := (capacity_to_max_size f).
Hypothesis KL : key_laws hash keq.

(** ** Reclaiming erased slots. *)
(** Slots marked deleted. *)
Definition pend (t : swiss) : Z := cnt (fun j => s_meta t j =? m_deleted) (s_cap t).

Lemma pend_set : forall (t t' : swiss) i v, mwf t -> 0 <= i < s_cap t -> node_byte v -> set_metadata f t i v = Ok t' ->
  mwf t' /\ s_cap t' = s_cap t /\ s_meta t' i = v /\ (forall j, 0 <= j < s_cap t -> j <> i -> s_meta t' j = s_meta t j) /\
  pend t' = pend t + (if v =? m_deleted then 1 else 0) - (if s_meta t i =? m_deleted then 1 else 0).
Proof.
  intros t t' i v M Hi Hv E0. destruct (set_metadata_ok f t i v M Hi Hv) as (t1 & E1 & M1 & (_ & C1 & _) & Hm1 & Hm2).
  rewrite E0 in E1. injection E1 as <-. split; [exact M1|]. split; [exact C1|]. split; [exact Hm1|].
  assert (Ho : forall j, 0 <= j < s_cap t -> j <> i -> s_meta t' j = s_meta t j) by (intros j Hj Hji; apply Hm2; lia).
  split; [exact Ho|]. unfold pend. rewrite C1.
  destruct (Z.eqb_spec v m_deleted) as [Hd|Hd], (Z.eqb_spec (s_meta t i) m_deleted) as [Hd'|Hd'].
  - rewrite (cnt_ext (fun j => s_meta t' j =? m_deleted) (fun j => s_meta t j =? m_deleted)); [lia|].
    intros j Hj. destruct (Z.eq_dec j i) as [->|Hji]; [rewrite Hm1; congruence|rewrite Ho by assumption; reflexivity].
  - rewrite (cnt_flip (fun j => s_meta t j =? m_deleted) (fun j => s_meta t' j =? m_deleted) i (s_cap t) Hi); [lia| | |].
    + intros j Hj Hji. rewrite Ho by assumption. reflexivity.
    + lia.
    + rewrite Hm1. lia.
  - rewrite (cnt_flip (fun j => s_meta t' j =? m_deleted) (fun j => s_meta t j =? m_deleted) i (s_cap t) Hi); [lia| | |].
    + intros j Hj Hji. rewrite Ho by assumption. reflexivity.
    + rewrite Hm1. lia.
    + lia.
  - rewrite (cnt_ext (fun j => s_meta t' j =? m_deleted) (fun j => s_meta t j =? m_deleted)); [lia|].
    intros j Hj. destruct (Z.eq_dec j i) as [->|Hji]; [rewrite Hm1; lia|rewrite Ho by assumption; reflexivity].
Qed.

Lemma process_node_moves : forall fuel (t t' : swiss) i tr tr', mwf t -> 0 <= i < s_cap t -> s_meta t i = m_deleted ->
  process_node f fuel t i tr = Ok (t', tr') -> mwf t' /\ s_cap t' = s_cap t /\ moves tr' + 2 * pend t' <= moves tr + 2 * pend t.
Proof.
  induction fuel as [|fuel IH]; intros t t' i tr tr' M Hi Hd E0; [discriminate|]. cbn [process_node] in E0.
  destruct (get_node t i) as [n|] eqn:En; [|discriminate]. cbn [bind] in E0.
  assert (Hav : exists j, 0 <= j < s_cap t /\ is_available (s_meta t j) = true).
  { exists i. split; [exact Hi|]. rewrite Hd. reflexivity. }
  destruct (find_available_ok f t M (snd n) (fun _ => Hav)) as (p & Ep & Hsp). rewrite Ep in E0. cbn [bind] in E0.
  assert (Hp : 0 <= p < s_cap t /\ is_available (s_meta t p) = true).
  { unfold avail_spec in Hsp. destruct Hsp as [Hsp|(_ & _ & Hall)]; [split; apply Hsp|]. exfalso.
    destruct Hav as (j & Hj & Ej). rewrite Hall in Ej by exact Hj. discriminate. }
  destruct Hp as [Hp Hpa].
  assert (Hh2 : (h2_of (snd n) =? m_deleted) = false) by (pose proof (h2_not_deleted (snd n)); lia).
  destruct (Z.eqb_spec (block_idx f (s_cap t) (snd n) p) (block_idx f (s_cap t) (snd n) i)) as [Eb|Eb].
  - destruct (set_metadata f t i _) as [s1|] eqn:E1; [|discriminate]. cbn [bind] in E0. injection E0 as <- <-.
    destruct (pend_set t s1 i _ M Hi (node_byte_h2 _) E1) as (M1 & C1 & _ & _ & P1). rewrite Hh2 in P1.
    split; [exact M1|]. split; [exact C1|]. rewrite Hd in P1. rewrite Z.eqb_refl in P1. lia.
  - assert (Hpi : p <> i) by congruence.
    destruct (get_meta f t p) as [tm|] eqn:Et; [|discriminate]. cbn [bind] in E0.
    rewrite get_meta_ok in Et by ((apply (mw_buf f t M)) || (pose proof (W_pos f); lia)). injection Et as <-.
    destruct (Z.eqb_spec (s_meta t p) m_empty) as [Ee|Ee].
    + destruct (put_node t p n) as [s1|] eqn:E1; [|discriminate]. cbn [bind] in E0.
      destruct (kill_node s1 i) as [s2|] eqn:E2; [|discriminate]. cbn [bind] in E0.
      assert (X : s_buf s2 = s_buf t /\ s_cap s2 = s_cap t /\ s_meta s2 = s_meta t).
      { unfold put_node in E1. destruct (check_buf t); [|discriminate]. cbn [bind] in E1. destruct (guard _ _); [|discriminate]. cbn [bind] in E1.
        destruct (s_nodes t p); [discriminate|]. unfold kill_node in E2. destruct (get_node s1 i); [|discriminate]. cbn [bind] in E2. injection E2 as <-. injection E1 as <-. auto. }
      destruct X as (B2 & C2 & M2'). pose proof (mwf_ext f t s2 B2 C2 M2' M) as M2.
      assert (P2 : pend s2 = pend t) by (unfold pend; rewrite C2, M2'; reflexivity).
      destruct (set_metadata f s2 i _) as [s3|] eqn:E3; [|discriminate]. cbn [bind] in E0.
      destruct (set_metadata f s3 p _) as [s4|] eqn:E4; [|discriminate]. cbn [bind] in E0. injection E0 as <- <-.
      destruct (pend_set s2 s3 i _ M2 ltac:(lia) (or_introl eq_refl) E3) as (M3 & C3 & _ & O3 & P3).
      destruct (pend_set s3 s4 p _ M3 ltac:(lia) (node_byte_h2 _) E4) as (M4 & C4 & _ & _ & P4). rewrite Hh2 in P4.
      rewrite (O3 p ltac:(lia) Hpi), M2', Ee in P4. rewrite M2', Hd in P3.
      change (m_empty =? m_deleted) with false in *. rewrite Z.eqb_refl in P3.
      cbv iota in P4. split; [exact M4|]. split; [lia|]. rewrite moves_app. cbn [moves fold_right ev_moves]. lia.
    + assert (Epd : s_meta t p = m_deleted).
      { destruct (node_byte_cases _ (mw_bytes f t M p Hp)) as [(Eb' & _)|[(Eb' & _)|(_ & Ea & _)]]; congruence. }
      destruct (get_node t p) as [n2|]; [|discriminate]. cbn [bind] in E0. cbv zeta in E0.
      set (t1 := mk _ _ _ _ _ _) in E0.
      assert (M1 : mwf t1) by (eapply mwf_ext; [..|exact M]; reflexivity).
      destruct (set_metadata f t1 p _) as [s2|] eqn:E2; [|discriminate]. cbn [bind] in E0.
      destruct (pend_set t1 s2 p _ M1 Hp (node_byte_h2 _) E2) as (M2 & C2 & _ & O2 & P2). rewrite Hh2 in P2.
      change (s_meta t1) with (s_meta t) in *. change (pend t1) with (pend t) in P2. change (s_cap t1) with (s_cap t) in *. rewrite Epd in P2.
      rewrite Z.eqb_refl in P2.
      destruct (IH s2 t' i _ tr' M2 ltac:(lia) ltac:(rewrite O2 by auto; exact Hd) E0) as (M' & C' & Hle).
      split; [exact M'|]. split; [lia|]. rewrite moves_app in Hle. cbn [moves fold_right ev_moves] in Hle. lia.
Qed.

Lemma relocate_moves : forall l (acc acc' : swiss * list ev), mwf (fst acc) -> (forall i, In i l -> 0 <= i < s_cap (fst acc)) ->
  foldM (relocate_step f) l acc = Ok acc' -> moves (snd acc') + 2 * pend (fst acc') <= moves (snd acc) + 2 * pend (fst acc).
Proof.
  induction l as [|i l IH]; intros acc acc' M Hl E0; cbn [foldM] in E0; [injection E0 as <-; lia|].
  destruct (relocate_step f acc i) as [a1|] eqn:E1; [|discriminate]. cbn [bind] in E0. destruct acc as [t tr]. cbn [fst snd] in *.
  unfold relocate_step in E1. pose proof (Hl i (or_introl eq_refl)) as Hi.
  rewrite get_meta_ok in E1 by ((apply (mw_buf f t M)) || (pose proof (W_pos f); lia)). cbn [bind] in E1.
  destruct (Z.eqb_spec (s_meta t i) m_deleted) as [Em|Em].
  - destruct a1 as [t1 tr1]. destruct (process_node_moves _ _ _ _ _ _ M Hi Em E1) as (M1 & C1 & Hle).
    pose proof (IH (t1, tr1) acc' M1 ltac:(intros j Hj; cbn [fst]; rewrite C1; apply Hl; right; exact Hj) E0). cbn [fst snd] in *. lia.
  - injection E1 as <-. apply (IH (t, tr) acc' M); [|exact E0]. intros j Hj. apply Hl. right. exact Hj.
Qed.

Lemma rehash_deleted_moves : forall (s s' : swiss) tr, wf1 s -> W < s_cap s -> rehash_deleted f s = Ok (s', tr) -> moves tr <= 2 * s_size s.
Proof.
  intros s s' tr H HWc E0. pose proof (w_m _ _ _ _ s H) as M. pose proof (w_n _ _ _ _ s H) as N.
  pose proof (W_pos f) as HWp. pose proof (cap_bounds f s M) as Hcb. pose proof (mw_cap f s M) as Hgc.
  set (cap := s_cap s) in *.
  destruct (good_cap_split f cap Hgc) as [(H1 & H2 & H3) | (H1 & H2 & m & Hm & E1 & E2)]; [lia|].
  assert (Hnb : (cap + W - 1) / W * W = cap + 1).
  { replace (cap + W - 1) with (2 ^ m * W + (W - 2)) by lia.
    rewrite Z.div_add_l by lia. rewrite (Z.div_small (W - 2)) by lia. lia. }
  unfold rehash_deleted in E0. fold cap in E0.
  destruct (reset_blocks_ok f s ((cap + W - 1) / W) M) as (s1 & E3 & (B1 & C1 & N1 & S1 & Ne1) & Hm1).
  { apply Z.div_pos; lia. } { fold cap. lia. }
  rewrite E3 in E0. cbn [bind] in E0. fold cap in Hm1. rewrite Hnb in Hm1. fold cap in C1.
  destruct (copy_tail_ok f s1) as (s2 & E4 & (B2 & C2 & N2 & S2 & Ne2) & Hm2).
  { rewrite B1. apply (mw_buf f s M). } { lia. }
  rewrite E4 in E0. cbn [bind] in E0. rewrite C1 in Hm2, C2.
  assert (B2' : s_buf s2 = Live) by (rewrite B2, B1; apply (mw_buf f s M)).
  rewrite put_meta_ok in E0 by (auto; lia). cbn [bind] in E0.
  set (s3 := mk _ _ _ _ _ _) in E0.
  assert (Hm3 : forall q, 0 <= q < cap -> s_meta s3 q = reset_byte (s_meta s q)).
  { intros q Hq. cbn [s3 s_meta]. rewrite upd_other by lia. rewrite Hm2.
    destruct (Z.leb_spec (cap + 1) q); [lia|]. cbn [andb]. rewrite Hm1.
    destruct (Z.leb_spec 0 q), (Z.ltb_spec q (cap + 1)); try lia. reflexivity. }
  assert (M3 : mwf s3).
  { constructor; cbn [s3 s_buf s_cap s_meta]; rewrite ?C2.
    + exact B2'.
    + exact Hgc.
    + intros i Hi. pose proof (Hm3 i Hi) as Hm3i. cbn [s3 s_meta] in Hm3i. rewrite Hm3i. unfold reset_byte.
      destruct (is_occupied (s_meta s i)); [right; left; reflexivity|left; reflexivity].
    + apply upd_same.
    + intros j Hj. destruct (Z.ltb_spec j cap); [|lia].
      pose proof (Hm3 j ltac:(lia)) as Hm3j. cbn [s3 s_meta] in Hm3j. rewrite Hm3j.
      rewrite upd_other by lia. rewrite Hm2.
      destruct (Z.leb_spec (cap + 1) (cap + 1 + j)), (Z.ltb_spec (cap + 1 + j) (cap + W)); try lia. cbn [andb].
      replace (cap + 1 + j - (cap + 1)) with j by lia. rewrite Hm1.
      destruct (Z.leb_spec 0 j), (Z.ltb_spec j (cap + 1)); try lia. reflexivity. }
  destruct (foldM (relocate_step f) (zrange cap) (s3, [])) as [[t tr1]|] eqn:E5; [|discriminate]. cbn [bind] in E0. injection E0 as _ <-.
  pose proof (relocate_moves (zrange cap) (s3, []) (t, tr1) M3) as Hr. cbn [fst snd moves fold_right] in Hr.
  specialize (Hr ltac:(intros i Hi; apply zrange_In in Hi; cbn [s3 s_cap]; rewrite C2; lia) E5).
  assert (Hpt : 0 <= pend t) by (unfold pend, cnt; lia).
  assert (Hp3 : pend s3 = s_size s); [|unfold moves in *; cbn [fold_right] in Hr; lia].
  rewrite (w_size _ _ _ _ s H). unfold pend, n_occ. cbn [s3 s_cap]. rewrite C2. fold cap. apply cnt_ext. intros q Hq. fold s3. rewrite (Hm3 q Hq). unfold reset_byte.
  destruct (is_occupied (s_meta s q)); reflexivity.
Qed.

(** ** Rehashing. *)
Lemma rehash_step_len : forall (s : swiss) l acc acc', foldM (rehash_step f s) l acc = Ok acc' -> (length (snd acc') <= length (snd acc) + length l)%nat.
Proof.
  intros s. induction l as [|i l IH]; intros acc acc' E0; cbn [foldM] in E0; [injection E0 as <-; cbn [length]; lia|].
  destruct (rehash_step f s acc i) as [a1|] eqn:E1; [|discriminate]. cbn [bind] in E0. specialize (IH _ _ E0). cbn [length].
  assert ((length (snd a1) <= length (snd acc) + 1)%nat); [|lia]. destruct acc as [t mv]. cbn [snd]. unfold rehash_step in E1.
  destruct (get_meta f s i) as [b|]; [|discriminate]. cbn [bind] in E1. destruct (is_occupied b); [|injection E1 as <-; cbn [snd]; lia].
  destruct (get_node s i) as [n|]; [|discriminate]. cbn [bind] in E1. destruct (find_available f t (snd n)) as [p|]; [|discriminate]. cbn [bind] in E1.
  destruct (put_node t p n) as [t1|]; [|discriminate]. cbn [bind] in E1. destruct (set_metadata f t1 p _) as [t2|]; [|discriminate]. cbn [bind] in E1.
  injection E1 as <-. cbn [snd]. rewrite app_length. cbn [length]. lia.
Qed.
Lemma do_rehash_moves : forall lim (s s' : swiss) c tr, 0 <= s_cap s -> do_rehash f lim s c = Ok (s', Some tr) -> moves tr <= s_cap s.
Proof.
  intros lim s s' c tr Hc E0. unfold do_rehash in E0. destruct (lim <? c); [discriminate|]. cbv zeta in E0.
  destruct (c =? 0); cbn [bind] in E0; [injection E0 as _ <-; cbn [moves fold_right ev_moves length]; lia|].
  destruct (foldM (rehash_step f s) (zrange (s_cap s)) _) as [[t mv]|] eqn:E1; [|discriminate]. cbn [bind] in E0. injection E0 as _ <-.
  apply rehash_step_len in E1. cbn [snd length] in E1. rewrite zrange_length in E1. cbn [moves fold_right ev_moves]. lia.
Qed.

(** ** The slots used up since the last rebuild, weighted, pay for the next one. *)
Variable rep : E -> E -> E.
Hypothesis Hrep : forall a b, keq (key_of a) (key_of b) = true -> key_of (rep a b) = key_of a.
Local Notation exec := (exec f key_of hash keq rep).
Local Notation run := (run f key_of hash keq rep).
Local Notation moved := (moved f key_of hash keq).
Local Notation moved_by := (moved_by f key_of hash keq rep).

Definition credit (s : swiss) : Z := if s_cap s =? 0 then 0 else 17 * (max_of (s_cap s) - s_nempty s) - s_cap s.
Lemma credit_some : forall s, s_cap s <> 0 -> credit s = 17 * (max_of (s_cap s) - s_nempty s) - s_cap s.
Proof. intros s H. unfold credit. destruct (Z.eqb_spec (s_cap s) 0); [contradiction|reflexivity]. Qed.

Lemma make_room_moves : forall lim (s s1 : swiss) h o, wf s -> lim < 2 ^ 59 -> make_room f lim s h = Ok (s1, o) ->
  match o with
  | None => s1 = s
  | Some (p, tr) => wf1 s1 /\ s_size s1 = s_size s /\ moves tr + credit s1 <= credit s
  end.
Proof.
  intros lim s s1 h o H Hl E0.
  destruct (make_room_ok f key_of hash keq KL lim s h H Hl) as (s1' & o' & E0' & Hok & _). rewrite E0 in E0'. injection E0' as <- <-.
  destruct o as [[p tr]|]; [|apply Hok]. destruct Hok as (W1 & _ & S1 & _). split; [exact W1|]. split; [exact S1|].
  pose proof (cap_bounds f s1 (w_m _ _ _ _ s1 W1)). rewrite (credit_some s1) by lia. clear S1 W1.
  pose proof (wf_size f key_of hash keq s H) as [Hsz Hszm]. unfold make_room in E0.
  destruct (Z.eqb_spec (s_cap s) 0) as [C0|C0].
  - unfold credit. rewrite C0. cbn [Z.eqb]. assert (Hz : max_of 0 = 0) by (pose proof (max_size_bounds f 0 ltac:(lia)); lia). rewrite ?C0, Hz in *.
    destruct (do_rehash f lim s 1) as [[s2 o2]|] eqn:E2; [|discriminate]. cbn [bind] in E0. destruct o2 as [tr2|]; [|discriminate].
    destruct (find_available f s2 h); [|discriminate]. cbn [bind] in E0. injection E0 as <- _ <-.
    pose proof (do_rehash_moves lim s s2 1 tr2 ltac:(lia) E2) as Hm. rewrite C0 in Hm.
    pose proof (max_size_pos f 1 good_cap_1).
    destruct (do_rehash_resized f key_of hash keq KL lim s 1 H Hl ltac:(intros; split; [exact good_cap_1|lia])) as (s3 & o3 & E3 & _ & Hs & _).
    rewrite E2 in E3. injection E3 as <- <-. destruct (Hs ltac:(discriminate)) as [-> ->]. lia.
  - assert (H1 : wf1 s) by (destruct H as [H|H]; [destruct C0; apply (w0_cap s H)|exact H]).
    pose proof (w_m _ _ _ _ s H1) as M. pose proof (cap_bounds f s M) as Hcb. pose proof (wf1_nempty f key_of hash keq s H1) as Hne.
    rewrite (credit_some s) by lia.
    destruct (find_available f s h) as [q|]; [|discriminate]. cbn [bind] in E0.
    destruct (get_meta f s q) as [tm|]; [|discriminate]. cbn [bind] in E0.
    destruct ((s_nempty s =? 0) && negb (tm =? m_deleted)) eqn:Eb; [|injection E0 as <- _ <-; cbn [moves fold_right]; lia].
    rewrite (mul64_small (s_size s)), (mul64_small (s_cap s)) in E0 by (pose proof (max_size_bounds f (s_cap s) ltac:(lia)); rewrite two64_val; lia).
    destruct ((W <? s_cap s) && (s_size s * 32 <=? s_cap s * 25)) eqn:Ec.
    + destruct (rehash_deleted_ok f key_of hash keq KL s H1 ltac:(lia) ltac:(lia)) as (s2 & tr2 & E2 & _ & C2 & _ & S2 & N2 & _).
      rewrite E2 in E0. cbn [bind fst snd] in E0. destruct (find_available f s2 h); [|discriminate]. cbn [bind] in E0. injection E0 as <- _ <-.
      pose proof (rehash_deleted_moves s s2 tr2 H1 ltac:(lia) E2) as Hm. rewrite C2, N2.
      assert (Hmax : 7 * s_cap s <= 8 * max_of (s_cap s)).
      { unfold capacity_to_max_size. pose proof (Z.mul_div_le (s_cap s) 8 ltac:(lia)).
        destruct (Z.eqb_spec W 8) as [HW|]; [destruct (Z.eqb_spec (s_cap s) 7)|]; try lia. }
      lia.
    + assert (Eq : sub64 (mul64 (add64 (s_cap s) 1) 2) 1 = 2 * s_cap s + 1).
      { rewrite add64_small, mul64_small, sub64_small by (rewrite ?two64_val; lia). lia. }
      rewrite Eq in E0.
      destruct (do_rehash f lim s (2 * s_cap s + 1)) as [[s2 o2]|] eqn:E2; [|discriminate]. cbn [bind] in E0. destruct o2 as [tr2|]; [|discriminate].
      destruct (find_available f s2 h); [|discriminate]. cbn [bind] in E0. injection E0 as <- _ <-.
      pose proof (do_rehash_moves lim s s2 (2 * s_cap s + 1) tr2 ltac:(lia) E2) as Hm.
      destruct (do_rehash_resized f key_of hash keq KL lim s (2 * s_cap s + 1) H Hl) as (s3 & o3 & E3 & _ & Hs & _).
      { intros Hlt. destruct (good_cap_double (s_cap s) (mw_cap f s M) ltac:(lia)) as [_ Hg].
        pose proof (max_size_double f (s_cap s) (mw_cap f s M)). split; [exact Hg|lia]. }
      rewrite E2 in E3. injection E3 as <- <-. destruct (Hs ltac:(discriminate)) as [-> ->]. lia.
Qed.

Lemma emplace_cost : forall lim ok (s s' : swiss) h e o, wf s -> lim < 2 ^ 59 -> emplace_node f lim ok s h e = Ok (s', o) ->
  match make_room f lim s h with Ok (_, Some (_, tr)) => moves tr | _ => 0 end + credit s' <= credit s + 17 /\ s_size s' <= s_size s + 1.
Proof.
  intros lim ok s s' h e o H Hl E0. unfold emplace_node in E0.
  destruct (make_room f lim s h) as [[s1 o1]|] eqn:E1; [|discriminate]. cbn [bind] in E0.
  pose proof (make_room_moves _ _ _ _ _ H Hl E1) as Hm. destruct o1 as [[p tr]|].
  - destruct Hm as (W1 & S1 & Hm). destruct ok; cbn [negb] in E0; [|injection E0 as <- <-; lia].
    destruct (put_node s1 p (e, h)) as [s2|] eqn:E2; [|discriminate]. cbn [bind] in E0.
    destruct (get_meta f s2 p) as [tm|]; [|discriminate]. cbn [bind] in E0. cbv zeta in E0.
    destruct (set_metadata f _ p _) as [s4|] eqn:E4; [|discriminate]. cbn [bind] in E0. injection E0 as <- <-.
    destruct (set_metadata_nodes _ _ _ _ _ E4) as [_ M4]. destruct (set_metadata_cap _ _ _ _ _ E4) as [C4 S4].
    assert (X : s_cap s2 = s_cap s1 /\ s_size s2 = s_size s1 /\ s_nempty s2 = s_nempty s1).
    { unfold put_node in E2. destruct (check_buf s1); [|discriminate]. cbn [bind] in E2. destruct (guard _ _); [|discriminate]. cbn [bind] in E2.
      destruct (s_nodes s1 p); [discriminate|]. injection E2 as <-. auto. }
    destruct X as (C2 & S2 & N2).
    pose proof (wf1_nempty f key_of hash keq s1 W1) as Hne. pose proof (wf1_size_max f key_of hash keq s1 W1) as Hs1.
    pose proof (cap_bounds f s1 (w_m _ _ _ _ s1 W1)) as Hcb. pose proof (max_size_bounds f (s_cap s1) ltac:(lia)) as Hmx.
    rewrite (credit_some s1) in Hm by lia. rewrite credit_some by (cbn [s_cap set_size]; rewrite C4; cbn [s_cap set_nempty]; rewrite C2; lia).
    cbn [s_cap s_size s_nempty set_size set_nempty] in *.
    rewrite add64_small by (rewrite two64_val; lia). split; [|lia].
    rewrite M4, C4, C2. assert (Hsub : s_nempty s1 - 1 <= sub64 (s_nempty s2) (if tm =? m_empty then 1 else 0)); [|lia].
    rewrite N2. destruct (Z_le_dec 1 (s_nempty s1)).
    + destruct (tm =? m_empty); rewrite sub64_small by (rewrite ?two64_val; lia); lia.
    + pose proof (Z.mod_pos_bound (s_nempty s1 - (if tm =? m_empty then 1 else 0)) two64 ltac:(reflexivity)). unfold sub64. lia.
  - subst s1. injection E0 as <- <-. lia.
Qed.

Lemma exec_credit : forall v s c s' r, wf s -> env_ok v -> call_ok c -> exec v s c = Ok (s', r) -> steady c ->
  moved v s c + credit s' <= credit s + 17 * (if adds r then 1 else 0).
Proof.
  intros v s c s' r H Hv Hc E0 Hst. pose proof H as Hw.
  assert (Hp : 0 <= 17 * (if adds r then 1 else 0)) by (destruct (adds r); lia).
  assert (Hadd : forall e s2 o2, give_inserted f (s2, match o2 with None => None | Some (q, tr) => Some (q, true, tr) end) = Ok (s', r) ->
     emplace_node f (ev_lim v) (ev_ctor v) s (hash (key_of e)) e = Ok (s2, o2) ->
     match make_room f (ev_lim v) s (hash (key_of e)) with Ok (_, Some (_, tr)) => moves tr | _ => 0 end + credit s' <= credit s + 17 * (if adds r then 1 else 0)).
  { intros e s2 o2 Eg E2. destruct (give_inserted_cap f _ _ _ _ Eg) as [-> _]. pose proof (emplace_cost _ _ _ _ _ _ _ H ltac:(apply Hv) E2) as [Hk _].
    assert (Ha : adds r = true); [|rewrite Ha; exact Hk].
    destruct o2 as [[q tr]|]; cbn [give_inserted] in Eg; [|injection Eg as <-; reflexivity].
    destruct (to_iter f s2 q); [|discriminate]. cbn [bind] in Eg. destruct (get_node s2 _); [|discriminate]. cbn [bind] in Eg. injection Eg as <-. reflexivity. }
  assert (Hq : adds r = false -> moved v s c = 0 -> moved v s c + credit s' <= credit s + 17 * (if adds r then 1 else 0)).
  { intros Ha Hz. destruct (exec_place f key_of hash keq KL rep Hrep v s c s' r Hw Hv Hc E0 Hst) as (C1 & _ & N1); [congruence|].
    rewrite Ha in *. unfold credit. rewrite C1. destruct (s_cap s =? 0); lia. }
  destruct c as [e|e|k|k|k| |n|n| |]; cbn [exec SwissRun.exec call_ok steady CostSpec.moved] in *; try contradiction.
  - destruct (do_insert f key_of hash keq (ev_lim v) (ev_ctor v) s e) as [[s1 o1]|] eqn:E1; [|discriminate]. cbn [bind] in E0.
    unfold do_insert in E1. destruct (find_located f key_of hash keq KL s (key_of e) Hw) as (p & Ep & Hl). rewrite Ep in *. cbn [bind] in E1.
    destruct Hl as [(x & h & W1 & Hr & _)|(-> & Habs)].
    + destruct (Z.eqb_spec p (s_cap s)); [lia|]. injection E1 as <- <-. destruct (give_inserted_cap f _ _ _ _ E0) as [-> _]. lia.
    + rewrite Z.eqb_refl in *. destruct (emplace_node _ _ _ _ _ _) as [[s2 o2]|] eqn:E2; [|discriminate]. cbn [bind] in E1.
      injection E1 as <- <-. exact (Hadd e s2 o2 E0 E2).
  - destruct (do_insert_or_assign f key_of hash keq rep (ev_lim v) (ev_ctor v) s e) as [[s1 o1]|] eqn:E1; [|discriminate]. cbn [bind] in E0.
    unfold do_insert_or_assign in E1. destruct (find_located f key_of hash keq KL s (key_of e) Hw) as (p & Ep & Hl). rewrite Ep in *. cbn [bind] in E1.
    destruct Hl as [(x & h & W1 & Hr & En & Eg & _ & _ & Hk)|(-> & Habs)].
    + destruct (Z.eqb_spec p (s_cap s)); [lia|]. rewrite Eg in E1. cbn [bind fst snd] in E1. injection E1 as <- <-.
      destruct (give_inserted_cap f _ _ _ _ E0) as [-> _]. unfold credit. cbn [s_cap s_size s_nempty]. lia.
    + rewrite Z.eqb_refl in *. destruct (emplace_node _ _ _ _ _ _) as [[s2 o2]|] eqn:E2; [|discriminate]. cbn [bind] in E1.
      injection E1 as <- <-. exact (Hadd e s2 o2 E0 E2).
  - destruct (erase_key f key_of hash keq s k) as [[[s1 p] b]|]; [|discriminate]. cbn [bind] in E0.
    destruct (deref f s1 p) as [d|]; [|discriminate]. cbn [bind] in E0. injection E0 as <- <-. apply Hq; reflexivity.
  - destruct (find f key_of hash keq s k); [|discriminate]. cbn [bind] in E0. injection E0 as <- <-. apply Hq; reflexivity.
  - destruct (contains f key_of hash keq s k); [|discriminate]. cbn [bind] in E0. injection E0 as <- <-. apply Hq; reflexivity.
  - destruct (clear f s); [|discriminate]. cbn [bind] in E0. injection E0 as <- <-. apply Hq; reflexivity.
  - injection E0 as <- <-. apply Hq; reflexivity.
  - destruct (iterate f s); [|discriminate]. cbn [bind] in E0. injection E0 as <- <-. apply Hq; reflexivity.
Qed.

Lemma run_credit : forall h s s' rs, wf s -> history_ok h -> Forall (fun vc => steady (snd vc)) h -> run s h = Ok (s', rs) ->
  wf s' /\ moved_by s h + credit s' <= credit s + 17 * additions rs.
Proof.
  induction h as [|[v c] h IH]; intros s s' rs H Hh Hst E0; cbn [run SwissRun.run CostSpec.moved_by] in *.
  - injection E0 as <- <-. split; [exact H|]. cbn. lia.
  - inversion Hh as [|? ? [Hv Hc] Hh']; subst. inversion Hst as [|? ? Hs0 Hst']; subst. cbn [fst snd] in *.
    destruct (exec v s c) as [[s1 r]|] eqn:E1; [|discriminate]. cbn [bind] in E0.
    destruct (run s1 h) as [[s2 rs2]|] eqn:E2; [|discriminate]. cbn [bind] in E0. injection E0 as <- <-.
    destruct (exec_ok f key_of hash keq KL rep Hrep v s c H Hv Hc) as [(s1' & r' & E1' & Hk & _)|(_ & _ & E1')]; rewrite E1 in E1'; [|discriminate].
    injection E1' as <- <-.
    assert (Ea : additions (r :: rs2) = (if adds r then 1 else 0) + additions rs2).
    { unfold additions. cbn [filter]. destruct (adds r); cbn [length]; lia. }
    pose proof (exec_credit v s c s1 r H Hv Hc E1 Hs0) as H1. destruct (IH s1 s2 rs2 (proj1 Hk) Hh' Hst' E2) as [H2 H3]. split; [exact H2|]. lia.
Qed.

Lemma credit_bounds : forall s, wf s -> - s_cap s <= credit s <= 16 * s_cap s.
Proof.
  intros s [H|H].
  - unfold credit. rewrite (w0_cap s H). cbn. lia.
  - pose proof (wf1_nempty f key_of hash keq s H). pose proof (wf1_size_max f key_of hash keq s H).
    pose proof (cap_bounds f s (w_m _ _ _ _ s H)). pose proof (max_size_bounds f (s_cap s) ltac:(lia)). rewrite credit_some by lia. lia.
Qed.

Lemma run_cost : forall h s s' rs, wf s -> history_ok h -> Forall (fun vc => steady (snd vc)) h -> run s h = Ok (s', rs) ->
  moved_by s h <= 17 * additions rs + 16 * bucket_count s + bucket_count s'.
Proof.
  intros h s s' rs H Hh Hst E0. destruct (run_credit h s s' rs H Hh Hst E0) as [H' Hc].
  pose proof (credit_bounds s H). pose proof (credit_bounds s' H'). unfold bucket_count. lia.
Qed.

Lemma step_len : forall c (l l' : list E) r, spec_step key_of keq rep c l l' r ->
  Z.of_nat (length l') <= Z.of_nat (length l) + (if adds r then 1 else 0).
Proof.
  intros c l l' r H.
  inversion H; subst; cbn [adds length]; try match goal with P : Permutation _ _ |- _ => apply Permutation_length in P; cbn [length] in P end; try lia;
    match goal with Hl : located _ _ _ _ _ _ _ |- _ => destruct Hl as [-> _] end; rewrite !app_length; cbn [length]; lia.
Qed.

Lemma run_slots : forall h s s' rs, wf s -> history_ok h -> Forall (fun vc => steady (snd vc)) h -> run s h = Ok (s', rs) ->
  s_cap s' <= Z.max (s_cap s) (slots f (s_size s + additions rs)).
Proof.
  induction h as [|[v c] h IH]; intros s s' rs H Hh Hst E0; cbn [run SwissRun.run] in *.
  - injection E0 as <- <-. lia.
  - inversion Hh as [|? ? [Hv Hc] Hh']; subst. inversion Hst as [|? ? Hs0 Hst']; subst. cbn [fst snd] in *.
    destruct (exec v s c) as [[s1 r]|] eqn:E1; [|discriminate]. cbn [bind] in E0.
    destruct (run s1 h) as [[s2 rs2]|] eqn:E2; [|discriminate]. cbn [bind] in E0. injection E0 as <- <-.
    destruct (exec_caps f key_of hash keq KL rep Hrep v s c s1 r H Hv Hc E1) as [Hcap _].
    destruct (exec_ok f key_of hash keq KL rep Hrep v s c H Hv Hc) as [(s1' & r' & E1' & Hk & Hs)|(_ & _ & E1')]; rewrite E1 in E1'; [|discriminate].
    injection E1' as <- <-. apply step_len in Hs.
    pose proof (wf_size f key_of hash keq s H) as [Hz _]. pose proof (wf_size f key_of hash keq s1 (proj1 Hk)) as [Hz1 _].
    specialize (IH s1 s2 rs2 (proj1 Hk) Hh' Hst' E2).
    assert (Ea : additions (r :: rs2) = (if adds r then 1 else 0) + additions rs2).
    { unfold additions. cbn [filter]. destruct (adds r); cbn [length]; lia. }
    assert (Hpos : 0 <= additions rs2) by (unfold additions; lia).
    assert (Hd : demand (s_size s) c <= s_size s) by (destruct c; cbn [demand steady] in *; try contradiction; lia).
    rewrite Ea. unfold slots in *. destruct (adds r); lia.
Qed.

Lemma total_cost : forall h s' rs, history_ok h -> Forall (fun vc => steady (snd vc)) h -> run empty_swiss h = Ok (s', rs) ->
  moved_by empty_swiss h <= 20 * additions rs + 31.
Proof.
  intros h s' rs Hh Hst E0. pose proof (empty_inv f key_of hash keq) as Hi.
  pose proof (run_cost h empty_swiss s' rs (proj1 Hi) Hh Hst E0) as H1. pose proof (run_slots h empty_swiss s' rs (proj1 Hi) Hh Hst E0) as H2.
  unfold bucket_count, slots in *. cbn [empty_swiss s_cap s_size] in *. pose proof (W_cases f). assert (0 <= additions rs) by (unfold additions; lia). lia.
Qed.
End Cost.
