(** Copying, and moving element by element, on well-formed tables. *)
From Coq Require Import ZArith List Bool Lia Permutation.
From Coq Require Import ZifyBool ZifyNat.
From Verif Require Import Base BaseLemmas Bits BitsProofs SwissModel SwissArith SwissCap SwissInv SwissOps SwissClean
  SwissIter SwissRoom MapSpec SwissRun SwissRefine SwissFinal SwissMore.
Import ListNotations.
Open Scope Z_scope.

Section Copy.
Context {E K : Type}.
Variable f : simd.
Variable key_of : E -> K.
Variable hash : K -> Z.
Variable keq : K -> K -> bool.

Local Notation swiss := (@swiss E).
Local Notation W := (W f).
Local Notation mwf := (mwf f).
Local Notation ncons := (ncons key_of hash).
Local Notation wf1 := (wf1 f key_of hash keq).
Local Notation wf := (wf f key_of hash keq).
Local Notation inv := (inv f key_of hash keq).
Local Notation max_of := (capacity_to_max_size f).

(** No element lies in a group probed after one with an erased-slot marker. *)
Definition clean (s : swiss) : Prop := forall i e h, s_nodes s i = Some (e, h) ->
  forall j, 0 <= j < s_cap s -> vis f (s_cap s) h j < vis f (s_cap s) h i -> s_meta s j <> m_deleted.

(** The table [t] holds the images of the elements of [o] below slot [i], in the same
    slots, and nothing else. *)
Definition image (g : E * Z -> E * Z) (o t : swiss) (i : Z) : Prop :=
  mwf t /\ s_cap t = s_cap o /\
  (forall j, s_nodes t j = if (0 <=? j) && (j <? i) then option_map g (s_nodes o j) else None) /\
  (forall j, 0 <= j < s_cap o -> s_meta t j = if (j <? i) && is_occupied (s_meta o j) then s_meta o j else m_empty).

(** Tables with at most one group are clean. *)
Lemma clean_small : forall s, mwf s -> s_cap s + 1 <= W -> clean s.
Proof.
  clear key_of hash keq. intros s M Hs i e h Ei j Hj Hv. exfalso. pose proof (mw_cap f s M) as G.
  pose proof (vis_spec f (s_cap s) h j G) as H1. pose proof (vis_spec f (s_cap s) h i G) as H2.
  assert (nwin f (s_cap s) = 1).
  { destruct (Z_lt_dec (s_cap s + 1) W) as [H|H].
    - rewrite !(vis_small f) in Hv by assumption. lia.
    - unfold nwin. replace (s_cap s + 1) with W by lia. rewrite Z.div_same by (pose proof (W_pos f); lia). reflexivity. }
  lia.
Qed.
Lemma clean_untouched : forall s, (forall j, 0 <= j < s_cap s -> s_meta s j <> m_deleted) -> clean s.
Proof. intros s H i e h Ei j Hj Hv. apply H. exact Hj. Qed.

Lemma fill_empty_image : forall g (o s : swiss), s_buf s = Live -> s_cap s = s_cap o -> good_cap (s_cap o) ->
  (forall j, s_nodes s j = None) ->
  exists s2, fill_empty s = Ok s2 /\ image g o s2 0 /\ s_size s2 = s_size s.
Proof.
  intros g o s B C G N. unfold fill_empty, check_buf. rewrite B. cbn [bind]. eexists. split; [reflexivity|]. split; [|reflexivity].
  split; [|split; [exact C|]].
  - eapply mwf_ext; [..|apply (fresh_mwf f (s_cap s) 0 0); rewrite C; exact G]; cbn [fresh s_buf s_cap s_meta]; (reflexivity || (symmetry; exact B) || exact B).
  - cbn [s_nodes s_meta]. split.
    + intros j. destruct (Z.leb_spec 0 j), (Z.ltb_spec j 0); cbn [andb]; (lia || apply N).
    + intros j Hj. destruct (Z.ltb_spec j 0); [lia|]. cbn [andb]. unfold fill_empty_meta. destruct (Z.eqb_spec j (s_cap s)); [lia|reflexivity].
Qed.

(** Placing the image of slot [i]. *)
Lemma image_step : forall g (o t : swiss) i n, ncons o -> 0 <= i < s_cap o -> image g o t i -> s_nodes o i = Some n ->
  exists t1 t2, put_node t i (g n) = Ok t1 /\ set_metadata f t1 i (s_meta o i) = Ok t2 /\ image g o t2 (i + 1) /\ s_size t2 = s_size t.
Proof.
  intros g o t i n N Hi (M & C & Hn & Hm) En. pose proof (mw_buf f t M) as B.
  assert (Ht : s_nodes t i = None). { rewrite Hn. destruct (Z.ltb_spec i i); [lia|]. rewrite andb_false_r. reflexivity. }
  rewrite put_node_ok by (assumption || lia). eexists.
  pose proof (ncons_occ key_of hash o i N Hi) as Hocc. rewrite En in Hocc.
  destruct (set_metadata_ok f (mk (s_buf t) (s_cap t) (s_meta t) (upd (s_nodes t) i (Some (g n))) (s_size t) (s_nempty t)) i (s_meta o i))
    as (t2 & E2 & M2 & (B2 & C2 & N2 & S2 & _) & Hm2 & Hq).
  { eapply mwf_ext; [..|exact M]; reflexivity. } { cbn [s_cap]. lia. }
  { destruct n as [e h]. destruct N as [N1 _]. specialize (N1 i Hi). rewrite En in N1. destruct N1 as [_ ->]. apply node_byte_h2. }
  exists t2. split; [reflexivity|]. split; [exact E2|]. cbn [s_cap s_nodes s_size s_meta] in *. split; [|exact S2].
  split; [exact M2|]. split; [lia|]. split.
  - intros j. rewrite N2. unfold upd. destruct (Z.eqb_spec j i) as [->|Hne].
    + destruct (Z.leb_spec 0 i); [|lia]. destruct (Z.ltb_spec i (i + 1)); [|lia]. cbn [andb]. rewrite En. reflexivity.
    + rewrite Hn. destruct (Z.leb_spec 0 j), (Z.ltb_spec j i), (Z.ltb_spec j (i + 1)); cbn [andb]; (reflexivity || lia).
  - intros j Hj. destruct (Z.eq_dec j i) as [->|Hne].
    + rewrite Hm2. destruct (Z.ltb_spec i (i + 1)); [|lia]. rewrite Hocc. reflexivity.
    + rewrite Hq by lia. rewrite Hm by exact Hj. destruct (Z.ltb_spec j i), (Z.ltb_spec j (i + 1)); (reflexivity || lia).
Qed.

Lemma image_skip : forall g (o t : swiss) i, 0 <= i < s_cap o -> image g o t i -> s_nodes o i = None -> is_occupied (s_meta o i) = false ->
  image g o t (i + 1).
Proof.
  intros g o t i Hi (M & C & Hn & Hm) En Ho. split; [exact M|]. split; [exact C|]. split.
  - intros j. rewrite Hn. destruct (Z.eq_dec j i) as [->|Hne].
    + destruct (Z.leb_spec 0 i), (Z.ltb_spec i i), (Z.ltb_spec i (i + 1)); cbn [andb]; try lia. rewrite En. reflexivity.
    + destruct (Z.leb_spec 0 j), (Z.ltb_spec j i), (Z.ltb_spec j (i + 1)); cbn [andb]; (reflexivity || lia).
  - intros j Hj. rewrite Hm by exact Hj. destruct (Z.eq_dec j i) as [->|Hne].
    + rewrite Ho, !andb_false_r. reflexivity.
    + destruct (Z.ltb_spec j i), (Z.ltb_spec j (i + 1)); (reflexivity || lia).
Qed.

(** The finished image. *)
Lemma image_elems : forall g (o t : swiss), 0 <= s_cap o -> image g o t (s_cap o) ->
  elems t = map (fun n => fst (g n)) (collect (s_nodes o) (s_cap o)).
Proof.
  intros g o t Hc (M & C & Hn & _). unfold elems. rewrite C.
  rewrite (collect_ext _ (s_nodes t) (fun i => option_map g (s_nodes o i))).
  - rewrite collect_map, map_map. reflexivity.
  - intros i Hi. rewrite Hn. destruct (Z.leb_spec 0 i), (Z.ltb_spec i (s_cap o)); (lia || reflexivity).
Qed.

Lemma image_some : forall g (o t : swiss) i n, image g o t (s_cap o) -> s_nodes t i = Some n ->
  0 <= i < s_cap o /\ exists m, s_nodes o i = Some m /\ n = g m.
Proof.
  intros g o t i n (M & C & Hn & Hm). rewrite Hn. destruct (Z.leb_spec 0 i), (Z.ltb_spec i (s_cap o)); cbn [andb]; try discriminate.
  destruct (s_nodes o i) as [m|]; [|discriminate]. cbn [option_map]. intros [= <-]. split; [lia|]. eauto.
Qed.

Lemma image_ncons : forall g (o t : swiss), ncons o -> image g o t (s_cap o) ->
  (forall e h, key_of (fst (g (e, h))) = key_of e /\ snd (g (e, h)) = h) -> ncons t.
Proof.
  intros g o t No (M & C & Hn & Hm) Hg. split.
  - rewrite C. intros i Hi. rewrite Hn. destruct (Z.leb_spec 0 i), (Z.ltb_spec i (s_cap o)); try lia. cbn [andb].
    pose proof (ncons_occ key_of hash o i No Hi) as Ho1. destruct No as [N1 _]. specialize (N1 i Hi).
    destruct (s_nodes o i) as [[e h]|]; cbn [option_map].
    + destruct (Hg e h) as [G1 G2]. destruct (g (e, h)) as [e' h']. cbn [fst snd] in G1, G2. subst h'. rewrite G1.
      destruct N1 as [-> Em]. split; [reflexivity|]. rewrite Hm by exact Hi. rewrite Ho1.
      destruct (Z.ltb_spec i (s_cap o)); [|lia]. exact Em.
    + rewrite Hm by exact Hi. rewrite Ho1. rewrite andb_false_r. reflexivity.
  - rewrite C. intros i Hi. rewrite Hn. destruct (Z.leb_spec 0 i), (Z.ltb_spec i (s_cap o)); (reflexivity || lia).
Qed.

Lemma image_wf1 : forall g (o t : swiss) t', wf1 o -> image g o t (s_cap o) -> clean o ->
  (forall e h, key_of (fst (g (e, h))) = key_of e /\ snd (g (e, h)) = h) ->
  s_buf t' = s_buf t -> s_cap t' = s_cap t -> s_meta t' = s_meta t -> s_nodes t' = s_nodes t ->
  s_size t' = s_size o -> s_nempty t' = max_of (s_cap o) - s_size o -> wf1 t'.
Proof.
  intros g o t t' Ho (M & C & Hn & Hm) Hcl Hg B' C' M' N' S' Ne'.
  pose proof (w_n _ _ _ _ o Ho) as No. pose proof (cap_bounds f o (w_m _ _ _ _ o Ho)) as Hcb.
  pose proof (wf1_size_max f key_of hash keq o Ho) as Hsz. pose proof (count_split f o (w_m _ _ _ _ o Ho)) as Hcs.
  assert (Hcap : s_cap t' = s_cap o) by congruence.
  assert (Hsome : forall i n, s_nodes t' i = Some n -> 0 <= i < s_cap o /\ exists m, s_nodes o i = Some m /\ n = g m).
  { intros i n. rewrite N', Hn. destruct (Z.leb_spec 0 i), (Z.ltb_spec i (s_cap o)); cbn [andb]; try discriminate.
    destruct (s_nodes o i) as [m|]; [|discriminate]. cbn [option_map]. intros [= <-]. split; [lia|]. eauto. }
  assert (Hocc : forall i, 0 <= i < s_cap o -> is_occupied (s_meta t' i) = is_occupied (s_meta o i)).
  { intros i Hi. rewrite M', Hm by exact Hi. destruct (Z.ltb_spec i (s_cap o)); [|lia]. cbn [andb].
    destruct (is_occupied (s_meta o i)) eqn:Eo; [exact Eo|reflexivity]. }
  assert (Hnocc : n_occ t' = n_occ o). { unfold n_occ. rewrite Hcap. apply cnt_ext. intros i Hi. apply Hocc. exact Hi. }
  constructor.
  - eapply mwf_ext; [exact B'|exact C'|exact M'|exact M].
  - pose proof (image_ncons g o t No (conj M (conj C (conj Hn Hm))) Hg) as Nt. destruct Nt as [Nt1 Nt2].
    split; rewrite C', ?N', ?M'; assumption.
  - intros i j e e' h h' Ei Ej Hk. destruct (Hsome i _ Ei) as (_ & [ei hi] & Emi & Eqi). destruct (Hsome j _ Ej) as (_ & [ej hj] & Emj & Eqj).
    destruct (Hg ei hi) as [Gi _]. destruct (Hg ej hj) as [Gj _]. rewrite <- Eqi in Gi. rewrite <- Eqj in Gj. cbn [fst] in Gi, Gj.
    rewrite Gi, Gj in Hk. exact (w_u _ _ _ _ o Ho i j ei ej hi hj Emi Emj Hk).
  - intros i e h Ei j. rewrite Hcap. intros Hj Hv. destruct (Hsome i _ Ei) as (Hi & [ei hi] & Emi & Eqi).
    destruct (Hg ei hi) as [_ Gi]. rewrite <- Eqi in Gi. cbn [snd] in Gi. subst hi.
    rewrite M', Hm by exact Hj. pose proof (w_p _ _ _ _ o Ho i ei h Emi j Hj Hv) as H1. pose proof (Hcl i ei h Emi j Hj Hv) as H2.
    destruct (Z.ltb_spec j (s_cap o)); [|lia]. cbn [andb].
    destruct (node_byte_cases _ (mw_bytes f o (w_m _ _ _ _ o Ho) j Hj)) as [(Eb & _ & Eo)|[(Eb & _ & Eo)|(Eb & _ & Eo)]]; rewrite Eo; congruence || (intros X; unfold m_empty in X; lia).
  - rewrite S', Hnocc. apply (w_size _ _ _ _ o Ho).
  - rewrite Ne'. rewrite Hcap.
    assert (Hemp : n_emp t' = s_cap o - n_occ o).
    { unfold n_emp, n_occ. rewrite Hcap. pose proof (cnt_compl (fun i => is_occupied (s_meta o i)) (s_cap o) ltac:(lia)) as Hcc. cbv beta in Hcc.
      rewrite (cnt_ext (fun i => s_meta t' i =? m_empty) (fun i => negb (is_occupied (s_meta o i)))); [lia|].
      intros i Hi. rewrite M', Hm by exact Hi. destruct (Z.ltb_spec i (s_cap o)); [|lia]. cbn [andb].
      destruct (is_occupied (s_meta o i)) eqn:Eo; [|reflexivity]. unfold is_occupied, m_sentinel, m_empty in *. cbn [negb]. lia. }
    rewrite Hemp. pose proof (w_size _ _ _ _ o Ho). lia.
  - lia.
Qed.

(** ** A key whose only slot lies behind a group with an empty slot is not found. *)
Lemma scan_lanes_where : forall (s : swiss) k h w lanes, mwf s -> 0 <= w < nwin f (s_cap s) ->
  (forall l, In l lanes -> 0 <= l < W) ->
  forall i, scan_lanes key_of keq s k (probe_at f (s_cap s) h w) lanes = Ok (Some i) ->
  exists l, 0 <= l < W /\ i = slot_at f (s_cap s) h w l.
Proof.
  intros s k h w lanes M Hw. induction lanes as [|l lanes IH]; intros Hl i; cbn [scan_lanes]; [discriminate|].
  rewrite probe_off_at by ((apply (mw_cap f s M)) || (apply Hl; left; reflexivity) || lia).
  destruct (get_node s (slot_at f (s_cap s) h w l)) as [n|]; cbn [bind]; [|discriminate].
  destruct (keq (key_of (fst n)) k).
  - intros [= <-]. exists l. split; [apply Hl; left; reflexivity|reflexivity].
  - apply IH. intros x Hx. apply Hl. right. exact Hx.
Qed.

Lemma find_loop_miss : forall (s : swiss) k j0, mwf s -> ncons s -> 0 <= j0 < s_cap s -> s_meta s j0 = m_empty ->
  (forall j, has_key key_of keq s k j -> vis f (s_cap s) (hash k) j0 < vis f (s_cap s) (hash k) j) ->
  forall fuel w, 0 <= w <= vis f (s_cap s) (hash k) j0 -> nwin f (s_cap s) - w < Z.of_nat fuel ->
  find_loop f key_of keq fuel s k (hash k) (probe_at f (s_cap s) (hash k) w) = Ok (s_cap s).
Proof.
  intros s k j0 M N Hj0 E0 Hlate. set (h := hash k) in *. induction fuel as [|fuel IH]; intros w Hw Hf.
  { pose proof (nwin_pos f (s_cap s)). pose proof (vis_spec f (s_cap s) h j0 (mw_cap f s M)). lia. }
  pose proof (cap_bounds f s M) as Hcb. pose proof (W_pos f) as HWb.
  assert (Hgc : good_cap (s_cap s)) by apply (mw_cap f s M).
  pose proof (vis_spec f (s_cap s) h j0 Hgc) as Hvs. assert (Hw' : 0 <= w < nwin f (s_cap s)) by lia.
  pose proof (pos_at_range f (s_cap s) h w Hgc) as Hpos.
  cbn [find_loop]. unfold probe_at at 1. cbn [snd].
  destruct (load_block_ok f s M (pos_at f (s_cap s) h w) Hpos) as (b & -> & Hv & Hnth). cbn [bind].
  destruct (eq_lanes_spec f b (h2_of h) Hv ltac:(pose proof (h2_range h); lia)) as (lanes & -> & Hl1 & Hl2).
  cbn [bind]. rewrite width_W in *.
  destruct (scan_lanes_ok f key_of hash keq s M N k h w lanes Hw') as (r & Er & Hr).
  { intros l Hl. destruct (Hl1 l Hl) as [Hlr Hlo]. split; [exact Hlr|]. rewrite Hnth in Hlo by lia. exact Hlo. }
  rewrite Er. cbn [bind]. destruct r as [i|].
  { exfalso. destruct Hr as [Hi Hk]. destruct (scan_lanes_where s k h w lanes M Hw' ltac:(intros l Hl; apply (proj1 (Hl1 l Hl))) i Er) as (l & Hl & El).
    specialize (Hlate i Hk). destruct (good_cap_split f (s_cap s) Hgc) as [(H1 & H2 & H3) | (H1 & H2 & m & Hm & E1 & E2)].
    - rewrite !(vis_small f) in Hlate by assumption. lia.
    - destruct (slot_at_vis f (s_cap s) h w l Hgc H1 Hw' Hl) as [_ Hv']. rewrite <- El in Hv'. lia. }
  pose proof (match_empty_between f b Hv) as HB.
  destruct (mask_is_empty (match_empty f b)) eqn:Em; cbn [negb]; [|reflexivity].
  destruct (mask_is_empty_spec _ _ _ _ HB) as [He _]. specialize (He Em). cbv beta in He.
  assert (Hne : forall l, 0 <= l < W -> s_meta s (pos_at f (s_cap s) h w + l) <> m_empty).
  { intros l Hl. rewrite <- Hnth by lia. pose proof (He (Z.to_nat l)) as Hx. rewrite width_W in Hx. specialize (Hx ltac:(lia)). lia. }
  assert (Hlt : w < vis f (s_cap s) h j0).
  { destruct (Z.eq_dec (vis f (s_cap s) h j0) w) as [Ev|]; [|lia]. exfalso.
    destruct (slot_lane f s M h w j0 Hw' Hj0 Ev) as (l & Hl & El & Eml). apply (Hne l Hl). congruence. }
  destruct (good_cap_split f (s_cap s) Hgc) as [(H1 & H2 & H3) | (H1 & H2 & m & Hm & E1 & E2)].
  { rewrite (vis_small f) in Hlt by assumption. lia. }
  assert (Has : assert_probe s (fst (probe_at f (s_cap s) h w)) = Ok tt).
  { unfold assert_probe, probe_at, guard. cbn [fst]. destruct (Z.ltb_spec (W * w) (s_cap s)); [reflexivity|].
    rewrite E1 in *. destruct (W_cases f) as [EW|EW]; rewrite EW in *; nia. }
  rewrite Has. cbn [bind]. rewrite probe_next_at by (assumption || lia). apply IH; lia.
Qed.

Lemma contains_miss : forall (s : swiss) k j0, mwf s -> ncons s -> 0 <= j0 < s_cap s -> s_meta s j0 = m_empty ->
  (forall j, has_key key_of keq s k j -> vis f (s_cap s) (hash k) j0 < vis f (s_cap s) (hash k) j) ->
  contains f key_of hash keq s k = Ok false.
Proof.
  intros s k j0 M N Hj0 E0 Hlate. unfold contains, find_node. destruct (Z.eqb_spec (s_size s) 0) as [Es|].
  - cbn [bind]. rewrite Z.eqb_refl. reflexivity.
  - assert (Hgc : good_cap (s_cap s)) by apply (mw_cap f s M). rewrite (probe_start_at f) by assumption.
    rewrite (find_loop_miss s k j0 M N Hj0 E0 Hlate).
    + cbn [bind]. rewrite Z.eqb_refl. reflexivity.
    + pose proof (vis_spec f (s_cap s) (hash k) j0 Hgc). lia.
    + pose proof (probe_fuel_ok f s M). lia.
Qed.

(** In an image of a table that is not clean, an element is lost. *)
Lemma image_loses : forall g (o t t' : swiss) i e h j, key_laws hash keq -> wf1 o -> image g o t (s_cap o) ->
  (forall e h, key_of (fst (g (e, h))) = key_of e /\ snd (g (e, h)) = h) ->
  s_buf t' = s_buf t -> s_cap t' = s_cap t -> s_meta t' = s_meta t -> s_nodes t' = s_nodes t ->
  s_nodes o i = Some (e, h) -> 0 <= j < s_cap o -> vis f (s_cap o) h j < vis f (s_cap o) h i -> s_meta o j = m_deleted ->
  contains f key_of hash keq t' (key_of e) = Ok false.
Proof.
  intros g o t t' i e h j KL Ho Hi Hg B' C' M' N' Ei Hj Hv Hd. pose proof (w_n _ _ _ _ o Ho) as No.
  pose proof (image_ncons g o t No Hi Hg) as Nt. pose proof Hi as (M & C & Hn & Hm).
  assert (Mt' : mwf t') by (eapply mwf_ext; [exact B'|exact C'|exact M'|exact M]).
  assert (Nt' : ncons t') by (destruct Nt as [Nt1 Nt2]; split; rewrite C', ?N', ?M'; assumption).
  destruct (node_hash f key_of hash o (w_m _ _ _ _ o Ho) No i e h Ei) as [-> _].
  apply (contains_miss t' (key_of e) j Mt' Nt'); rewrite ?C', ?C; [lia| |].
  - rewrite M', Hm by exact Hj. rewrite Hd. rewrite andb_false_r. reflexivity.
  - intros j' (e' & h' & Ej' & Ek'). rewrite N' in Ej'. destruct (image_some g o t j' _ Hi Ej') as (Hj' & [em hm] & Em & Eq).
    destruct (Hg em hm) as [G1 _]. rewrite <- Eq in G1. cbn [fst] in G1. rewrite G1 in Ek'.
    assert (j' = i) as -> by exact (w_u _ _ _ _ o Ho j' i em e hm (hash (key_of e)) Em Ei Ek'). exact Hv.
Qed.

(** ** Copy. *)
Section Clone.
Variable clone : E -> E.
Hypothesis Hclone : forall e, key_of (clone e) = key_of e.
Hypothesis KL : key_laws hash keq.
Let g (n : E * Z) : E * Z := (clone (fst n), snd n).

Lemma copy_loop : forall (o s2 : swiss), wf1 o -> image g o s2 0 ->
  exists s3, foldM (copy_step f clone o) (zrange (s_cap o)) s2 = Ok s3 /\ image g o s3 (s_cap o) /\ s_size s3 = s_size s2.
Proof.
  intros o s2 Ho H0. pose proof (w_m _ _ _ _ o Ho) as M. pose proof (w_n _ _ _ _ o Ho) as N. pose proof (cap_bounds f o M) as Hcb. pose proof (W_pos f) as HW.
  apply (foldM_zrange_inv _ (copy_step f clone o) (fun i t => image g o t i /\ s_size t = s_size s2)); [lia|auto|].
  intros i t Hi [Ht Hs]. unfold copy_step. rewrite get_meta_ok by ((apply (mw_buf f o M)) || lia). cbn [bind].
  pose proof (ncons_occ key_of hash o i N Hi) as Hocc. rewrite Hocc. destruct (s_nodes o i) as [n|] eqn:En.
  - rewrite (get_node_ok o i n) by ((apply (mw_buf f o M)) || lia || exact En). cbn [bind].
    destruct (image_step g o t i n N Hi Ht En) as (t1 & t2 & E1 & E2 & I2 & S2). fold (g n). rewrite E1. cbn [bind]. rewrite E2.
    exists t2. split; [reflexivity|]. split; [exact I2|congruence].
  - exists t. split; [reflexivity|]. split; [|exact Hs]. apply image_skip; assumption.
Qed.

(** Copying [o] into a table without elements that has fewer slots, or as many slots.  The
    copy always has the right elements in iteration order; it is well-formed if [o] is
    clean. *)
Lemma copy_data_ok : forall lim (s o : swiss), wf1 o -> elems o <> [] -> s_size s = 0 ->
  s_cap s < s_cap o \/ (s_cap s = s_cap o /\ s_buf s = Live /\ forall j, s_nodes s j = None) ->
  s_cap o <= lim ->
  exists s', copy_data f clone lim s o = Ok (s', true) /\ elems s' = map clone (elems o) /\ s_size s' = s_size o /\
    s_cap s' = s_cap o /\ (clean o -> wf1 s') /\
    ((forall x, In x (elems o) -> contains f key_of hash keq s' (key_of x) = Ok true) -> clean o).
Proof.
  intros lim s o Ho Hne Hs0 Hcap Hlim. pose proof (w_m _ _ _ _ o Ho) as M. pose proof (cap_bounds f o M) as Hcb.
  pose proof (wf1_elems_length f key_of hash keq o Ho) as Hl. pose proof (wf1_size_max f key_of hash keq o Ho) as Hsz.
  pose proof (max_size_bounds f (s_cap o) ltac:(lia)) as Hmx.
  unfold copy_data. rewrite Hs0. cbn [Z.eqb guard bind].
  destruct (Z.eqb_spec (s_size o) 0) as [E0|_].
  { exfalso. rewrite E0 in Hl. destruct (elems o); [congruence|cbn [length] in Hl; lia]. }
  assert (Hre : exists s1, reallocate lim s (s_cap o) = Ok (s1, true) /\ s_buf s1 = Live /\ s_cap s1 = s_cap o /\
    (forall j, s_nodes s1 j = None) /\ s_size s1 = 0).
  { unfold reallocate. destruct Hcap as [Hcap|(Hcap & HB & HN)].
    - destruct (Z.ltb_spec (s_cap s) (s_cap o)); [|lia]. destruct (Z.ltb_spec lim (s_cap o)); [lia|].
      eexists. split; [reflexivity|]. cbn [s_buf s_cap s_nodes s_size]. auto.
    - destruct (Z.ltb_spec (s_cap s) (s_cap o)); [lia|]. exists s. auto. }
  destruct Hre as (s1 & -> & B1 & C1 & N1 & S1). cbn [bind negb].
  destruct (fill_empty_image g o s1 B1 C1 (mw_cap f o M) N1) as (s2 & -> & I2 & S2). cbn [bind].
  destruct (copy_loop o s2 Ho I2) as (s3 & -> & I3 & S3). cbn [bind].
  eexists. split; [reflexivity|]. cbn [set_nempty set_size s_size s_cap].
  assert (C3 : s_cap s3 = s_cap o) by apply I3.
  split; [|split; [reflexivity|split; [exact C3|]]].
  - change (elems (set_nempty (set_size s3 (s_size o)) (sub64 (max_of (s_cap s3)) (s_size o)))) with (elems s3).
    rewrite (image_elems g o s3 ltac:(lia) I3). unfold elems. rewrite map_map. reflexivity.
  - assert (Hg : forall e h, key_of (fst (g (e, h))) = key_of e /\ snd (g (e, h)) = h) by (intros e h; unfold g; cbn [fst snd]; auto).
    split.
    + intros Hcl. eapply (image_wf1 g o s3); [exact Ho|exact I3|exact Hcl|exact Hg|reflexivity..|].
      cbn [set_nempty set_size s_nempty]. rewrite C3. unfold sub64. rewrite Z.mod_small; [reflexivity|unfold two64; lia].
    + intros Hall i e h Ei j Hj Hv Hd. 
      assert (Hin : In e (elems o)).
      { apply elems_In. exists i. split; [|exists h; exact Ei]. apply (wf_some f key_of hash keq o i (e, h) (or_intror Ho) Ei). }
      specialize (Hall e Hin). rewrite (image_loses g o s3 _ i e h j KL Ho I3 Hg) in Hall; (reflexivity || assumption || discriminate).
Qed.

(** The target of a copy assignment after erase_nodes and the buffer assignment. *)
Lemma assign_target : forall pocca (s : swiss), wf s -> exists s1, erase_nodes f s = Ok s1 /\
  s_size (buffer_assign pocca s1) = 0 /\ (forall j, s_nodes (buffer_assign pocca s1) j = None) /\
  s_cap (buffer_assign pocca s1) = (if pocca then 0 else s_cap s) /\
  s_buf (buffer_assign pocca s1) = (if pocca then Null else s_buf s) /\
  (pocca = false -> s_meta (buffer_assign pocca s1) = s_meta s /\ s_nempty (buffer_assign pocca s1) = s_nempty s).
Proof.
  intros pocca s H. destruct (erase_nodes_ok f key_of hash keq s H) as (s1 & E1 & B & C & M & Ne & S & N).
  exists s1. split; [exact E1|]. unfold buffer_assign. destruct pocca; cbn [s_size s_nodes s_cap s_buf s_meta s_nempty]; auto 8.
  split; [exact S|]. split; [reflexivity|]. split; [reflexivity|]. split; [reflexivity|]. discriminate.
Qed.

Lemma copy_ctor_ok : forall lim (o : swiss), wf o -> s_cap o <= lim ->
  exists s', copy_ctor f clone lim o = Ok (s', true) /\ elems s' = map clone (elems o) /\ size s' = size o /\
    (clean o -> inv s') /\
    ((forall x, In x (elems o) -> contains f key_of hash keq s' (key_of x) = Ok true) -> clean o).
Proof.
  intros lim o Ho Hlim. unfold copy_ctor. destruct (elems o) as [|x l] eqn:Eo.
  - pose proof (wf_size f key_of hash keq o Ho) as [Hl _]. rewrite Eo in Hl. cbn [length] in Hl.
    unfold copy_data. cbn [s_size empty_swiss Z.eqb guard bind]. destruct (Z.eqb_spec (s_size o) 0); [|lia].
    eexists. split; [reflexivity|]. split; [reflexivity|]. split; [unfold size; cbn; lia|]. split; [intros _; exact (empty_inv f key_of hash keq)|].
    intros _ i e1 h Ei. exfalso. assert (Hin : In e1 (elems o)).
    { apply elems_In. exists i. split; [|exists h; exact Ei]. apply (wf_some f key_of hash keq o i (e1, h) Ho Ei). }
    rewrite Eo in Hin. exact Hin.
  - destruct Ho as [Ho|Ho]; [rewrite (elems_empty o (w0_cap o Ho)) in Eo; discriminate|].
    pose proof (cap_bounds f o (w_m _ _ _ _ o Ho)) as Hcb.
    destruct (copy_data_ok lim empty_swiss o Ho) as (s' & E1 & E2 & S2 & C2 & Hc & Hx); [rewrite Eo; discriminate|reflexivity|left; cbn [empty_swiss s_cap]; lia|exact Hlim|].
    exists s'. split; [exact E1|]. rewrite E2, Eo. split; [reflexivity|]. split; [exact S2|].
    split; [intros Hcl; apply inv_wf1; apply Hc; exact Hcl|]. rewrite Eo in Hx. exact Hx.
Qed.

Lemma copy_assign_ok : forall pocca lim (s o : swiss), wf s -> wf o -> s_cap o <= lim ->
  elems o <> [] -> pocca = true \/ s_cap s <= s_cap o ->
  exists s', copy_assign f clone pocca lim s o = Ok (s', true) /\ elems s' = map clone (elems o) /\ size s' = size o /\
    (clean o -> inv s') /\
    ((forall x, In x (elems o) -> contains f key_of hash keq s' (key_of x) = Ok true) -> clean o).
Proof.
  intros pocca lim s o Hs Ho Hlim Hne Hp. destruct Ho as [Ho|Ho]; [rewrite (elems_empty o (w0_cap o Ho)) in Hne; congruence|].
  pose proof (cap_bounds f o (w_m _ _ _ _ o Ho)) as Hcb.
  destruct (assign_target pocca s Hs) as (s1 & E1 & S1 & N1 & C1 & B1 & _). unfold copy_assign. rewrite E1. cbn [bind].
  destruct (copy_data_ok lim (buffer_assign pocca s1) o Ho Hne S1) as (s' & E2 & E3 & S3 & C3 & Hc & Hx).
  - rewrite C1, B1. destruct pocca; [left; lia|]. destruct Hp as [Hp|Hp]; [discriminate|].
    destruct (Z.eq_dec (s_cap s) (s_cap o)) as [Ec|]; [right|left; lia]. split; [exact Ec|]. split; [|exact N1].
    destruct Hs as [Hs|Hs]; [rewrite (w0_cap s Hs) in Ec; lia|]. apply (mw_buf f s (w_m _ _ _ _ s Hs)).
  - exact Hlim.
  - exists s'. split; [exact E2|]. split; [exact E3|]. split; [exact S3|]. split; [|exact Hx]. intros Hcl. apply inv_wf1. apply Hc. exact Hcl.
Qed.

(** Copy assignment from a table without elements. *)
Lemma copy_assign_empty_ok : forall pocca lim (s o : swiss), wf s -> wf o -> elems o = [] ->
  pocca = true \/ (forall j, 0 <= j < s_cap s -> s_meta s j = m_empty) ->
  exists s', copy_assign f clone pocca lim s o = Ok (s', true) /\ elems s' = [] /\ size s' = 0 /\ inv s'.
Proof.
  intros pocca lim s o Hs Ho He Hp.
  destruct (assign_target pocca s Hs) as (s1 & E1 & S1 & N1 & C1 & B1 & R1). unfold copy_assign. rewrite E1. cbn [bind].
  pose proof (wf_size f key_of hash keq o Ho) as [Hl _]. rewrite He in Hl. cbn [length] in Hl.
  set (t := buffer_assign pocca s1) in *. unfold copy_data. rewrite S1. cbn [Z.eqb guard bind]. destruct (Z.eqb_spec (s_size o) 0); [|lia].
  eexists. split; [reflexivity|]. cbn [set_nempty s_size size].
  assert (Ee : elems (set_nempty t (if s_cap t =? 0 then 0 else max_of (s_cap t))) = []).
  { unfold elems. cbn [set_nempty s_nodes s_cap]. rewrite collect_none; [reflexivity|]. intros i _. apply N1. }
  split; [exact Ee|]. split; [exact S1|].
  destruct (Z.eqb_spec (s_cap t) 0) as [Ec|Ec].
  - split; [left|reflexivity]. constructor; cbn [set_nempty s_cap s_size s_nodes s_buf s_meta s_nempty]; auto; [|lia].
    rewrite B1. destruct pocca; [left; reflexivity|]. destruct (R1 eq_refl) as [Rm _]. rewrite Rm.
    destruct Hs as [Hs|Hs]; [apply (w0_buf s Hs)|]. pose proof (cap_bounds f s (w_m _ _ _ _ s Hs)). lia.
  - destruct pocca; [lia|]. destruct Hp as [Hp|Hp]; [discriminate|]. destruct (R1 eq_refl) as [Rm Rn].
    destruct Hs as [Hs|Hs]; [rewrite (w0_cap s Hs) in C1; lia|]. apply inv_wf1.
    pose proof (w_m _ _ _ _ s Hs) as M. pose proof (cap_bounds f s M) as Hcb.
    assert (Hne : n_emp s = s_cap s). { unfold n_emp. rewrite (cnt_all _ (s_cap s)); [lia|lia|]. intros i Hi. rewrite Hp by lia. reflexivity. }
    assert (Hsz : s_size s = 0).
    { rewrite (w_size _ _ _ _ s Hs). unfold n_occ. pose proof (count_split f s M) as Hcs. unfold n_occ in Hcs.
      pose proof (cnt_bounds (fun i => is_occupied (s_meta s i)) (s_cap s) ltac:(lia)).
      pose proof (cnt_bounds (fun i => s_meta s i =? m_deleted) (s_cap s) ltac:(lia)). lia. }
    assert (Hnn : forall i, s_nodes s i = None).
    { intros i. destruct (s_nodes s i) as [n|] eqn:En; [|reflexivity]. exfalso.
      destruct (wf_some f key_of hash keq s i n (or_intror Hs) En) as [_ Hi].
      pose proof (ncons_occ key_of hash s i (w_n _ _ _ _ s Hs) Hi) as Ho1. rewrite En, (Hp i Hi) in Ho1. discriminate. }
    apply (wf1_ext f key_of hash keq s); cbn [set_nempty s_cap s_size s_nodes s_buf s_meta s_nempty]; auto.
    + intros i. rewrite Rm. reflexivity.
    + intros i. rewrite N1, Hnn. reflexivity.
    + lia.
    + rewrite C1, (w_nempty _ _ _ _ s Hs). rewrite Hne. lia.
Qed.
End Clone.

(** ** Element-wise move (unequal allocators). *)
Lemma move_loop : forall (o s2 : swiss), wf1 o -> image (fun n => n) o s2 0 ->
  exists s3 o1, foldM (move_step f) (zrange (s_cap o)) (s2, o) = Ok (s3, o1) /\ image (fun n => n) o s3 (s_cap o) /\ s_size s3 = s_size s2 /\
    s_buf o1 = Live /\ s_cap o1 = s_cap o /\ (forall i, s_nodes o1 i = None).
Proof.
  intros o s2 Ho H0. pose proof (w_m _ _ _ _ o Ho) as M. pose proof (w_n _ _ _ _ o Ho) as N. pose proof (cap_bounds f o M) as Hcb. pose proof (W_pos f) as HW.
  destruct (foldM_zrange_inv _ (move_step f) (fun i so => image (fun n => n) o (fst so) i /\ s_size (fst so) = s_size s2 /\
     s_buf (snd so) = Live /\ s_cap (snd so) = s_cap o /\ s_meta (snd so) = s_meta o /\
     (forall j, s_nodes (snd so) j = if (0 <=? j) && (j <? i) then None else s_nodes o j)) (s_cap o) (s2, o)) as ([s3 o1] & E1 & H1); [lia| | |].
  - cbn [fst snd]. split; [exact H0|]. split; [reflexivity|]. split; [apply (mw_buf f o M)|]. split; [reflexivity|]. split; [reflexivity|].
    intros j. destruct (Z.leb_spec 0 j), (Z.ltb_spec j 0); cbn [andb]; (reflexivity || lia).
  - intros i [t o1] Hi (Ht & Hs & B1 & C1 & M1 & N1). cbn [fst snd] in *. unfold move_step.
    rewrite get_meta_ok by (assumption || lia). cbn [bind]. rewrite M1.
    pose proof (ncons_occ key_of hash o i N Hi) as Hocc. rewrite Hocc.
    assert (Ei : s_nodes o1 i = s_nodes o i). { rewrite N1. destruct (Z.ltb_spec i i); [lia|]. rewrite andb_false_r. reflexivity. }
    destruct (s_nodes o i) as [n|] eqn:En.
    + rewrite (get_node_ok o1 i n) by (assumption || lia). cbn [bind].
      destruct (image_step (fun n => n) o t i n N Hi Ht En) as (t1 & t2 & Ea & Eb & I2 & S2). rewrite Ea. cbn [bind].
      unfold kill_node. rewrite (get_node_ok o1 i n) by (assumption || lia). cbn [bind]. rewrite Eb. cbn [bind].
      eexists. split; [reflexivity|]. cbn [fst snd s_buf s_cap s_meta s_nodes].
      split; [exact I2|]. split; [congruence|]. split; [exact B1|]. split; [exact C1|]. split; [exact M1|].
      intros j. unfold upd. destruct (Z.eqb_spec j i) as [->|].
      * destruct (Z.leb_spec 0 i), (Z.ltb_spec i (i + 1)); cbn [andb]; (reflexivity || lia).
      * rewrite N1. destruct (Z.leb_spec 0 j), (Z.ltb_spec j i), (Z.ltb_spec j (i + 1)); cbn [andb]; (reflexivity || lia).
    + eexists. split; [reflexivity|]. cbn [fst snd]. split; [apply image_skip; assumption|]. split; [exact Hs|].
      split; [exact B1|]. split; [exact C1|]. split; [exact M1|]. intros j. rewrite N1.
      destruct (Z.eq_dec j i) as [->|]; [rewrite En; destruct (_ && _), (_ && _); reflexivity|].
      destruct (Z.leb_spec 0 j), (Z.ltb_spec j i), (Z.ltb_spec j (i + 1)); cbn [andb]; (reflexivity || lia).
  - cbn [fst snd] in H1. destruct H1 as (I3 & S3 & B1 & C1 & _ & N1). exists s3, o1. split; [exact E1|]. split; [exact I3|]. split; [exact S3|].
    split; [exact B1|]. split; [exact C1|]. intros i. rewrite N1. destruct (Z.leb_spec 0 i), (Z.ltb_spec i (s_cap o)); cbn [andb]; try reflexivity;
      apply (proj2 N); lia.
Qed.

Lemma move_data_ok : forall lim (s o : swiss), wf1 o -> elems o <> [] -> s_size s = 0 ->
  s_cap s < s_cap o \/ (s_cap s = s_cap o /\ s_buf s = Live /\ forall j, s_nodes s j = None) ->
  s_cap o <= lim ->
  exists s' o', move_data f lim s o = Ok (s', o', true) /\ elems s' = elems o /\ s_size s' = s_size o /\
    (clean o -> wf1 s') /\ wf1 o' /\ elems o' = [].
Proof.
  intros lim s o Ho Hne Hs0 Hcap Hlim. pose proof (w_m _ _ _ _ o Ho) as M. pose proof (cap_bounds f o M) as Hcb.
  pose proof (wf1_elems_length f key_of hash keq o Ho) as Hl. pose proof (wf1_size_max f key_of hash keq o Ho) as Hsz.
  pose proof (max_size_bounds f (s_cap o) ltac:(lia)) as Hmx.
  unfold move_data. rewrite Hs0. cbn [Z.eqb guard bind].
  destruct (Z.eqb_spec (s_size o) 0) as [E0|_].
  { exfalso. rewrite E0 in Hl. destruct (elems o); [congruence|cbn [length] in Hl; lia]. }
  assert (Hre : exists s1, reallocate lim s (s_cap o) = Ok (s1, true) /\ s_buf s1 = Live /\ s_cap s1 = s_cap o /\
    (forall j, s_nodes s1 j = None) /\ s_size s1 = 0).
  { unfold reallocate. destruct Hcap as [Hcap|(Hcap & HB & HN)].
    - destruct (Z.ltb_spec (s_cap s) (s_cap o)); [|lia]. destruct (Z.ltb_spec lim (s_cap o)); [lia|].
      eexists. split; [reflexivity|]. cbn [s_buf s_cap s_nodes s_size]. auto.
    - destruct (Z.ltb_spec (s_cap s) (s_cap o)); [lia|]. exists s. auto. }
  destruct Hre as (s1 & -> & B1 & C1 & N1 & S1). cbn [bind negb].
  destruct (fill_empty_image (fun n => n) o s1 B1 C1 (mw_cap f o M) N1) as (s2 & -> & I2 & S2). cbn [bind].
  destruct (move_loop o s2 Ho I2) as (s3 & o1 & -> & I3 & S3 & Bo & Co & No). cbn [bind].
  assert (C3 : s_cap s3 = s_cap o) by apply I3.
  unfold fill_empty at 1, check_buf. cbn [set_nempty set_size s_buf s_cap s_nodes s_size s_nempty]. rewrite Bo. cbn [bind].
  eexists. eexists. split; [reflexivity|]. cbn [set_nempty set_size s_size s_cap].
  split; [|split; [reflexivity|]].
  - change (elems (set_nempty (set_size s3 (s_size o)) (sub64 (max_of (s_cap s3)) (s_size o)))) with (elems s3).
    rewrite (image_elems (fun n => n) o s3 ltac:(lia) I3). reflexivity.
  - split; [|split].
    + intros Hcl. eapply (image_wf1 (fun n => n) o s3); [exact Ho|exact I3|exact Hcl| |reflexivity..|].
      * intros e h. cbn [fst snd]. auto.
      * cbn [set_nempty set_size s_nempty]. rewrite C3. unfold sub64. rewrite Z.mod_small; [reflexivity|unfold two64; lia].
    + apply (wf1_ext f key_of hash keq (fresh (s_cap o) 0 (max_of (s_cap o)))); cbn [fresh s_buf s_cap s_meta s_nodes s_size s_nempty]; auto.
      * apply (fresh_wf1 f key_of hash keq). apply (mw_cap f o M).
      * intros i. rewrite Co. reflexivity.
      * rewrite Co. reflexivity.
    + unfold elems. cbn [s_nodes s_cap]. rewrite collect_none; [reflexivity|]. intros i _. apply No.
Qed.
End Copy.
