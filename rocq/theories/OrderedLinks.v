(** The link half of the ordered dense table: rings through the slots of an element array. *)
From Coq Require Import ZArith List Bool Lia Permutation.
From Verif Require Import Base BaseLemmas LinkSpec LinkModel LinkProofs.
Import ListNotations.
Open Scope Z_scope.

Lemma slot_ix_inv : forall base sz cap a i, 0 < sz -> slot_ix base sz cap a = Some i -> a = base + i * sz /\ 0 <= i < cap.
Proof.
  intros base sz cap a i Hsz H. unfold slot_ix in H. destruct (((a - base) mod sz =? 0) && (0 <=? (a - base) / sz) && ((a - base) / sz <? cap)) eqn:E; [|discriminate].
  injection H as <-. apply andb_prop in E. destruct E as (E & E3). apply andb_prop in E. destruct E as (E1 & E2).
  apply Z.eqb_eq in E1. apply Z.leb_le in E2. apply Z.ltb_lt in E3. split; [|lia]. pose proof (Z.div_mod (a - base) sz ltac:(lia)). nia.
Qed.
Lemma slot_ix_of : forall base sz cap i, 0 < sz -> 0 <= i < cap -> slot_ix base sz cap (base + i * sz) = Some i.
Proof.
  intros base sz cap i Hsz Hi. unfold slot_ix. replace (base + i * sz - base) with (i * sz) by lia. rewrite Z.mod_mul, Z.div_mul by lia. rewrite Z.eqb_refl. cbn [andb].
  destruct (Z.leb_spec 0 i); [|lia]. destruct (Z.ltb_spec i cap); [|lia]. reflexivity.
Qed.
Lemma slot_ix_none : forall base sz cap a, 0 < sz -> slot_ix base sz cap a = None -> forall i, 0 <= i < cap -> a <> base + i * sz.
Proof. intros base sz cap a Hsz H i Hi ->. rewrite (slot_ix_of base sz cap i Hsz Hi) in H. discriminate. Qed.
Lemma slot_ix_none_intro : forall base sz cap a, 0 < sz -> (forall i, 0 <= i < cap -> a <> base + i * sz) -> slot_ix base sz cap a = None.
Proof. intros base sz cap a Hsz H. destruct (slot_ix base sz cap a) as [i|] eqn:E; [|reflexivity]. apply slot_ix_inv in E; [|exact Hsz]. exfalso. apply (H i); tauto. Qed.

Lemma place_cases : forall junk h base sz cap, 0 < sz -> place junk h base sz cap = Err BadPlacement \/
  exists h', place junk h base sz cap = Ok h' /\ (forall i, 0 <= i < cap -> h (base + i * sz) = None) /\ (forall i, 0 <= i < cap -> has h' (base + i * sz)) /\
    (forall a, slot_ix base sz cap a = None -> h' a = h a).
Proof.
  intros junk h base sz cap Hsz. unfold place. destruct (forallb (fun i => match h (base + i * sz) with Some _ => false | None => true end) (zrange cap)) eqn:E; cbn [guard bind]; [right|left; reflexivity].
  eexists. split; [reflexivity|]. rewrite forallb_forall in E. split; [|split].
  - intros i Hi. specialize (E i). rewrite zrange_In in E. specialize (E Hi). destruct (h (base + i * sz)); [discriminate|reflexivity].
  - intros i Hi. unfold has. rewrite slot_ix_of by assumption. discriminate.
  - intros a Ha. rewrite Ha. reflexivity.
Qed.

Section Links.
Variable sz : Z.
Hypothesis Hsz : 0 < sz.

(** The links of a container: header at [hdr], nodes in the slots of the array at [base],
    chained in the order [ord] of their slots; [n] of [cap] slots are in use. *)
Record olinks (h : heap) (hdr base cap n : Z) (ord : list Z) : Prop := {
  ol_ring : ring h (hdr :: map (fun i => base + i * sz) ord);
  ol_nd : NoDup ord;
  ol_in : forall i, In i ord <-> 0 <= i < n;
  ol_le : 0 <= n <= cap;
  ol_has : forall i, 0 <= i < cap -> has h (base + i * sz);
  ol_hdr : forall i, 0 <= i < cap -> base + i * sz <> hdr
}.

Lemma slot_inj : forall base i j, base + i * sz = base + j * sz -> i = j.
Proof. intros. nia. Qed.
Lemma olinks_len : forall h hdr base cap n ord, olinks h hdr base cap n ord -> length ord = Z.to_nat n.
Proof.
  intros h hdr base cap n ord H. rewrite <- (zrange_length n). apply Permutation_length. apply NoDup_Permutation; [apply (ol_nd _ _ _ _ _ _ H)|apply zrange_NoDup|].
  intros i. rewrite zrange_In. apply (ol_in _ _ _ _ _ _ H).
Qed.
Lemma olinks_hdr : forall h hdr base cap n ord, olinks h hdr base cap n ord -> has h hdr.
Proof. intros h hdr base cap n ord H. apply (ring_has _ _ _ (ol_ring _ _ _ _ _ _ H)). left. reflexivity. Qed.
Lemma olinks_cap : forall h hdr base cap n ord, olinks h hdr base cap n ord -> 0 <= cap.
Proof. intros h hdr base cap n ord H. pose proof (ol_le _ _ _ _ _ _ H). lia. Qed.

(** A container whose header is reset. *)
Lemma olinks_empty : forall h hdr base cap, 0 <= cap -> h hdr = Some (0, 0) -> (forall i, 0 <= i < cap -> has h (base + i * sz)) -> (forall i, 0 <= i < cap -> base + i * sz <> hdr) ->
  olinks h hdr base cap 0 [].
Proof.
  intros h hdr base cap Hc H0 H1 H2. constructor; try assumption; [|constructor|intros i; cbn; lia|lia]. cbn [map ring path]. split; [|constructor; [intros []|constructor]].
  unfold linked, nx, pv. rewrite H0. cbn [option_map fst snd]. split; f_equal; lia.
Qed.

(** Frame: links outside the container are untouched and stay outside. *)
Definition outside (hdr base cap a : Z) : Prop := a <> hdr /\ slot_ix base sz cap a = None.
Definition frame (h : heap) (hdr base cap : Z) (h' : heap) (hdr' base' cap' : Z) : Prop :=
  forall a, outside hdr base cap a -> has h a -> h' a = h a /\ outside hdr' base' cap' a.
Lemma frame_refl : forall h hdr base cap, frame h hdr base cap h hdr base cap.
Proof. intros h hdr base cap a H _. split; [reflexivity|exact H]. Qed.
Lemma frame_trans : forall h0 d0 b0 c0 h1 d1 b1 c1 h2 d2 b2 c2, frame h0 d0 b0 c0 h1 d1 b1 c1 -> frame h1 d1 b1 c1 h2 d2 b2 c2 -> frame h0 d0 b0 c0 h2 d2 b2 c2.
Proof.
  intros h0 d0 b0 c0 h1 d1 b1 c1 h2 d2 b2 c2 H1 H2 a Ho Hh. destruct (H1 a Ho Hh) as (E1 & O1). assert (Hh1 : has h1 a) by (unfold has in *; rewrite E1; exact Hh).
  destruct (H2 a O1 Hh1) as (E2 & O2). split; [congruence|exact O2].
Qed.
Lemma outside_not : forall hdr base cap a l, outside hdr base cap a -> (forall y, In y l -> y = hdr \/ exists i, 0 <= i < cap /\ y = base + i * sz) -> ~ In a l.
Proof.
  intros hdr base cap a l (H1 & H2) H Hi. destruct (H a Hi) as [->|(i & Hb & ->)]; [congruence|]. rewrite slot_ix_of in H2 by assumption. discriminate.
Qed.
Lemma only_frame : forall l h h' hdr base cap, only l h h' -> (forall y, In y l -> y = hdr \/ exists i, 0 <= i < cap /\ y = base + i * sz) -> frame h hdr base cap h' hdr base cap.
Proof. intros l h h' hdr base cap (H1 & _) H a Ho _. split; [|exact Ho]. apply H1. apply (outside_not hdr base cap); assumption. Qed.
Lemma ring_slots : forall h hdr base cap n ord y, olinks h hdr base cap n ord -> In y (hdr :: map (fun i => base + i * sz) ord) -> y = hdr \/ exists i, 0 <= i < cap /\ y = base + i * sz.
Proof.
  intros h hdr base cap n ord y H [<-|Hy]; [left; reflexivity|right]. apply in_map_iff in Hy. destruct Hy as (i & <- & Hi). exists i. split; [|reflexivity].
  apply (ol_in _ _ _ _ _ _ H) in Hi. pose proof (ol_le _ _ _ _ _ _ H). lia.
Qed.

(** ** Growing the element array. *)
Lemma relocate_ok : forall h hdr base cap n ord nb nc h1,
  olinks h hdr base cap n ord -> n <= nc ->
  (forall i, 0 <= i < nc -> h (nb + i * sz) = None) -> (forall i, 0 <= i < nc -> has h1 (nb + i * sz)) -> (forall a, slot_ix nb sz nc a = None -> h1 a = h a) ->
  exists h2, foldM (fun t i => relink_from t (nb + i * sz) (base + i * sz)) (zrange n) h1 = Ok h2 /\
    olinks (unplace h2 base sz cap) hdr nb nc n ord /\ frame h hdr base cap (unplace h2 base sz cap) hdr nb nc.
Proof.
  intros h hdr base cap n ord nb nc h1 H Hn Hfree Hnew Hold.
  pose proof (ol_le _ _ _ _ _ _ H) as Hle. pose proof (ol_nd _ _ _ _ _ _ H) as Hnd.
  assert (Hdis : forall i j, 0 <= i < nc -> 0 <= j < cap -> nb + i * sz <> base + j * sz).
  { intros i j Hi Hj E. apply (ol_has _ _ _ _ _ _ H j Hj). rewrite <- E. apply Hfree. exact Hi. }
  assert (Hdh : forall i, 0 <= i < nc -> nb + i * sz <> hdr).
  { intros i Hi E. apply (olinks_hdr _ _ _ _ _ _ H). rewrite <- E. apply Hfree. exact Hi. }
  assert (Holdix : forall a, has h a -> slot_ix nb sz nc a = None) by (intros a Ha; apply slot_ix_none_intro; [exact Hsz|]; intros i Hi ->; apply Ha; apply Hfree; exact Hi).
  set (at_ := fun k i => if i <? k then nb + i * sz else base + i * sz).
  set (L := hdr :: map (fun i => base + i * sz) (zrange n) ++ map (fun i => nb + i * sz) (zrange n)).
  assert (Hat : forall k i, In i ord -> In (at_ k i) L).
  { intros k i Hi. apply (ol_in _ _ _ _ _ _ H) in Hi. unfold at_, L. right. apply in_or_app. destruct (Z.ltb_spec i k); [right|left]; apply in_map_iff; exists i; (split; [reflexivity|apply zrange_In; exact Hi]). }
  assert (H1 : only L h1 h1 /\ ring h1 (hdr :: map (at_ 0) ord)).
  { split; [apply only_refl|]. assert (Em : map (at_ 0) ord = map (fun i => base + i * sz) ord).
    { apply map_ext_in. intros i Hi. apply (ol_in _ _ _ _ _ _ H) in Hi. unfold at_. destruct (Z.ltb_spec i 0); [lia|reflexivity]. }
    rewrite Em. apply (ring_frame h); [| |apply (ol_ring _ _ _ _ _ _ H)]; intros y Hy; (unfold nx, pv; rewrite Hold; [reflexivity|]; apply Holdix; apply (ring_has _ _ _ (ol_ring _ _ _ _ _ _ H)); exact Hy). }
  destruct (foldM_zrange_inv _ (fun t i => relink_from t (nb + i * sz) (base + i * sz)) (fun k t => only L h1 t /\ ring t (hdr :: map (at_ k) ord)) n h1 ltac:(lia) H1) as (h2 & E & O & R).
  { intros k t Hk (O & R). assert (Hin : In k ord) by (apply (ol_in _ _ _ _ _ _ H); exact Hk). apply in_split in Hin. destruct Hin as (o1 & o2 & Ho).
    rewrite Ho, map_app in R. cbn [map] in R. assert (Ek : at_ k k = base + k * sz) by (unfold at_; rewrite Z.ltb_irrefl; reflexivity). rewrite Ek in R.
    change (hdr :: map (at_ k) o1 ++ base + k * sz :: map (at_ k) o2) with ((hdr :: map (at_ k) o1) ++ base + k * sz :: map (at_ k) o2) in R.
    assert (Hnin : ~ In (nb + k * sz) ((hdr :: map (at_ k) o1) ++ base + k * sz :: map (at_ k) o2)).
    { intros Hi. assert (Hi' : In (nb + k * sz) (hdr :: map (at_ k) ord)) by (rewrite Ho, map_app; cbn [map]; rewrite Ek; exact Hi). destruct Hi' as [Hi'|Hi']; [symmetry in Hi'; revert Hi'; apply Hdh; lia|].
      apply in_map_iff in Hi'. destruct Hi' as (i & Ei & Hi'). apply (ol_in _ _ _ _ _ _ H) in Hi'. unfold at_ in Ei. destruct (Z.ltb_spec i k).
      - apply slot_inj in Ei. lia.
      - symmetry in Ei. revert Ei. apply Hdis; lia. }
    destruct (ring_move_at t (nb + k * sz) (hdr :: map (at_ k) o1) (base + k * sz) (map (at_ k) o2) R Hnin) as (t' & E' & R' & O' & _); [apply O; apply Hnew; lia|].
    exists t'. split; [exact E'|]. split.
    - apply (only_trans _ _ t); [exact O|]. apply (only_incl _ _ _ _ O'). intros y [<-|Hy].
      + unfold L. right. apply in_or_app. right. apply in_map_iff. exists k. split; [reflexivity|apply zrange_In; exact Hk].
      + assert (Hy' : In y (hdr :: map (at_ k) ord)) by (rewrite Ho, map_app; cbn [map]; rewrite Ek; exact Hy). destruct Hy' as [<-|Hy']; [left; reflexivity|]. apply in_map_iff in Hy'. destruct Hy' as (i & <- & Hi). apply Hat. exact Hi.
    - assert (Em : map (at_ (k + 1)) ord = map (at_ k) o1 ++ nb + k * sz :: map (at_ k) o2).
      { rewrite Ho, map_app. cbn [map]. assert (Hx : forall i, i <> k -> at_ (k + 1) i = at_ k i) by (intros i Hi; unfold at_; destruct (Z.ltb_spec i (k + 1)), (Z.ltb_spec i k); try reflexivity; lia).
        rewrite Ho in Hnd. apply NoDup_remove_2 in Hnd. f_equal; [apply map_ext_in; intros i Hi; apply Hx; intros ->; apply Hnd; apply in_or_app; left; exact Hi|]. f_equal; [unfold at_; destruct (Z.ltb_spec k (k + 1)); [reflexivity|lia]|].
        apply map_ext_in. intros i Hi. apply Hx. intros ->. apply Hnd. apply in_or_app. right. exact Hi. }
      rewrite Em. exact R'. }
  exists h2. split; [exact E|].
  assert (Em : map (at_ n) ord = map (fun i => nb + i * sz) ord).
  { apply map_ext_in. intros i Hi. apply (ol_in _ _ _ _ _ _ H) in Hi. unfold at_. destruct (Z.ltb_spec i n); [reflexivity|lia]. }
  rewrite Em in R.
  assert (Hkeep : forall a, slot_ix base sz cap a = None -> unplace h2 base sz cap a = h2 a) by (intros a Ha; unfold unplace; rewrite Ha; reflexivity).
  assert (Hnb : forall i, 0 <= i < nc -> slot_ix base sz cap (nb + i * sz) = None) by (intros i Hi; apply slot_ix_none_intro; [exact Hsz|]; intros j Hj; apply Hdis; assumption).
  assert (Hhb : slot_ix base sz cap hdr = None) by (apply slot_ix_none_intro; [exact Hsz|]; intros i Hi E'; apply (ol_hdr _ _ _ _ _ _ H i Hi); symmetry; exact E').
  split.
  - constructor; try assumption.
    + apply (ring_frame h2); [| |exact R]; intros y Hy; (unfold nx, pv; rewrite Hkeep; [reflexivity|]; destruct Hy as [<-|Hy]; [exact Hhb|]; apply in_map_iff in Hy; destruct Hy as (i & <- & Hi); apply Hnb; apply (ol_in _ _ _ _ _ _ H) in Hi; lia).
    + apply (ol_in _ _ _ _ _ _ H).
    + lia.
    + intros i Hi. unfold has. rewrite Hkeep by (apply Hnb; exact Hi). apply O. apply Hnew. exact Hi.
  - intros a (Ha1 & Ha2) Hh. pose proof (Holdix a Hh) as Hnn. split; [|split; [exact Ha1|exact Hnn]].
    rewrite Hkeep by exact Ha2. rewrite (proj1 O); [apply Hold; exact Hnn|].
    intros [<-|Hi]; [congruence|]. apply in_app_or in Hi. destruct Hi as [Hi|Hi]; apply in_map_iff in Hi; destruct Hi as (i & <- & Hi); apply zrange_In in Hi; [rewrite slot_ix_of in Ha2 by lia|rewrite slot_ix_of in Hnn by lia]; discriminate.
Qed.

(** ** Appending the node in slot [n]. *)
Lemma append_ok : forall h hdr base cap n ord, olinks h hdr base cap n ord -> n < cap ->
  exists p h', prev_link h hdr = Ok p /\ link_after h (base + n * sz) p = Ok h' /\ olinks h' hdr base cap (n + 1) (ord ++ [n]) /\ frame h hdr base cap h' hdr base cap.
Proof.
  intros h hdr base cap n ord H Hlt. pose proof (ol_ring _ _ _ _ _ _ H) as R. pose proof (ol_le _ _ _ _ _ _ H) as Hle.
  destruct (exists_last (l := hdr :: map (fun i => base + i * sz) ord) ltac:(discriminate)) as (m & p & Hm).
  assert (Hp : pv h hdr = Some p).
  { pose proof R as R'. rewrite Hm in R'. apply ring_rot in R'. destruct m as [|x m]; cbn [app] in *.
    - injection Hm as -> Hm. destruct R' as (R' & _). cbn [path] in R'. apply R'.
    - injection Hm as <- Hm. destruct R' as (R' & _). cbn [path] in R'. apply R'. }
  exists p. rewrite Hm in R.
  assert (Hnin : ~ In (base + n * sz) (hdr :: map (fun i => base + i * sz) ord)).
  { intros [Hi|Hi]; [symmetry in Hi; revert Hi; apply (ol_hdr _ _ _ _ _ _ H); lia|]. apply in_map_iff in Hi. destruct Hi as (i & Ei & Hi). apply slot_inj in Ei. apply (ol_in _ _ _ _ _ _ H) in Hi. lia. }
  destruct (ring_link_at h (base + n * sz) m p [] R) as (h' & E & R' & O); [rewrite <- Hm; exact Hnin|apply (ol_has _ _ _ _ _ _ H); lia|].
  exists h'. split; [apply prev_link_ok; exact Hp|]. split; [exact E|]. split.
  - constructor.
    + rewrite map_app. cbn [map]. change (hdr :: map (fun i => base + i * sz) ord ++ [base + n * sz]) with ((hdr :: map (fun i => base + i * sz) ord) ++ [base + n * sz]). rewrite Hm, <- app_assoc. exact R'.
    + apply NoDup_app_intro; [apply (ol_nd _ _ _ _ _ _ H)|constructor; [intros []|constructor]|]. intros i Hi [<-|[]]. apply (ol_in _ _ _ _ _ _ H) in Hi. lia.
    + intros i. rewrite in_app_iff. cbn [In]. rewrite (ol_in _ _ _ _ _ _ H). lia.
    + lia.
    + intros i Hi. apply O. apply (ol_has _ _ _ _ _ _ H). exact Hi.
    + apply (ol_hdr _ _ _ _ _ _ H).
  - apply (only_frame _ _ _ _ _ _ O). intros y [<-|Hy]; [right; exists n; split; [lia|reflexivity]|]. rewrite <- Hm in Hy. apply (ring_slots _ _ _ _ _ _ _ H Hy).
Qed.
(** Linking the node in slot [n] after a given link of the ring. *)
Lemma insert_after_ok : forall h hdr base cap n o1 o2 p, olinks h hdr base cap n (o1 ++ o2) -> n < cap ->
  (p = last (hdr :: map (fun i => base + i * sz) o1) hdr) ->
  exists h', link_after h (base + n * sz) p = Ok h' /\ olinks h' hdr base cap (n + 1) (o1 ++ n :: o2) /\ frame h hdr base cap h' hdr base cap.
Proof.
  intros h hdr base cap n o1 o2 p H Hlt Hp. pose proof (ol_ring _ _ _ _ _ _ H) as R. pose proof (ol_le _ _ _ _ _ _ H) as Hle.
  destruct (exists_last (l := hdr :: map (fun i => base + i * sz) o1) ltac:(discriminate)) as (m & q & Hm).
  rewrite Hm, last_last in Hp. subst q.
  assert (Hnin : ~ In (base + n * sz) (hdr :: map (fun i => base + i * sz) (o1 ++ o2))).
  { intros [Hi|Hi]; [symmetry in Hi; revert Hi; apply (ol_hdr _ _ _ _ _ _ H); lia|]. apply in_map_iff in Hi. destruct Hi as (i & Ei & Hi). apply slot_inj in Ei. apply (ol_in _ _ _ _ _ _ H) in Hi. lia. }
  assert (Em : hdr :: map (fun i => base + i * sz) (o1 ++ o2) = m ++ p :: map (fun i => base + i * sz) o2).
  { rewrite map_app. change (hdr :: map (fun i => base + i * sz) o1 ++ map (fun i => base + i * sz) o2) with ((hdr :: map (fun i => base + i * sz) o1) ++ map (fun i => base + i * sz) o2). rewrite Hm, <- app_assoc. reflexivity. }
  rewrite Em in R, Hnin.
  destruct (ring_link_at h (base + n * sz) m p _ R Hnin) as (h' & E & R' & O); [apply (ol_has _ _ _ _ _ _ H); lia|].
  exists h'. split; [exact E|]. split.
  - constructor.
    + rewrite map_app. cbn [map]. change (hdr :: map (fun i => base + i * sz) o1 ++ base + n * sz :: map (fun i => base + i * sz) o2) with ((hdr :: map (fun i => base + i * sz) o1) ++ base + n * sz :: map (fun i => base + i * sz) o2). rewrite Hm, <- app_assoc. exact R'.
    + apply (Permutation_NoDup (Permutation_middle o1 o2 n)). constructor; [intros Hi; apply (ol_in _ _ _ _ _ _ H) in Hi; lia|apply (ol_nd _ _ _ _ _ _ H)].
    + intros i. pose proof (ol_in _ _ _ _ _ _ H i) as Hi. rewrite in_app_iff in *. cbn [In]. destruct (Z.eq_dec n i) as [->|]; [split; [lia|tauto]|]. split; intros X; [assert (0 <= i < n) by (apply Hi; tauto); lia|]. assert (X' : 0 <= i < n) by lia. apply Hi in X'. tauto.
    + lia.
    + intros i Hi. apply O. apply (ol_has _ _ _ _ _ _ H). exact Hi.
    + apply (ol_hdr _ _ _ _ _ _ H).
  - apply (only_frame _ _ _ _ _ _ O). intros y [<-|Hy]; [right; exists n; split; [lia|reflexivity]|]. rewrite <- Em in Hy. apply (ring_slots _ _ _ _ _ _ _ H Hy).
Qed.

(** ** Erasing slot [pos]: the last slot takes its place. *)
Definition subst_last (pos last i : Z) : Z := if i =? last then pos else i.
Lemma erase_links_ok : forall h hdr base cap n o1 pos o2, olinks h hdr base cap n (o1 ++ pos :: o2) ->
  exists h1 h2, unlink h (base + pos * sz) = Ok h1 /\
    (if pos =? n - 1 then Ok h1 else relink_from h1 (base + pos * sz) (base + (n - 1) * sz)) = Ok h2 /\
    olinks h2 hdr base cap (n - 1) (map (subst_last pos (n - 1)) (o1 ++ o2)) /\ frame h hdr base cap h2 hdr base cap /\
    next_link h (base + pos * sz) = Ok (match o2 with [] => hdr | i :: _ => base + i * sz end).
Proof.
  intros h hdr base cap n o1 pos o2 H. pose proof (ol_ring _ _ _ _ _ _ H) as R. pose proof (ol_le _ _ _ _ _ _ H) as Hle. pose proof (ol_nd _ _ _ _ _ _ H) as Hnd.
  rewrite map_app in R. cbn [map] in R. destruct (ring_unlink_at h hdr _ _ _ R) as (h1 & E1 & R1 & O1).
  assert (Hpos : 0 <= pos < n) by (apply (ol_in _ _ _ _ _ _ H); apply in_or_app; right; left; reflexivity).
  pose proof (NoDup_remove_1 _ _ _ Hnd) as Hnd1. pose proof (NoDup_remove_2 _ _ _ Hnd) as Hnp.
  assert (Hin1 : forall i, In i (o1 ++ o2) <-> 0 <= i < n /\ i <> pos).
  { intros i. pose proof (ol_in _ _ _ _ _ _ H i) as Hi. rewrite !in_app_iff in *. cbn [In] in Hi. split; [intros X; split; [tauto|intros ->; tauto]|intros (X & Y)]. apply Hi in X. destruct X as [X|[X|X]]; [tauto|congruence|tauto]. }
  assert (Hnx : next_link h (base + pos * sz) = Ok (match o2 with [] => hdr | i :: _ => base + i * sz end)).
  { apply next_link_ok. destruct R as (R & _). apply path_app in R. destruct R as (_ & R). destruct o2; cbn [map path] in R; apply R. }
  rewrite <- map_app in R1, O1.
  exists h1. destruct (Z.eqb_spec pos (n - 1)) as [Hp|Hp].
  - exists h1. split; [exact E1|]. split; [reflexivity|]. split; [|split; [|exact Hnx]].
    + assert (Em : map (subst_last pos (n - 1)) (o1 ++ o2) = o1 ++ o2).
      { rewrite <- (map_id (o1 ++ o2)) at 2. apply map_ext_in. intros i Hi. unfold subst_last. destruct (Z.eqb_spec i (n - 1)); [congruence|reflexivity]. }
      rewrite Em. constructor; try assumption.
      * intros i. rewrite Hin1. lia.
      * lia.
      * intros i Hi. apply O1. apply (ol_has _ _ _ _ _ _ H). exact Hi.
      * apply (ol_hdr _ _ _ _ _ _ H).
    + apply (only_frame _ _ _ _ _ _ O1). intros y Hy. apply (ring_slots _ _ _ _ _ _ _ H). rewrite map_app in *. cbn [map In] in *. rewrite in_app_iff in *. cbn [In]. tauto.
  - assert (Hin : In (n - 1) (o1 ++ o2)) by (apply Hin1; lia). apply in_split in Hin. destruct Hin as (q1 & q2 & Hq).
    assert (Em : map (subst_last pos (n - 1)) (o1 ++ o2) = q1 ++ pos :: q2).
    { rewrite Hq in *. rewrite map_app. cbn [map]. apply NoDup_remove_2 in Hnd1.
      assert (Hx : forall i, In i (q1 ++ q2) -> subst_last pos (n - 1) i = i) by (intros i Hi; unfold subst_last; destruct (Z.eqb_spec i (n - 1)) as [->|]; [contradiction|reflexivity]).
      f_equal; [rewrite <- (map_id q1) at 2; apply map_ext_in; intros i Hi; apply Hx; apply in_or_app; left; exact Hi|]. f_equal; [unfold subst_last; rewrite Z.eqb_refl; reflexivity|].
      rewrite <- (map_id q2) at 2; apply map_ext_in; intros i Hi; apply Hx; apply in_or_app; right; exact Hi. }
    rewrite Em. rewrite Hq, map_app in R1. cbn [map] in R1.
    change (hdr :: map (fun i => base + i * sz) q1 ++ base + (n - 1) * sz :: map (fun i => base + i * sz) q2) with ((hdr :: map (fun i => base + i * sz) q1) ++ base + (n - 1) * sz :: map (fun i => base + i * sz) q2) in R1.
    assert (Hnin : ~ In (base + pos * sz) ((hdr :: map (fun i => base + i * sz) q1) ++ base + (n - 1) * sz :: map (fun i => base + i * sz) q2)).
    { intros Hi. assert (Hi' : In (base + pos * sz) (hdr :: map (fun i => base + i * sz) (o1 ++ o2))) by (rewrite Hq, map_app; exact Hi).
      destruct Hi' as [Hi'|Hi']; [symmetry in Hi'; revert Hi'; apply (ol_hdr _ _ _ _ _ _ H); lia|]. apply in_map_iff in Hi'. destruct Hi' as (i & Ei & Hi'). apply slot_inj in Ei. subst i. contradiction. }
    destruct (ring_move_at h1 (base + pos * sz) _ _ _ R1 Hnin) as (h2 & E2 & R2 & O2 & _); [apply O1; apply (ol_has _ _ _ _ _ _ H); lia|].
    exists h2. split; [exact E1|]. split; [exact E2|]. split; [|split; [|exact Hnx]].
    + constructor.
      * rewrite map_app. exact R2.
      * rewrite Hq in *. apply (Permutation_NoDup (Permutation_middle q1 q2 pos)). constructor; [intros Hi; apply Hnp; rewrite in_app_iff in *; cbn [In]; tauto|apply NoDup_remove_1 in Hnd1; exact Hnd1].
      * intros i. pose proof (Hin1 i) as Hi. rewrite Hq in Hi, Hnd1. apply NoDup_remove_2 in Hnd1. rewrite !in_app_iff in *. cbn [In] in *. destruct (Z.eq_dec i pos) as [->|].
        -- split; [lia|auto].
        -- split.
           ++ intros X. assert (X' : In i q1 \/ n - 1 = i \/ In i q2) by (destruct X as [X|[X|X]]; [auto|congruence|auto]). assert (i <> n - 1) by (intros ->; destruct X as [X|[X|X]]; tauto). apply Hi in X'. lia.
           ++ intros X. assert (X' : 0 <= i < n /\ i <> pos) by lia. apply Hi in X'. destruct X' as [X'|[X'|X']]; [auto|lia|auto].
      * lia.
      * intros i Hi. apply O2. apply O1. apply (ol_has _ _ _ _ _ _ H). exact Hi.
      * apply (ol_hdr _ _ _ _ _ _ H).
    + assert (Hall : forall y, In y (hdr :: map (fun i => base + i * sz) (o1 ++ o2)) -> y = hdr \/ exists i, 0 <= i < cap /\ y = base + i * sz).
      { intros y [<-|Hy]; [left; reflexivity|]. apply in_map_iff in Hy. destruct Hy as (i & <- & Hi). right. exists i. split; [apply Hin1 in Hi; lia|reflexivity]. }
      apply (frame_trans _ _ _ _ h1 hdr base cap).
      * apply (only_frame _ _ _ _ _ _ O1 Hall).
      * apply (only_frame _ _ _ _ _ _ O2). intros y [<-|Hy]; [right; exists pos; split; [lia|reflexivity]|]. apply Hall. rewrite Hq, map_app. exact Hy.
Qed.

(** ** Reset of the header. *)
Lemma reset_ok : forall h hdr base cap n ord, olinks h hdr base cap n ord ->
  exists h', reset_link h hdr = Ok h' /\ olinks h' hdr base cap 0 [] /\ frame h hdr base cap h' hdr base cap.
Proof.
  intros h hdr base cap n ord H. destruct (has_some _ _ (olinks_hdr _ _ _ _ _ _ H)) as (x & y & Hh). unfold reset_link, get_link. rewrite Hh. cbn [bind]. eexists. split; [reflexivity|]. split.
  - apply olinks_empty; [apply (olinks_cap _ _ _ _ _ _ H)|apply upd_same| |apply (ol_hdr _ _ _ _ _ _ H)]. intros i Hi. unfold has. rewrite upd_other by (apply (ol_hdr _ _ _ _ _ _ H); exact Hi). apply (ol_has _ _ _ _ _ _ H). exact Hi.
  - intros a (Ha & Hb) _. split; [rewrite upd_other by exact Ha; reflexivity|split; assumption].
Qed.

(** ** Traversal. *)
Lemma walk_ok : forall h hdr base cap n ord, olinks h hdr base cap n ord -> exists a, next_link h hdr = Ok a /\ walk (S (Z.to_nat n)) h a hdr = Ok (map (fun i => base + i * sz) ord).
Proof. intros h hdr base cap n ord H. apply ring_walk; [apply (ol_ring _ _ _ _ _ _ H)|]. rewrite map_length, (olinks_len _ _ _ _ _ _ H). lia. Qed.
Lemma walk_back_ok : forall h hdr base cap n ord, olinks h hdr base cap n ord -> exists a, prev_link h hdr = Ok a /\ walk_back (S (Z.to_nat n)) h a hdr = Ok (map (fun i => base + i * sz) (rev ord)).
Proof. intros h hdr base cap n ord H. rewrite map_rev. apply ring_walk_back; [apply (ol_ring _ _ _ _ _ _ H)|]. rewrite map_length, (olinks_len _ _ _ _ _ _ H). lia. Qed.
End Links.
