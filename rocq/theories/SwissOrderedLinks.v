(** The link half of the ordered swiss table: rings through some slots of a node array. *)
From Coq Require Import ZArith List Bool Lia Permutation.
From Verif Require Import Base BaseLemmas LinkSpec LinkModel LinkProofs OrderedLinks OrderedMoves.
Import ListNotations.
Open Scope Z_scope.

(** Where a list of movements (from, to) takes a position. *)
Definition dest (mv : list (Z * Z)) (i : Z) : Z := match find (fun m => fst m =? i) mv with Some m => snd m | None => i end.
Lemma dest_cons : forall a b mv i, dest ((a, b) :: mv) i = if a =? i then b else dest mv i.
Proof. intros a b mv i. unfold dest. cbn [find fst]. destruct (a =? i); reflexivity. Qed.
Lemma dest_none : forall mv i, ~ In i (map fst mv) -> dest mv i = i.
Proof.
  intros mv i H. unfold dest. destruct (find (fun m => fst m =? i) mv) as [m|] eqn:E; [|reflexivity]. apply find_some in E. destruct E as (E1 & E2). apply Z.eqb_eq in E2.
  exfalso. apply H. rewrite <- E2. apply in_map. exact E1.
Qed.
Lemma dest_some : forall mv i, In i (map fst mv) -> In (i, dest mv i) mv.
Proof.
  intros mv i H. unfold dest. destruct (find (fun m => fst m =? i) mv) as [m|] eqn:E.
  - apply find_some in E. destruct E as (E1 & E2). apply Z.eqb_eq in E2. subst i. destruct m. exact E1.
  - apply in_map_iff in H. destruct H as (m & <- & H). apply (find_none _ _ E) in H. rewrite Z.eqb_refl in H. discriminate.
Qed.
Lemma dest_inj : forall mv, NoDup (map snd mv) -> forall i j, In i (map fst mv) -> In j (map fst mv) -> dest mv i = dest mv j -> i = j.
Proof.
  intros mv Hn i j Hi Hj E. apply dest_some in Hi, Hj. rewrite E in Hi. clear E. revert Hn Hi Hj. generalize (dest mv j). intros k. induction mv as [|(a, b) mv IH]; intros Hn Hi Hj; [destruct Hi|].
  cbn [map snd] in Hn. apply NoDup_cons_iff in Hn. destruct Hn as (Hn1 & Hn). destruct Hi as [Hi|Hi], Hj as [Hj|Hj].
  - congruence.
  - injection Hi as -> ->. exfalso. apply Hn1. change k with (snd (j, k)). apply in_map. exact Hj.
  - injection Hj as -> ->. exfalso. apply Hn1. change k with (snd (i, k)). apply in_map. exact Hi.
  - apply IH; assumption.
Qed.

(** Relocating objects of a ring, one after the other. *)
Lemma moves_ring : forall mv h x l, ring h (x :: l) -> NoDup (map fst mv) -> NoDup (map snd mv) ->
  (forall a, In a (map fst mv) -> In a l) -> (forall b, In b (map snd mv) -> has h b /\ ~ In b (x :: l)) ->
  exists h', foldM (fun t m => relink_from t (snd m) (fst m)) mv h = Ok h' /\ ring h' (x :: map (dest mv) l) /\ only (x :: l ++ map snd mv) h h'.
Proof.
  induction mv as [|(a, b) mv IH]; intros h x l R Hf Hs Hin Hout; cbn [map fst snd] in *.
  - exists h. split; [reflexivity|]. split; [|apply only_refl]. assert (E : map (dest []) l = l) by (rewrite <- (map_id l) at 2; apply map_ext; reflexivity). rewrite E. exact R.
  - apply NoDup_cons_iff in Hf, Hs. destruct Hf as (Hfa & Hf). destruct Hs as (Hsb & Hs).
    pose proof (Hin a (or_introl eq_refl)) as Ha. apply in_split in Ha. destruct Ha as (l1 & l2 & ->). destruct (Hout b (or_introl eq_refl)) as (Hb1 & Hb2).
    pose proof (ring_nodup _ _ R) as Hnd. apply NoDup_cons_iff in Hnd. destruct Hnd as (Hnx & Hnd). pose proof (NoDup_remove_2 _ _ _ Hnd) as Hna.
    change (x :: l1 ++ a :: l2) with ((x :: l1) ++ a :: l2) in R, Hb2. destruct (ring_move_at h b (x :: l1) a l2 R Hb2 Hb1) as (h1 & E1 & R1 & O1 & _).
    destruct (IH h1 x (l1 ++ b :: l2)) as (h2 & E2 & R2 & O2); try assumption.
    + intros c Hc. assert (Hcl : In c (l1 ++ a :: l2)) by (apply Hin; right; exact Hc). rewrite in_app_iff in *. cbn [In] in *. destruct Hcl as [?|[->|?]]; auto. contradiction.
    + intros c Hc. destruct (Hout c (or_intror Hc)) as (Hc1 & Hc2). split; [apply O1; exact Hc1|]. intros [<-|Hi]; [apply Hc2; left; reflexivity|]. apply in_app_or in Hi. destruct Hi as [Hi|[<-|Hi]].
      * apply Hc2. right. apply in_or_app. left. exact Hi.
      * contradiction.
      * apply Hc2. right. apply in_or_app. right. right. exact Hi.
    + exists h2. cbn [foldM bind fst snd]. rewrite E1. cbn [bind]. split; [exact E2|]. split.
      * assert (Em : map (dest ((a, b) :: mv)) (l1 ++ a :: l2) = map (dest mv) (l1 ++ b :: l2)).
        { assert (Hx : forall c, In c (l1 ++ l2) -> dest ((a, b) :: mv) c = dest mv c) by (intros c Hc; rewrite dest_cons; destruct (Z.eqb_spec a c) as [->|]; [contradiction|reflexivity]).
          rewrite !map_app. cbn [map]. f_equal; [apply map_ext_in; intros c Hc; apply Hx, in_or_app; left; exact Hc|]. f_equal; [|apply map_ext_in; intros c Hc; apply Hx, in_or_app; right; exact Hc].
          rewrite dest_cons, Z.eqb_refl. symmetry. apply dest_none. intros Hi. apply Hb2. right. apply Hin. right. exact Hi. }
        rewrite Em. exact R2.
      * apply (only_trans _ _ h1).
        -- apply (only_incl _ _ _ _ O1). intros y Hy. cbn [In app] in *. rewrite !in_app_iff in *. cbn [In] in *. rewrite ?in_app_iff in *. cbn [In] in *. tauto.
        -- apply (only_incl _ _ _ _ O2). intros y Hy. cbn [In app] in *. rewrite !in_app_iff in *. cbn [In] in *. rewrite ?in_app_iff in *. cbn [In] in *. tauto.
Qed.

Section Links.
Variable sz : Z.
Hypothesis Hsz : 0 < sz.
Notation at_ base := (fun i => base + i * sz).
Notation outside := (outside sz). Notation frame := (frame sz).

(** The links of a container: header at [hdr], nodes in slots of the array at [base], chained
    in the order [ord] of their slots. *)
Record rlinks (h : heap) (hdr base cap : Z) (ord : list Z) : Prop := {
  rl_ring : ring h (hdr :: map (at_ base) ord);
  rl_in : forall i, In i ord -> 0 <= i < cap;
  rl_cap : 0 <= cap;
  rl_has : forall i, 0 <= i < cap -> has h (base + i * sz);
  rl_hdr : forall i, 0 <= i < cap -> base + i * sz <> hdr
}.

Lemma rl_nd : forall h hdr base cap ord, rlinks h hdr base cap ord -> NoDup ord.
Proof. intros h hdr base cap ord H. pose proof (ring_nodup _ _ (rl_ring _ _ _ _ _ H)) as N. apply NoDup_cons_iff in N. destruct N as (_ & N). apply NoDup_map_inv in N. exact N. Qed.
Lemma rl_hashdr : forall h hdr base cap ord, rlinks h hdr base cap ord -> has h hdr.
Proof. intros h hdr base cap ord H. apply (ring_has _ _ _ (rl_ring _ _ _ _ _ H)). left. reflexivity. Qed.
Lemma rl_slots : forall h hdr base cap ord y, rlinks h hdr base cap ord -> In y (hdr :: map (at_ base) ord) -> y = hdr \/ exists i, 0 <= i < cap /\ y = base + i * sz.
Proof. intros h hdr base cap ord y H [<-|Hy]; [left; reflexivity|right]. apply in_map_iff in Hy. destruct Hy as (i & <- & Hi). exists i. split; [apply (rl_in _ _ _ _ _ H); exact Hi|reflexivity]. Qed.
Lemma rl_len : forall h hdr base cap ord, rlinks h hdr base cap ord -> (length ord <= Z.to_nat cap)%nat.
Proof.
  intros h hdr base cap ord H. rewrite <- (zrange_length cap). apply NoDup_incl_length; [apply (rl_nd _ _ _ _ _ H)|]. intros i Hi. apply zrange_In. apply (rl_in _ _ _ _ _ H). exact Hi.
Qed.

(** A container whose header is reset. *)
Lemma rl_empty : forall h hdr base cap, 0 <= cap -> h hdr = Some (0, 0) -> (forall i, 0 <= i < cap -> has h (base + i * sz)) -> (forall i, 0 <= i < cap -> base + i * sz <> hdr) ->
  rlinks h hdr base cap [].
Proof.
  intros h hdr base cap Hc H0 H1 H2. constructor; try assumption; [|intros i []]. cbn [map ring path]. split; [|constructor; [intros []|constructor]].
  unfold linked, nx, pv. rewrite H0. cbn [option_map fst snd]. split; f_equal; lia.
Qed.
(** The header of an empty container holds two zeros. *)
Lemma rl_empty_hdr : forall h hdr base cap, rlinks h hdr base cap [] -> h hdr = Some (0, 0).
Proof.
  intros h hdr base cap H. pose proof (rl_ring _ _ _ _ _ H) as R. cbn [map ring path] in R. destruct R as ((R1 & R2) & _). unfold nx, pv in *. destruct (h hdr) as [(n, p)|]; [|discriminate].
  cbn [option_map fst snd] in *. injection R1 as R1. injection R2 as R2. f_equal. f_equal; lia.
Qed.

(** ** A rehash. *)
Lemma rehash_links : forall h hdr base cap ord nb nc h1 mv,
  rlinks h hdr base cap ord -> 0 <= nc -> NoDup (map fst mv) -> NoDup (map snd mv) ->
  (forall i, In i ord <-> In i (map fst mv)) -> (forall j, In j (map snd mv) -> 0 <= j < nc) ->
  (forall i, 0 <= i < nc -> h (nb + i * sz) = None) -> (forall i, 0 <= i < nc -> has h1 (nb + i * sz)) -> (forall a, slot_ix nb sz nc a = None -> h1 a = h a) ->
  exists h2, foldM (fun t m => relink_from t (nb + snd m * sz) (base + fst m * sz)) mv h1 = Ok h2 /\
    rlinks (unplace h2 base sz cap) hdr nb nc (map (dest mv) ord) /\ frame h hdr base cap (unplace h2 base sz cap) hdr nb nc.
Proof.
  intros h hdr base cap ord nb nc h1 mv H Hnc Hf Hs Hord Hto Hfree Hnew Hold.
  assert (Hdis : forall i j, 0 <= i < nc -> 0 <= j < cap -> nb + i * sz <> base + j * sz).
  { intros i j Hi Hj E. apply (rl_has _ _ _ _ _ H j Hj). rewrite <- E. apply Hfree. exact Hi. }
  assert (Hdh : forall i, 0 <= i < nc -> nb + i * sz <> hdr).
  { intros i Hi E. apply (rl_hashdr _ _ _ _ _ H). rewrite <- E. apply Hfree. exact Hi. }
  assert (Holdix : forall a, has h a -> slot_ix nb sz nc a = None) by (intros a Ha; apply slot_ix_none_intro; [exact Hsz|]; intros i Hi ->; apply Ha; apply Hfree; exact Hi).
  pose proof (rl_ring _ _ _ _ _ H) as R.
  assert (R1 : ring h1 (hdr :: map (at_ base) ord)).
  { apply (ring_frame h); [| |exact R]; intros y Hy; (unfold nx, pv; rewrite Hold; [reflexivity|]; apply Holdix; apply (ring_has _ _ _ R); exact Hy). }
  set (mv' := map (fun m => (base + fst m * sz, nb + snd m * sz)) mv).
  assert (Ef : map fst mv' = map (at_ base) (map fst mv)) by (unfold mv'; rewrite !map_map; apply map_ext; reflexivity).
  assert (Es : map snd mv' = map (at_ nb) (map snd mv)) by (unfold mv'; rewrite !map_map; apply map_ext; reflexivity).
  assert (Hinj : forall b l, NoDup l -> NoDup (map (at_ b) l)) by (intros b l Hl; apply FinFun.Injective_map_NoDup; [intros i j Hij; apply (slot_inj sz Hsz b); exact Hij|exact Hl]).
  destruct (moves_ring mv' h1 hdr (map (at_ base) ord) R1) as (h2 & E & R2 & O).
  - rewrite Ef. apply Hinj. exact Hf.
  - rewrite Es. apply Hinj. exact Hs.
  - intros a Ha. rewrite Ef in Ha. apply in_map_iff in Ha. destruct Ha as (i & <- & Hi). apply in_map_iff. exists i. split; [reflexivity|]. apply Hord. exact Hi.
  - intros b Hb. rewrite Es in Hb. apply in_map_iff in Hb. destruct Hb as (j & <- & Hj). apply Hto in Hj. split; [apply Hnew; exact Hj|]. intros [Hi|Hi]; [symmetry in Hi; revert Hi; apply Hdh; exact Hj|].
    apply in_map_iff in Hi. destruct Hi as (i & Ei & Hi). symmetry in Ei. revert Ei. apply Hdis; [exact Hj|]. apply (rl_in _ _ _ _ _ H). exact Hi.
  - exists h2. split.
    { rewrite <- E. unfold mv'. clear. revert h1. induction mv as [|m mv IH]; intros h1; [reflexivity|]. cbn [map foldM fst snd]. destruct (relink_from h1 (nb + snd m * sz) (base + fst m * sz)); [apply IH|reflexivity]. }
    assert (Em : map (dest mv') (map (at_ base) ord) = map (at_ nb) (map (dest mv) ord)).
    { rewrite !map_map. apply map_ext_in. intros i Hi. apply Hord in Hi. unfold mv'. revert Hi. clear - Hsz. induction mv as [|(a, b) mv IH]; [intros []|]. cbn [map fst snd]. rewrite !dest_cons. intros Hi.
      destruct (Z.eqb_spec a i) as [->|Hne]; [rewrite Z.eqb_refl; reflexivity|]. destruct (Z.eqb_spec (base + a * sz) (base + i * sz)) as [He|_]; [apply (slot_inj sz Hsz) in He; congruence|]. apply IH. destruct Hi as [->|Hi]; [congruence|exact Hi]. }
    rewrite Em in R2.
    assert (Hin2 : forall i, In i (map (dest mv) ord) -> 0 <= i < nc).
    { intros i Hi. apply in_map_iff in Hi. destruct Hi as (j & <- & Hj). apply Hord in Hj. apply dest_some in Hj. apply Hto. change (dest mv j) with (snd (j, dest mv j)). apply in_map. exact Hj. }
    assert (Hkeep : forall a, slot_ix base sz cap a = None -> unplace h2 base sz cap a = h2 a) by (intros a Ha; unfold unplace; rewrite Ha; reflexivity).
    assert (Hnb : forall i, 0 <= i < nc -> slot_ix base sz cap (nb + i * sz) = None) by (intros i Hi; apply slot_ix_none_intro; [exact Hsz|]; intros j Hj; apply Hdis; assumption).
    assert (Hhb : slot_ix base sz cap hdr = None) by (apply slot_ix_none_intro; [exact Hsz|]; intros i Hi E'; apply (rl_hdr _ _ _ _ _ H i Hi); symmetry; exact E').
    split.
    + constructor; try assumption.
      * apply (ring_frame h2); [| |exact R2]; intros y Hy; (unfold nx, pv; rewrite Hkeep; [reflexivity|]; destruct Hy as [<-|Hy]; [exact Hhb|]; apply in_map_iff in Hy; destruct Hy as (i & <- & Hi); apply Hnb; apply Hin2; exact Hi).
      * intros i Hi. unfold has. rewrite Hkeep by (apply Hnb; exact Hi). apply O. apply Hnew. exact Hi.
    + intros a (Ha1 & Ha2) Hh. pose proof (Holdix a Hh) as Hnn. split; [|split; [exact Ha1|exact Hnn]].
      rewrite Hkeep by exact Ha2. rewrite (proj1 O); [apply Hold; exact Hnn|].
      intros [<-|Hi]; [congruence|]. apply in_app_or in Hi. destruct Hi as [Hi|Hi]; [|rewrite Es in Hi]; apply in_map_iff in Hi; destruct Hi as (i & <- & Hi).
      * apply (rl_in _ _ _ _ _ H) in Hi. rewrite slot_ix_of in Ha2 by lia. discriminate.
      * apply Hto in Hi. rewrite slot_ix_of in Hnn by lia. discriminate.
Qed.

(** ** Moving one node within the array. *)
Lemma move_links : forall h hdr base cap ord a b, rlinks h hdr base cap ord -> In a ord -> ~ In b ord -> 0 <= b < cap ->
  exists h', relink_from h (base + b * sz) (base + a * sz) = Ok h' /\ rlinks h' hdr base cap (map (dest [(a, b)]) ord) /\ frame h hdr base cap h' hdr base cap.
Proof.
  intros h hdr base cap ord a b H Ha Hb Hbc. pose proof (rl_nd _ _ _ _ _ H) as Hnd. apply in_split in Ha. destruct Ha as (o1 & o2 & ->). pose proof (NoDup_remove_2 _ _ _ Hnd) as Hna.
  pose proof (rl_ring _ _ _ _ _ H) as R. rewrite map_app in R. cbn [map] in R. change (hdr :: map (at_ base) o1 ++ base + a * sz :: map (at_ base) o2) with ((hdr :: map (at_ base) o1) ++ base + a * sz :: map (at_ base) o2) in R.
  assert (Hnin : ~ In (base + b * sz) ((hdr :: map (at_ base) o1) ++ base + a * sz :: map (at_ base) o2)).
  { intros Hi. assert (Hi' : In (base + b * sz) (hdr :: map (at_ base) (o1 ++ a :: o2))) by (rewrite map_app; exact Hi). destruct Hi' as [Hi'|Hi']; [symmetry in Hi'; revert Hi'; apply (rl_hdr _ _ _ _ _ H); exact Hbc|].
    apply in_map_iff in Hi'. destruct Hi' as (i & Ei & Hi'). apply (slot_inj sz Hsz) in Ei. subst i. contradiction. }
  destruct (ring_move_at h (base + b * sz) _ _ _ R Hnin) as (h' & E & R' & O & _); [apply (rl_has _ _ _ _ _ H); exact Hbc|].
  exists h'. split; [exact E|].
  assert (Em : map (dest [(a, b)]) (o1 ++ a :: o2) = o1 ++ b :: o2).
  { assert (Hx : forall i, In i (o1 ++ o2) -> dest [(a, b)] i = i) by (intros i Hi; rewrite dest_cons; destruct (Z.eqb_spec a i) as [->|]; [contradiction|reflexivity]).
    rewrite map_app. cbn [map]. f_equal; [rewrite <- (map_id o1) at 2; apply map_ext_in; intros i Hi; apply Hx, in_or_app; left; exact Hi|]. f_equal; [rewrite dest_cons, Z.eqb_refl; reflexivity|].
    rewrite <- (map_id o2) at 2; apply map_ext_in; intros i Hi; apply Hx, in_or_app; right; exact Hi. }
  rewrite Em. split.
  - constructor.
    + rewrite map_app. exact R'.
    + intros i Hi. apply in_app_or in Hi. destruct Hi as [Hi|[<-|Hi]]; [apply (rl_in _ _ _ _ _ H), in_or_app; left; exact Hi|exact Hbc|apply (rl_in _ _ _ _ _ H), in_or_app; right; right; exact Hi].
    + apply (rl_cap _ _ _ _ _ H).
    + intros i Hi. apply O. apply (rl_has _ _ _ _ _ H). exact Hi.
    + apply (rl_hdr _ _ _ _ _ H).
  - apply (only_frame sz Hsz _ _ _ _ _ _ O). intros y [<-|Hy]; [right; exists b; split; [exact Hbc|reflexivity]|]. apply (rl_slots _ _ _ _ _ y H). rewrite map_app. exact Hy.
Qed.

(** ** Linking a node after a given link. *)
Lemma insert_links : forall h hdr base cap o1 o2 p q, rlinks h hdr base cap (o1 ++ o2) -> 0 <= q < cap -> ~ In q (o1 ++ o2) ->
  p = last (hdr :: map (at_ base) o1) hdr ->
  exists h', link_after h (base + q * sz) p = Ok h' /\ rlinks h' hdr base cap (o1 ++ q :: o2) /\ frame h hdr base cap h' hdr base cap.
Proof.
  intros h hdr base cap o1 o2 p q H Hq Hn Hp. pose proof (rl_ring _ _ _ _ _ H) as R.
  destruct (exists_last (l := hdr :: map (at_ base) o1) ltac:(discriminate)) as (m & q' & Hm). rewrite Hm, last_last in Hp. subst q'.
  assert (Em : hdr :: map (at_ base) (o1 ++ o2) = m ++ p :: map (at_ base) o2).
  { rewrite map_app. change (hdr :: map (at_ base) o1 ++ map (at_ base) o2) with ((hdr :: map (at_ base) o1) ++ map (at_ base) o2). rewrite Hm, <- app_assoc. reflexivity. }
  assert (Hnin : ~ In (base + q * sz) (hdr :: map (at_ base) (o1 ++ o2))).
  { intros [Hi|Hi]; [symmetry in Hi; revert Hi; apply (rl_hdr _ _ _ _ _ H); exact Hq|]. apply in_map_iff in Hi. destruct Hi as (i & Ei & Hi). apply (slot_inj sz Hsz) in Ei. subst i. contradiction. }
  rewrite Em in R, Hnin. destruct (ring_link_at h (base + q * sz) m p _ R Hnin) as (h' & E & R' & O); [apply (rl_has _ _ _ _ _ H); exact Hq|].
  exists h'. split; [exact E|]. split.
  - constructor.
    + rewrite map_app. cbn [map]. change (hdr :: map (at_ base) o1 ++ base + q * sz :: map (at_ base) o2) with ((hdr :: map (at_ base) o1) ++ base + q * sz :: map (at_ base) o2). rewrite Hm, <- app_assoc. exact R'.
    + intros i Hi. apply in_app_or in Hi. destruct Hi as [Hi|[<-|Hi]]; [apply (rl_in _ _ _ _ _ H), in_or_app; left; exact Hi|exact Hq|apply (rl_in _ _ _ _ _ H), in_or_app; right; exact Hi].
    + apply (rl_cap _ _ _ _ _ H).
    + intros i Hi. apply O. apply (rl_has _ _ _ _ _ H). exact Hi.
    + apply (rl_hdr _ _ _ _ _ H).
  - apply (only_frame sz Hsz _ _ _ _ _ _ O). intros y [<-|Hy]; [right; exists q; split; [exact Hq|reflexivity]|]. rewrite <- Em in Hy. apply (rl_slots _ _ _ _ _ _ H Hy).
Qed.
(** The link before the header is the last one. *)
Lemma back_link : forall h hdr base cap ord, rlinks h hdr base cap ord -> prev_link h hdr = Ok (last (hdr :: map (at_ base) ord) hdr).
Proof.
  intros h hdr base cap ord H. pose proof (rl_ring _ _ _ _ _ H) as R. destruct (exists_last (l := hdr :: map (at_ base) ord) ltac:(discriminate)) as (m & p & Hm). rewrite Hm, last_last. apply prev_link_ok.
  rewrite Hm in R. apply ring_rot in R. destruct m as [|x m]; cbn [app] in *; injection Hm as -> Hm || injection Hm as <- Hm; destruct R as (R & _); cbn [path] in R; apply R.
Qed.

(** ** Unlinking a node. *)
Lemma erase_links : forall h hdr base cap o1 pos o2, rlinks h hdr base cap (o1 ++ pos :: o2) ->
  exists h1, unlink h (base + pos * sz) = Ok h1 /\ rlinks h1 hdr base cap (o1 ++ o2) /\ frame h hdr base cap h1 hdr base cap /\
    next_link h (base + pos * sz) = Ok (match o2 with [] => hdr | i :: _ => base + i * sz end) /\
    h1 (base + pos * sz) = h (base + pos * sz).
Proof.
  intros h hdr base cap o1 pos o2 H. pose proof (rl_ring _ _ _ _ _ H) as R. pose proof (rl_nd _ _ _ _ _ H) as Hnd.
  rewrite map_app in R. cbn [map] in R. destruct (ring_unlink_at h hdr _ _ _ R) as (h1 & E1 & R1 & O1).
  assert (Hpos : 0 <= pos < cap) by (apply (rl_in _ _ _ _ _ H); apply in_or_app; right; left; reflexivity).
  exists h1. split; [exact E1|]. split; [|split; [|split]].
  - constructor.
    + rewrite map_app. exact R1.
    + intros i Hi. apply (rl_in _ _ _ _ _ H). rewrite in_app_iff in *. cbn [In]. tauto.
    + apply (rl_cap _ _ _ _ _ H).
    + intros i Hi. apply O1. apply (rl_has _ _ _ _ _ H). exact Hi.
    + apply (rl_hdr _ _ _ _ _ H).
  - apply (only_frame sz Hsz _ _ _ _ _ _ O1). intros y Hy. apply (rl_slots _ _ _ _ _ y H). rewrite map_app. cbn [map In] in *. rewrite in_app_iff in *. cbn [In]. tauto.
  - apply next_link_ok. destruct R as (R & _). apply path_app in R. destruct R as (_ & R). destruct o2; cbn [map path] in R; apply R.
  - apply O1. apply ring_nodup in R. change (hdr :: map (at_ base) o1 ++ base + pos * sz :: map (at_ base) o2) with ((hdr :: map (at_ base) o1) ++ base + pos * sz :: map (at_ base) o2) in R. apply NoDup_remove_2 in R. exact R.
Qed.

(** ** Reset of the header. *)
Lemma reset_links : forall h hdr base cap ord, rlinks h hdr base cap ord ->
  exists h', reset_link h hdr = Ok h' /\ rlinks h' hdr base cap [] /\ frame h hdr base cap h' hdr base cap.
Proof.
  intros h hdr base cap ord H. destruct (has_some _ _ (rl_hashdr _ _ _ _ _ H)) as (x & y & Hh). unfold reset_link, get_link. rewrite Hh. cbn [bind]. eexists. split; [reflexivity|]. split.
  - apply rl_empty; [apply (rl_cap _ _ _ _ _ H)|apply upd_same| |apply (rl_hdr _ _ _ _ _ H)]. intros i Hi. unfold has. rewrite upd_other by (apply (rl_hdr _ _ _ _ _ H); exact Hi). apply (rl_has _ _ _ _ _ H). exact Hi.
  - intros a (Ha & Hb) _. split; [rewrite upd_other by exact Ha; reflexivity|split; assumption].
Qed.

(** ** Traversal. *)
Lemma walk_links : forall h hdr base cap ord fuel, rlinks h hdr base cap ord -> (Z.to_nat cap < fuel)%nat ->
  exists a, next_link h hdr = Ok a /\ walk fuel h a hdr = Ok (map (at_ base) ord).
Proof. intros h hdr base cap ord fuel H Hf. apply ring_walk; [apply (rl_ring _ _ _ _ _ H)|]. rewrite map_length. pose proof (rl_len _ _ _ _ _ H). lia. Qed.
Lemma walk_back_links : forall h hdr base cap ord fuel, rlinks h hdr base cap ord -> (Z.to_nat cap < fuel)%nat ->
  exists a, prev_link h hdr = Ok a /\ walk_back fuel h a hdr = Ok (map (at_ base) (rev ord)).
Proof. intros h hdr base cap ord fuel H Hf. rewrite map_rev. apply ring_walk_back; [apply (rl_ring _ _ _ _ _ H)|]. rewrite map_length. pose proof (rl_len _ _ _ _ _ H). lia. Qed.
(** The iterator at a place of the order: the header behind the last element. *)
Definition place_at (hdr base : Z) (ord : list Z) : Z := match ord with [] => hdr | i :: _ => base + i * sz end.
Lemma next_at : forall h hdr base cap o1 i o2, rlinks h hdr base cap (o1 ++ i :: o2) -> next_link h (base + i * sz) = Ok (place_at hdr base o2).
Proof. intros h hdr base cap o1 i o2 H. destruct (erase_links _ _ _ _ _ _ _ H) as (h1 & _ & _ & _ & E & _). exact E. Qed.
Lemma begin_at : forall h hdr base cap ord, rlinks h hdr base cap ord -> next_link h hdr = Ok (place_at hdr base ord).
Proof. intros h hdr base cap ord H. apply next_link_ok. pose proof (rl_ring _ _ _ _ _ H) as R. destruct R as (R & _). destruct ord; cbn [map path] in R; apply R. Qed.
(** The place before another one. *)
Lemma prev_at : forall h hdr base cap o1 i o2, rlinks h hdr base cap (o1 ++ i :: o2) -> prev_link h (place_at hdr base o2) = Ok (base + i * sz).
Proof.
  intros h hdr base cap o1 i o2 H. apply prev_link_ok. pose proof (rl_ring _ _ _ _ _ H) as R. rewrite map_app in R. cbn [map] in R. destruct R as (R & _). apply path_app in R. destruct R as (_ & R). destruct o2; cbn [map path place_at] in *; apply R.
Qed.
Lemma prev_of : forall h hdr base cap o1 i o2, rlinks h hdr base cap (o1 ++ i :: o2) -> prev_link h (base + i * sz) = Ok (last (hdr :: map (at_ base) o1) hdr).
Proof.
  intros h hdr base cap o1 i o2 H. apply prev_link_ok. pose proof (rl_ring _ _ _ _ _ H) as R. rewrite map_app in R. cbn [map] in R.
  destruct (exists_last (l := hdr :: map (at_ base) o1) ltac:(discriminate)) as (m & p & Hm). rewrite Hm, last_last. rewrite app_comm_cons, Hm, <- app_assoc in R. apply ring_rot_app in R. cbn [app] in R. destruct R as (R & _). cbn [path] in R. apply R.
Qed.
End Links.
