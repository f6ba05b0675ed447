(** Links of ordered dense tables under copy, move and swap. *)
From Coq Require Import ZArith List Bool Lia Permutation.
From Verif Require Import Base BaseLemmas LinkSpec LinkModel LinkProofs OrderedDense OrderedLinks.
Import ListNotations.
Open Scope Z_scope.

(** The links between neighbours of a list. *)
Fixpoint inner (h : heap) (l : list Z) : Prop :=
  match l with
  | x :: (y :: _) as r => linked h x y /\ inner h r
  | _ => True
  end.

Lemma last_in : forall (l : list Z) d, l <> [] -> In (last l d) l.
Proof. intros l d H. destruct (exists_last H) as (m & x & ->). rewrite last_last. apply in_or_app. right. left. reflexivity. Qed.
Lemma hd_in : forall (l : list Z) d, l <> [] -> In (hd d l) l.
Proof. intros [|x l] d H; [congruence|left; reflexivity]. Qed.

Lemma path_inner : forall h l a b, l <> [] -> (path h a l b <-> linked h a (hd 0 l) /\ inner h l /\ linked h (last l 0) b).
Proof.
  intros h l. induction l as [|x l IH]; intros a b Hl; [congruence|]. destruct l as [|y l].
  - cbn [path hd inner last]. tauto.
  - change (path h a (x :: y :: l) b) with (linked h a x /\ path h x (y :: l) b). change (last (x :: y :: l) 0) with (last (y :: l) 0). cbn [inner hd].
    rewrite (IH x b) by discriminate. cbn [hd]. tauto.
Qed.
Lemma inner_frame : forall h h' l, NoDup l -> (forall y, In y l -> y <> last l 0 -> nx h' y = nx h y) -> (forall y, In y l -> y <> hd 0 l -> pv h' y = pv h y) -> inner h l -> inner h' l.
Proof.
  intros h h' l. induction l as [|x l IH]; intros Hnd Hn Hp H; [exact I|]. destruct l as [|y l]; [exact I|].
  inversion Hnd as [|? ? Hx Hnd']; subst. destruct H as ((H1 & H2) & H3). change (last (x :: y :: l) 0) with (last (y :: l) 0) in Hn. cbn [hd] in Hp. split.
  - split.
    + rewrite Hn; [exact H1|left; reflexivity|]. intros E. apply Hx. rewrite E. apply last_in. discriminate.
    + rewrite Hp; [exact H2|right; left; reflexivity|]. intros E. apply Hx. rewrite <- E. left. reflexivity.
  - apply IH; [exact Hnd'| | |exact H3].
    + intros z Hz Hl. apply Hn; [right; exact Hz|exact Hl].
    + intros z Hz _. apply Hp; [right; exact Hz|]. intros ->. contradiction.
Qed.
Lemma ring_parts : forall h a l, l <> [] -> ring h (a :: l) -> nx h a = Some (hd 0 l) /\ pv h a = Some (last l 0) /\ inner h l.
Proof. intros h a l Hl (H & _). apply path_inner in H; [|exact Hl]. destruct H as ((H1 & _) & H2 & (_ & H3)). auto. Qed.

(** A header put in front of a list of neighbours. *)
Lemma ring_close : forall h a l, l <> [] -> NoDup (a :: l) -> has h a -> (forall y, In y l -> has h y) -> inner h l ->
  exists h', link2 h a (hd 0 l) (last l 0) = Ok h' /\ ring h' (a :: l) /\ only (a :: l) h h'.
Proof.
  intros h a l Hl Hnd Ha Hh Hi. inversion Hnd as [|? ? Hal Hnd']; subst.
  pose proof (hd_in l 0 Hl) as Hf. pose proof (last_in l 0 Hl) as Hb.
  destruct (link2_ok h a (hd 0 l) (last l 0) Ha (Hh _ Hf) (Hh _ Hb)) as (h' & E & N & P); [intros ->; contradiction|intros X; apply Hal; rewrite X; exact Hb|].
  exists h'. split; [exact E|]. split.
  - split; [|exact Hnd]. apply path_inner; [exact Hl|]. split; [|split].
    + split; [rewrite N|rewrite P, Z.eqb_refl; reflexivity]. destruct (Z.eqb_spec a (last l 0)) as [X|_]; [exfalso; apply Hal; rewrite X; exact Hb|]. rewrite Z.eqb_refl. reflexivity.
    + apply (inner_frame h); [exact Hnd'| | |exact Hi].
      * intros y Hy Hn. rewrite N. destruct (Z.eqb_spec y (last l 0)); [contradiction|]. destruct (Z.eqb_spec y a) as [->|_]; [contradiction|reflexivity].
      * intros y Hy Hn. rewrite P. destruct (Z.eqb_spec y (hd 0 l)); [contradiction|]. destruct (Z.eqb_spec y a) as [->|_]; [contradiction|reflexivity].
    + split; [rewrite N, Z.eqb_refl; reflexivity|]. rewrite P. destruct (Z.eqb_spec a (hd 0 l)) as [X|_]; [exfalso; apply Hal; rewrite X; exact Hf|]. rewrite Z.eqb_refl. reflexivity.
  - apply only_of.
    + intros y Hy. rewrite N, P. destruct (Z.eqb_spec y (last l 0)) as [X|_]; [exfalso; apply Hy; right; rewrite X; exact Hb|]. destruct (Z.eqb_spec y (hd 0 l)) as [X|_]; [exfalso; apply Hy; right; rewrite X; exact Hf|].
      destruct (Z.eqb_spec y a) as [->|_]; [exfalso; apply Hy; left; reflexivity|]. split; reflexivity.
    + intros y Hy. assert (Hy' : has h y) by (destruct Hy as [<-|Hy]; [exact Ha|apply Hh; exact Hy]). split; [exact Hy'|]. apply has_iff_nx. apply has_iff_nx in Hy'. rewrite N.
      destruct (y =? last l 0); [discriminate|]. destruct (y =? a); [discriminate|exact Hy'].
Qed.

(** The friend swap of two headers, neither of which is alone. *)
Lemma swap_ok : forall h a l b m, l <> [] -> m <> [] -> ring h (a :: l) -> ring h (b :: m) -> (forall y, In y (a :: l) -> ~ In y (b :: m)) ->
  exists h', swap_links h a b = Ok h' /\ ring h' (a :: m) /\ ring h' (b :: l) /\ only ((a :: l) ++ b :: m) h h'.
Proof.
  intros h a l b m Hl Hm Rl Rm Hd. destruct (ring_parts h a l Hl Rl) as (A1 & A2 & A3). destruct (ring_parts h b m Hm Rm) as (B1 & B2 & B3).
  pose proof (ring_nodup _ _ Rl) as Nl. pose proof (ring_nodup _ _ Rm) as Nm. inversion Nl as [|? ? Hal Nl']; subst. inversion Nm as [|? ? Hbm Nm']; subst.
  assert (Nam : NoDup (a :: m)) by (constructor; [intros X; apply (Hd a); [left; reflexivity|right; exact X]|exact Nm']).
  assert (Nbl : NoDup (b :: l)) by (constructor; [intros X; apply (Hd b); [right; exact X|left; reflexivity]|exact Nl']).
  assert (Hal2 : forall y, In y (b :: l) -> ~ In y (a :: m)).
  { intros y [<-|Hy] [X|X]; [apply (Hd a); [left; reflexivity|left; exact (eq_sym X)]|contradiction|subst y; contradiction|]. apply (Hd y); [right; exact Hy|right; exact X]. }
  destruct (ring_close h a m Hm Nam) as (h1 & E1 & R1 & O1); [apply (ring_has _ _ _ Rl); left; reflexivity|intros y Hy; apply (ring_has _ _ _ Rm); right; exact Hy|exact B3|].
  assert (Hsame : forall y, In y (b :: l) -> h1 y = h y) by (intros y Hy; apply O1; apply Hal2; exact Hy).
  destruct (ring_close h1 b l Hl Nbl) as (h2 & E2 & R2 & O2).
  - apply O1. apply (ring_has _ _ _ Rm). left. reflexivity.
  - intros y Hy. apply O1. apply (ring_has _ _ _ Rl). right. exact Hy.
  - apply (inner_frame h); [exact Nl'| | |exact A3]; intros y Hy _; unfold nx, pv; rewrite Hsame by (right; exact Hy); reflexivity.
  - exists h2. unfold swap_links. rewrite (next_link_ok _ _ _ A1), (next_link_ok _ _ _ B1), (prev_link_ok _ _ _ A2), (prev_link_ok _ _ _ B2). cbn [bind]. rewrite E1. cbn [bind].
    split; [exact E2|]. split; [|split; [exact R2|]].
    + apply (ring_frame h1); [| |exact R1]; intros y Hy; (unfold nx, pv; rewrite (proj1 O2); [reflexivity|]; intros X; exact (Hal2 y X Hy)).
    + apply (only_trans _ _ h1).
      * apply (only_incl _ _ _ _ O1). intros y [<-|Hy]; apply in_or_app; [left; left; reflexivity|right; right; exact Hy].
      * apply (only_incl _ _ _ _ O2). intros y [<-|Hy]; apply in_or_app; [right; left; reflexivity|left; right; exact Hy].
Qed.

Section Arrays.
Variable sz : Z.
Hypothesis Hsz : 0 < sz.

Lemma copy_links_ok : forall n h nb ob, 0 <= n -> (forall i, 0 <= i < n -> has h (nb + i * sz)) -> (forall i, 0 <= i < n -> has h (ob + i * sz)) ->
  (forall i j, 0 <= i < n -> 0 <= j < n -> nb + i * sz <> ob + j * sz) ->
  exists h', foldM (copy_link_step sz nb ob) (zrange n) h = Ok h' /\ (forall i, 0 <= i < n -> h' (nb + i * sz) = h (ob + i * sz)) /\
    (forall a, (forall i, 0 <= i < n -> a <> nb + i * sz) -> h' a = h a).
Proof.
  intros n h nb ob Hn Hs Ho Hd.
  apply (foldM_zrange_inv _ (copy_link_step sz nb ob) (fun k t => (forall i, 0 <= i < k -> t (nb + i * sz) = h (ob + i * sz)) /\ (forall a, (forall i, 0 <= i < k -> a <> nb + i * sz) -> t a = h a)) n h Hn).
  - split; [intros i Hi; lia|reflexivity].
  - intros k t Hk (H1 & H2). unfold copy_link_step, copy_link, get_link.
    rewrite (H2 (ob + k * sz)) by (intros i Hi E; symmetry in E; revert E; apply Hd; lia). rewrite (H2 (nb + k * sz)) by (intros i Hi E; nia).
    destruct (has_some _ _ (Ho k Hk)) as (x & y & Ex). destruct (has_some _ _ (Hs k Hk)) as (x' & y' & Ex'). rewrite Ex, Ex'. cbn [bind]. eexists. split; [reflexivity|]. split.
    + intros i Hi. destruct (Z.eq_dec i k) as [->|Hne]; [rewrite upd_same; symmetry; exact Ex|]. rewrite upd_other by nia. apply H1. lia.
    + intros a Ha. rewrite upd_other by (apply Ha; lia). apply H2. intros i Hi. apply Ha. lia.
Qed.

Lemma inner_shift : forall h h' ob nb ord, (forall i, In i ord -> h' (nb + i * sz) = h (ob + i * sz)) -> inner h (map (fun i => ob + i * sz) ord) -> inner h' (map (fun i => nb + i * sz) ord).
Proof.
  intros h h' ob nb ord. induction ord as [|i ord IH]; intros Hs H; [exact I|]. destruct ord as [|j ord]; [exact I|]. cbn [map inner] in *. destruct H as ((H1 & H2) & H3). split.
  - unfold linked, nx, pv in *. rewrite (Hs i) by (left; reflexivity). rewrite (Hs j) by (right; left; reflexivity).
    destruct (h (ob + i * sz)) as [[x y]|]; [|discriminate]. destruct (h (ob + j * sz)) as [[x' y']|]; [|discriminate]. cbn [option_map fst snd] in *. injection H1 as H1. injection H2 as H2. split; f_equal; lia.
  - apply IH; [intros k Hk; apply Hs; right; exact Hk|exact H3].
Qed.
Lemma hd_map : forall (f : Z -> Z) l d, l <> [] -> hd d (map f l) = f (hd 0 l).
Proof. intros f [|x l] d H; [congruence|reflexivity]. Qed.
Lemma last_map : forall (f : Z -> Z) l d, l <> [] -> last (map f l) d = f (last l 0).
Proof. intros f l d H. destruct (exists_last H) as (m & x & ->). rewrite map_app. cbn [map]. rewrite !last_last. reflexivity. Qed.

(** The links of the copies of [ord], and the header of the copy. *)
Lemma copied_ring : forall h ho ob hs nb ord h2, ord <> [] -> ring h (ho :: map (fun i => ob + i * sz) ord) ->
  (forall i, In i ord -> h2 (nb + i * sz) = h (ob + i * sz)) -> h2 ho = h ho -> has h2 hs -> ~ In hs (map (fun i => nb + i * sz) ord) ->
  exists front back h3, next_link h2 ho = Ok front /\ prev_link h2 ho = Ok back /\ link2 h2 hs (nb + (front - ob)) (nb + (back - ob)) = Ok h3 /\
    ring h3 (hs :: map (fun i => nb + i * sz) ord) /\ only (hs :: map (fun i => nb + i * sz) ord) h2 h3.
Proof.
  intros h ho ob hs nb ord h2 Hne R Hc Ho Hhs Hnin. assert (Hm : map (fun i => ob + i * sz) ord <> []) by (destruct ord; [congruence|discriminate]).
  destruct (ring_parts _ _ _ Hm R) as (N & P & I). rewrite hd_map in N by exact Hne. rewrite last_map in P by exact Hne.
  exists (ob + hd 0 ord * sz), (ob + last ord 0 * sz). rewrite (next_link_ok h2 ho (ob + hd 0 ord * sz)) by (unfold nx in *; rewrite Ho; exact N).
  rewrite (prev_link_ok h2 ho (ob + last ord 0 * sz)) by (unfold pv in *; rewrite Ho; exact P).
  replace (nb + (ob + hd 0 ord * sz - ob)) with (nb + hd 0 ord * sz) by lia. replace (nb + (ob + last ord 0 * sz - ob)) with (nb + last ord 0 * sz) by lia.
  rewrite <- (hd_map (fun i => nb + i * sz) ord 0 Hne), <- (last_map (fun i => nb + i * sz) ord 0 Hne).
  destruct (ring_close h2 hs (map (fun i => nb + i * sz) ord)) as (h3 & E & R3 & O3).
  - destruct ord; [congruence|discriminate].
  - constructor; [exact Hnin|]. apply FinFun.Injective_map_NoDup; [intros x y Hxy; nia|]. pose proof (ring_nodup _ _ R) as Hnd. inversion Hnd as [|? ? _ Hnd']; subst. apply NoDup_map_inv in Hnd'. exact Hnd'.
  - exact Hhs.
  - intros y Hy. apply in_map_iff in Hy. destruct Hy as (i & <- & Hi). unfold has. rewrite (Hc i Hi). apply (ring_has _ _ _ R). right. apply in_map_iff. exists i. auto.
  - apply (inner_shift h h2 ob nb ord Hc I).
  - exists h3. auto.
Qed.
End Arrays.
