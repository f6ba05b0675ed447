(** Lemmas about single calls on ordered dense containers that occur in programs. *)
From Coq Require Import ZArith List Bool Lia Permutation Arith.
From Verif Require Import Base BaseLemmas MapSpec Float32 DenseSpec World WorldProofs DenseModel DenseRun DenseChain DenseInv DenseOps DenseEdit DenseErase DenseRefine DenseMore
  LinkSpec LinkModel LinkProofs OrderedSpec OrderedWorldSpec OrderedDense OrderedRun OrderedWorld OrderedLinks OrderedProofs OrderedRefine OrderedMoves OrderedWorldProofs.
Import ListNotations.
Open Scope Z_scope.

Lemma nth_error_ext : forall {A} (l m : list A), (forall t, nth_error l t = nth_error m t) -> l = m.
Proof.
  intros A l. induction l as [|x l IH]; intros [|y m] H; [reflexivity|discriminate (H 0%nat)|discriminate (H 0%nat)|].
  pose proof (H 0%nat) as H0. injection H0 as ->. f_equal. apply IH. intros t. apply (H (S t)).
Qed.
(** ** Links alone. *)
Lemma ring_consecutive : forall h l1 x y l2, ring h (l1 ++ x :: y :: l2) -> next_link h x = Ok y /\ prev_link h y = Ok x.
Proof.
  intros h l1 x y l2 R. apply ring_rot_app in R. cbn [app ring path] in R. destruct R as ((H1 & H2) & _). split; [apply next_link_ok; apply H1|apply prev_link_ok; apply H1].
Qed.
Lemma lspec_run_ne : forall cs l l', lspec_run cs l l' -> l <> [] -> l' <> [].
Proof.
  intros cs l l' H. induction H as [|c cs l l1 l2 Hc Hr IH]; [auto|]. intros _. apply IH. destruct Hc; try discriminate; intros X; apply app_eq_nil in X; destruct X as (_ & X); discriminate X.
Qed.
Lemma links_final : forall h a cs l, h a = Some (0, 0) -> lspec_run cs [a] l -> (forall c b, In c cs -> In b (lcall_addrs c) -> h b <> None) ->
  exists h' x r, lrun h cs = Ok h' /\ l = x :: r /\
    (exists b, next_link h' x = Ok b /\ walk (S (length r)) h' b x = Ok r) /\
    (exists b, prev_link h' x = Ok b /\ walk_back (S (length r)) h' b x = Ok (rev r)) /\
    (forall l1 y z l2, l = l1 ++ y :: z :: l2 -> next_link h' y = Ok z /\ prev_link h' z = Ok y) /\
    (forall b, ~ In b (a :: flat_map lcall_addrs cs) -> h' b = h b).
Proof.
  intros h a cs l Ha Hs Hh. assert (R0 : ring h [a]).
  { cbn [ring path]. split; [|constructor; [intros []|constructor]]. unfold linked, nx, pv. rewrite Ha. cbn [option_map fst snd]. split; f_equal; lia. }
  destruct (lrun_ok cs h [a] l R0 Hs Hh) as (h' & Er & R & O). destruct l as [|x r]; [exfalso; apply (lspec_run_ne _ _ _ Hs); [discriminate|reflexivity]|]. exists h', x, r. split; [exact Er|]. split; [reflexivity|].
  split; [apply ring_walk; [exact R|lia]|]. split; [apply ring_walk_back; [exact R|lia]|]. split.
  - intros l1 y z l2 He. rewrite He in R. apply (ring_consecutive h' l1 y z l2 R).
  - intros b Hb. apply O. intros X. apply Hb. apply in_app_or in X. destruct X as [X|[X|[]]]; [right; exact X|left; exact X].
Qed.

Section Final.
Context {E K : Type}.
Variable sz : Z.
Variable nk : nat.
Variable key_of : nat -> E -> K.
Variable hash : K -> Z.
Variable keq : K -> K -> bool.
Variable rep : E -> E -> E.
Variable clone : E -> E.
Variables pocca pocma : bool.
Hypothesis Hsz : 0 < sz.
Hypothesis KL : key_laws hash keq.
Hypothesis rep_key : forall x e, key_of 0%nat (rep x e) = key_of 0%nat x.
Hypothesis clone_key : forall j e, (j < nk)%nat -> key_of j (clone e) = key_of j e.
Notation odense := (odense E).
Notation dense := (dense E).
Notation dwf := (dwf nk key_of hash keq).
Notation lnk := (lnk sz). Notation slot := (slot sz).
Notation oinv := (oinv sz nk key_of hash keq).
Notation yoccurs := (yoccurs sz nk key_of hash keq rep clone pocca pocma).

(** The [k]-th iterator. *)
Lemma iter_at : forall h s ord k i, oinv h s ord -> nth_error ord k = Some i -> o_at sz s (slot s i) = Ok (nth_error (ocont s ord) k).
Proof. clear KL rep_key clone_key rep clone pocca pocma.
  intros h s ord k i H Hk. pose proof (nth_error_In _ _ Hk) as Hi. destruct (node_of sz nk key_of hash keq h s ord i H Hi) as (n & Hn & _ & Hv).
  rewrite (o_at_slot sz nk key_of hash keq Hsz h s ord i n H Hn). unfold ocont. rewrite pick_nth by (intros x Hx; apply (inv_in sz nk key_of hash keq _ _ _ _ H); exact Hx). rewrite Hk, Hv. reflexivity.
Qed.
Lemma nth_iter : forall h (s : odense) ord k i, lnk h s ord -> nth_error ord k = Some i -> o_nth h s (Z.of_nat k) = Ok (slot s i).
Proof. clear key_of hash keq KL rep_key clone_key rep clone pocca pocma.
  intros h s ord k i L Hk. pose proof (olinks_len _ _ _ _ _ _ _ L) as Hlen. pose proof (nth_error_Some ord k) as Hs. assert (k < length ord)%nat by (apply Hs; congruence). clear Hs.
  rewrite (o_nth_ok sz h s ord (Z.of_nat k) L) by lia. f_equal. rewrite Nat2Z.id. apply nth_error_nth. rewrite nth_error_app1 by (rewrite map_length; lia). rewrite nth_error_map, Hk. reflexivity.
Qed.
Lemma nth_end : forall h (s : odense) ord, lnk h s ord -> o_nth h s (Z.of_nat (length ord)) = Ok (o_hdr s).
Proof. clear key_of hash keq KL rep_key clone_key rep clone pocca pocma.
  intros h s ord L. pose proof (olinks_len _ _ _ _ _ _ _ L) as Hlen. pose proof (ol_le _ _ _ _ _ _ _ L). rewrite (o_nth_ok sz h s ord _ L) by lia. f_equal. rewrite Nat2Z.id.
  rewrite app_nth2 by (rewrite map_length; lia). rewrite map_length, Nat.sub_diag. reflexivity.
Qed.

(** The specification does not distinguish equal contents. *)
Lemma yspec_ext : forall c w1 w2 w' r, (forall i, w1 i = w2 i) -> yspec nk key_of keq rep clone c w1 w' r -> yspec nk key_of keq rep clone c w2 w' r.
Proof. clear KL rep_key clone_key Hsz hash sz.
  intros c w1 w2 w' r He H. assert (Ho : forall l, yothers l w1 w' -> yothers l w2 w') by (intros l X k Hk; rewrite (X k Hk); apply He).
  destruct H; rewrite ?He in *; [apply ys_on|apply ys_new|apply ys_copy_new|apply ys_copy_new_throw|apply ys_copy_self|apply ys_copy|apply ys_move_new|apply ys_move_self|apply ys_move|apply ys_swap]; auto; try congruence.
Qed.
Lemma yspec_run_ext : forall cs w1 w2 w' rs, (forall i, w1 i = w2 i) -> yspec_run nk key_of keq rep clone cs w1 w' rs -> yspec_run nk key_of keq rep clone cs w2 w' rs.
Proof. clear KL rep_key clone_key Hsz hash sz.
  intros cs w1 w2 w' rs He H. destruct H as [w w' Hw|c cs w w3 w4 r rs Hc Hr]; [constructor; intros i; rewrite Hw; apply He|]. econstructor; [apply (yspec_ext c w); eassumption|exact Hr].
Qed.

(** Occurring containers. *)
Lemma occurs_oinv : forall hw i, yoccurs hw -> exists ord, oinv (fst hw) (snd hw i) ord /\ o_iterate sz (fst hw) (snd hw i) = Ok (ocont (snd hw i) ord).
Proof.
  intros hw i H. destruct (yoccurs_inv sz nk key_of hash keq rep clone pocca pocma Hsz KL rep_key clone_key hw H) as (ords & W). exists (ords i). split; [apply (proj1 W)|]. apply (winv_lists sz nk key_of hash keq Hsz _ _ _ W i).
Qed.
Lemma occurs_history : forall hw i l hist, yoccurs hw -> o_iterate sz (fst hw) (snd hw i) = Ok l -> ohistory_ok nk hist -> orefines sz nk key_of hash keq rep (fst hw, snd hw i) l hist.
Proof.
  intros hw i l hist H Hl Hh. destruct (occurs_oinv hw i H) as (ord & Hi & Hc). rewrite Hc in Hl. injection Hl as <-. apply (inv_refines sz nk key_of hash keq rep Hsz KL rep_key); assumption.
Qed.
Lemma occurs_program : forall hw l hist, yoccurs hw -> (forall i, o_iterate sz (fst hw) (snd hw i) = Ok (l i)) -> yhistory_ok nk hist -> yrefines sz nk key_of hash keq rep clone pocca pocma hw l hist.
Proof.
  intros (h, w) l hist H Hl Hh. destruct (yoccurs_inv sz nk key_of hash keq rep clone pocca pocma Hsz KL rep_key clone_key _ H) as (ords & W). cbn [fst snd] in *.
  assert (He : forall i, conts w ords i = l i) by (intros i; destruct (winv_lists sz nk key_of hash keq Hsz _ _ _ W i) as (X & _); cbn [fst snd] in X; rewrite Hl in X; injection X as X; symmetry; exact X).
  destruct (winv_refines sz nk key_of hash keq rep clone pocca pocma Hsz KL rep_key clone_key hist h w ords W Hh) as [(hw' & rs & l' & A & B & C)|(h1 & v & c & h2 & hw1 & rs1 & l1 & A & B & C & D)].
  - left. exists hw', rs, l'. split; [exact A|]. split; [|exact C]. apply (yspec_run_ext _ (conts w ords)); assumption.
  - right. exists h1, v, c, h2, hw1, rs1, l1. split; [exact A|]. split; [exact B|]. split; [|exact D]. apply (yspec_run_ext _ (conts w ords)); assumption.
Qed.

(** ** erase(it). *)
Lemma cont_at : forall h s ord p x q, oinv h s ord -> ocont s ord = p ++ x :: q -> exists o1 pos o2, ord = o1 ++ pos :: o2 /\ length o1 = length p.
Proof. clear KL rep_key clone_key rep clone pocca pocma Hsz.
  intros h s ord p x q H He. assert (Hl : length (ocont s ord) = length ord) by (unfold ocont; apply pick_len; intros i Hi; apply (inv_in sz nk key_of hash keq _ _ _ _ H); exact Hi).
  rewrite He, app_length in Hl. cbn [length] in Hl. destruct (nth_error ord (length p)) as [pos|] eqn:En; [|apply nth_error_None in En; lia].
  apply nth_error_split in En. destruct En as (o1 & o2 & Ho & Hlen). exists o1, pos, o2. auto.
Qed.
Lemma erase_one : forall h s o1 pos o2 p x q, oinv h s (o1 ++ pos :: o2) -> ocont s (o1 ++ pos :: o2) = p ++ x :: q -> length o1 = length p ->
  exists h' s' ord', o_erase_at sz nk h s (slot s pos) = Ok (h', s', match o2 with [] => o_hdr s | i :: _ => slot s i end) /\
    oinv h' s' ord' /\ ocont s' ord' = p ++ q /\ ord' = map (subst_last pos (d_size (o_d s) - 1)) (o1 ++ o2) /\ o_hdr s' = o_hdr s /\ o_base s' = o_base s /\ d_cap (o_d s') = d_cap (o_d s) /\ d_size (o_d s') = d_size (o_d s) - 1.
Proof. clear KL rep_key clone_key rep clone pocca pocma.
  intros h s o1 pos o2 p x q H Hc Hl. pose proof H as (W & L).
  assert (Hlv : live (o_d s) pos) by (apply (ol_in _ _ _ _ _ _ _ L); apply in_or_app; right; left; reflexivity).
  destruct (erase_at_ok nk key_of hash keq (o_d s) pos W Hlv) as (d' & a & x' & b & He & W' & Hd & Ha & Hd' & Hs1 & Hs2 & _).
  destruct (o_erase_at_sim sz nk Hsz h s o1 pos o2 d' L He Hs1 Hs2) as (h' & Hz & L' & F').
  destruct (cont_erase sz nk key_of hash keq (fun y _ => y) (fun _ _ => eq_refl) h s o1 pos o2 a x' b H Hd Ha) as (p' & q' & Hpq & Hlp & _ & _ & Hpq').
  exists h', (with_d s d'), (map (subst_last pos (d_size (o_d s) - 1)) (o1 ++ o2)). split; [exact Hz|]. split; [split; [exact W'|exact L']|].
  split; [|split; [reflexivity|split; [reflexivity|split; [reflexivity|split; assumption]]]].
  unfold ocont. cbn [with_d o_d]. rewrite Hd', Hpq'. rewrite Hpq in Hc. assert (Hlen : length p' = length p) by congruence. clear - Hc Hlen. revert p Hc Hlen. induction p' as [|y p' IH]; intros [|z p] Hc Hlen; try discriminate Hlen; cbn [app] in *.
  - injection Hc as _ ->. reflexivity.
  - injection Hc as -> Hc. f_equal. apply IH; [exact Hc|]. injection Hlen as Hlen. exact Hlen.
Qed.
Lemma dead_slot : forall h s ord i, oinv h s ord -> d_size (o_d s) <= i < d_cap (o_d s) -> o_at sz s (slot s i) = Err DeadObject.
Proof. clear KL rep_key clone_key rep clone pocca pocma.
  intros h s ord i (W & L) Hi. pose proof (ol_le _ _ _ _ _ _ _ L). unfold o_at. destruct (Z.eqb_spec (slot s i) (o_hdr s)) as [X|_]; [exfalso; apply (ol_hdr _ _ _ _ _ _ _ L i); [lia|exact X]|].
  unfold index_of, OrderedDense.slot. rewrite slot_ix_of by lia. cbn [bind]. unfold get_node. destruct (Z.eqb_spec (d_cap (o_d s)) 0); [lia|]. cbn [negb guard bind].
  rewrite (om_dok _ (w_mem _ _ _ _ _ W)). cbn [guard bind]. destruct (Z.leb_spec 0 i); [|lia]. destruct (Z.ltb_spec i (d_cap (o_d s))); [|lia]. cbn [andb guard bind].
  rewrite (w_dead _ _ _ _ _ W) by (unfold live; lia). reflexivity.
Qed.
Lemma erase_next : forall hw i p x q a, yoccurs hw -> o_iterate sz (fst hw) (snd hw i) = Ok (p ++ x :: q) -> o_nth (fst hw) (snd hw i) (Z.of_nat (length p)) = Ok a ->
  exists h' s' it, o_erase_at sz nk (fst hw) (snd hw i) a = Ok (h', s', it) /\ o_iterate sz h' s' = Ok (p ++ q) /\
    next_link (fst hw) a = Ok it /\
    (it <> slot (snd hw i) (d_size (o_d (snd hw i)) - 1) -> o_at sz s' it = Ok (hd_error q)) /\
    (it = slot (snd hw i) (d_size (o_d (snd hw i)) - 1) -> o_at sz s' it = Err DeadObject).
Proof.
  intros (h, w) i p x q a Hy Hi Ha. destruct (occurs_oinv (h, w) i Hy) as (ord & H & Hc). cbn [fst snd] in *. rewrite Hc in Hi. injection Hi as Hi. set (s := w i) in *.
  destruct (cont_at h s ord p x q H Hi) as (o1 & pos & o2 & -> & Hl).
  assert (Hn : nth_error (o1 ++ pos :: o2) (length p) = Some pos) by (rewrite nth_error_app2 by lia; replace (length p - length o1)%nat with 0%nat by lia; reflexivity).
  rewrite (nth_iter h s _ _ pos (proj2 H) Hn) in Ha. injection Ha as <-.
  destruct (erase_one h s o1 pos o2 p x q H Hi Hl) as (h' & s' & ord' & He & H' & Hc' & Hord & Hh & Hb & Hcap & Hsize). rewrite He. eexists h', s', _. split; [reflexivity|].
  split; [rewrite <- Hc'; apply (o_iterate_ok sz nk key_of hash keq Hsz); exact H'|].
  pose proof (proj2 H) as L. pose proof (ol_le _ _ _ _ _ _ _ L) as Hle. pose proof (ol_nd _ _ _ _ _ _ _ L) as Hnd.
  assert (Hsl : forall k, slot s' k = slot s k) by (intros k; unfold OrderedDense.slot; rewrite Hb; reflexivity).
  pose proof (ol_ring _ _ _ _ _ _ _ L) as R. change (fun k => o_base s + k * sz) with (slot s) in R. destruct o2 as [|k o2].
  - split; [|split].
    + rewrite map_app in R. cbn [map] in R. apply ring_rot in R. rewrite <- app_assoc in R. cbn [app] in R. apply (ring_consecutive h _ _ _ [] R).
    + intros _. rewrite <- Hh. assert (Hq : q = []).
      { assert (Hlq : length (ocont s (o1 ++ [pos])) = length (o1 ++ [pos])) by (unfold ocont; apply pick_len; intros k Hk; apply (inv_in sz nk key_of hash keq _ _ _ _ H); exact Hk). rewrite Hi, !app_length in Hlq. cbn [length] in Hlq. destruct q; [reflexivity|cbn [length] in Hlq; lia]. }
      subst q. unfold o_at. rewrite Z.eqb_refl. reflexivity.
    + intros X. exfalso. assert (Hp : In pos (o1 ++ [pos])) by (apply in_or_app; right; left; reflexivity). apply (ol_in _ _ _ _ _ _ _ L) in Hp. apply (ol_hdr _ _ _ _ _ _ _ L (d_size (o_d s) - 1)); [lia|symmetry; exact X].
  - assert (Hk : In k (o1 ++ pos :: k :: o2)) by (apply in_or_app; right; right; left; reflexivity). apply (ol_in _ _ _ _ _ _ _ L) in Hk. split; [|split].
    + rewrite map_app in R. cbn [map] in R. apply (ring_consecutive h (o_hdr s :: map (slot s) o1) _ _ (map (slot s) o2) R).
    + intros Hne. assert (Hkl : k <> d_size (o_d s) - 1) by (intros ->; apply Hne; reflexivity).
      assert (Hnk : nth_error ord' (length p) = Some k).
      { rewrite Hord, nth_error_map, nth_error_app2 by lia. replace (length p - length o1)%nat with 0%nat by lia. cbn [nth_error option_map]. unfold subst_last. destruct (Z.eqb_spec k (d_size (o_d s) - 1)); [contradiction|reflexivity]. }
      rewrite <- Hsl. rewrite (iter_at h' s' ord' _ k H' Hnk), Hc'. rewrite nth_error_app2 by lia. rewrite Nat.sub_diag. destruct q; reflexivity.
    + intros X. unfold OrderedDense.slot in X. apply slot_inj in X; [|exact Hsz]. subst k. rewrite <- Hsl. apply (dead_slot h' s' ord'); [exact H'|]. rewrite Hsize, Hcap. lia.
Qed.

(** ** erase(first, last). *)
Definition zs (a : Z) (k : nat) : list Z := map (fun i => a + Z.of_nat i) (seq 0 k).
Lemma zs_S : forall a k, zs a (S k) = zs a k ++ [a + Z.of_nat k].
Proof. intros a k. unfold zs. rewrite seq_S, map_app. reflexivity. Qed.
Lemma zs_len : forall a k, length (zs a k) = k.
Proof. intros a k. unfold zs. rewrite map_length, seq_length. reflexivity. Qed.
Lemma subst_same : forall n l, map (subst_last n n) l = l.
Proof. intros n l. rewrite <- (map_id l) at 2. apply map_ext. intros i. unfold subst_last. destruct (Z.eqb_spec i n); congruence. Qed.
Lemma erase_last_slot : forall h s o1 o2 p x q, oinv h s (o1 ++ (d_size (o_d s) - 1) :: o2) -> ocont s (o1 ++ (d_size (o_d s) - 1) :: o2) = p ++ x :: q -> length o1 = length p ->
  exists h' s', o_erase_at sz nk h s (slot s (d_size (o_d s) - 1)) = Ok (h', s', match o2 with [] => o_hdr s | i :: _ => slot s i end) /\
    oinv h' s' (o1 ++ o2) /\ ocont s' (o1 ++ o2) = p ++ q /\ o_hdr s' = o_hdr s /\ o_base s' = o_base s /\ d_size (o_d s') = d_size (o_d s) - 1 /\
    prev_link h' (slot s (d_size (o_d s) - 1)) = prev_link h (slot s (d_size (o_d s) - 1)).
Proof. clear KL rep_key clone_key rep clone pocca pocma.
  intros h s o1 o2 p x q H Hc Hl. destruct (erase_one h s o1 _ o2 p x q H Hc Hl) as (h' & s' & ord' & He & H' & Hc' & Hord & Hh & Hb & Hcap & Hsize).
  rewrite subst_same in Hord. subst ord'. exists h', s'. split; [exact He|]. do 5 (split; [assumption|]).
  set (pos := d_size (o_d s) - 1) in *. unfold o_erase_at in He. destruct (slot_index sz Hsz h s _ pos (proj2 H) ltac:(apply in_or_app; right; left; reflexivity)) as (Hne & Hix).
  destruct (Z.eqb_spec (slot s pos) (o_hdr s)) as [|_]; [contradiction|]. rewrite Hix in He. cbn [bind] in He.
  apply bind_Ok in He. destruct He as (n & _ & He). apply bind_Ok in He. destruct He as (sl & _ & He). unfold o_erase_node in He. apply bind_Ok in He. destruct He as (nxt & Hn & He).
  apply bind_Ok in He. destruct He as (h1 & Hu & He). apply bind_Ok in He. destruct He as (y & _ & He). fold pos in He. rewrite Z.eqb_refl in He. cbn [bind] in He. injection He as -> _ _.
  pose proof (ol_ring _ _ _ _ _ _ _ (proj2 H)) as R. change (fun k => o_base s + k * sz) with (slot s) in R. rewrite map_app in R. cbn [map] in R.
  destruct (ring_unlink_at h (o_hdr s) (map (slot s) o1) (slot s pos) (map (slot s) o2) R) as (h2 & Hu' & _ & O). rewrite Hu in Hu'. injection Hu' as <-.
  assert (Hs : h' (slot s pos) = h (slot s pos)).
  { apply O. destruct R as (_ & Nd). apply (NoDup_remove_2 (o_hdr s :: map (slot s) o1)). exact Nd. }
  unfold prev_link, get_link. rewrite Hs. reflexivity.
Qed.

Lemma range_loop : forall k fuel h s o1 o2 p m q last r, oinv h s (o1 ++ zs (d_size (o_d s) - Z.of_nat k) k ++ o2) -> ocont s (o1 ++ zs (d_size (o_d s) - Z.of_nat k) k ++ o2) = p ++ m ++ q ->
  length p = length o1 -> length m = k -> (k < fuel)%nat -> (k = 0%nat -> last = slot s (d_size (o_d s)) /\ r = match o2 with [] => o_hdr s | i :: _ => slot s i end) ->
  ((0 < k)%nat -> prev_link h last = Ok (slot s (d_size (o_d s) - 1)) /\ last <> slot s (d_size (o_d s) - Z.of_nat k)) ->
  exists h' s', o_erase_range_loop sz nk fuel h s (slot s (d_size (o_d s) - Z.of_nat k)) last r = Ok (h', s', match o2 with [] => o_hdr s | i :: _ => slot s i end) /\
    oinv h' s' (o1 ++ o2) /\ ocont s' (o1 ++ o2) = p ++ q /\ o_hdr s' = o_hdr s /\ o_base s' = o_base s.
Proof. clear KL rep_key clone_key rep clone pocca pocma.
  induction k as [|k IH]; intros [|fuel] h s o1 o2 p m q last r H Hc Hp Hm Hf H0 Hk; try lia; cbn [o_erase_range_loop].
  - destruct (H0 eq_refl) as (-> & ->). replace (d_size (o_d s) - Z.of_nat 0) with (d_size (o_d s)) by lia. rewrite Z.eqb_refl. destruct m; [|discriminate Hm]. eexists _, _. split; [reflexivity|]. auto.
  - destruct (Hk ltac:(lia)) as (Hpl & Hne). destruct (Z.eqb_spec last (slot s (d_size (o_d s) - Z.of_nat (S k)))) as [|_]; [contradiction|]. rewrite Hpl. cbn [bind].
    destruct (exists_last (l := m)) as (m' & x & ->); [intros ->; discriminate Hm|]. rewrite app_length in Hm. cbn [length] in Hm. assert (Hm' : length m' = k) by lia. clear Hm.
    rewrite zs_S in H, Hc. replace (d_size (o_d s) - Z.of_nat (S k) + Z.of_nat k) with (d_size (o_d s) - 1) in H, Hc by lia. rewrite <- !app_assoc in H. rewrite <- !app_assoc in Hc. cbn [app] in H, Hc. rewrite !app_assoc in H. rewrite !app_assoc in Hc.
    destruct (erase_last_slot h s _ _ _ x q H Hc) as (h1 & s1 & He & H1 & Hc1 & Hh1 & Hb1 & Hs1 & Hpv); [rewrite !app_length, zs_len; lia|]. rewrite He. cbn [bind].
    assert (Hsl : forall i, slot s1 i = slot s i) by (intros i; unfold OrderedDense.slot; rewrite Hb1; reflexivity).
    assert (Hr : match o2 with [] => o_hdr s1 | i :: _ => slot s1 i end = match o2 with [] => o_hdr s | i :: _ => slot s i end) by (destruct o2; [exact Hh1|apply Hsl]).
    assert (Hfst : slot s (d_size (o_d s) - Z.of_nat (S k)) = slot s1 (d_size (o_d s1) - Z.of_nat k)) by (rewrite Hsl; f_equal; lia).
    assert (Hzz : d_size (o_d s) - Z.of_nat (S k) = d_size (o_d s1) - Z.of_nat k) by lia. pose proof H as Hold. rewrite Hzz in H1, Hc1. rewrite <- !app_assoc in H1. rewrite <- !app_assoc in Hc1.
    rewrite Hfst. destruct (IH fuel h1 s1 o1 o2 p m' q (slot s (d_size (o_d s) - 1)) (match o2 with [] => o_hdr s | i :: _ => slot s i end) H1 Hc1 Hp Hm' ltac:(lia)) as (h' & s' & E' & H' & C' & Hh' & Hb').
    + intros ->. split; [rewrite Hsl, Hs1; reflexivity|symmetry; exact Hr].
    + intros Hk0. rewrite Hpv, Hsl, Hsl, Hs1. split.
      * destruct k as [|k]; [lia|]. rewrite zs_S in Hold. replace (d_size (o_d s) - Z.of_nat (S (S k)) + Z.of_nat k) with (d_size (o_d s) - 1 - 1) in Hold by lia.
        pose proof (ol_ring _ _ _ _ _ _ _ (proj2 Hold)) as R. change (fun j => o_base s + j * sz) with (slot s) in R. rewrite <- !app_assoc in R. cbn [app] in R. rewrite !map_app in R. cbn [map] in R. rewrite app_assoc in R.
        apply (ring_consecutive h (o_hdr s :: (map (slot s) o1 ++ map (slot s) (zs (d_size (o_d s) - Z.of_nat (S (S k))) k))) _ _ _ R).
      * intros X. unfold OrderedDense.slot in X. apply slot_inj in X; [lia|exact Hsz].
    + exists h', s'. rewrite E'. split; [f_equal; f_equal; exact Hr|]. split; [exact H'|]. split; [exact C'|]. split; congruence.
Qed.
Lemma range_final : forall hw i p m q a b, yoccurs hw -> let h := fst hw in let s := snd hw i in o_iterate sz h s = Ok (p ++ m ++ q) -> m <> [] ->
  (forall t, 0 <= t < Z.of_nat (length m) -> o_nth h s (Z.of_nat (length p) + t) = Ok (slot s (d_size (o_d s) - Z.of_nat (length m) + t))) ->
  o_nth h s (Z.of_nat (length p)) = Ok a -> o_nth h s (Z.of_nat (length p + length m)) = Ok b ->
  exists h' s', o_erase_range sz nk h s a b = Ok (h', s', b) /\ o_iterate sz h' s' = Ok (p ++ q) /\ o_at sz s' b = Ok (hd_error q).
Proof.
  intros (h, w) i p m q a b Hy; cbn zeta. cbn [fst snd]. intros Hi Hm Ht Ha Hb. destruct (occurs_oinv (h, w) i Hy) as (ord & H & Hc). cbn [fst snd] in *. set (s := w i) in *. rewrite Hc in Hi. injection Hi as Hi.
  assert (Hl : length (ocont s ord) = length ord) by (unfold ocont; apply pick_len; intros k Hk; apply (inv_in sz nk key_of hash keq _ _ _ _ H); exact Hk).
  pose proof (olinks_len _ _ _ _ _ _ _ (proj2 H)) as Hlen. pose proof (proj2 H) as L.
  assert (Hll : length ord = (length p + length m + length q)%nat) by (rewrite <- Hl, Hi, !app_length; lia).
  assert (Hm0 : (0 < length m)%nat) by (destruct m; [contradiction|cbn [length]; lia]).
  assert (Hnth : forall t, (t < length m)%nat -> nth_error ord (length p + t) = Some (d_size (o_d s) - Z.of_nat (length m) + Z.of_nat t)).
  { intros t Htm. destruct (nth_error ord (length p + t)) as [j|] eqn:Ej; [|apply nth_error_None in Ej; lia]. pose proof (nth_iter h s ord _ j L Ej) as X. specialize (Ht (Z.of_nat t) ltac:(lia)).
    rewrite Nat2Z.inj_add, Ht in X. injection X as X. apply slot_inj in X; [|exact Hsz]. rewrite X. reflexivity. }
  assert (Hord : ord = firstn (length p) ord ++ zs (d_size (o_d s) - Z.of_nat (length m)) (length m) ++ skipn (length p + length m) ord).
  { apply nth_error_ext. intros t. destruct (Nat.ltb_spec t (length p)) as [X|X].
    - rewrite nth_error_app1 by (rewrite firstn_length; lia). rewrite <- (firstn_skipn (length p) ord) at 1. rewrite nth_error_app1 by (rewrite firstn_length; lia). reflexivity.
    - rewrite nth_error_app2 by (rewrite firstn_length; lia). rewrite firstn_length. replace (t - Nat.min (length p) (length ord))%nat with (t - length p)%nat by lia.
      destruct (Nat.ltb_spec (t - length p) (length m)) as [Y|Y].
      + rewrite nth_error_app1 by (rewrite zs_len; lia). unfold zs. rewrite nth_error_map. rewrite (nth_error_nth' _ 0%nat) by (rewrite seq_length; lia). rewrite seq_nth by lia. cbn [option_map Nat.add].
        replace t with (length p + (t - length p))%nat at 1 by lia. apply Hnth. exact Y.
      + rewrite nth_error_app2 by (rewrite zs_len; lia). rewrite zs_len. rewrite <- (firstn_skipn (length p + length m) ord) at 1. rewrite nth_error_app2 by (rewrite firstn_length; lia). f_equal. rewrite firstn_length. lia. }
  set (o1 := firstn (length p) ord) in *. set (o2 := skipn (length p + length m) ord) in *. assert (Hlo : length p = length o1) by (unfold o1; rewrite firstn_length; lia).
  assert (Hlo2 : length q = length o2) by (unfold o2; rewrite skipn_length; lia).
  assert (Hbb : b = match o2 with [] => o_hdr s | j :: _ => slot s j end).
  { destruct o2 as [|j o2'] eqn:Eo.
    - cbn [length] in Hlo2. replace (length p + length m)%nat with (length ord) in Hb by lia. rewrite (nth_end h s ord L) in Hb. congruence.
    - assert (Hj : nth_error ord (length p + length m) = Some j) by (rewrite Hord; rewrite nth_error_app2 by lia; rewrite nth_error_app2 by (rewrite zs_len; lia); rewrite zs_len; replace (length p + length m - length o1 - length m)%nat with 0%nat by lia; reflexivity).
      rewrite (nth_iter h s ord _ j L Hj) in Hb. congruence. }
  assert (Haa : a = slot s (d_size (o_d s) - Z.of_nat (length m))) by (specialize (Ht 0 ltac:(lia)); rewrite !Z.add_0_r in Ht; congruence).
  rewrite Hord in H, Hi. subst a. unfold o_erase_range.
  destruct (range_loop (length m) (chain_fuel (o_d s)) h s o1 o2 p m q b (o_hdr s) H Hi Hlo eq_refl) as (h' & s' & E' & H' & C' & Hh' & Hb').
  - unfold chain_fuel. lia.
  - lia.
  - intros _. split.
    + pose proof (ol_ring _ _ _ _ _ _ _ (proj2 H)) as R. change (fun j => o_base s + j * sz) with (slot s) in R. destruct (length m) as [|k] eqn:Ek; [lia|]. rewrite zs_S in R. replace (d_size (o_d s) - Z.of_nat (S k) + Z.of_nat k) with (d_size (o_d s) - 1) in R by lia.
      rewrite <- !app_assoc in R. cbn [app] in R. rewrite !map_app in R. cbn [map] in R. rewrite app_assoc in R. destruct o2 as [|j o2']; subst b; cbn [map] in R.
      * apply ring_rot in R. rewrite <- app_assoc in R. cbn [app] in R. apply (ring_consecutive h _ _ _ [] R).
      * match type of R with ring _ (?x :: ?l ++ ?y :: ?z) => change (ring h ((x :: l) ++ y :: z)) in R end. apply (ring_consecutive h _ _ _ _ R).
    + rewrite Hbb. destruct o2 as [|j o2'] eqn:Eo.
      * intros X. apply (ol_hdr _ _ _ _ _ _ _ L (d_size (o_d s) - Z.of_nat (length m))); [pose proof (ol_le _ _ _ _ _ _ _ L); lia|symmetry; exact X].
      * intros X. apply slot_inj in X; [|exact Hsz]. pose proof (ol_nd _ _ _ _ _ _ _ (proj2 H)) as Nd. rewrite app_assoc in Nd. apply NoDup_remove_2 in Nd. apply Nd. apply in_or_app. left. apply in_or_app. right.
        destruct (length m) as [|k] eqn:Ek; [lia|]. unfold zs. cbn [seq map]. left. lia.
  - rewrite <- Hbb in E'. exists h', s'. split; [exact E'|]. split; [rewrite <- C'; apply (o_iterate_ok sz nk key_of hash keq Hsz); exact H'|].
    rewrite Hbb. destruct o2 as [|j o2'] eqn:Eo.
    + rewrite <- Hh'. unfold o_at. rewrite Z.eqb_refl. destruct q; [reflexivity|discriminate Hlo2].
    + assert (Hsl : slot s j = slot s' j) by (unfold OrderedDense.slot; rewrite Hb'; reflexivity). rewrite Hsl.
      rewrite (iter_at h' s' (o1 ++ j :: o2') (length p) j H'); [|rewrite nth_error_app2 by lia; replace (length p - length o1)%nat with 0%nat by lia; reflexivity].
      rewrite C', nth_error_app2 by lia. rewrite Nat.sub_diag. destruct q; reflexivity.
Qed.
Lemma range_empty : forall h (s : odense) a, o_erase_range sz nk h s a a = Ok (h, s, o_hdr s).
Proof. clear KL rep_key clone_key rep clone pocca pocma Hsz key_of hash keq. intros h s a. unfold o_erase_range, chain_fuel. cbn [o_erase_range_loop]. rewrite Z.eqb_refl. reflexivity. Qed.
Lemma range_single : forall hw i p x q a b, yoccurs hw -> let h := fst hw in let s := snd hw i in o_iterate sz h s = Ok (p ++ x :: q) ->
  o_nth h s (Z.of_nat (length p)) = Ok a -> o_nth h s (Z.of_nat (length p) + 1) = Ok b -> o_erase_range sz nk h s a b = o_erase_at sz nk h s a.
Proof.
  intros (h, w) i p x q a b Hy; cbn zeta. cbn [fst snd]. intros Hi Ha Hb. destruct (occurs_oinv (h, w) i Hy) as (ord & H & Hc). cbn [fst snd] in *. set (s := w i) in *. rewrite Hc in Hi. injection Hi as Hi.
  destruct (cont_at h s ord p x q H Hi) as (o1 & pos & o2 & -> & Hl). pose proof (proj2 H) as L.
  assert (Hn : nth_error (o1 ++ pos :: o2) (length p) = Some pos) by (rewrite nth_error_app2 by lia; replace (length p - length o1)%nat with 0%nat by lia; reflexivity).
  rewrite (nth_iter h s _ _ pos L Hn) in Ha. injection Ha as <-. destruct (erase_one h s o1 pos o2 p x q H Hi Hl) as (h' & s' & ord' & He & _).
  pose proof (olinks_len _ _ _ _ _ _ _ L) as Hlen. rewrite app_length in Hlen. cbn [length] in Hlen.
  pose proof (ol_ring _ _ _ _ _ _ _ L) as R. change (fun j => o_base s + j * sz) with (slot s) in R. rewrite map_app in R. cbn [map] in R. pose proof (ol_nd _ _ _ _ _ _ _ L) as Nd.
  assert (Hbb : prev_link h b = Ok (slot s pos) /\ b <> slot s pos).
  { destruct o2 as [|j o2].
    - replace (Z.of_nat (length p) + 1) with (Z.of_nat (length (o1 ++ [pos]))) in Hb by (rewrite app_length; cbn [length]; lia). rewrite (nth_end h s _ L) in Hb. injection Hb as <-. split.
      + cbn [map] in R. apply ring_rot in R. rewrite <- app_assoc in R. cbn [app] in R. apply (ring_consecutive h _ _ _ [] R).
      + intros X. apply (ol_hdr _ _ _ _ _ _ _ L pos); [|symmetry; exact X]. assert (In pos (o1 ++ [pos])) as Hin by (apply in_or_app; right; left; reflexivity). apply (ol_in _ _ _ _ _ _ _ L) in Hin. pose proof (ol_le _ _ _ _ _ _ _ L). lia.
    - replace (Z.of_nat (length p) + 1) with (Z.of_nat (S (length p))) in Hb by lia. assert (Hj : nth_error (o1 ++ pos :: j :: o2) (S (length p)) = Some j) by (rewrite nth_error_app2 by lia; replace (S (length p) - length o1)%nat with 1%nat by lia; reflexivity).
      rewrite (nth_iter h s _ _ j L Hj) in Hb. injection Hb as <-. split.
      + cbn [map] in R. match type of R with ring _ (?x :: ?l ++ ?y :: ?z) => change (ring h ((x :: l) ++ y :: z)) in R end. apply (ring_consecutive h _ _ _ _ R).
      + intros X. apply slot_inj in X; [|exact Hsz]. subst j. apply NoDup_remove_2 in Nd. apply Nd. apply in_or_app. right. left. reflexivity. }
  destruct Hbb as (Hp & Hne). unfold o_erase_range, chain_fuel. destruct (Z.to_nat (d_size (o_d s))) as [|n] eqn:En; [lia|]. cbn [o_erase_range_loop]. destruct (Z.eqb_spec b (slot s pos)); [contradiction|]. rewrite Hp. cbn [bind]. rewrite He. cbn [bind]. rewrite Z.eqb_refl. reflexivity.
Qed.

(** ** insert(hint, value). *)
Definition hinted (h : heap) (s : odense) (e : E) (l l' : list E) (x : res (heap * odense * o_result)) : Prop :=
  x = Err BadPlacement \/ exists h' s' r, x = Ok (h', s', r) /\
    match r with
    | Some (it, true) => dnew nk key_of keq e l /\ o_iterate sz h' s' = Ok l' /\ o_at sz s' it = Ok (Some e)
    | Some (it, false) => o_iterate sz h' s' = Ok l /\ exists y, dclash nk key_of keq e l y /\ o_at sz s' it = Ok (Some y)
    | None => o_iterate sz h' s' = Ok l \/ (0 < d_bc (o_d s) /\ broken (o_d s'))
    end.
Lemma ins_hinted : forall h s o1 o2 e d' r x, oinv h s (o1 ++ o2) -> ins_ok nk key_of hash keq (o_d s) e (d', r) -> ins_sim sz h s o1 o2 d' r x ->
  hinted h s e (ocont s (o1 ++ o2)) (ocont s o1 ++ e :: ocont s o2) x.
Proof. clear KL rep_key clone_key rep clone pocca pocma.
  intros h s o1 o2 e d' r x H Hi [->|(h' & s' & -> & Hd & _ & L)]; [left; reflexivity|right].
  assert (Hp : Permutation (delems (o_d s)) (ocont s (o1 ++ o2))) by (apply Permutation_sym; apply (inv_perm sz nk key_of hash keq _ _ _ H)).
  destruct r as [(p, [|])|]; cbn [ins_ok] in Hi.
  - destruct Hi as (W' & Hn & Hde & n & Hnn & Hv). assert (H' : oinv h' s' (o1 ++ d_size (o_d s) :: o2)) by (split; [rewrite Hd; exact W'|exact L]).
    eexists _, _, _. split; [reflexivity|]. cbn beta iota. rewrite <- Hd in Hnn. split; [|split].
    + intros j Hj y Hy. apply (Hn j Hj). apply (Permutation_in _ (Permutation_sym Hp)). exact Hy.
    + rewrite (o_iterate_ok sz nk key_of hash keq Hsz h' s' _ H'). f_equal. unfold ocont at 1. rewrite Hd, Hde, pick_split.
      change (d_size (o_d s) :: o2) with ([d_size (o_d s)] ++ o2). rewrite pick_split.
      assert (Hin : forall i, In i (o1 ++ o2) -> 0 <= i < Z.of_nat (length (delems (o_d s)))) by (intros i Hii; apply (inv_in sz nk key_of hash keq _ _ _ _ H); exact Hii).
      rewrite (pick_app _ _ o1), (pick_app _ _ o2) by (intros i Hii; apply Hin; apply in_or_app; auto).
      assert (Hl : d_size (o_d s) = Z.of_nat (length (delems (o_d s)))) by (rewrite (delems_len nk key_of hash keq _ (proj1 H)); pose proof (w_size _ _ _ _ _ (proj1 H)); lia). rewrite Hl, pick_last. reflexivity.
    + rewrite (o_at_slot sz nk key_of hash keq Hsz h' s' _ p n H' Hnn), Hv. reflexivity.
  - destruct Hi as (W' & Hde & n & Hnn & Hcl). assert (H' : oinv h' s' (o1 ++ o2)) by (split; [rewrite Hd; exact W'|exact L]).
    eexists _, _, _. split; [reflexivity|]. cbn beta iota. rewrite <- Hd in Hnn. split.
    + rewrite (o_iterate_ok sz nk key_of hash keq Hsz h' s' _ H'). unfold ocont. rewrite Hd, Hde. reflexivity.
    + exists (n_val n). split; [|rewrite (o_at_slot sz nk key_of hash keq Hsz h' s' _ p n H' Hnn); reflexivity].
      destruct Hcl as (j & Hj & Hin & Hk & Hno). exists j. split; [exact Hj|]. split; [apply (Permutation_in _ Hp); exact Hin|]. split; [exact Hk|]. intros j' Hj' y Hy. apply (Hno j' Hj'). apply (Permutation_in _ (Permutation_sym Hp)). exact Hy.
  - destruct Hi as (Hes & Hw). eexists _, _, _. split; [reflexivity|]. cbn beta iota. destruct Hw as [W'|Hb]; [left|right; rewrite Hd; exact Hb].
    rewrite (o_iterate_ok sz nk key_of hash keq Hsz h' s' (o1 ++ o2)); [|split; [rewrite Hd; exact W'|exact L]]. unfold ocont. rewrite Hd, (delems_same _ _ Hes). reflexivity.
Qed.
Lemma insert_at : forall v h s o1 o2 hint e, oinv h s (o1 ++ o2) -> denv_ok (ov_d v) -> hint_at sz s hint o1 o2 -> hint_kept v s hint o1 ->
  hinted h s e (ocont s (o1 ++ o2)) (ocont s o1 ++ e :: ocont s o2) (o_do_insert sz nk key_of hash keq v true h s hint e).
Proof. clear rep_key clone_key rep clone pocca pocma.
  intros v h s o1 o2 hint e H V Hh Hk. destruct (do_insert_ok nk key_of hash keq (fun y _ => y) KL (dv_dlim (ov_d v)) (dv_slim (ov_d v)) (o_d s) e (proj1 H) (proj1 V) (proj2 V)) as ((d', r) & Hi & Hok).
  apply (ins_hinted h s o1 o2 e d' r); [exact H|exact Hok|]. apply (o_do_insert_sim sz nk key_of hash keq Hsz v h s (o1 ++ o2) hint o1 o2 e d' r (proj1 H) V (proj2 H) eq_refl Hh Hk Hi).
  intros p ->. cbn [ins_ok] in Hok. destruct Hok as (W' & _ & n & Hn & _). pose proof (node_live nk key_of hash keq _ _ _ W' Hn) as Hl. unfold live in Hl. lia.
Qed.
Lemma insert_after : forall hw i v p x q a e, yoccurs hw -> let h := fst hw in let s := snd hw i in o_iterate sz h s = Ok (p ++ x :: q) -> o_nth h s (Z.of_nat (length p)) = Ok a -> a <> 0 ->
  denv_ok (ov_d v) -> 0 < ov_base v -> hinted h s e (p ++ x :: q) (p ++ x :: e :: q) (o_do_insert sz nk key_of hash keq v true h s a e).
Proof.
  intros (h, w) i v p x q a e Hy; cbn zeta; cbn [fst snd]. intros Hi Ha Ha0 V Hb. destruct (occurs_oinv (h, w) i Hy) as (ord & H & Hc). cbn [fst snd] in *. set (s := w i) in *. rewrite Hc in Hi. injection Hi as Hi.
  destruct (cont_at h s ord p x q H Hi) as (o1 & pos & o2 & -> & Hl).
  assert (Hn : nth_error (o1 ++ pos :: o2) (length p) = Some pos) by (rewrite nth_error_app2 by lia; replace (length p - length o1)%nat with 0%nat by lia; reflexivity).
  rewrite (nth_iter h s _ _ pos (proj2 H) Hn) in Ha. injection Ha as <-. change (o1 ++ pos :: o2) with (o1 ++ [pos] ++ o2) in *. rewrite app_assoc in H, Hi.
  assert (He : ocont s (o1 ++ [pos]) = p ++ [x] /\ ocont s o2 = q).
  { assert (Hin : forall k, In k ((o1 ++ [pos]) ++ o2) -> 0 <= k < Z.of_nat (length (delems (o_d s)))) by (intros k Hk; apply (inv_in sz nk key_of hash keq _ _ _ _ H); exact Hk).
    assert (Hlen : length (ocont s (o1 ++ [pos])) = S (length p)) by (unfold ocont; rewrite pick_len by (intros k Hk; apply Hin; apply in_or_app; left; exact Hk); rewrite app_length; cbn [length]; lia).
    unfold ocont in Hi. rewrite pick_split in Hi. fold (ocont s (o1 ++ [pos])) in Hi. fold (ocont s o2) in Hi. assert (Hi2 : ocont s (o1 ++ [pos]) ++ ocont s o2 = (p ++ [x]) ++ q) by (rewrite <- app_assoc; exact Hi).
    assert (Hll : length (ocont s (o1 ++ [pos])) = length (p ++ [x])) by (rewrite app_length; cbn [length]; lia). clear - Hi2 Hll. revert Hi2 Hll. generalize (ocont s (o1 ++ [pos])) (p ++ [x]). intros l. induction l as [|y l IH]; intros [|z m] A B; try discriminate B; [split; [reflexivity|exact A]|].
    cbn [app] in A. injection A as -> A. injection B as B. destruct (IH m A B) as (-> & X). auto. }
  destruct He as (E1 & E2). pose proof (insert_at v h s (o1 ++ [pos]) o2 (slot s pos) e H V) as X. rewrite Hi, E1, E2, <- app_assoc in X. apply X.
  - right. split; [exact Ha0|]. rewrite map_app. cbn [map]. change (o_hdr s :: map (slot s) o1 ++ [slot s pos]) with ((o_hdr s :: map (slot s) o1) ++ [slot s pos]). rewrite last_last. reflexivity.
  - right. right. split; [intros Y; apply app_eq_nil in Y; destruct Y as (_ & Y); discriminate Y|exact Hb].
Qed.
Lemma insert_end : forall hw i v l e, yoccurs hw -> let h := fst hw in let s := snd hw i in o_iterate sz h s = Ok l -> o_hdr s <> 0 -> denv_ok (ov_d v) -> d_cap (o_d s) <> d_size (o_d s) ->
  hinted h s e l (e :: l) (o_do_insert sz nk key_of hash keq v true h s (o_hdr s) e).
Proof.
  intros (h, w) i v l e Hy; cbn zeta; cbn [fst snd]. intros Hi Ha V Hc'. destruct (occurs_oinv (h, w) i Hy) as (ord & H & Hc). cbn [fst snd] in *. set (s := w i) in *. rewrite Hc in Hi. injection Hi as <-.
  apply (insert_at v h s [] ord (o_hdr s) e H V); [right; split; [exact Ha|reflexivity]|right; left; exact Hc'].
Qed.

(** ** swap of two containers with elements. *)
Lemma swap_final : forall hw i j v li lj, yoccurs hw -> i <> j -> o_iterate sz (fst hw) (snd hw i) = Ok li -> o_iterate sz (fst hw) (snd hw j) = Ok lj -> li <> [] -> lj <> [] ->
  exists hw', yexec sz nk key_of hash keq rep clone pocca pocma v hw (YSwap i j) = Ok (hw', YDone) /\
    o_iterate sz (fst hw') (snd hw' i) = Ok lj /\ o_iterate sz (fst hw') (snd hw' j) = Ok li /\
    o_backwards sz (fst hw') (snd hw' i) = Ok (rev lj) /\ o_backwards sz (fst hw') (snd hw' j) = Ok (rev li) /\
    forall k, k <> i -> k <> j -> o_iterate sz (fst hw') (snd hw' k) = o_iterate sz (fst hw) (snd hw k).
Proof.
  intros (h, w) i j v li lj Hy Hij Hi Hj Hni Hnj. destruct (yoccurs_inv sz nk key_of hash keq rep clone pocca pocma Hsz KL rep_key clone_key _ Hy) as (ords & W). cbn [fst snd] in *.
  pose proof (winv_lists sz nk key_of hash keq Hsz _ _ _ W) as Hl0.
  assert (Hl : forall k, o_iterate sz h (w k) = Ok (conts w ords k) /\ o_backwards sz h (w k) = Ok (rev (conts w ords k))) by exact Hl0. clear Hl0.
  assert (Hs : forall k l, o_iterate sz h (w k) = Ok l -> l <> [] -> d_size (o_d (w k)) <> 0).
  { intros k l Hk Hne X. rewrite (proj1 (Hl k)) in Hk. injection Hk as <-. apply Hne. pose proof (olinks_len _ _ _ _ _ _ _ (proj2 (proj1 W k))) as Y. unfold conts, ocont. destruct (ords k); [reflexivity|cbn [length] in Y; lia]. }
  destruct (swap_step sz nk key_of hash keq rep clone pocca pocma v h w ords i j W Hij (Hs i li Hi Hni) (Hs j lj Hj Hnj)) as (h' & w' & ords' & r & He & W' & Hsp).
  pose proof (winv_lists sz nk key_of hash keq Hsz _ _ _ W') as Hl0.
  assert (Hl' : forall k, o_iterate sz h' (w' k) = Ok (conts w' ords' k) /\ o_backwards sz h' (w' k) = Ok (rev (conts w' ords' k))) by exact Hl0. clear Hl0.
  rewrite (proj1 (Hl i)) in Hi. rewrite (proj1 (Hl j)) in Hj. injection Hi as <-. injection Hj as <-.
  inversion Hsp as [| | | | | | | | |i0 j0 w0 w1 A B C]; subst. exists (h', w'). cbn [fst snd]. split; [exact He|].
  destruct (Hl' i) as (F1 & G1). destruct (Hl' j) as (F2 & G2). rewrite A in F1, G1. rewrite B in F2, G2. do 4 (split; [assumption|]).
  intros k Hk1 Hk2. rewrite (proj1 (Hl' k)), (proj1 (Hl k)). f_equal. apply C. cbn [In]. intuition congruence.
Qed.

(** ** erase_if that erases nothing. *)
Lemma erase_if_none : forall hw i pred l, yoccurs hw -> o_iterate sz (fst hw) (snd hw i) = Ok l -> Forall (fun x => pred x = false) l ->
  o_erase_if sz nk pred (fst hw) (snd hw i) = Ok (fst hw, snd hw i, 0).
Proof.
  intros (h, w) i pred l Hy Hi Hf. destruct (occurs_oinv (h, w) i Hy) as (ord & H & Hc). cbn [fst snd] in *. set (s := w i) in *. rewrite Hc in Hi. injection Hi as <-.
  pose proof (olinks_len _ _ _ _ _ _ _ (proj2 H)) as Hlen. pose proof (ol_ring _ _ _ _ _ _ _ (proj2 H)) as R. change (fun k => o_base s + k * sz) with (slot s) in R.
  assert (G : forall o2 o1 fuel b, ord = o1 ++ o2 -> (length o2 < fuel)%nat -> b = (match o2 with [] => o_hdr s | k :: _ => slot s k end) -> o_erase_if_loop sz nk fuel pred h s b 0 = Ok (h, s, 0)).
  { induction o2 as [|k o2 IH]; intros o1 [|fuel] b Ho Hfu ->; cbn [length] in Hfu; try lia; cbn [o_erase_if_loop].
    - rewrite Z.eqb_refl. reflexivity.
    - assert (Hk : In k ord) by (rewrite Ho; apply in_or_app; right; left; reflexivity). destruct (slot_index sz Hsz h s ord k (proj2 H) Hk) as (Hne & Hix). destruct (Z.eqb_spec (slot s k) (o_hdr s)) as [|_]; [contradiction|].
      rewrite Hix. cbn [bind]. destruct (node_of sz nk key_of hash keq h s ord k H Hk) as (n & Hn & Hg & Hv). rewrite Hg. cbn [bind].
      assert (Hpn : pred (n_val n) = false) by (rewrite Forall_forall in Hf; apply Hf; unfold ocont; apply pick_in; exists k; auto). rewrite Hpn.
      assert (Hnx : next_link h (slot s k) = Ok (match o2 with [] => o_hdr s | k :: _ => slot s k end)).
      { rewrite Ho, map_app in R. cbn [map] in R. destruct o2 as [|k2 o2]; cbn [map] in R.
        - apply ring_rot in R. rewrite <- app_assoc in R. cbn [app] in R. apply (ring_consecutive h _ _ _ [] R).
        - apply (ring_consecutive h (o_hdr s :: map (slot s) o1) _ _ _ R). }
      rewrite Hnx. cbn [bind]. apply (IH (o1 ++ [k])); [rewrite <- app_assoc; exact Ho|lia|reflexivity]. }
  unfold o_erase_if. assert (Hb : next_link h (o_hdr s) = Ok (match ord with [] => o_hdr s | k :: _ => slot s k end)).
  { destruct ord as [|k ord']; cbn [map] in R; [|apply (ring_consecutive h [] _ _ _ R)]. destruct R as ((R & _) & _). apply next_link_ok. exact R. }
  rewrite Hb. cbn [bind]. apply (G ord []); [reflexivity|unfold chain_fuel; lia|reflexivity].
Qed.
End Final.
