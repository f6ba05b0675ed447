(** Proofs about moves between ordered dense containers left by a throwing element move. *)
From Coq Require Import ZArith List Bool Lia Arith.
From Verif Require Import Base BaseLemmas MapSpec DenseSpec World DenseModel DenseRun DenseChain DenseInv DenseOps DenseEdit DenseErase DenseRefine DenseMore DenseFinal.
From Verif Require Import LinkModel LinkProofs OrderedDense OrderedLinks OrderedSpec OrderedWorldSpec OrderedRun OrderedProofs OrderedRefine OrderedMoves OrderedWorld OrderedWorldProofs.
From Verif Require Import SwissOrderedLinks UnequalModel UnequalDense UnequalOrdered MoveLeftModel MoveLeftDense MoveLeftOrderedModel.
Import ListNotations.
Open Scope Z_scope.

Section Links.
Context {E : Type}.
Variable sz : Z.
Hypothesis Hsz : 0 < sz.
Notation odense := (odense E).
Notation lnk := (lnk sz). Notation slot := (slot sz). Notation mine := (mine sz). Notation area := (area sz).

(** The element array of the target, old or new. *)
Lemma room_links : forall v h (s o : odense), area h s -> area h o -> (forall a, mine s a -> ~ mine o a) ->
  o_realloc sz v h s (d_size (o_d o)) false = Err BadPlacement \/
  exists h1 nb, o_realloc sz v h s (d_size (o_d o)) false = Ok (h1, nb) /\ (forall i, 0 <= i < d_size (o_d o) -> has h1 (nb + i * sz) /\ nb + i * sz <> o_hdr s /\ ~ mine o (nb + i * sz)) /\
    (forall a, mine o a -> h1 a = h a) /\ h1 (o_hdr s) = h (o_hdr s).
Proof.
  intros v h s o A Ao Hdis. assert (Hoh : forall a, mine o a -> has h a) by (intros a [->|(i & Hi & ->)]; [apply Ao|apply Ao; exact Hi]).
  unfold o_realloc. destruct (Z.ltb_spec (d_cap (o_d s)) (d_size (o_d o))) as [Hlt|Hge].
  - set (h0 := unplace h (o_base s) sz (d_cap (o_d s))). assert (Hh0 : forall a, (a = o_hdr s \/ ~ mine s a) -> h0 a = h a).
    { intros a Ha. unfold h0, unplace. assert (Hx : slot_ix (o_base s) sz (d_cap (o_d s)) a = None); [|rewrite Hx; reflexivity]. destruct Ha as [->|Ha]; [|apply slot_ix_mine; [exact Hsz|exact Ha]].
      apply slot_ix_none_intro; [exact Hsz|]. intros i Hi X. apply (ar_ne _ _ _ A i Hi). symmetry. exact X. }
    destruct (place_cases (ov_junk v) h0 (ov_base v) sz (d_size (o_d o)) Hsz) as [->|(h1 & -> & Hfree & Hnew & Hold)]; cbn [bind]; [left; reflexivity|right].
    exists h1, (ov_base v). split; [reflexivity|].
    assert (Hno : forall a, has h0 a -> slot_ix (ov_base v) sz (d_size (o_d o)) a = None) by (intros a Ha; apply slot_ix_none_intro; [exact Hsz|]; intros i Hi ->; apply Ha; apply Hfree; exact Hi).
    assert (Hso : forall a, mine o a -> h0 a = h a /\ has h0 a) by (intros a Ha; assert (X : h0 a = h a) by (apply Hh0; right; intros Y; exact (Hdis a Y Ha)); split; [exact X|unfold has; rewrite X; apply (Hoh a Ha)]).
    assert (Hshd : has h0 (o_hdr s)) by (unfold has; rewrite Hh0 by (left; reflexivity); apply A).
    split; [|split].
    + intros i Hi. split; [apply Hnew; exact Hi|]. split; [intros X; apply Hshd; rewrite <- X; apply Hfree; exact Hi|]. intros X. apply (proj2 (Hso _ X)). apply Hfree. exact Hi.
    + intros a Ha. rewrite Hold by (apply Hno; apply Hso; exact Ha). apply Hso. exact Ha.
    + rewrite Hold by (apply Hno; exact Hshd). apply Hh0. left. reflexivity.
  - right. exists h, (o_base s). split; [reflexivity|]. split; [|split; reflexivity].
    intros i Hi. split; [apply A; lia|]. split; [apply A; lia|]. apply Hdis. right. exists i. split; [lia|reflexivity].
Qed.
Lemma room_refused : forall v h (s : odense) n, exists h1, o_realloc sz v h s n true = Ok (h1, o_base s) /\ forall a, ~ mine s a -> h1 a = h a.
Proof.
  intros v h s n. unfold o_realloc. destruct (d_cap (o_d s) <? n); eexists; (split; [reflexivity|]); [|reflexivity].
  intros a Ha. unfold unplace. rewrite slot_ix_mine; [reflexivity|exact Hsz|exact Ha].
Qed.
(** The links of the first elements are moved; the ring of the target goes through both arrays. *)
Lemma part_ring : forall n N h x nb ob ord hd, ring h (x :: map (fun i => ob + i * sz) ord) -> (forall i, In i ord <-> 0 <= i < N) -> Z.of_nat n < N ->
  (forall i, 0 <= i < N -> has h (nb + i * sz) /\ nb + i * sz <> x /\ nb + i * sz <> hd /\ forall k, 0 <= k < N -> nb + i * sz <> ob + k * sz) -> hd <> x -> (forall i, 0 <= i < N -> ob + i * sz <> hd) ->
  exists h', foldM (relink_step sz nb ob) (firstn (S n) (zrange N)) h = Ok h' /\ h' hd = h hd /\
    exists l, ring h' (x :: l) /\ length l = length ord /\ In (nb + Z.of_nat n * sz) l.
Proof.
  intros n N h x nb ob ord hd R Hord HnN Hnew Hhx Hho. set (l := firstn (S n) (zrange N)). set (mv := map (fun i => (ob + i * sz, nb + i * sz)) l).
  assert (Hl : forall i, In i l -> 0 <= i < N) by (intros i Hi; apply zrange_In; unfold l in Hi; rewrite <- (firstn_skipn (S n) (zrange N)); apply in_or_app; left; exact Hi).
  assert (Hnd : NoDup l). { pose proof (zrange_NoDup N) as X. rewrite <- (firstn_skipn (S n) (zrange N)) in X. fold l in X. clear - X. induction l as [|a l IH]; [constructor|]. cbn [app] in X. apply NoDup_cons_iff in X. destruct X as (X1 & X2). constructor; [intros Y; apply X1; apply in_or_app; left; exact Y|apply IH; exact X2]. }
  assert (Hnl : In (Z.of_nat n) l).
  { unfold l, zrange. rewrite firstn_map. apply in_map. replace (Z.to_nat N) with (S n + (Z.to_nat N - S n))%nat by lia. rewrite seq_app, firstn_app, seq_length, Nat.sub_diag. rewrite firstn_all2 by (rewrite seq_length; lia). apply in_or_app. left. apply in_seq. lia. }
  assert (Hf : map fst mv = map (fun i => ob + i * sz) l) by (unfold mv; rewrite map_map; apply map_ext; reflexivity).
  assert (Hs : map snd mv = map (fun i => nb + i * sz) l) by (unfold mv; rewrite map_map; apply map_ext; reflexivity).
  assert (Hmap : forall b, NoDup (map (fun i => b + i * sz) l)) by (intros b; apply FinFun.Injective_map_NoDup; [|exact Hnd]; intros i j X; apply Z.mul_reg_r with sz; lia).
  destruct (moves_ring mv h x (map (fun i => ob + i * sz) ord)) as (h' & E1 & R' & O).
  - exact R.
  - rewrite Hf. apply Hmap.
  - rewrite Hs. apply Hmap.
  - rewrite Hf. intros a Ha. apply in_map_iff in Ha. destruct Ha as (i & <- & Hi). apply in_map_iff. exists i. split; [reflexivity|apply Hord; apply Hl; exact Hi].
  - rewrite Hs. intros b Hb. apply in_map_iff in Hb. destruct Hb as (i & <- & Hi). destruct (Hnew i (Hl i Hi)) as (X1 & X2 & _ & X3). split; [exact X1|]. intros [Y|Y]; [congruence|]. apply in_map_iff in Y. destruct Y as (k & Y & Hk). apply (X3 k); [apply Hord; exact Hk|congruence].
  - exists h'. change (relink_step sz nb ob) with (fun t i => relink_from t (nb + i * sz) (ob + i * sz)). rewrite shift_foldM. split; [exact E1|]. rewrite Hs in O. split.
    + apply O. intros [Y|Y]; [congruence|]. apply in_app_or in Y. destruct Y as [Y|Y]; apply in_map_iff in Y; destruct Y as (i & Y & Hi); [apply (Hho i); [apply Hord; exact Hi|exact Y]|]. apply (Hnew i (Hl i Hi)). exact Y.
    + exists (map (dest mv) (map (fun i => ob + i * sz) ord)). split; [exact R'|]. split; [rewrite !map_length; reflexivity|]. apply in_map_iff. exists (ob + Z.of_nat n * sz). split; [|apply in_map_iff; exists (Z.of_nat n); split; [reflexivity|apply Hord; lia]].
      assert (Hd : In (ob + Z.of_nat n * sz, dest mv (ob + Z.of_nat n * sz)) mv) by (apply dest_some; rewrite Hf; apply in_map_iff; exists (Z.of_nat n); auto).
      unfold mv in Hd at 2. apply in_map_iff in Hd. destruct Hd as (k & Ek & _). injection Ek as X1 X2. assert (k = Z.of_nat n) by (apply Z.mul_reg_r with sz; lia). subst k. symmetry. exact X2.
Qed.
Lemma nothing_shown : forall h (s : odense), h (o_hdr s) = Some (0, 0) -> o_iterate sz h s = Ok [].
Proof. intros h s H. unfold o_iterate, next_link, get_link. rewrite H. cbn [bind fst]. rewrite Z.add_0_r. cbn [walk]. rewrite Z.eqb_refl. reflexivity. Qed.
End Links.

Section World.
Context {E K : Type}.
Variable sz : Z.
Variable nk : nat.
Variable key_of : nat -> E -> K.
Variable hash : K -> Z.
Variable keq : K -> K -> bool.
Variable rep : E -> E -> E.
Variable clone : E -> E.
Variables pocca pocma : bool.
Hypothesis Hsz : 0 < sz.
Hypothesis KL : key_laws hash keq.
Hypothesis rep_key : forall x e, key_of 0 (rep x e) = key_of 0 x.
Hypothesis clone_key : forall j e, (j < nk)%nat -> key_of j (clone e) = key_of j e.
Notation odense := (odense E).
Notation dwf := (dwf nk key_of hash keq).
Notation lnk := (lnk sz). Notation slot := (slot sz). Notation mine := (mine sz).
Notation yoccurs := (yoccurs sz nk key_of hash keq rep clone pocca pocma).
Notation ddrained := (ddrained nk key_of hash keq).

(** What is left of the source [o] and the target after [n] moves. *)
Definition oleft (n : nat) (o : odense) (rf : Prop) (h' : heap) (s' o' : odense) : Prop :=
  size (o_d o') = size (o_d o) /\ o_iterate sz h' o' = Ok [] /\ (o_d o' = o_d o \/ (0 < n)%nat /\ ddrained n (o_d o) (o_d o')) /\
  (rf \/ exists a l, next_link h' (o_hdr s') = Ok a /\ walk (S (Z.to_nat (size (o_d o)))) h' a (o_hdr s') = Ok l /\ Z.of_nat (length l) = size (o_d o) /\
    In (slot s' (Z.of_nat n)) l /\ delems (o_d s') = firstn n (delems (o_d o)) /\ forall x, get_node (o_d s') (Z.of_nat n) <> Ok x).

Lemma left_core : forall n v h (s o : odense) os oo d, lnk h s os -> dwf (o_d o) -> lnk h o oo -> (forall a, mine s a -> ~ mine o a) -> hollow d -> d_cap d = d_cap (o_d s) -> d_mlf d = d_mlf (o_d o) ->
  Z.of_nat n < d_size (o_d o) -> denv_ok (ov_d v) ->
  exists h1, relink_from h (o_hdr s) (o_hdr o) = Ok h1 /\
  (om_move_data sz nk n v h1 (with_d s d) o = Err BadPlacement \/
   exists h' s' o', om_move_data sz nk n v h1 (with_d s d) o = Ok (h', s', o', false) /\ oleft n o (refused (dv_dlim (ov_d v)) (dv_slim (ov_d v)) (d_bc d) (d_cap d) (o_d o)) h' s' o').
Proof.
  clear rep_key clone_key clone rep pocca pocma. intros n v h s o os oo d Ls Wo Lo Hdis Hh Hcap Hq Hn V.
  assert (Hms : mine s (o_hdr s)) by (left; reflexivity). pose proof (ol_le _ _ _ _ _ _ _ Lo) as Hle.
  destruct (ring_move h (o_hdr s) (o_hdr o) (map (slot o) oo)) as (h1 & -> & R & O & Z0).
  - apply (ol_ring _ _ _ _ _ _ _ Lo).
  - intros X. apply (Hdis _ Hms). apply (in_ring sz h o oo Lo). exact X.
  - apply (olinks_hdr _ _ _ _ _ _ _ Ls).
  - exists h1. split; [reflexivity|].
    assert (Ao : area sz h1 o) by (destruct (lnk_area sz h o oo Lo) as [a1 a2 a3 a4]; constructor; [apply O; exact a1|intros i Hi; apply O; apply a2; exact Hi|exact a3|exact a4]).
    assert (As : area sz h1 (with_d s d)) by (destruct (lnk_area sz h s os Ls) as [a1 a2 a3 a4]; constructor; cbn [with_d o_d o_hdr]; rewrite ?Hcap; [apply O; exact a1|intros i Hi; apply O; apply a2; exact Hi|exact a3|exact a4]).
    assert (Hmine : forall a, mine (with_d s d) a <-> mine s a) by (intros a; unfold OrderedWorldProofs.mine; cbn [with_d o_hdr o_d]; rewrite Hcap; reflexivity).
    assert (Hdis' : forall a, mine (with_d s d) a -> ~ mine o a) by (intros a Ha; apply Hdis; apply Hmine; exact Ha).
    assert (Hoh : ~ mine (with_d s d) (o_hdr o)) by (intros X; apply (Hdis' _ X); left; reflexivity).
    destruct (dm_move_data_ok nk key_of hash keq KL n (dv_dlim (ov_d v)) (dv_slim (ov_d v)) d (o_d o) (proj1 V) (proj2 V) Hh Wo ltac:(lia) Hq) as (Hm & _). specialize (Hm Hn).
    assert (Hm' : exists t o1, dm_move_data nk n (dv_dlim (ov_d v)) (dv_slim (ov_d v)) d (o_d o) = Ok (t, o1, false) /\ size o1 = size (o_d o) /\ (o1 = o_d o \/ (0 < n)%nat /\ ddrained n (o_d o) o1)).
    { destruct Hm as [(t & _ & Hm)|(t & o1 & Hm & _ & _ & H0 & H1)]; [exists t, (o_d o); auto|]. exists t, o1. split; [exact Hm|]. destruct n as [|n]; [rewrite (H0 eq_refl); auto|]. split; [apply (H1 ltac:(lia))|]. right. split; [lia|apply H1; lia]. }
    destruct Hm' as (t & o1 & Em & Hs1 & Hleft). unfold om_move_data. cbn [with_d o_d]. rewrite Em. cbn [bind]. destruct (Z.eqb_spec (d_size (o_d o)) 0) as [|_]; [lia|].
    destruct (grown_ok nk key_of hash keq (dv_dlim (ov_d v)) (dv_slim (ov_d v)) d (o_d o) (proj1 V) (proj2 V) Hh Wo ltac:(lia)) as [(s' & Hg)|(s1 & s2 & s3 & H1 & H2 & H3 & _)].
    + assert (Hrf : refused (dv_dlim (ov_d v)) (dv_slim (ov_d v)) (d_bc d) (d_cap d) (o_d o)).
      { destruct (grow_cases nk key_of hash keq (dv_dlim (ov_d v)) (dv_slim (ov_d v)) d (o_d o) Hh Wo ltac:(lia) (proj1 V) (proj2 V) Hq) as [(Hr & _)|(_ & d1 & d2 & Hmd & _)]; [exact Hr|]. exfalso.
        unfold move_data in Hmd. apply bind_Ok in Hmd. destruct Hmd as (u & _ & Hmd). destruct (Z.eqb_spec (d_size (o_d o)) 0) as [|_]; [lia|]. destruct (realloc_sparse (dv_slim (ov_d v)) d (d_bc (o_d o))) as [s1 ok1]. destruct ok1; cbn [negb] in *; [|discriminate].
        rewrite Hg in Hmd. discriminate. }
      right. destruct (realloc_sparse (dv_slim (ov_d v)) d (d_bc (o_d o))) as [s1 ok1]. destruct ok1; cbn [negb] in *.
      * rewrite Hg. cbn [negb andb]. destruct (d_dok s'); [exists h1, (with_d s t), (with_d o o1); split; [reflexivity|]; split; [exact Hs1|]; split; [apply nothing_shown; exact Z0|]; split; [exact Hleft|left; exact Hrf]|].
        destruct (room_refused sz Hsz v h1 (with_d s d) (d_size (o_d o))) as (h2 & -> & Hk). cbn [bind]. exists h2, (with_d s t), (with_d o o1). split; [reflexivity|]. split; [exact Hs1|]. split; [|split; [exact Hleft|left; exact Hrf]].
        apply nothing_shown. cbn [with_d o_hdr]. rewrite Hk by exact Hoh. exact Z0.
      * exists h1, (with_d s t), (with_d o o1). split; [reflexivity|]. split; [exact Hs1|]. split; [|split; [exact Hleft|left; exact Hrf]]. apply nothing_shown. exact Z0.
    + rewrite H1. cbn [negb]. rewrite H2. cbn [negb andb]. destruct (room_links sz Hsz v h1 (with_d s d) o As Ao Hdis') as [->|(h2 & nb & -> & N1 & N2 & N3)]; cbn [bind]; [left; reflexivity|right].
      assert (Hos : forall i, 0 <= i < d_size (o_d o) -> mine o (o_base o + i * sz)) by (intros i Hi; right; exists i; split; [lia|reflexivity]).
      assert (Hord : forall i, In i oo <-> 0 <= i < d_size (o_d o)) by apply (ol_in _ _ _ _ _ _ _ Lo).
      assert (R1 : ring h2 (o_hdr s :: map (fun i => o_base o + i * sz) oo)).
      { apply (ring_frame h1); [| |exact R]; intros y Hy; (unfold nx, pv; destruct Hy as [<-|Hy]; [cbn [with_d o_hdr] in N3; rewrite N3; reflexivity|]; apply in_map_iff in Hy; destruct Hy as (i & <- & Hi); rewrite N2 by (apply Hos; apply Hord; exact Hi); reflexivity). }
      destruct (part_ring sz Hsz n (d_size (o_d o)) h2 (o_hdr s) nb (o_base o) oo (o_hdr o) R1 Hord Hn) as (h3 & E3 & Z3 & l & Rl & Ll & Il).
      * intros i Hi. destruct (N1 i Hi) as (X1 & X2 & X3). split; [exact X1|]. split; [exact X2|]. split; [intros X; apply X3; left; exact X|]. intros k Hk X. apply X3. rewrite X. apply Hos. exact Hk.
      * intros X. apply (Hdis _ Hms). left. symmetry. exact X.
      * intros i Hi. apply (ar_ne _ _ _ Ao). lia.
      * rewrite E3. cbn [bind]. exists h3, (mko t (o_hdr s) nb), (with_d o o1). split; [reflexivity|]. split; [exact Hs1|]. split; [apply nothing_shown; cbn [with_d o_hdr]; rewrite Z3, N2 by (left; reflexivity); exact Z0|]. split; [exact Hleft|right].
        assert (Hlen : Z.of_nat (length oo) = d_size (o_d o)).
        { pose proof (delems_len nk key_of hash keq (o_d o) Wo) as X. pose proof (Permutation.Permutation_length (inv_perm sz nk key_of hash keq h o oo (conj Wo Lo))) as Y. unfold ocont in Y.
          assert (Hz : length oo = length (zrange (d_size (o_d o)))) by (apply Permutation.Permutation_length; apply Permutation.NoDup_Permutation; [apply (ol_nd _ _ _ _ _ _ _ Lo)|apply zrange_NoDup|intros i; rewrite zrange_In; apply Hord]). rewrite Hz, zrange_length. lia. }
        unfold size. destruct (ring_walk h3 (o_hdr s) l (S (Z.to_nat (d_size (o_d o)))) Rl ltac:(lia)) as (a & Ea & Ew). exists a, l. cbn [o_hdr o_d]. split; [exact Ea|]. split; [exact Ew|]. split; [lia|]. split; [exact Il|].
        destruct Hm as [(t' & Hmd & _)|(t' & o1' & Hm & Wt & Hd & _)].
        { exfalso. unfold move_data in Hmd. rewrite (ho_size _ Hh) in Hmd. cbn [Z.eqb guard bind] in Hmd. destruct (Z.eqb_spec (d_size (o_d o)) 0) as [|_]; [lia|]. rewrite H1 in Hmd. cbn [negb] in Hmd. rewrite H2 in Hmd. cbn [negb] in Hmd. rewrite H3 in Hmd. cbn [bind] in Hmd.
          destruct (foldM (move_step nk) (zrange (d_size (o_d o))) (s3, o_d o)); discriminate. }
        rewrite Em in Hm. injection Hm as <- <-. split; [exact Hd|]. intros x Hx.
        assert (Hnode : d_nodes t (Z.of_nat n) = Some x).
        { unfold get_node in Hx. do 3 (apply bind_Ok in Hx; destruct Hx as (? & _ & Hx)). destruct (d_nodes t (Z.of_nat n)); [congruence|discriminate]. }
        pose proof (node_live nk key_of hash keq t _ x Wt Hnode) as Hlv. unfold live in Hlv. pose proof (delems_len nk key_of hash keq t Wt) as X. rewrite Hd, firstn_length in X. lia.
Qed.

Lemma left_assign : forall ne n v h w i j l, yoccurs (h, w) -> i <> j -> denv_ok (ov_d v) -> o_iterate sz h (w j) = Ok l -> (n < length l)%nat ->
  let r := om_move_assign sz nk ne n v h (w i) (w j) in
  r = Err BadPlacement \/ (ne = true /\ r = Err Terminated) \/
  exists h' s' o', ne = false /\ r = Ok (h', s', o', false) /\ oleft n (w j) (orefused v (d_bc (o_d (w i))) (d_cap (o_d (w i))) (w j)) h' s' o'.
Proof.
  intros ne n v h w i j l Ho Hij V Hl Hn r. destruct (yoccurs_inv sz nk key_of hash keq rep clone pocca pocma Hsz KL rep_key clone_key (h, w) Ho) as (ords & H). cbn [fst snd] in H.
  destruct (proj1 H i) as (Wi & Li). destruct (proj1 H j) as (Wj & Lj).
  assert (Hn0 : Z.of_nat n < d_size (o_d (w j))).
  { pose proof (o_iterate_ok sz nk key_of hash keq Hsz _ _ _ (proj1 H j)) as X. rewrite Hl in X. injection X as ->. rewrite (Permutation.Permutation_length (inv_perm sz nk key_of hash keq _ _ _ (proj1 H j))) in Hn. pose proof (delems_len nk key_of hash keq _ Wj). pose proof (w_size _ _ _ _ _ Wj). lia. }
  destruct (cleared_hollow nk key_of hash keq (o_d (w i)) (d_mlf (o_d (w j))) Wi) as (dc & Hcl & Hh & Hq & Hcap & Hbc & Hsp).
  unfold r, om_move_assign. destruct (left_core n v h (w i) (w j) (ords i) (ords j) dc Li Wj Lj (fun a => proj2 H i j a Hij) Hh Hcap Hq Hn0 V) as (h1 & -> & Hc). cbn [bind]. rewrite Hcl. cbn [bind].
  unfold orefused. rewrite <- Hbc, <- Hcap. destruct Hc as [->|(h' & s' & o' & -> & Hc)]; [left; reflexivity|right]. unfold leaves. cbn [bind snd negb andb]. destruct ne; cbn [andb]; [left; auto|right]. exists h', s', o'. auto.
Qed.
Lemma left_ctor : forall ne n v h w i j l, yoccurs (h, w) -> i <> j -> denv_ok (ov_d v) -> o_iterate sz h (w j) = Ok l -> (n < length l)%nat ->
  let r := om_move_ctor sz nk ne n v (o_destroy sz h (w i)) (o_hdr (w i)) (w j) in
  r = Err BadPlacement \/ (ne = true /\ r = Err Terminated) \/
  exists h' s' o', ne = false /\ r = Ok (h', s', o', false) /\ oleft n (w j) (orefused v 0 0 (w j)) h' s' o'.
Proof.
  intros ne n v h w i j l Ho Hij V Hl Hn r. destruct (yoccurs_inv sz nk key_of hash keq rep clone pocca pocma Hsz KL rep_key clone_key (h, w) Ho) as (ords & H). cbn [fst snd] in H.
  destruct (proj1 H j) as (Wj & Lj).
  assert (Hn0 : Z.of_nat n < d_size (o_d (w j))).
  { pose proof (o_iterate_ok sz nk key_of hash keq Hsz _ _ _ (proj1 H j)) as X. rewrite Hl in X. injection X as ->. rewrite (Permutation.Permutation_length (inv_perm sz nk key_of hash keq _ _ _ (proj1 H j))) in Hn. pose proof (delems_len nk key_of hash keq _ Wj). pose proof (w_size _ _ _ _ _ Wj). lia. }
  unfold r. set (h0 := o_destroy sz h (w i)). pose proof (renewed sz nk key_of hash keq Hsz h w ords i H) as H0. fold h0 in H0. set (q := o_new (o_hdr (w i)) : odense) in *.
  assert (Hi0 : oinv sz nk key_of hash keq h0 q []) by (pose proof (proj1 H0 i) as X; rewrite !setn_same in X; exact X).
  assert (Hj0 : oinv sz nk key_of hash keq h0 (w j) (ords j)) by (pose proof (proj1 H0 j) as X; rewrite !setn_other in X by congruence; exact X).
  assert (Hdis : forall a, mine q a -> ~ mine (w j) a) by (intros a; pose proof (proj2 H0 i j a Hij) as X; rewrite setn_same, setn_other in X by congruence; exact X).
  unfold om_move_ctor.
  destruct (left_core n v h0 q (w j) [] (ords j) (set_mlf empty_dense (d_mlf (o_d (w j)))) (proj2 Hi0) Wj (proj2 Hj0) Hdis (empty_hollow _) eq_refl eq_refl Hn0 V) as (h1 & Hl1 & Hc).
  change (o_hdr q) with (o_hdr (w i)) in Hl1. rewrite Hl1. cbn [bind]. change (mko (set_mlf empty_dense (d_mlf (o_d (w j)))) (o_hdr (w i)) 0) with (with_d q (set_mlf empty_dense (d_mlf (o_d (w j))))).
  unfold orefused. destruct Hc as [->|(h' & s' & o' & -> & Hc)]; [left; reflexivity|right]. unfold leaves. cbn [bind snd negb andb]. destruct ne; cbn [andb]; [left; auto|right]. exists h', s', o'. auto.
Qed.
End World.
