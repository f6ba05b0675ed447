(** Proofs about moves between ordered dense containers with unequal allocators. *)
From Coq Require Import ZArith List Bool Lia Arith.
From Verif Require Import Base BaseLemmas MapSpec Float32 DenseSpec World WorldProofs DenseModel DenseRun DenseChain DenseInv DenseOps DenseEdit DenseErase DenseRefine DenseMore DenseFinal.
From Verif Require Import LinkModel LinkProofs OrderedDense OrderedLinks OrderedSpec OrderedWorldSpec OrderedRun OrderedProofs OrderedRefine OrderedMoves OrderedWorld OrderedWorldProofs.
From Verif Require Import SwissRun SwissOrdered SwissOrderedLinks UnequalModel UnequalDense.
Import ListNotations.
Open Scope Z_scope.

(** ** Shifting a ring object by object. *)
Section Shift.
Variable sz : Z.
Hypothesis Hsz : 0 < sz.
Lemma shift_foldM : forall nb ob l h, foldM (fun t i => relink_from t (nb + i * sz) (ob + i * sz)) l h =
  foldM (fun t m => relink_from t (snd m) (fst m)) (map (fun i => (ob + i * sz, nb + i * sz)) l) h.
Proof. clear Hsz. intros nb ob. induction l as [|i l IH]; intros h; [reflexivity|]. cbn [map foldM fst snd]. destruct (relink_from h (nb + i * sz) (ob + i * sz)); [apply IH|reflexivity]. Qed.
Lemma shift_ring : forall l h x nb ob ord, ring h (x :: map (fun i => ob + i * sz) ord) -> NoDup l -> (forall i, In i l <-> In i ord) ->
  (forall i, In i l -> has h (nb + i * sz) /\ ~ In (nb + i * sz) (x :: map (fun i => ob + i * sz) ord)) ->
  exists h', foldM (fun t i => relink_from t (nb + i * sz) (ob + i * sz)) l h = Ok h' /\ ring h' (x :: map (fun i => nb + i * sz) ord) /\
    only (x :: map (fun i => ob + i * sz) ord ++ map (fun i => nb + i * sz) l) h h'.
Proof.
  intros l h x nb ob ord R Hnd Hin Hnew. set (mv := map (fun i => (ob + i * sz, nb + i * sz)) l).
  assert (Hf : map fst mv = map (fun i => ob + i * sz) l) by (unfold mv; rewrite map_map; apply map_ext; reflexivity).
  assert (Hs : map snd mv = map (fun i => nb + i * sz) l) by (unfold mv; rewrite map_map; apply map_ext; reflexivity).
  assert (Hmap : forall b, NoDup (map (fun i => b + i * sz) l)).
  { intros b. apply FinFun.Injective_map_NoDup; [|exact Hnd]. intros i j E. apply Z.mul_reg_r with sz; lia. }
  destruct (moves_ring mv h x (map (fun i => ob + i * sz) ord)) as (h' & E & R' & O).
  - exact R.
  - rewrite Hf. apply Hmap.
  - rewrite Hs. apply Hmap.
  - rewrite Hf. intros a Ha. apply in_map_iff in Ha. destruct Ha as (i & <- & Hi). apply in_map_iff. exists i. split; [reflexivity|apply Hin; exact Hi].
  - rewrite Hs. intros b Hb. apply in_map_iff in Hb. destruct Hb as (i & <- & Hi). apply Hnew. exact Hi.
  - exists h'. rewrite shift_foldM. split; [exact E|]. rewrite Hs in O. split; [|exact O].
    assert (Em : map (dest mv) (map (fun i => ob + i * sz) ord) = map (fun i => nb + i * sz) ord); [|rewrite <- Em; exact R'].
    rewrite map_map. apply map_ext_in. intros i Hi. apply Hin in Hi.
    assert (Hd : In (ob + i * sz, dest mv (ob + i * sz)) mv) by (apply dest_some; rewrite Hf; apply in_map_iff; exists i; auto).
    unfold mv in Hd at 2. apply in_map_iff in Hd. destruct Hd as (k & Ek & _). injection Ek as E1 E2. assert (k = i) by (apply Z.mul_reg_r with sz; lia). subst k. symmetry. exact E2.
Qed.
End Shift.

Section Cap.
Context {E : Type}.
Notation dense := (dense E).
Lemma move_data_cap : forall nk dlim slim (s o d1 d2 : dense), DenseModel.move_data nk dlim slim s o = Ok (d1, d2, true) -> d_size o <> 0 ->
  d_cap d1 = if d_cap s <? d_size o then d_size o else d_cap s.
Proof.
  intros nk dlim slim s o d1 d2 H Ho. unfold DenseModel.move_data in H. apply bind_Ok in H. destruct H as (u & _ & H). destruct (Z.eqb_spec (d_size o) 0) as [|_]; [contradiction|].
  assert (Hc : d_cap (fst (realloc_sparse slim s (d_bc o))) = d_cap s) by (unfold realloc_sparse; destruct (d_bc s <? d_bc o); [destruct (slim <? d_bc o)|]; reflexivity).
  destruct (realloc_sparse slim s (d_bc o)) as (s1, ok1). cbn [fst] in Hc. destruct ok1; cbn [negb] in H; [|discriminate H].
  destruct (realloc_dense dlim s1 (d_size o)) as (s2, ok2) eqn:Er. destruct ok2; cbn [negb] in H; [|discriminate H].
  apply bind_Ok in H. destruct H as (s3 & Hf & H). apply bind_Ok in H. destruct H as ((s4, o4) & Hg & H). injection H as <- _. cbn [fst].
  assert (Hg' : d_cap s4 = d_cap s3).
  { change s4 with (fst (s4, o4)). change s3 with (fst (s3, o)). revert Hg. generalize (s3, o), (s4, o4). induction (zrange (d_size o)) as [|i l IH]; intros p q Hg; cbn [foldM] in Hg; [injection Hg as <-; reflexivity|].
    apply bind_Ok in Hg. destruct Hg as (r & G & Hg). rewrite (IH _ _ Hg). destruct p as (t, p). unfold move_step in G.
    do 4 (apply bind_Ok in G; let u := fresh "u" in let X := fresh "X" in destruct G as (u & X & G)). injection G as <-. cbn [fst set_size d_cap].
    rewrite (insert_step_cap _ _ _ _ X2). apply (new_cap _ _ _ _ X0). }
  assert (Hf' : d_cap s3 = d_cap s2) by (unfold fill_sparse in Hf; destruct (d_bc s2 =? 0); [injection Hf as <-; reflexivity|]; apply bind_Ok in Hf; destruct Hf as (u' & _ & Hf); injection Hf as <-; reflexivity).
  rewrite Hg', Hf', <- Hc. unfold realloc_dense in Er. destruct (d_cap s1 <? d_size o); [destruct (dlim <? d_size o); [discriminate Er|]|]; injection Er as <-; reflexivity.
Qed.
End Cap.

Section Links.
Context {E : Type}.
Variable sz : Z.
Hypothesis Hsz : 0 < sz.
Notation odense := (odense E).
Notation lnk := (lnk sz). Notation slot := (slot sz). Notation mine := (mine sz). Notation area := (area sz).

Lemma o_move_data_ok : forall nk v h (s o : odense) ord d1 d2,
  DenseModel.move_data nk (dv_dlim (ov_d v)) (dv_slim (ov_d v)) (o_d s) (o_d o) = Ok (d1, d2, true) ->
  ring h (o_hdr s :: map (slot o) ord) -> NoDup ord -> (forall i, In i ord <-> 0 <= i < d_size (o_d o)) -> 0 < d_size (o_d o) <= d_cap (o_d o) -> area h o -> h (o_hdr o) = Some (0, 0) ->
  area h s -> (forall a, mine s a -> ~ mine o a) -> d_size d1 = d_size (o_d o) -> d_size d2 = 0 -> d_cap d2 = d_cap (o_d o) ->
  o_move_data sz nk v h s o = Err BadPlacement \/
  exists h' s', o_move_data sz nk v h s o = Ok (h', s', with_d o d2, true) /\ o_d s' = d1 /\ lnk h' s' ord /\ lnk h' (with_d o d2) [] /\
    (forall a, mine s' a -> ~ mine (with_d o d2) a) /\
    (forall a, ~ mine s a -> ~ mine o a -> has h a -> h' a = h a /\ ~ mine s' a /\ ~ mine (with_d o d2) a).
Proof.
  intros nk v h s o ord d1 d2 Hd R Hnd Hord Hn Ao Z0 A Hdis Hs1 Hs2 Hc2. unfold o_move_data. rewrite Hd. cbn [bind].
  destruct (Z.eqb_spec (d_size (o_d o)) 0) as [|Ho]; [lia|]. cbn [negb andb].
  pose proof (move_data_cap _ _ _ _ _ _ _ Hd Ho) as Hcap.
  assert (Hmo : forall a, mine (with_d o d2) a <-> mine o a) by (intros a; unfold OrderedWorldProofs.mine; cbn [with_d o_hdr o_d]; rewrite Hc2; reflexivity).
  assert (Hoh : forall a, mine o a -> has h a) by (intros a [->|(i & Hi & ->)]; [apply Ao|apply Ao; exact Hi]).
  assert (Hnb : o_realloc sz v h s (d_size (o_d o)) false = Err BadPlacement \/
    exists h1 nb, o_realloc sz v h s (d_size (o_d o)) false = Ok (h1, nb) /\ (forall i, 0 <= i < d_cap d1 -> has h1 (nb + i * sz) /\ nb + i * sz <> o_hdr s /\ ~ mine o (nb + i * sz)) /\
      (forall a, mine o a -> h1 a = h a) /\ h1 (o_hdr s) = h (o_hdr s) /\ d_size (o_d o) <= d_cap d1 /\
      (forall a, ~ mine s a -> has h a -> h1 a = h a /\ forall i, 0 <= i < d_cap d1 -> a <> nb + i * sz)).
  { rewrite Hcap. unfold o_realloc. destruct (Z.ltb_spec (d_cap (o_d s)) (d_size (o_d o))) as [Hlt|Hge].
    - set (h0 := unplace h (o_base s) sz (d_cap (o_d s))). assert (Hh0 : forall a, (a = o_hdr s \/ ~ mine s a) -> h0 a = h a).
      { intros a Ha. unfold h0, unplace. assert (Hx : slot_ix (o_base s) sz (d_cap (o_d s)) a = None); [|rewrite Hx; reflexivity]. destruct Ha as [->|Ha]; [|apply slot_ix_mine; [exact Hsz|exact Ha]].
        apply slot_ix_none_intro; [exact Hsz|]. intros i Hi X. apply (ar_ne _ _ _ A i Hi). symmetry. exact X. }
      destruct (place_cases (ov_junk v) h0 (ov_base v) sz (d_size (o_d o)) Hsz) as [->|(h1 & -> & Hfree & Hnew & Hold)]; cbn [bind]; [left; reflexivity|right].
      exists h1, (ov_base v). split; [reflexivity|].
      assert (Hno : forall a, has h0 a -> slot_ix (ov_base v) sz (d_size (o_d o)) a = None) by (intros a Ha; apply slot_ix_none_intro; [exact Hsz|]; intros i Hi ->; apply Ha; apply Hfree; exact Hi).
      assert (Hso : forall a, mine o a -> h0 a = h a /\ has h0 a) by (intros a Ha; assert (X : h0 a = h a) by (apply Hh0; right; intros Y; exact (Hdis a Y Ha)); split; [exact X|unfold has; rewrite X; apply (Hoh a Ha)]).
      assert (Hshd : has h0 (o_hdr s)) by (unfold has; rewrite Hh0 by (left; reflexivity); apply A).
      split; [|split; [|split; [|split; [lia|]]]].
      + intros i Hi. split; [apply Hnew; exact Hi|]. split; [intros X; apply Hshd; rewrite <- X; apply Hfree; exact Hi|]. intros X. apply (proj2 (Hso _ X)). apply Hfree. exact Hi.
      + intros a Ha. rewrite Hold by (apply Hno; apply Hso; exact Ha). apply Hso. exact Ha.
      + rewrite Hold by (apply Hno; exact Hshd). apply Hh0. left. reflexivity.
      + intros a Ha Hh. assert (Hh' : has h0 a) by (unfold has; rewrite Hh0 by (right; exact Ha); exact Hh). split; [rewrite Hold by (apply Hno; exact Hh'); apply Hh0; right; exact Ha|].
        intros i Hi ->. apply Hh'. apply Hfree. exact Hi.
    - right. exists h, (o_base s). split; [reflexivity|]. split; [|split; [reflexivity|split; [reflexivity|split; [lia|]]]].
      + intros i Hi. split; [apply A; exact Hi|]. split; [apply A; exact Hi|]. apply Hdis. right. exists i. auto.
      + intros a Ha Hh. split; [reflexivity|]. intros i Hi X. apply Ha. right. exists i. auto. }
  destruct Hnb as [->|(h1 & nb & -> & N1 & N2 & N3 & N4 & N5)]; cbn [bind]; [left; reflexivity|right].
  assert (Hos : forall i, In i ord -> mine o (slot o i)) by (intros i Hi; apply Hord in Hi; right; exists i; split; [lia|reflexivity]).
  assert (R1 : ring h1 (o_hdr s :: map (fun i => o_base o + i * sz) ord)).
  { apply (ring_frame h); [| |exact R]; intros y Hy; (unfold nx, pv; destruct Hy as [<-|Hy]; [rewrite N3; reflexivity|]; apply in_map_iff in Hy; destruct Hy as (i & <- & Hi); rewrite N2 by (apply Hos; exact Hi); reflexivity). }
  destruct (shift_ring sz Hsz (zrange (d_size (o_d o))) h1 (o_hdr s) nb (o_base o) ord R1) as (h2 & E2 & R2 & O2).
  - apply zrange_NoDup.
  - intros i. rewrite zrange_In, Hord. reflexivity.
  - intros i Hi. apply zrange_In in Hi. destruct (N1 i ltac:(lia)) as (X1 & X2 & X3). split; [exact X1|]. intros [Y|Y]; [congruence|]. apply in_map_iff in Y. destruct Y as (k & Y & Hk). apply X3. rewrite <- Y. apply Hos. exact Hk.
  - change (relink_step sz nb (o_base o)) with (fun t i => relink_from t (nb + i * sz) (o_base o + i * sz)). rewrite E2. cbn [bind]. exists h2, (mko d1 (o_hdr s) nb). split; [reflexivity|]. split; [reflexivity|].
    assert (Hmn : forall a, mine (mko d1 (o_hdr s) nb) a -> a = o_hdr s \/ exists i, 0 <= i < d_cap d1 /\ a = nb + i * sz) by (intros a Ha; exact Ha).
    assert (Hsh : ~ mine o (o_hdr s)) by (apply Hdis; left; reflexivity).
    split; [|split; [|split]].
    + constructor; cbn [o_d o_hdr o_base]; rewrite ?Hs1; auto.
      * lia.
      * intros i Hi. apply O2. apply N1. exact Hi.
      * intros i Hi. apply N1. exact Hi.
    + unfold OrderedProofs.lnk. cbn [with_d o_d o_hdr o_base]. rewrite Hs2, Hc2. apply olinks_empty; [lia| | |].
      * rewrite (proj1 O2); [rewrite N2 by (left; reflexivity); exact Z0|]. intros [Y|Y]; [apply Hsh; rewrite Y; left; reflexivity|]. apply in_app_or in Y. destruct Y as [Y|Y]; apply in_map_iff in Y; destruct Y as (i & Y & Hi).
        -- apply (ar_ne _ _ _ Ao i); [apply Hord in Hi; lia|exact Y].
        -- apply zrange_In in Hi. apply (proj2 (proj2 (N1 i ltac:(lia)))). rewrite Y. left. reflexivity.
      * intros i Hi. apply O2. unfold has. rewrite N2 by (right; exists i; auto). apply Ao. exact Hi.
      * intros i Hi. apply (ar_ne _ _ _ Ao). exact Hi.
    + intros a Ha Hb. apply Hmo in Hb. apply Hmn in Ha. destruct Ha as [->|(i & Hi & ->)]; [exact (Hsh Hb)|]. exact (proj2 (proj2 (N1 i Hi)) Hb).
    + intros a Ha Hb Hh. destruct (N5 a Ha Hh) as (X1 & X2). assert (Hahd : a <> o_hdr s) by (intros X; apply Ha; left; exact X). split; [|split].
      * rewrite (proj1 O2); [exact X1|]. intros [Y|Y]; [congruence|]. apply in_app_or in Y. destruct Y as [Y|Y]; apply in_map_iff in Y; destruct Y as (i & Y & Hi); [apply Hb; rewrite <- Y; apply Hos; exact Hi|].
        apply zrange_In in Hi. apply (X2 i); [lia|]. symmetry. exact Y.
      * intros X. apply Hmn in X. destruct X as [X|(i & Hi & X)]; [exact (Hahd X)|exact (X2 i Hi X)].
      * intros X. apply Hb. apply Hmo. exact X.
Qed.
Lemma o_move_data_fail : forall nk v h (s o : odense) d1 d2,
  DenseModel.move_data nk (dv_dlim (ov_d v)) (dv_slim (ov_d v)) (o_d s) (o_d o) = Ok (d1, d2, false) -> d_size (o_d o) <> 0 -> exists h' s' o', o_move_data sz nk v h s o = Ok (h', s', o', false).
Proof.
  clear Hsz. intros nk v h s o d1 d2 Hd Ho. unfold o_move_data. rewrite Hd. cbn [bind]. destruct (Z.eqb_spec (d_size (o_d o)) 0) as [|_]; [contradiction|]. cbn [negb andb].
  destruct (d_dok d1); [eexists _, _, _; reflexivity|]. unfold o_realloc. destruct (d_cap (o_d s) <? d_size (o_d o)); cbn [bind]; eexists _, _, _; reflexivity.
Qed.
End Links.

Section World.
Context {E K : Type}.
Variable sz : Z.
Variable nk : nat.
Variable key_of : nat -> E -> K.
Variable hash : K -> Z.
Variable keq : K -> K -> bool.
Variable rep : E -> E -> E.
Variable clone : E -> E.
Variables pocca pocma : bool.
Hypothesis Hsz : 0 < sz.
Hypothesis KL : key_laws hash keq.
Hypothesis rep_key : forall x e, key_of 0 (rep x e) = key_of 0 x.
Hypothesis clone_key : forall j e, (j < nk)%nat -> key_of j (clone e) = key_of j e.
Notation odense := (odense E).
Notation dwf := (dwf nk key_of hash keq).
Notation lnk := (lnk sz). Notation slot := (slot sz). Notation mine := (mine sz).
Notation oinv := (oinv sz nk key_of hash keq).
Notation winv := (winv sz nk key_of hash keq).
Notation yoccurs := (yoccurs sz nk key_of hash keq rep clone pocca pocma).
Notation yrefines := (yrefines sz nk key_of hash keq rep clone pocca pocma).

Lemma core : forall v h (s o : odense) os oo d, lnk h s os -> dwf (o_d o) -> lnk h o oo -> (forall a, mine s a -> ~ mine o a) -> hollow d -> d_cap d = d_cap (o_d s) -> d_mlf d = d_mlf (o_d o) ->
  d_size (o_d o) <> 0 -> denv_ok (ov_d v) ->
  exists h1, relink_from h (o_hdr s) (o_hdr o) = Ok h1 /\
  ((refused (dv_dlim (ov_d v)) (dv_slim (ov_d v)) (d_bc d) (d_cap d) (o_d o) /\ unthrown (o_move_data sz nk v h1 (with_d s d) o) = Err Terminated) \/
   (~ refused (dv_dlim (ov_d v)) (dv_slim (ov_d v)) (d_bc d) (d_cap d) (o_d o) /\
    (unthrown (o_move_data sz nk v h1 (with_d s d) o) = Err BadPlacement \/
     exists h' s' d2, unthrown (o_move_data sz nk v h1 (with_d s d) o) = Ok (h', s', with_d o d2) /\ dwf (o_d s') /\ delems (o_d s') = delems (o_d o) /\ husk (o_d o) d2 /\
       lnk h' s' oo /\ lnk h' (with_d o d2) [] /\ (forall a, mine s' a -> ~ mine (with_d o d2) a) /\
       (forall a, ~ mine s a -> ~ mine o a -> has h a -> h' a = h a /\ ~ mine s' a /\ ~ mine (with_d o d2) a)))).
Proof.
  clear KL rep_key clone_key clone rep pocca pocma. intros v h s o os oo d Ls Wo Lo Hdis Hh Hcap Hq Hne V.
  assert (Hms : mine s (o_hdr s)) by (left; reflexivity). pose proof (ol_le _ _ _ _ _ _ _ Lo) as Hle.
  destruct (ring_move h (o_hdr s) (o_hdr o) (map (slot o) oo)) as (h1 & -> & R & O & Z0).
  - apply (ol_ring _ _ _ _ _ _ _ Lo).
  - intros X. apply (Hdis _ Hms). apply (in_ring sz h o oo Lo). exact X.
  - apply (olinks_hdr _ _ _ _ _ _ _ Ls).
  - exists h1. split; [reflexivity|].
    destruct (grow_cases nk key_of hash keq (dv_dlim (ov_d v)) (dv_slim (ov_d v)) d (o_d o) Hh Wo ltac:(lia) (proj1 V) (proj2 V) Hq) as [(Hr & d1 & Hm)|(Hr & d1 & d2 & Hm & W1 & E1 & Hu)]; [left|right]; (split; [exact Hr|]).
    + destruct (o_move_data_fail sz nk v h1 (with_d s d) o d1 (o_d o) Hm Hne) as (h' & s' & o' & ->). reflexivity.
    + assert (Hsize : d_size d1 = d_size (o_d o)) by (pose proof (delems_len nk key_of hash keq d1 W1) as X1; pose proof (delems_len nk key_of hash keq (o_d o) Wo) as X2; rewrite E1 in X1; lia).
      destruct Hu as (Hho & Hu1 & Hu2 & Hu3 & Hu4).
      assert (Hmine : forall a, mine (with_d s d) a <-> mine s a) by (intros a; unfold OrderedWorldProofs.mine; cbn [with_d o_hdr o_d]; rewrite Hcap; reflexivity).
      destruct (o_move_data_ok sz Hsz nk v h1 (with_d s d) o oo d1 d2) as [->|(h' & s' & -> & Hd & L1 & L2 & D' & Hk)].
      * exact Hm.
      * exact R.
      * apply (ol_nd _ _ _ _ _ _ _ Lo).
      * apply (ol_in _ _ _ _ _ _ _ Lo).
      * lia.
      * destruct (lnk_area sz h o oo Lo) as [a1 a2 a3 a4]. constructor; [apply O; exact a1|intros i Hi; apply O; apply a2; exact Hi|exact a3|exact a4].
      * exact Z0.
      * destruct (lnk_area sz h s os Ls) as [a1 a2 a3 a4]. constructor; cbn [with_d o_d o_hdr]; rewrite ?Hcap; [apply O; exact a1|intros i Hi; apply O; apply a2; exact Hi|exact a3|exact a4].
      * intros a Ha. apply Hdis. apply Hmine. exact Ha.
      * exact Hsize.
      * exact (ho_size _ Hho).
      * exact Hu2.
      * left. reflexivity.
      * right. exists h', s', d2. split; [reflexivity|]. rewrite Hd. split; [exact W1|]. split; [exact E1|]. split; [repeat (split; [assumption|]); assumption|]. split; [exact L1|]. split; [exact L2|]. split; [exact D'|].
        intros a Ha Hb Hx. assert (Hx1 : h1 a = h a) by (apply O; intros [Y|Y]; [apply Ha; left; symmetry; exact Y|apply Hb; apply (in_ring sz h o oo Lo); exact Y]).
        destruct (Hk a) as (K1 & K2 & K3); [intros X; apply Ha; apply Hmine; exact X|exact Hb|unfold has; rewrite Hx1; exact Hx|]. rewrite K1, Hx1. auto.
Qed.

(** What the property says about one move from [j] to [i] in a world with contents [l]. *)
Definition umoved (h : heap) (w : nat -> odense) (l : nat -> list E) (i j : nat) (h' : heap) (s' o' : odense) : Prop :=
  ylists sz (h', setn (setn w i s') j o') (setn (setn l i (l j)) j []) /\
  (forall v k x, In x (l j) -> (k < nk)%nat -> DenseRun.dexec nk key_of hash keq rep v (o_d o') (DFind k (key_of k x)) = Err DeadObject) /\
  exists h2 o2, o_clear h' o' = Ok (h2, o2) /\
    forall hist, yhistory_ok nk hist -> yrefines (h2, setn (setn w i s') j o2) (setn (setn l i (l j)) j []) hist.

Lemma spec_ext : forall c u w w' r, (forall i, u i = w i) -> yspec nk key_of keq rep clone c w w' r -> yspec nk key_of keq rep clone c u w' r.
Proof.
  intros c u w w' r Hu H. destruct H; constructor; rewrite ?Hu; try assumption; intros k Hk; rewrite Hu; auto.
Qed.
Lemma spec_run_ext : forall cs u w w' rs, (forall i, u i = w i) -> yspec_run nk key_of keq rep clone cs w w' rs -> yspec_run nk key_of keq rep clone cs u w' rs.
Proof.
  intros cs u w w' rs Hu H. destruct H as [w w' H|c cs w w1 w2 r rs H1 H2]; [constructor; intros i; rewrite Hu; apply H|]. econstructor; [apply (spec_ext c u w); eassumption|exact H2].
Qed.
Lemma refines_ext : forall hw l l' hist, (forall i, l i = l' i) -> yrefines hw l hist -> yrefines hw l' hist.
Proof.
  intros hw l l' hist Hl H. assert (Hl' : forall i, l' i = l i) by (intros i; symmetry; apply Hl).
  destruct H as [(hw' & rs & m & H1 & H2 & H3)|(h1 & v & c & h2 & hw1 & rs1 & m & H1 & H2 & H3 & H4)].
  - left. exists hw', rs, m. split; [exact H1|]. split; [apply (spec_run_ext _ l' l); assumption|exact H3].
  - right. exists h1, v, c, h2, hw1, rs1, m. split; [exact H1|]. split; [exact H2|]. split; [apply (spec_run_ext _ l' l); assumption|exact H4].
Qed.

Lemma iterate_nil : forall h (s : odense), lnk h s [] -> d_size (o_d s) = 0 -> o_iterate sz h s = Ok [] /\ o_backwards sz h s = Ok [].
Proof.
  intros h s L H0. unfold o_iterate, o_backwards.
  destruct (walk_ok sz h _ _ _ _ _ L) as (a & -> & Ha). destruct (walk_back_ok sz h _ _ _ _ _ L) as (b & -> & Hb). cbn [bind]. rewrite Ha, Hb. split; reflexivity.
Qed.

Lemma husk_world : forall h w ords i j h' s' d2, winv h w ords -> i <> j -> dwf (o_d s') -> delems (o_d s') = delems (o_d (w j)) -> husk (o_d (w j)) d2 ->
  lnk h' s' (ords j) -> lnk h' (with_d (w j) d2) [] -> (forall a, mine s' a -> ~ mine (with_d (w j) d2) a) ->
  (forall a, ~ mine (w i) a -> ~ mine (w j) a -> has h a -> h' a = h a /\ ~ mine s' a /\ ~ mine (with_d (w j) d2) a) ->
  forall l, ylists sz (h, w) l -> umoved h w l i j h' s' (with_d (w j) d2).
Proof.
  intros h w ords i j h' s' d2 H Hij Ws Es Hu L1 L2 D Hk l Hl.
  assert (Hlc : forall k, l k = ocont (w k) (ords k)).
  { intros k. pose proof (proj1 (Hl k)) as X. pose proof (proj1 (winv_lists sz nk key_of hash keq Hsz h w ords H k)) as Y. cbn [fst snd] in X, Y. rewrite X in Y. injection Y as Y. exact Y. }
  destruct (proj1 H j) as (Wj & Lj).
  destruct (husk_clear nk key_of hash keq (o_d (w j)) d2 Wj Hu) as (d3 & Hc & W3 & E3).
  assert (Hdims : d_cap d3 = d_cap d2 /\ d_size d3 = 0).
  { pose proof (delems_len nk key_of hash keq d3 W3) as X. rewrite E3 in X. cbn [length] in X. split; [|pose proof (w_size _ _ _ _ _ W3); lia]. clear - Hc Hu. unfold DenseModel.clear in Hc. apply bind_Ok in Hc. destruct Hc as (t & Ht & Hc). unfold clear_data in Hc.
    apply (foldM_cap _ _ _ _) in Hc; [|intros a x b Hab; unfold kill_node in Hab; apply bind_Ok in Hab; destruct Hab as (u & _ & Hab); injection Hab as <-; reflexivity]. rewrite Hc. cbn [set_size d_cap].
    unfold fill_sparse in Ht. destruct (d_bc d2 =? 0); [injection Ht as <-; reflexivity|]. apply bind_Ok in Ht. destruct Ht as (u' & _ & Ht). injection Ht as <-. reflexivity. }
  destruct Hdims as (Hd1 & Hd2).
  assert (L3 : lnk h' (with_d (w j) d3) []).
  { unfold OrderedProofs.lnk in *. cbn [with_d o_d o_hdr o_base] in *. rewrite Hd1, Hd2. rewrite (ho_size _ (proj1 Hu)) in L2. exact L2. }
  assert (Hm3 : forall a, mine (with_d (w j) d3) a <-> mine (with_d (w j) d2) a) by (intros a; unfold OrderedWorldProofs.mine; cbn [with_d o_hdr o_d]; rewrite Hd1; reflexivity).
  assert (Hw3 : winv h' (setn (setn w i s') j (with_d (w j) d3)) (setn (setn ords i (ords j)) j [])).
  { apply (set2 sz nk key_of hash keq h); [exact H|exact Hij|split; [exact Ws|exact L1]|split; [exact W3|exact L3]| |].
    - intros a Ha Hb. apply (D a Ha). apply Hm3. exact Hb.
    - intros a Ha Hb Hx. destruct (Hk a Ha Hb Hx) as (X1 & X2 & X3). split; [exact X1|]. split; [exact X2|]. intros Y. apply X3. apply Hm3. exact Y. }
  assert (Hcl : forall k, conts (setn (setn w i s') j (with_d (w j) d3)) (setn (setn ords i (ords j)) j []) k = setn (setn l i (l j)) j [] k).
  { intros k. unfold conts, setn. destruct (Nat.eqb_spec k j); [reflexivity|]. destruct (Nat.eqb_spec k i); [rewrite Hlc; unfold ocont; rewrite Es; reflexivity|]. rewrite Hlc. reflexivity. }
  split; [|split].
  - intros k. pose proof (winv_lists sz nk key_of hash keq Hsz _ _ _ Hw3 k) as X. rewrite Hcl in X. cbn [fst snd] in *. unfold setn in *. destruct (Nat.eqb_spec k j) as [Hkj|Hkj]; [|exact X].
    apply iterate_nil; [exact L2|]. exact (ho_size _ (proj1 Hu)).
  - intros v k x Hx Hkk. rewrite Hlc in Hx. cbn [with_d o_d].
    assert (Hin : In x (delems (o_d (w j)))).
    { apply (Permutation.Permutation_in x (inv_perm sz nk key_of hash keq _ _ _ (proj1 H j))). exact Hx. }
    destruct (husk_dexec nk key_of hash keq rep (o_d (w j)) d2 v k (key_of k x) Wj Hu Hkk) as [(_ & X)|(X & _)]; [exact X|]. exfalso. apply (X x Hin). reflexivity.
  - assert (Hz : h' (o_hdr (w j)) = Some (0, 0)) by (apply (empty_link sz h' (with_d (w j) d2)); exact L2).
    unfold o_clear, reset_link, get_link. cbn [with_d o_hdr o_d]. rewrite Hz. cbn [bind]. rewrite Hc. cbn [bind]. eexists _, _. split; [reflexivity|]. intros hist Hh.
    assert (Hw2 : winv (upd h' (o_hdr (w j)) (Some (0, 0))) (setn (setn w i s') j (with_d (w j) d3)) (setn (setn ords i (ords j)) j [])).
    { destruct Hw3 as (A & B). split; [|exact B]. intros k. apply (oinv_same sz nk key_of hash keq h'); [apply A|]. intros a _. unfold upd. destruct (Z.eqb_spec a (o_hdr (w j))) as [->|]; [symmetry; exact Hz|reflexivity]. }
    pose proof (winv_refines sz nk key_of hash keq rep clone pocca pocma Hsz KL rep_key clone_key hist _ _ _ Hw2 Hh) as X.
    apply (refines_ext _ _ _ _ Hcl X).
Qed.

(** ** The two moves. *)
Definition orefused (v : oenv) (bc cap : Z) (o : odense) : Prop := refused (dv_dlim (ov_d v)) (dv_slim (ov_d v)) bc cap (o_d o).
Lemma u_assign : forall v h w i j l, yoccurs (h, w) -> i <> j -> denv_ok (ov_d v) -> ylists sz (h, w) l -> l j <> [] ->
  (orefused v (d_bc (o_d (w i))) (d_cap (o_d (w i))) (w j) /\ u_odense_assign sz nk v h (w i) (w j) = Err Terminated) \/
  (~ orefused v (d_bc (o_d (w i))) (d_cap (o_d (w i))) (w j) /\
   (u_odense_assign sz nk v h (w i) (w j) = Err BadPlacement \/
    exists h' s' o', u_odense_assign sz nk v h (w i) (w j) = Ok (h', s', o') /\ umoved h w l i j h' s' o')).
Proof.
  intros v h w i j l Ho Hij V Hl Hne. destruct (yoccurs_inv sz nk key_of hash keq rep clone pocca pocma Hsz KL rep_key clone_key (h, w) Ho) as (ords & H). cbn [fst snd] in H.
  destruct (proj1 H i) as (Wi & Li). destruct (proj1 H j) as (Wj & Lj).
  assert (Hn0 : d_size (o_d (w j)) <> 0).
  { intros X. apply Hne. pose proof (proj1 (Hl j)) as A. pose proof (proj1 (winv_lists sz nk key_of hash keq Hsz h w ords H j)) as B. cbn [fst snd] in A, B. rewrite A in B. injection B as B. rewrite B. unfold conts. rewrite (ord_nil sz _ _ _ Lj X). reflexivity. }
  destruct (cleared_hollow nk key_of hash keq (o_d (w i)) (d_mlf (o_d (w j))) Wi) as (dc & Hcl & Hh & Hq & Hcap & Hbc & Hsp).
  unfold u_odense_assign, o_move_assign.
  destruct (core v h (w i) (w j) (ords i) (ords j) dc Li Wj Lj (fun a => proj2 H i j a Hij) Hh Hcap Hq Hn0 V) as (h1 & -> & Hc). cbn [bind]. rewrite Hcl. cbn [bind o_release o_move_from].
  unfold orefused. rewrite <- Hbc, <- Hcap. destruct Hc as [Hc|(Hr & [->|(h' & s' & d2 & -> & W' & E' & Hu & L1 & L2 & D & Hk)])]; [left; exact Hc|right; split; [exact Hr|left; reflexivity]|right; split; [exact Hr|right]].
  exists h', s', (with_d (w j) d2). split; [reflexivity|]. apply (husk_world h w ords i j h' s' d2); assumption.
Qed.
Lemma u_ctor : forall v h w i j l, yoccurs (h, w) -> i <> j -> denv_ok (ov_d v) -> ylists sz (h, w) l -> l j <> [] ->
  let h0 := o_destroy sz h (w i) in
  (orefused v 0 0 (w j) /\ u_odense_ctor sz nk v h0 (o_hdr (w i)) (w j) = Err Terminated) \/
  (~ orefused v 0 0 (w j) /\
   (u_odense_ctor sz nk v h0 (o_hdr (w i)) (w j) = Err BadPlacement \/
    exists h' s' o', u_odense_ctor sz nk v h0 (o_hdr (w i)) (w j) = Ok (h', s', o') /\ umoved h w l i j h' s' o')).
Proof.
  intros v h w i j l Ho Hij V Hl Hne h0. destruct (yoccurs_inv sz nk key_of hash keq rep clone pocca pocma Hsz KL rep_key clone_key (h, w) Ho) as (ords & H). cbn [fst snd] in H.
  destruct (proj1 H j) as (Wj & Lj).
  assert (Hn0 : d_size (o_d (w j)) <> 0).
  { intros X. apply Hne. pose proof (proj1 (Hl j)) as A. pose proof (proj1 (winv_lists sz nk key_of hash keq Hsz h w ords H j)) as B. cbn [fst snd] in A, B. rewrite A in B. injection B as B. rewrite B. unfold conts. rewrite (ord_nil sz _ _ _ Lj X). reflexivity. }
  pose proof (renewed sz nk key_of hash keq Hsz h w ords i H) as H0. fold h0 in H0. set (n := o_new (o_hdr (w i)) : odense) in *.
  assert (Hi0 : oinv h0 n []) by (pose proof (proj1 H0 i) as X; rewrite !setn_same in X; exact X).
  assert (Hj0 : oinv h0 (w j) (ords j)) by (pose proof (proj1 H0 j) as X; rewrite !setn_other in X by congruence; exact X).
  assert (Hdis : forall a, mine n a -> ~ mine (w j) a) by (intros a; pose proof (proj2 H0 i j a Hij) as X; rewrite setn_same, setn_other in X by congruence; exact X).
  unfold u_odense_ctor, o_move_ctor. 
  destruct (core v h0 n (w j) [] (ords j) (set_mlf empty_dense (d_mlf (o_d (w j)))) (proj2 Hi0) Wj (proj2 Hj0) Hdis (empty_hollow _) eq_refl eq_refl Hn0 V) as (h1 & Hl1 & Hc).
  change (o_hdr n) with (o_hdr (w i)) in Hl1. rewrite Hl1. cbn [bind o_move_from]. change (mko (set_mlf empty_dense (d_mlf (o_d (w j)))) (o_hdr (w i)) 0) with (with_d n (set_mlf empty_dense (d_mlf (o_d (w j))))).
  unfold orefused. destruct Hc as [Hc|(Hr & [->|(h' & s' & d2 & -> & W' & E' & Hu & L1 & L2 & D & Hk)])]; [left; exact Hc|right; split; [exact Hr|left; reflexivity]|right; split; [exact Hr|right]].
  exists h', s', (with_d (w j) d2). split; [reflexivity|]. apply (husk_world h w ords i j h' s' d2); try assumption.
  intros a Ha Hb Hx. destruct (proj2 (destroyed sz Hsz h (w i)) a Ha Hx) as (D1 & D2). fold h0 in D1. destruct (Hk a D2 Hb) as (K1 & K2 & K3); [unfold has; rewrite D1; exact Hx|]. rewrite K1, D1. auto.
Qed.
End World.
