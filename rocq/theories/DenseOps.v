(** The building blocks of the dense table keep its invariant. *)
From Coq Require Import ZArith List Bool Lia.
From Verif Require Import Base BaseLemmas MapSpec Float32 Float32Facts DenseSpec DenseModel DenseRun DenseChain DenseInv.
Import ListNotations.
Open Scope Z_scope.

Section Fold.
Context {E A : Type}.
Notation dense := (dense E).
(** A loop over the key indices whose steps only touch the chains of their own index. *)
Lemma fold_idx : forall (f : dense -> A -> res dense) (idx : A -> nat) (R : A -> (Z -> Z) -> (Z -> Z) -> Prop) (l : list A) (s : dense),
  NoDup (map idx l) ->
  (forall x t, In x l -> same s t -> samej s t (idx x) -> exists t' h n, f t x = Ok t' /\ same t t' /\ R x h n /\
     (forall b, hdj t' (idx x) b = h b) /\ (forall i, nxj t' (idx x) i = n i) /\ forall j, j <> idx x -> samej t t' j) ->
  exists s', foldM f l s = Ok s' /\ same s s' /\
    (forall x, In x l -> exists h n, R x h n /\ (forall b, hdj s' (idx x) b = h b) /\ (forall i, nxj s' (idx x) i = n i)) /\
    forall j, ~ In j (map idx l) -> samej s s' j.
Proof.
  intros f idx R. induction l as [|x l IH]; intros s Hnd Hstep.
  - exists s. split; [reflexivity|]. split; [apply same_refl|]. split; [intros x []|]. intros. apply samej_refl.
  - cbn [map] in Hnd. inversion Hnd as [|? ? Hni Hnd']; subst.
    destruct (Hstep x s (or_introl eq_refl) (same_refl s) (samej_refl s _)) as (t & h & n & Hf & Hst & HR & Hh & Hn & Ho).
    destruct (IH t Hnd') as (s' & Hf' & Hs' & Hd & Hoth).
    + intros y u Hy Htu Hjy. apply Hstep; [right; exact Hy|eapply same_trans; eassumption|].
      eapply samej_trans; [apply Ho|exact Hjy]. intros Heq. apply Hni. rewrite <- Heq. apply in_map. exact Hy.
    + exists s'. split; [cbn [foldM]; rewrite Hf; exact Hf'|]. split; [eapply same_trans; eassumption|]. split.
      * intros y [<-|Hy]; [|apply Hd; exact Hy]. exists h, n. split; [exact HR|]. destruct (Hoth (idx x) Hni) as (H1 & H2).
        split; intros; [rewrite H1; apply Hh|rewrite H2; apply Hn].
      * intros j Hj. cbn [map In] in Hj. eapply samej_trans; [apply Ho|apply Hoth]; intuition.
Qed.
End Fold.

Lemma chains_eq : forall hd nx hd' nx' L bk B, chains hd nx L bk B -> (forall b, hd' b = hd b) -> (forall i, nx' i = nx i) -> chains hd' nx' L bk B.
Proof. intros hd nx hd' nx' L bk B Hc H1 H2. apply (chains_ext hd nx L bk B); auto. intros; tauto. Qed.

(** The chain of a bucket that holds [i]. *)
Lemma chains_split : forall hd nx (L : Z -> Prop) bk B i, chains hd nx L bk B -> L i -> 0 <= bk i < B ->
  exists a r, seg nx (hd (bk i)) (a ++ i :: r) /\ NoDup (a ++ i :: r) /\ (forall x, In x (a ++ i :: r) <-> L x /\ bk x = bk i).
Proof.
  intros hd nx L bk B i Hc Hi Hb. destruct (Hc (bk i) Hb) as (l & Hs & Hnd & Hin).
  destruct (in_split i l) as (a & r & ->); [apply Hin; auto|]. exists a, r. auto.
Qed.

Lemma js_nodup : forall nk, NoDup (js nk). Proof. intros nk. apply seq_NoDup. Qed.
Lemma js_in : forall nk j, In j (js nk) <-> (j < nk)%nat. Proof. intros nk j. unfold js. rewrite in_seq. lia. Qed.

Section Ops.
Context {E K : Type}.
Variable nk : nat.
Variable key_of : nat -> E -> K.
Variable hash : K -> Z.
Variable keq : K -> K -> bool.
Hypothesis KL : key_laws hash keq.
Notation dense := (dense E).
Notation dwf := (dwf nk key_of hash keq).

Lemma bk_range : forall (s : dense) j i, 0 < d_bc s -> 0 <= bkj s j i < d_bc s.
Proof. intros s j i H. unfold bkj. apply Z.mod_pos_bound. exact H. Qed.

(** ** insert_node *)
Lemma insert_node_ok : forall (s : dense) pos j n, okm s -> 0 < d_bc s -> d_nodes s pos = Some n ->
  exists s', insert_node pos s j = Ok s' /\ same s s' /\
    (forall b, hdj s' j b = upd (hdj s j) (bkj s j pos) pos b) /\ (forall i, nxj s' j i = upd (nxj s j) pos (hdj s j (bkj s j pos)) i) /\
    forall j', j' <> j -> samej s s' j'.
Proof.
  intros s pos j n Hm Hbc Hn. unfold insert_node. rewrite (get_node_ok s pos n Hm Hn). cbn [bind]. unfold get_chain.
  destruct (Z.eqb_spec (d_bc s) 0); [lia|]. cbn [deref bind].
  assert (Hbk : n_hash n j mod d_bc s = bkj s j pos) by (unfold bkj, hsj; rewrite Hn; reflexivity). rewrite Hbk.
  pose proof (bk_range s j pos Hbc) as Hb. rewrite (load_ok s j (PBucket (bkj s j pos)) Hm Hb). cbn [bind ldp].
  rewrite (put_node_ok s pos n _ Hm Hn). cbn [bind].
  destruct (set_next_ok s j pos n (hdj s j (bkj s j pos)) Hm Hn) as (Hs1 & Hh1 & Hn1 & Ho1).
  set (s1 := set_nodes s _) in *.
  destruct (store_ok s1 j (PBucket (bkj s j pos)) pos (same_okm _ _ Hs1 Hm) (same_vptr s s1 (PBucket (bkj s j pos)) Hs1 Hb)) as (s2 & Hst & Hs2 & Hh2 & Hn2 & Ho2).
  exists s2. split; [exact Hst|]. split; [eapply same_trans; eassumption|]. split; [|split].
  - intros b. rewrite Hh2. cbn [sth]. unfold upd. destruct (b =? bkj s j pos); [reflexivity|apply Hh1].
  - intros i. rewrite Hn2. cbn [stn]. apply Hn1.
  - intros j' Hj. eapply samej_trans; [apply Ho1|apply Ho2]; exact Hj.
Qed.

Lemma insert_step_ok : forall (s : dense) pos n (L : Z -> Prop), okm s -> 0 < d_bc s -> d_nodes s pos = Some n -> ~ L pos -> pos <> npos ->
  (forall j, (j < nk)%nat -> chains (hdj s j) (nxj s j) L (bkj s j) (d_bc s)) ->
  exists s', insert_step nk s pos = Ok s' /\ same s s' /\
    (forall j, (j < nk)%nat -> chains (hdj s' j) (nxj s' j) (fun i => L i \/ i = pos) (bkj s' j) (d_bc s')).
Proof.
  intros s pos n L Hm Hbc Hn HL Hp Hc.
  destruct (fold_idx (insert_node pos) (fun j => j) (fun j h n => chains h n (fun i => L i \/ i = pos) (bkj s j) (d_bc s)) (js nk) s) as (s' & Hf & Hs & Hd & _).
  - rewrite map_id. apply js_nodup.
  - intros j t Hj Hst (Hsj1 & Hsj2). apply js_in in Hj. destruct (same_node s t pos n Hst Hn) as (n' & Hn' & _).
    destruct (insert_node_ok t pos j n' (same_okm _ _ Hst Hm)) as (t' & Hf & Htt & Hh & Hx & Ho); [rewrite (sm_bc _ _ Hst); exact Hbc|exact Hn'|].
    exists t', (upd (hdj s j) (bkj s j pos) pos), (upd (nxj s j) pos (hdj s j (bkj s j pos))). split; [exact Hf|]. split; [exact Htt|]. split; [|split; [|split]].
    + apply chains_prepend; auto. apply bk_range. exact Hbc.
    + intros b. rewrite Hh, (same_bk s t j pos Hst). unfold upd. destruct (b =? bkj s j pos); [reflexivity|apply Hsj1].
    + intros i. rewrite Hx, (same_bk s t j pos Hst), Hsj1. unfold upd. destruct (i =? pos); [reflexivity|apply Hsj2].
    + exact Ho.
  - exists s'. split; [exact Hf|]. split; [exact Hs|]. intros j Hj. destruct (Hd j) as (h & m & HR & H1 & H2); [apply js_in; exact Hj|].
    rewrite (sm_bc _ _ Hs). apply (chains_ext h m (fun i => L i \/ i = pos) (bkj s j)); auto. intros i b _. rewrite (same_bk s s' j i Hs). tauto.
Qed.

(** Insertion of the nodes 0 .. n-1 into empty chains. *)
Lemma chains_empty : forall (hd nx : Z -> Z) (L : Z -> Prop) bk B, (forall b, 0 <= b < B -> hd b = npos) -> (forall i, ~ L i) -> chains hd nx L bk B.
Proof.
  intros hd nx L bk B Hh HL b Hb. exists []. split; [exact (Hh b Hb)|]. split; [constructor|]. intros i. split; [intros []|]. intros (H & _). exact (HL i H).
Qed.

Lemma insert_steps_ok : forall (s : dense), okm s -> 0 < d_bc s -> 0 <= d_size s < 2 ^ 59 -> (forall i, live s i -> exists n, d_nodes s i = Some n) ->
  (forall b j, 0 <= b < d_bc s -> d_sparse s b j = npos) ->
  exists s', foldM (insert_step nk) (zrange (d_size s)) s = Ok s' /\ same s s' /\
    forall j, (j < nk)%nat -> chains (hdj s' j) (nxj s' j) (live s') (bkj s' j) (d_bc s').
Proof.
  intros s Hm Hbc Hsz Hl Hsp.
  destruct (foldM_zrange_inv _ (insert_step nk) (fun k t => same s t /\ forall j, (j < nk)%nat -> chains (hdj t j) (nxj t j) (fun i => 0 <= i < k) (bkj t j) (d_bc t)) (d_size s) s) as (s' & Hf & Hs' & Hc).
  - lia.
  - split; [apply same_refl|]. intros j Hj. apply chains_empty; [intros b Hb; apply Hsp; exact Hb|intros i; lia].
  - intros k t Hk (Hst & Hc). destruct (Hl k) as (n & Hn); [exact Hk|]. destruct (same_node s t k n Hst Hn) as (n' & Hn' & _).
    destruct (insert_step_ok t k n' (fun i => 0 <= i < k) (same_okm _ _ Hst Hm)) as (t' & Hf & Htt & Hc'); auto.
    + rewrite (sm_bc _ _ Hst). exact Hbc.
    + lia.
    + unfold npos. lia.
    + exists t'. split; [exact Hf|]. split; [eapply same_trans; eassumption|]. intros j Hj.
      apply (chains_ext (hdj t' j) (nxj t' j) (fun i => 0 <= i < k \/ i = k) (bkj t' j)); auto. intros i b _. assert (0 <= i < k + 1 <-> (0 <= i < k \/ i = k)) by lia. tauto.
  - exists s'. split; [exact Hf|]. split; [exact Hs'|]. intros j Hj. unfold live. rewrite (sm_size _ _ Hs'). apply Hc. exact Hj.
Qed.

(** ** Growing the arrays *)
(** Same elements in the same slots. *)
Definition elems_same (s s' : dense) : Prop := d_size s' = d_size s /\ forall i, vh s' i = vh s i.
Lemma delems_same : forall s s' : dense, elems_same s s' -> delems s' = delems s.
Proof.
  intros s s' (H1 & H2). unfold delems. rewrite H1. apply flat_map_ext. intros i. pose proof (H2 i) as Hv. unfold vh in Hv.
  destruct (d_nodes s' i), (d_nodes s i); cbn [option_map] in Hv; congruence.
Qed.
Lemma same_elems : forall s s' : dense, same s s' -> elems_same s s'. Proof. intros s s' H. split; [apply (sm_size _ _ H)|apply (sm_vh _ _ H)]. Qed.
Lemma es_refl : forall s : dense, elems_same s s. Proof. split; reflexivity. Qed.
Lemma es_trans : forall a b c : dense, elems_same a b -> elems_same b c -> elems_same a c.
Proof. intros a b c (H1 & H2) (H3 & H4). split; [congruence|]. intros i. rewrite H4. apply H2. Qed.

Lemma resize_data_ok : forall lim (s : dense) cap, dwf s -> d_size s <= cap -> lim < 2 ^ 59 ->
  (lim < cap /\ resize_data lim s cap = Ok (s, None)) \/
  (cap <= lim /\ exists s', resize_data lim s cap = Ok (s', Some tt) /\ dwf s' /\ elems_same s s' /\ d_cap s' = cap /\ d_bc s' = d_bc s /\ d_mlf s' = d_mlf s /\ d_sparse s' = d_sparse s).
Proof.
  intros lim s cap W Hc Hlim. unfold resize_data. destruct (Z.ltb_spec lim cap) as [H|H]; [left; auto|right]. split; [exact H|].
  pose proof (w_size _ _ _ _ _ W) as Hsz.
  destruct (foldM_zrange_inv _ (relocate_step s cap) (fun k m => forall i, m i = if (0 <=? i) && (i <? k) then d_nodes s i else None) (d_size s) (fun _ => None)) as (m & Hf & Hmm).
  - lia.
  - intros i. destruct (Z.leb_spec 0 i); cbn [andb]; [|reflexivity]. destruct (Z.ltb_spec i 0); [lia|reflexivity].
  - intros k m Hk Hm. unfold relocate_step. destruct (w_live _ _ _ _ _ W k Hk) as (n & Hn). rewrite (get_node_ok s k n (w_mem _ _ _ _ _ W) Hn). cbn [bind].
    destruct (Z.ltb_spec k cap); [|lia]. cbn [guard bind]. eexists. split; [reflexivity|]. intros i. unfold upd. destruct (Z.eqb_spec i k) as [->|Hi].
    + destruct (Z.leb_spec 0 k); [|lia]. destruct (Z.ltb_spec k (k + 1)); [|lia]. cbn [andb]. symmetry. exact Hn.
    + rewrite Hm. destruct (Z.leb_spec 0 i); cbn [andb]; [|reflexivity]. destruct (Z.ltb_spec i k), (Z.ltb_spec i (k + 1)); try reflexivity; lia.
  - rewrite Hf. cbn [bind]. set (s' := mkd _ _ _ _ _ _ _ _).
    assert (Hnodes : forall i, d_nodes s' i = d_nodes s i).
    { intros i. unfold s'. cbn [d_nodes]. rewrite Hmm. destruct (Z.leb_spec 0 i), (Z.ltb_spec i (d_size s)); cbn [andb]; try reflexivity; symmetry; apply (w_dead _ _ _ _ _ W); unfold live; lia. }
    exists s'. split; [reflexivity|]. split; [|split; [split; [reflexivity|intros i; unfold vh; rewrite Hnodes; reflexivity]|repeat split]].
    assert (Hl : forall i n, d_nodes s i = Some n -> live s i).
    { intros i n Hn. destruct (Z_le_dec 0 i), (Z_lt_dec i (d_size s)); try (split; assumption); rewrite (w_dead _ _ _ _ _ W i) in Hn by (unfold live; lia); discriminate. }
    constructor.
    + constructor; [exact (om_sok _ (w_mem _ _ _ _ _ W))|reflexivity|]. intros i n Hn. rewrite Hnodes in Hn. apply Hl in Hn. unfold live in Hn. unfold s'. cbn [d_cap]. lia.
    + unfold s'. cbn [d_size d_cap]. lia.
    + unfold s'. cbn [d_cap]. lia.
    + exact (w_bc _ _ _ _ _ W).
    + exact (w_bucket _ _ _ _ _ W).
    + intros i Hi. rewrite Hnodes. apply (w_live _ _ _ _ _ W i Hi).
    + intros i Hi. rewrite Hnodes. apply (w_dead _ _ _ _ _ W i Hi).
    + intros i n j Hn. rewrite Hnodes in Hn. apply (w_hash _ _ _ _ _ W i n j Hn).
    + intros j Hj. apply (chains_ext (hdj s j) (nxj s j) (live s) (bkj s j)); [apply (w_chain _ _ _ _ _ W j Hj)|reflexivity| |].
      * intros i _ _. unfold nxj. rewrite Hnodes. reflexivity.
      * intros i b _. unfold bkj, hsj. rewrite Hnodes. reflexivity.
    + intros i i' n n' j Hj H1 H2. rewrite Hnodes in H1, H2. apply (w_uniq _ _ _ _ _ W i i' n n' j Hj H1 H2).
    + exact (w_mlf _ _ _ _ _ W).
Qed.

Lemma maybe_resize_ok : forall lim (s : dense), dwf s -> lim < 2 ^ 59 ->
  maybe_resize lim s = Ok (s, None) \/
  (exists s', maybe_resize lim s = Ok (s', Some tt) /\ dwf s' /\ elems_same s s' /\ d_size s' < d_cap s' /\ d_bc s' = d_bc s /\ d_mlf s' = d_mlf s).
Proof.
  intros lim s W Hlim. unfold maybe_resize. pose proof (w_size _ _ _ _ _ W) as Hsz. pose proof (w_cap _ _ _ _ _ W) as Hcap.
  destruct (Z.eqb_spec (d_cap s) (d_size s)) as [He|Hne].
  - set (c := if d_cap s =? 0 then 1 else d_cap s * 2 mod two64).
    assert (Hc : d_size s < c). { unfold c. destruct (Z.eqb_spec (d_cap s) 0); [lia|]. rewrite Z.mod_small by (unfold two64; lia). lia. }
    destruct (resize_data_ok lim s c W ltac:(lia) Hlim) as [(_ & H)|(_ & s' & H & W' & He' & Hc' & Hb & Hm & _)]; [left; exact H|right].
    exists s'. split; [exact H|]. split; [exact W'|]. split; [exact He'|]. split; [destruct He' as (-> & _); lia|auto].
  - right. exists s. split; [reflexivity|]. split; [exact W|]. split; [apply es_refl|]. split; [lia|auto].
Qed.

(** A table whose bucket array was freed and not replaced. *)
Definition broken (s : dense) : Prop := d_sok s = false.

Lemma do_rehash_ok : forall lim (s : dense) n, dwf s -> lim < 2 ^ 60 -> 0 <= n ->
  (d_bc s < n /\ lim < n /\ exists s', do_rehash nk lim s n = Ok (s', None) /\ elems_same s s' /\ (d_bc s = 0 -> s' = s) /\ (0 < d_bc s -> broken s')) \/
  ((n <= d_bc s \/ n <= lim) /\ exists s', do_rehash nk lim s n = Ok (s', Some tt) /\ dwf s' /\ elems_same s s' /\ d_cap s' = d_cap s /\ d_bc s' = Z.max (d_bc s) n /\ d_mlf s' = d_mlf s).
Proof.
  intros lim s n W Hlim Hn0. unfold do_rehash, realloc_sparse. pose proof (w_bc _ _ _ _ _ W) as Hbc. pose proof (w_size _ _ _ _ _ W) as Hsz. pose proof (w_cap _ _ _ _ _ W) as Hcap.
  pose proof (w_mem _ _ _ _ _ W) as Hm.
  assert (Hgen : forall s1 : dense, d_size s1 = d_size s -> d_cap s1 = d_cap s -> d_dok s1 = true -> d_sok s1 = true -> d_nodes s1 = d_nodes s -> d_mlf s1 = d_mlf s ->
    0 <= d_bc s1 < 2 ^ 60 -> (0 < d_size s -> 0 < d_bc s1) ->
    exists s', (let* s2 := fill_sparse s1 in let* s3 := foldM (insert_step nk) (zrange (d_size s2)) s2 in Ok (s3, Some tt)) = Ok (s', Some tt) /\
      dwf s' /\ elems_same s s' /\ d_cap s' = d_cap s /\ d_bc s' = d_bc s1 /\ d_mlf s' = d_mlf s).
  { intros s1 E1 E2 E3 E4 E5 E6 Hb1 Hb2. unfold fill_sparse. destruct (Z.eqb_spec (d_bc s1) 0) as [Hz|Hz].
    - cbn [bind]. assert (Hs0 : d_size s = 0) by lia. rewrite E1, Hs0. cbn [zrange Z.to_nat seq map foldM bind]. exists s1. split; [reflexivity|].
      split; [|split; [split; [exact E1|intros i; unfold vh; rewrite E5; reflexivity]|auto]].
      constructor; rewrite ?E1, ?E2, ?E6; try lia.
      + constructor; [exact E4|exact E3|]. intros i m. rewrite E5, E2. apply (om_in s Hm).
      + intros i. unfold live. rewrite E1. lia.
      + intros i. rewrite E5. unfold live. rewrite E1. apply (w_dead _ _ _ _ _ W).
      + intros i m j. rewrite E5. apply (w_hash _ _ _ _ _ W).
      + intros j Hj b Hb. lia.
      + intros i i' m m' j Hj. rewrite E5. apply (w_uniq _ _ _ _ _ W); exact Hj.
      + apply (w_mlf _ _ _ _ _ W).
    - rewrite E4. cbn [guard bind]. set (s2 := set_sparse s1 _).
      assert (Hm2 : okm s2) by (constructor; [exact E4|exact E3|]; intros i m; unfold s2; cbn [set_sparse d_nodes d_cap]; rewrite E5, E2; apply (om_in s Hm)).
      destruct (insert_steps_ok s2 Hm2) as (s3 & Hf & Hs3 & Hc).
      + unfold s2. cbn [set_sparse d_bc]. lia.
      + unfold s2. cbn [set_sparse d_size]. lia.
      + intros i Hi. unfold s2. cbn [set_sparse d_nodes]. rewrite E5. apply (w_live _ _ _ _ _ W). unfold live, s2 in *. cbn [set_sparse d_size] in Hi. lia.
      + reflexivity.
      + rewrite Hf. cbn [bind]. exists s3. split; [reflexivity|].
        assert (Hv : forall i, vh s3 i = vh s i) by (intros i; rewrite (sm_vh _ _ Hs3); unfold vh, s2; cbn [set_sparse d_nodes]; rewrite E5; reflexivity).
        assert (Hsz3 : d_size s3 = d_size s) by (rewrite (sm_size _ _ Hs3); exact E1).
        assert (Hcp3 : d_cap s3 = d_cap s) by (rewrite (sm_cap _ _ Hs3); exact E2).
        assert (Hbc3 : d_bc s3 = d_bc s1) by (rewrite (sm_bc _ _ Hs3); reflexivity).
        assert (Hml3 : d_mlf s3 = d_mlf s) by (rewrite (sm_mlf _ _ Hs3); exact E6).
        assert (Hback : forall i m, d_nodes s3 i = Some m -> exists m', d_nodes s i = Some m' /\ n_val m' = n_val m /\ n_hash m' = n_hash m).
        { intros i m Hi. specialize (Hv i). unfold vh in Hv. rewrite Hi in Hv. destruct (d_nodes s i) as [m'|]; cbn [option_map] in Hv; [|discriminate]. injection Hv as Ha Hb. exists m'. auto. }
        split; [|split; [split; assumption|auto]].
        constructor; rewrite ?Hsz3, ?Hcp3, ?Hbc3, ?Hml3; try lia.
        * exact (same_okm _ _ Hs3 Hm2).
        * intros i Hi. unfold live in Hi. rewrite Hsz3 in Hi. destruct (w_live _ _ _ _ _ W i Hi) as (m & Hmi).
          specialize (Hv i). unfold vh in Hv. rewrite Hmi in Hv. destruct (d_nodes s3 i) as [m'|]; [exists m'; reflexivity|discriminate].
        * intros i Hi. unfold live in Hi. rewrite Hsz3 in Hi. pose proof (w_dead _ _ _ _ _ W i Hi) as Hd. specialize (Hv i). unfold vh in Hv. rewrite Hd in Hv.
          destruct (d_nodes s3 i); [discriminate|reflexivity].
        * intros i m j Hi Hj. destruct (Hback i m Hi) as (m' & Hm' & <- & <-). apply (w_hash _ _ _ _ _ W i m' j Hm' Hj).
        * intros j Hj. specialize (Hc j Hj). rewrite Hbc3 in Hc. exact Hc.
        * intros i i' m m' j Hj H1 H2 Hk. destruct (Hback i m H1) as (a & Ha & Hva & _). destruct (Hback i' m' H2) as (a' & Ha' & Hva' & _).
          apply (w_uniq _ _ _ _ _ W i i' a a' j Hj Ha Ha'). rewrite Hva, Hva'. exact Hk.
        * apply (w_mlf _ _ _ _ _ W). }
  destruct (Z.ltb_spec (d_bc s) n) as [Hlt|Hge].
  - destruct (Z.ltb_spec lim n) as [Hll|Hll].
    + left. split; [exact Hlt|]. split; [exact Hll|]. eexists. split; [reflexivity|]. split; [split; reflexivity|]. split.
      * intros Hz. rewrite Hz. cbn [Z.eqb]. destruct s; cbn in *; subst; reflexivity.
      * intros Hp. unfold broken. cbn [d_sok]. destruct (Z.eqb_spec (d_bc s) 0); [lia|reflexivity].
    + right. split; [right; exact Hll|]. cbv iota beta. match goal with |- context [fill_sparse ?x] => destruct (Hgen x) as (s' & H1 & H2 & H3 & H4 & H5 & H6) end;
        cbn [d_size d_cap d_dok d_sok d_nodes d_mlf d_bc]; try reflexivity; try lia; [exact (om_dok s Hm)|].
      exists s'. split; [exact H1|]. split; [exact H2|]. split; [exact H3|]. split; [exact H4|]. split; [|exact H6]. rewrite H5. cbn [d_bc]. lia.
  - right. split; [left; exact Hge|]. cbv iota beta. destruct (Hgen s) as (s' & H1 & H2 & H3 & H4 & H5 & H6); try reflexivity; try lia.
    + exact (om_dok s Hm).
    + exact (om_sok s Hm).
    + exact (w_bucket _ _ _ _ _ W).
    + exists s'. split; [exact H1|]. split; [exact H2|]. split; [exact H3|]. split; [exact H4|]. split; [lia|exact H6].
Qed.
End Ops.
