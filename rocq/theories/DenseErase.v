(** Erasure on the dense table under its invariant. *)
From Coq Require Import ZArith List Bool Lia.
From Verif Require Import Base BaseLemmas MapSpec Float32 Float32Facts DenseSpec DenseModel DenseRun DenseChain DenseInv DenseOps DenseEdit.
Import ListNotations.
Open Scope Z_scope.

Section Erase.
Context {E K : Type}.
Variable nk : nat.
Variable key_of : nat -> E -> K.
Variable hash : K -> Z.
Variable keq : K -> K -> bool.
Hypothesis KL : key_laws hash keq.
Notation dense := (dense E).
Notation dwf := (dwf nk key_of hash keq).
Notation matches := (matches key_of keq).

(** A pointer that holds [pos] in its chain of index [j]. *)
Definition slot_of (s : dense) (pos : Z) (j : nat) (p : cptr) : Prop :=
  exists a r, seg (nxj s j) (hdj s j (bkj s j pos)) (a ++ pos :: r) /\ NoDup (a ++ pos :: r) /\
    (forall i, In i (a ++ pos :: r) <-> live s i /\ bkj s j i = bkj s j pos) /\ p = ptr_at (bkj s j pos) a.

Lemma chain_to_ok : forall (s : dense) pos n j, dwf s -> d_nodes s pos = Some n -> (j < nk)%nat ->
  exists p, chain_to s n pos j = Ok p /\ slot_of s pos j p.
Proof.
  intros s pos n j W Hn Hj. pose proof (w_mem _ _ _ _ _ W) as Hm. pose proof (node_live nk key_of hash keq s pos n W Hn) as Hl.
  assert (Hbc : 0 < d_bc s) by (apply (w_bucket _ _ _ _ _ W); unfold live in Hl; lia).
  destruct (chains_split _ _ _ _ _ pos (w_chain _ _ _ _ _ W j Hj) Hl (bk_range s j pos Hbc)) as (a & r & Hs & Hnd & Hin).
  exists (ptr_at (bkj s j pos) a). split; [|exists a, r; auto]. unfold chain_to, get_chain. destruct (Z.eqb_spec (d_bc s) 0); [lia|]. cbn [deref bind].
  assert (Hbk : n_hash n j mod d_bc s = bkj s j pos) by (unfold bkj, hsj; rewrite Hn; reflexivity). rewrite Hbk.
  change (PBucket (bkj s j pos)) with (ptr_at (bkj s j pos) []). change (ptr_at (bkj s j pos) a) with (ptr_at (bkj s j pos) ([] ++ a)).
  apply (find_chain_ptr_ok (chain_fuel s) s j (bkj s j pos) a [] pos r Hm (bk_range s j pos Hbc)).
  - assert (Z.of_nat (length (a ++ pos :: r)) <= Z.max 0 (d_size s)) by (apply nodup_bound; [exact Hnd|]; intros i Hi; apply Hin in Hi; apply Hi).
    rewrite app_length in H. cbn [length] in H. unfold chain_fuel. unfold live in Hl. lia.
  - exact Hs.
  - intros i Hi. apply (w_live _ _ _ _ _ W). apply (Hin i). exact Hi.
  - intros Hi. apply NoDup_remove_2 in Hnd. apply Hnd. apply in_or_app. left. exact Hi.
Qed.
Lemma chains_to_ok : forall (s : dense) pos n l, dwf s -> d_nodes s pos = Some n -> (forall j, In j l -> (j < nk)%nat) ->
  exists sl, chains_to s n pos l = Ok sl /\ map fst sl = l /\ forall j p, In (j, p) sl -> slot_of s pos j p.
Proof.
  intros s pos n l W Hn. induction l as [|j l IH]; intros Hl.
  - exists []. split; [reflexivity|]. split; [reflexivity|]. intros ? ? [].
  - destruct IH as (sl & H1 & H2 & H3); [intros j' Hj'; apply Hl; right; exact Hj'|].
    destruct (chain_to_ok s pos n j W Hn (Hl j (or_introl eq_refl))) as (p & Hp & Hs).
    cbn [chains_to]. rewrite Hp. cbn [bind]. rewrite H1. cbn [bind]. eexists. split; [reflexivity|]. split; [cbn [map fst]; rewrite H2; reflexivity|].
    intros j' p' [He|Hp']; [injection He as <- <-; exact Hs|apply H3; exact Hp'].
Qed.

Lemma sth_eq : forall hd hd' p v b, (forall c, hd' c = hd c) -> sth hd' p v b = sth hd p v b.
Proof. intros hd hd' [b'|i] v b H; cbn [sth]; [unfold upd; destruct (b =? b'); auto|apply H]. Qed.
Lemma stn_eq : forall nx nx' p v i, (forall c, nx' c = nx c) -> stn nx' p v i = stn nx p v i.
Proof. intros nx nx' [b'|x] v i H; cbn [stn]; [apply H|unfold upd; destruct (i =? x); auto]. Qed.
Lemma stn_ptr_other : forall nx b a v i, ~ In i a -> stn nx (ptr_at b a) v i = nx i.
Proof.
  intros nx b a v i Hi. destruct (snoc_cases a) as [->|(a' & x & ->)]; [reflexivity|]. rewrite ptr_at_snoc. cbn [stn]. apply upd_other. intros ->. apply Hi. apply in_or_app. right. left. reflexivity.
Qed.

Lemma erase_node_ok : forall (s : dense) pos sl, dwf s -> live s pos ->
  NoDup (map fst sl) -> (forall j, In j (map fst sl) <-> (j < nk)%nat) -> (forall j p, In (j, p) sl -> slot_of s pos j p) ->
  exists s', erase_node s pos sl = Ok (s', pos) /\ dwf s' /\ d_size s' = d_size s - 1 /\ d_cap s' = d_cap s /\ d_bc s' = d_bc s /\ d_mlf s' = d_mlf s /\
    forall i, live s' i -> vh s' i = vh s (if i =? pos then d_size s - 1 else i).
Proof.
  intros s pos sl W Hl Hnd Hsl Hslot. pose proof (w_size _ _ _ _ _ W) as Hsz. pose proof (w_cap _ _ _ _ _ W) as Hcp. pose proof (w_bc _ _ _ _ _ W) as Hb60. pose proof (w_mem _ _ _ _ _ W) as Hm.
  assert (Hbc : 0 < d_bc s) by (apply (w_bucket _ _ _ _ _ W); unfold live in Hl; lia).
  destruct (w_live _ _ _ _ _ W pos Hl) as (np & Hnp). unfold live in Hl. set (en := d_size s - 1) in *.
  (* stage 1: unlinking the erased node *)
  destruct (fold_idx (fun t jp => let* n := get_node t pos in store t (fst jp) (snd jp) (n_next n (fst jp))) fst
    (fun jp h n => chains h n (fun i => live s i /\ i <> pos) (bkj s (fst jp)) (d_bc s)) sl s Hnd) as (s1 & Hf1 & Hs1 & Hd1 & _).
  { intros (j, p) t Hjp Hst (Hv1 & Hv2). cbn [fst snd] in *. destruct (Hslot j p Hjp) as (a & r & Hseg & Hn & Hin & ->).
    assert (Hj : (j < nk)%nat) by (apply Hsl; apply (in_map fst) in Hjp; exact Hjp).
    destruct (same_node s t pos np Hst Hnp) as (nt & Hnt & _). rewrite (get_node_ok t pos nt (same_okm _ _ Hst Hm) Hnt). cbn [bind].
    assert (Hnx : n_next nt j = nxj s j pos) by (rewrite <- Hv2; unfold nxj; rewrite Hnt; reflexivity). rewrite Hnx.
    destruct (store_ok t j (ptr_at (bkj s j pos) a) (nxj s j pos) (same_okm _ _ Hst Hm)) as (t' & Hst' & Htt & Hh & Hx & Ho).
    { apply (same_vptr s t _ Hst). apply vptr_at; [apply bk_range; exact Hbc|]. intros i Hi. apply (w_live _ _ _ _ _ W). apply (Hin i). apply in_or_app. left. exact Hi. }
    exists t', (sth (hdj s j) (ptr_at (bkj s j pos) a) (nxj s j pos)), (stn (nxj s j) (ptr_at (bkj s j pos) a) (nxj s j pos)).
    split; [exact Hst'|]. split; [exact Htt|]. split; [|split; [|split; [|exact Ho]]].
    - apply (chains_remove (hdj s j) (nxj s j) (live s) (bkj s j) (d_bc s) pos a r); auto; [apply (w_chain _ _ _ _ _ W j Hj)|apply bk_range; exact Hbc].
    - intros b. rewrite Hh. apply sth_eq. exact Hv1.
    - intros i. rewrite Hx. apply stn_eq. exact Hv2. }
  assert (Hc1 : forall j, (j < nk)%nat -> chains (hdj s1 j) (nxj s1 j) (fun i => live s i /\ i <> pos) (bkj s1 j) (d_bc s)).
  { intros j Hj. apply Hsl in Hj. apply in_map_iff in Hj. destruct Hj as ((j0, p) & Hj0 & Hjp). cbn [fst] in Hj0. subst j0.
    destruct (Hd1 (j, p) Hjp) as (h & n & HR & H1 & H2). cbn [fst] in *. apply (chains_ext h n (fun i => live s i /\ i <> pos) (bkj s j)); auto.
    intros i b _. rewrite (same_bk s s1 j i Hs1). tauto. }
  pose proof (same_okm _ _ Hs1 Hm) as Hm1.
  (* stage 2: the last node takes the place of the erased one *)
  assert (Hst2 : exists s2, (if pos =? d_size s1 - 1 then Ok s1 else let* t := foldM (move_chain (d_size s1 - 1) pos) (map fst sl) s1 in let* n := get_node t (d_size s1 - 1) in put_node t pos n) = Ok s2 /\
    okm s2 /\ d_size s2 = d_size s /\ d_cap s2 = d_cap s /\ d_bc s2 = d_bc s /\ d_mlf s2 = d_mlf s /\
    (forall i, vh s2 i = vh s (if i =? pos then en else i)) /\
    forall j, (j < nk)%nat -> chains (hdj s2 j) (nxj s2 j) (fun i => 0 <= i < en) (bkj s2 j) (d_bc s)).
  { rewrite (sm_size _ _ Hs1). fold en. destruct (Z.eqb_spec pos en) as [He|Hne].
    - exists s1. split; [reflexivity|]. split; [exact Hm1|]. split; [apply (sm_size _ _ Hs1)|]. split; [apply (sm_cap _ _ Hs1)|]. split; [apply (sm_bc _ _ Hs1)|]. split; [apply (sm_mlf _ _ Hs1)|]. split.
      + intros i. rewrite (sm_vh _ _ Hs1). destruct (Z.eqb_spec i pos) as [->|]; [rewrite <- He|]; reflexivity.
      + intros j Hj. apply (chains_ext (hdj s1 j) (nxj s1 j) (fun i => live s i /\ i <> pos) (bkj s1 j)); auto. intros i b _. assert (0 <= i < en <-> live s i /\ i <> pos) by (unfold live; lia). tauto.
    - destruct (w_live _ _ _ _ _ W en) as (ne & Hne'); [unfold live; lia|].
      destruct (same_node s s1 en ne Hs1 Hne') as (ne1 & Hne1 & Hv1 & Hh1).
      set (bkf := fun j i => if i =? pos then bkj s j en else bkj s j i).
      destruct (fold_idx (move_chain en pos) (fun j => j)
        (fun j h n => n en = nxj s1 j en /\ chains h (upd n pos (nxj s1 j en)) (fun i => 0 <= i < en) (bkf j) (d_bc s)) (map fst sl) s1) as (s2 & Hf2 & Hs2 & Hd2 & _).
      { rewrite map_id. exact Hnd. }
      { intros j t Hj Hst (Hw1 & Hw2). apply Hsl in Hj.
        destruct (same_node s1 t en ne1 Hst Hne1) as (nt & Hnt & _ & Hht). pose proof (same_okm _ _ Hst Hm1) as Hmt.
        unfold move_chain. rewrite (get_node_ok t en nt Hmt Hnt). cbn [bind]. unfold get_chain. rewrite (sm_bc _ _ Hst), (sm_bc _ _ Hs1).
        destruct (Z.eqb_spec (d_bc s) 0); [lia|]. cbn [deref bind].
        assert (Hbk : n_hash nt j mod d_bc s = bkj s j en) by (unfold bkj, hsj; rewrite Hne', Hht, Hh1; reflexivity). rewrite Hbk.
        pose proof (bk_range s j en Hbc) as Hbr.
        destruct (chains_split (hdj s1 j) (nxj s1 j) (fun i => live s i /\ i <> pos) (bkj s1 j) (d_bc s) en (Hc1 j Hj)) as (a & r & Hseg & Hn & Hin).
        { unfold live. lia. } { rewrite (same_bk s s1 j en Hs1). exact Hbr. }
        rewrite (same_bk s s1 j en Hs1) in Hseg, Hin. set (b := bkj s j en) in *.
        assert (Hsegt : seg (nxj t j) (hdj t j b) (a ++ en :: r)) by (rewrite Hw1; apply (seg_ext _ (nxj s1 j)); [intros i _; apply Hw2|exact Hseg]).
        assert (Hlvt : forall i, In i (a ++ en :: r) -> exists n, d_nodes t i = Some n).
        { intros i Hi. apply Hin in Hi. destruct (w_live _ _ _ _ _ W i) as (ni & Hni); [apply Hi|]. destruct (same_node s s1 i ni Hs1 Hni) as (n1 & Hn1 & _). destruct (same_node s1 t i n1 Hst Hn1) as (n2 & Hn2 & _). exists n2. exact Hn2. }
        assert (Hbct : 0 <= b < d_bc t) by (rewrite (sm_bc _ _ Hst), (sm_bc _ _ Hs1); exact Hbr).
        assert (Hfp : find_chain_ptr (chain_fuel t) t j (PBucket b) en = Ok (ptr_at b a)).
        { change (PBucket b) with (ptr_at b []). change (ptr_at b a) with (ptr_at b ([] ++ a)). apply (find_chain_ptr_ok (chain_fuel t) t j b a [] en r Hmt Hbct); auto.
          - assert (Hle : Z.of_nat (length (a ++ en :: r)) <= Z.max 0 (d_size s)) by (apply nodup_bound; [exact Hn|]; intros i Hi; apply Hin in Hi; apply Hi).
            rewrite app_length in Hle. cbn [length] in Hle. unfold chain_fuel. rewrite (sm_size _ _ Hst), (sm_size _ _ Hs1). lia.
          - intros Hi. apply NoDup_remove_2 in Hn. apply Hn. apply in_or_app. left. exact Hi. }
        rewrite Hfp. cbn [bind].
        assert (Hvp : vptr t (ptr_at b a)) by (apply vptr_at; [exact Hbct|]; intros i Hi; apply Hlvt; apply in_or_app; left; exact Hi).
        rewrite (load_ok t j _ Hmt Hvp). cbn [bind]. rewrite (ldp_at _ _ b a (en :: r) Hsegt). cbv iota.
        destruct (Z.eqb_spec en npos) as [Hx|_]; [unfold npos in Hx; lia|]. cbn [negb guard bind].
        destruct (store_ok t j (ptr_at b a) pos Hmt Hvp) as (t' & Hst' & Htt & Hh & Hx & Ho).
        exists t', (sth (hdj s1 j) (ptr_at b a) pos), (stn (nxj s1 j) (ptr_at b a) pos). split; [exact Hst'|]. split; [exact Htt|]. split; [|split; [|split; [|exact Ho]]].
        - assert (Hea : ~ In en a) by (apply NoDup_remove_2 in Hn; intros Hi; apply Hn; apply in_or_app; left; exact Hi).
          split; [apply stn_ptr_other; exact Hea|].
          assert (Hb1 : b = bkj s1 j en) by (symmetry; apply (same_bk s s1 j en Hs1)).
          apply (chains_ext (sth (hdj s1 j) (ptr_at b a) pos) (upd (stn (nxj s1 j) (ptr_at b a) pos) pos (nxj s1 j en)) (fun i => ((live s i /\ i <> pos) /\ i <> en) \/ i = pos) (bkf j)); [|reflexivity|reflexivity|].
          + rewrite Hb1 in Hseg, Hin |- *. apply (chains_rename (hdj s1 j) (nxj s1 j) (fun i => live s i /\ i <> pos) (bkj s1 j) (d_bc s) en pos a r (bkf j)); auto.
            * rewrite <- Hb1. exact Hbr.
            * intros (_ & Hp). apply Hp. reflexivity.
            * unfold npos. lia.
            * unfold bkf. rewrite Z.eqb_refl. exact Hb1.
            * intros i Hi. unfold bkf. destruct (Z.eqb_spec i pos); [contradiction|]. symmetry. apply (same_bk s s1 j i Hs1).
          + intros i c _. assert (0 <= i < en <-> ((live s i /\ i <> pos) /\ i <> en) \/ i = pos) by (unfold live; lia). tauto.
        - intros c. rewrite Hh. apply sth_eq. exact Hw1.
        - intros i. rewrite Hx. apply stn_eq. exact Hw2. }
      rewrite Hf2. cbn [bind]. pose proof (same_okm _ _ Hs2 Hm1) as Hm2.
      destruct (same_node s1 s2 en ne1 Hs2 Hne1) as (ne2 & Hne2 & Hv2 & Hh2). rewrite (get_node_ok s2 en ne2 Hm2 Hne2). cbn [bind].
      destruct (same_node s s1 pos np Hs1 Hnp) as (np1 & Hnp1 & _). destruct (same_node s1 s2 pos np1 Hs2 Hnp1) as (np2 & Hnp2 & _).
      rewrite (put_node_ok s2 pos np2 ne2 Hm2 Hnp2). eexists. split; [reflexivity|]. set (s3 := set_nodes s2 _).
      pose proof (same_trans _ _ _ Hs1 Hs2) as Hs02.
      assert (Hvh3 : forall i, vh s3 i = vh s (if i =? pos then en else i)).
      { intros i. unfold vh, s3. cbn [set_nodes d_nodes]. unfold upd. destruct (Z.eqb_spec i pos) as [->|Hi].
        - pose proof (sm_vh _ _ Hs02 en) as Hv. unfold vh in Hv. rewrite Hne2 in Hv. exact Hv.
        - apply (sm_vh _ _ Hs02 i). }
      split; [|split; [|split; [|split; [|split; [|split]]]]].
      + constructor; [exact (om_sok _ Hm2)|exact (om_dok _ Hm2)|]. intros i m. unfold s3. cbn [set_nodes d_nodes d_cap]. unfold upd. destruct (Z.eqb_spec i pos) as [->|_]; [intros _; apply (om_in _ Hm2 pos np2 Hnp2)|apply (om_in _ Hm2)].
      + exact (sm_size _ _ Hs02).
      + exact (sm_cap _ _ Hs02).
      + exact (sm_bc _ _ Hs02).
      + exact (sm_mlf _ _ Hs02).
      + exact Hvh3.
      + intros j Hj. destruct (Hd2 j) as (h & n & (HRe & HR) & H1 & H2); [apply Hsl; exact Hj|].
        apply (chains_ext h (upd n pos (nxj s1 j en)) (fun i => 0 <= i < en) (bkf j)); [exact HR|intros b _; exact (H1 b)| |].
        * intros i _ _. unfold nxj at 1, s3. cbn [set_nodes d_nodes]. unfold upd. destruct (Z.eqb_spec i pos) as [->|Hi].
          -- rewrite <- HRe, <- H2. unfold nxj. rewrite Hne2. reflexivity.
          -- fold (nxj s2 j i). apply H2.
        * intros i b _. assert (Hbk3 : bkj s3 j i = bkf j i).
          { unfold bkf, bkj, hsj. pose proof (Hvh3 i) as Hv. unfold vh in Hv. change (d_bc s3) with (d_bc s2). rewrite (sm_bc _ _ Hs02).
            destruct (Z.eqb_spec i pos) as [->|]; [destruct (d_nodes s3 pos), (d_nodes s en)|destruct (d_nodes s3 i), (d_nodes s i)]; cbn [option_map] in Hv; congruence. }
          rewrite Hbk3. tauto. }
  destruct Hst2 as (s2 & Hst2 & Hm2 & Hsz2 & Hcp2 & Hbc2 & Hml2 & Hvh2 & Hc2).
  unfold erase_node. destruct (Z.eqb_spec pos (d_size s)) as [Hx|_]; [lia|]. cbn [negb guard bind]. rewrite Hf1. cbn [bind]. rewrite Hst2. cbn [bind].
  unfold pop_node. cbn [set_size d_size]. rewrite Hsz2. fold en.
  assert (Hen : exists n, d_nodes s2 en = Some n).
  { pose proof (Hvh2 en) as Hv. destruct (w_live _ _ _ _ _ W en) as (m & Hm'); [unfold live; lia|]. unfold vh in Hv.
    assert (Hee : (if en =? pos then en else en) = en) by (destruct (en =? pos); reflexivity). rewrite Hee, Hm' in Hv. destruct (d_nodes s2 en) as [n|]; [exists n; reflexivity|discriminate]. }
  destruct Hen as (n & Hen).
  rewrite (kill_node_ok (set_size s2 en) en n); [|constructor; [exact (om_sok _ Hm2)|exact (om_dok _ Hm2)|exact (om_in _ Hm2)]|exact Hen]. cbn [bind].
  set (s3 := set_nodes (set_size s2 en) _). exists s3. split; [reflexivity|].
  assert (Hn3 : forall i, i <> en -> d_nodes s3 i = d_nodes s2 i) by (intros i Hi; unfold s3; cbn [set_nodes set_size d_nodes]; apply upd_other; exact Hi).
  assert (Hvh3 : forall i, live s3 i -> vh s3 i = vh s (if i =? pos then en else i)).
  { intros i Hi. unfold live, s3 in Hi. cbn [set_nodes set_size d_size] in Hi. unfold vh. rewrite Hn3 by lia. apply Hvh2. }
  assert (Hsrc : forall i m, d_nodes s3 i = Some m -> live s3 i /\ exists m', d_nodes s (if i =? pos then en else i) = Some m' /\ n_val m' = n_val m /\ n_hash m' = n_hash m).
  { intros i m Hi. assert (Hie : i <> en) by (intros ->; unfold s3 in Hi; cbn [set_nodes d_nodes set_size] in Hi; rewrite upd_same in Hi; discriminate).
    rewrite Hn3 in Hi by exact Hie. pose proof (Hvh2 i) as Hv. unfold vh in Hv. rewrite Hi in Hv.
    destruct (d_nodes s (if i =? pos then en else i)) as [m'|] eqn:Em; cbn [option_map] in Hv; [|discriminate]. injection Hv as Ha Hb.
    split; [|exists m'; auto]. pose proof (node_live nk key_of hash keq s _ m' W Em) as Hlv. unfold live, s3 in *. cbn [set_nodes set_size d_size]. destruct (Z.eqb_spec i pos); lia. }
  split; [|split; [reflexivity|split; [exact Hcp2|split; [exact Hbc2|split; [exact Hml2|exact Hvh3]]]]].
  assert (Hb3 : d_bc s3 = d_bc s) by exact Hbc2. assert (Hc3 : d_cap s3 = d_cap s) by exact Hcp2. assert (Hz3 : d_size s3 = en) by reflexivity. assert (Hl3 : d_mlf s3 = d_mlf s) by exact Hml2.
  constructor; rewrite ?Hb3, ?Hc3, ?Hz3, ?Hl3; try lia.
  - constructor; [exact (om_sok _ Hm2)|exact (om_dok _ Hm2)|]. intros i m Hi. destruct (Z.eq_dec i en) as [->|Hie]; [unfold s3 in Hi; cbn [set_nodes d_nodes] in Hi; rewrite upd_same in Hi; discriminate|].
    rewrite Hn3 in Hi by exact Hie. rewrite Hc3, <- Hcp2. apply (om_in _ Hm2 i m Hi).
  - intros i Hi. unfold live in Hi. rewrite Hz3 in Hi. pose proof (Hvh3 i Hi) as Hv. destruct (w_live _ _ _ _ _ W (if i =? pos then en else i)) as (m & Hm'); [unfold live; destruct (Z.eqb_spec i pos); lia|].
    unfold vh in Hv. rewrite Hm' in Hv. destruct (d_nodes s3 i) as [m'|]; [exists m'; reflexivity|discriminate].
  - intros i Hi. destruct (d_nodes s3 i) as [m|] eqn:Em; [|reflexivity]. exfalso. apply Hi. apply (Hsrc i m Em).
  - intros i m j Hi Hj. destruct (Hsrc i m Hi) as (_ & m' & Hm' & <- & <-). apply (w_hash _ _ _ _ _ W _ m' j Hm' Hj).
  - intros j Hj. specialize (Hc2 j Hj). apply (chains_ext (hdj s2 j) (nxj s2 j) (fun i => 0 <= i < en) (bkj s2 j)); [exact Hc2|reflexivity| |].
    + intros i Hi _. unfold nxj. rewrite Hn3 by lia. reflexivity.
    + intros i b _. unfold live. rewrite Hz3. assert (0 <= i < en -> bkj s3 j i = bkj s2 j i).
      { intros Hi. unfold bkj, hsj. rewrite Hn3 by lia. reflexivity. }
      split; intros (Ha & Hb); (split; [exact Ha|]); rewrite <- Hb; [symmetry|]; apply H; exact Ha.
  - intros i i' m m' j Hj H1 H2 Hk. destruct (Hsrc i m H1) as (Hi & a & Ha & Hva & _). destruct (Hsrc i' m' H2) as (Hi' & a' & Ha' & Hva' & _).
    rewrite <- Hva, <- Hva' in Hk. pose proof (w_uniq _ _ _ _ _ W _ _ a a' j Hj Ha Ha' Hk) as Heq. unfold live in Hi, Hi'. rewrite Hz3 in Hi, Hi'.
    destruct (Z.eqb_spec i pos), (Z.eqb_spec i' pos); lia.
  - apply (w_mlf _ _ _ _ _ W).
Qed.

(** Contents after an erasure. *)
Lemma swap_remove_len : forall (a b : list E), (length (swap_remove a b) = length a + length b)%nat.
Proof.
  intros a b. unfold swap_remove. destruct (rev b) as [|y r] eqn:Er.
  - apply (f_equal (@length E)) in Er. rewrite rev_length in Er. cbn [length] in Er. lia.
  - apply (f_equal (@length E)) in Er. rewrite rev_length in Er. cbn [length] in Er. rewrite app_length. cbn [length]. rewrite rev_length. lia.
Qed.
Lemma swap_remove_nth : forall (a : list E) x b i, (i < length a + length b)%nat ->
  nth_error (swap_remove a b) i = nth_error (a ++ x :: b) (if Nat.eqb i (length a) then length a + length b else i).
Proof.
  intros a x b i Hi. unfold swap_remove. destruct (snoc_cases b) as [->|(b' & y & ->)].
  - cbn [rev length] in *. destruct (Nat.eqb_spec i (length a)); [lia|]. rewrite nth_error_app1 by lia. reflexivity.
  - rewrite rev_app_distr. cbn [rev app]. rewrite rev_involutive. rewrite app_length in *. cbn [length] in *. destruct (Nat.eqb_spec i (length a)) as [->|Hne].
    + rewrite nth_error_app2 by lia. rewrite Nat.sub_diag. cbn [nth_error]. rewrite nth_error_app2 by lia.
      replace (length a + (length b' + 1) - length a)%nat with (S (length b')) by lia. cbn [nth_error]. rewrite nth_error_app2 by lia. rewrite Nat.sub_diag. reflexivity.
    + destruct (Nat.lt_ge_cases i (length a)) as [Hlt|Hge]; [rewrite !nth_error_app1 by lia; reflexivity|].
      rewrite !nth_error_app2 by lia. replace (i - length a)%nat with (S (i - length a - 1)) by lia. cbn [nth_error]. rewrite nth_error_app1 by lia. reflexivity.
Qed.
Lemma delems_erase : forall (s s' : dense) pos a x b, dwf s -> dwf s' -> live s pos -> delems s = a ++ x :: b -> length a = Z.to_nat pos ->
  d_size s' = d_size s - 1 -> (forall i, live s' i -> vh s' i = vh s (if i =? pos then d_size s - 1 else i)) ->
  delems s' = swap_remove a b.
Proof.
  intros s s' pos a x b W W' Hl Hd Ha Hsz Hv. unfold live in Hl.
  pose proof (delems_len nk key_of hash keq s W) as Hlen. rewrite Hd, app_length in Hlen. cbn [length] in Hlen.
  pose proof (delems_len nk key_of hash keq s' W') as Hlen'. pose proof (swap_remove_len a b) as Hsr.
  apply list_ext. intros i. destruct (Nat.lt_ge_cases i (length a + length b)) as [Hi|Hi].
  - rewrite (swap_remove_nth a x b i Hi), <- Hd. assert (Hli : live s' (Z.of_nat i)) by (unfold live; lia).
    pose proof (delems_nth nk key_of hash keq s' (Z.of_nat i) W' Hli) as H1. rewrite Nat2Z.id in H1. rewrite H1.
    pose proof (Hv _ Hli) as Hvi.
    assert (Hidx : (if Nat.eqb i (length a) then length a + length b else i)%nat = Z.to_nat (if Z.of_nat i =? pos then d_size s - 1 else Z.of_nat i)).
    { destruct (Nat.eqb_spec i (length a)), (Z.eqb_spec (Z.of_nat i) pos); lia. }
    rewrite Hidx, (delems_nth nk key_of hash keq s _ W); [|unfold live; destruct (Z.eqb_spec (Z.of_nat i) pos); lia].
    unfold vh in Hvi. unfold val. destruct (d_nodes s' (Z.of_nat i)), (d_nodes s (if Z.of_nat i =? pos then d_size s - 1 else Z.of_nat i)); cbn [option_map] in *; congruence.
  - assert (H1 : nth_error (delems s') i = None) by (apply nth_error_None; lia). assert (H2 : nth_error (swap_remove a b) i = None) by (apply nth_error_None; lia). congruence.
Qed.

Lemma erase_at_ok : forall (s : dense) pos, dwf s -> live s pos -> exists s' a x b, erase_at nk s pos = Ok (s', pos) /\ dwf s' /\
  delems s = a ++ x :: b /\ length a = Z.to_nat pos /\ delems s' = swap_remove a b /\ d_size s' = d_size s - 1 /\ d_cap s' = d_cap s /\ d_bc s' = d_bc s /\ d_mlf s' = d_mlf s.
Proof.
  intros s pos W Hl. destruct (w_live _ _ _ _ _ W pos Hl) as (n & Hn). unfold erase_at. unfold live in Hl. destruct (Z.eqb_spec pos (d_size s)); [lia|].
  rewrite (get_node_ok s pos n (w_mem _ _ _ _ _ W) Hn). cbn [bind].
  destruct (chains_to_ok s pos n (js nk) W Hn) as (sl & H1 & H2 & H3); [intros j; apply js_in|]. rewrite H1. cbn [bind].
  destruct (erase_node_ok s pos sl W Hl) as (s' & He & W' & Hsz & Hcp & Hbc & Hml & Hv); [rewrite H2; apply js_nodup|intros j; rewrite H2; apply js_in|exact H3|].
  destruct (delems_split nk key_of hash keq s pos n W Hn) as (a & b & Hd & Ha).
  exists s', a, (n_val n), b. split; [exact He|]. split; [exact W'|]. split; [exact Hd|]. split; [exact Ha|]. split; [apply (delems_erase s s' pos a (n_val n) b); auto|]. auto.
Qed.

(** erase(key): the search of the loop is that of find_node. *)
Lemma erase_loop_find : forall fuel (s : dense) j k h p i q, find_loop key_of keq fuel s j k h p = Ok (i, q) ->
  (load s j q = Ok npos /\ i = d_size s /\ erase_loop nk key_of keq fuel s j k h p = Ok (s, d_size s)) \/
  (exists n, load s j q = Ok i /\ i <> npos /\ get_node s i = Ok n /\ erase_loop nk key_of keq fuel s j k h p =
     (let* sl := chains_to s n i (filter (fun x => negb (Nat.eqb x j)) (js nk)) in erase_node s i ((j, q) :: sl))).
Proof.
  induction fuel as [|fu IH]; intros s j k h p i q H; [discriminate|]. cbn [find_loop erase_loop] in *.
  apply bind_Ok in H. destruct H as (v & Hv & H). rewrite Hv. cbn [bind]. destruct (Z.eqb_spec v npos) as [->|Hne].
  - injection H as <- <-. left. auto.
  - apply bind_Ok in H. destruct H as (n & Hn & H). rewrite Hn. cbn [bind]. destruct ((n_hash n j =? h) && keq k (key_of j (n_val n))).
    + injection H as <- <-. right. exists n. auto.
    + apply IH. exact H.
Qed.

Lemma erase_key_ok : forall (s : dense) j k, dwf s -> (j < nk)%nat -> 0 < d_bc s ->
  ((forall i, live s i -> ~ matches s j k i) /\ erase_key nk key_of hash keq s j k = Ok (s, d_size s)) \/
  (exists s' pos a x b, erase_key nk key_of hash keq s j k = Ok (s', pos) /\ dwf s' /\ delems s = a ++ x :: b /\ keq (key_of j x) k = true /\ length a = Z.to_nat pos /\ live s pos /\
     delems s' = swap_remove a b /\ d_size s' = d_size s - 1 /\ d_cap s' = d_cap s /\ d_bc s' = d_bc s /\ d_mlf s' = d_mlf s).
Proof.
  intros s j k W Hj Hbc. pose proof (w_mem _ _ _ _ _ W) as Hm. pose proof (w_size _ _ _ _ _ W) as Hsz.
  destruct (find_node_gen key_of hash keq KL s (live s) j k Hm Hbc ltac:(lia)) as (b & l & Hb & Hbe & Hs & Hnd & Hin & Hlen & Hcase).
  { intros i Hi. split; [exact Hi|]. destruct (w_live _ _ _ _ _ W i Hi) as (n & Hn). exists n. split; [exact Hn|]. apply (w_hash _ _ _ _ _ W i n j Hn Hj). }
  { apply (w_chain _ _ _ _ _ W j Hj). }
  unfold erase_key, get_chain. destruct (Z.eqb_spec (d_bc s) 0) as [|_]; [lia|]. cbn [deref bind]. rewrite <- Hbe.
  assert (Hlv : forall x, In x l -> exists n, d_nodes s x = Some n) by (intros x Hx; apply (w_live _ _ _ _ _ W); apply (Hin x); exact Hx).
  destruct Hcase as [(a & i & r & -> & (n & Hn & Hk) & _ & Hf & _)|(Hno & Hf)].
  - right. assert (Hil : live s i /\ bkj s j i = b) by (apply Hin; apply in_or_app; right; left; reflexivity).
    destruct (erase_loop_find _ _ _ _ _ _ _ _ Hf) as [(Hld & _)|(n' & Hld & Hip & Hn' & He)].
    + rewrite (load_ok s j _ Hm) in Hld by (apply vptr_at; [exact Hb|]; intros x Hx; apply Hlv; apply in_or_app; left; exact Hx).
      rewrite (ldp_at _ _ b a (i :: r) Hs) in Hld. injection Hld as Hld. exfalso. apply (seg_npos _ _ _ i Hs); [apply in_or_app; right; left; reflexivity|exact Hld].
    + rewrite (get_node_ok s i n Hm Hn) in Hn'. injection Hn' as <-.
      destruct (chains_to_ok s i n (filter (fun x => negb (Nat.eqb x j)) (js nk)) W Hn) as (sl & H1 & H2 & H3); [intros x Hx; apply filter_In in Hx; apply js_in; apply Hx|].
      rewrite H1 in He. cbn [bind] in He.
      destruct (erase_node_ok s i ((j, ptr_at b a) :: sl) W (proj1 Hil)) as (s' & He' & W' & Hsz' & Hcp & Hbc' & Hml & Hv).
      * cbn [map fst]. rewrite H2. constructor; [intros Hx; apply filter_In in Hx; rewrite Nat.eqb_refl in Hx; destruct Hx; discriminate|apply NoDup_filter; apply js_nodup].
      * intros x. cbn [map fst]. rewrite H2. cbn [In]. rewrite filter_In, js_in. destruct (Nat.eqb_spec x j) as [->|Hxj]; cbn [negb]; [tauto|]. split; [intros [<-|(Hx & _)]; [congruence|exact Hx]|auto].
      * intros x p [Hx|Hx]; [|apply H3; exact Hx]. injection Hx as <- <-. destruct Hil as (_ & Hbi). exists a, r. rewrite Hbi. auto.
      * destruct (delems_split nk key_of hash keq s i n W Hn) as (a' & b' & Hd & Ha).
        exists s', i, a', (n_val n), b'. split; [rewrite He; exact He'|]. split; [exact W'|]. split; [exact Hd|]. split; [exact Hk|]. split; [exact Ha|]. split; [apply Hil|].
        split; [apply (delems_erase s s' i a' (n_val n) b'); auto; apply Hil|]. auto.
  - left. split; [exact Hno|]. unfold find_node, get_chain in Hf. destruct (Z.eqb_spec (d_bc s) 0); [lia|]. rewrite <- Hbe in Hf. apply bind_Ok in Hf. destruct Hf as ((i, q) & Hf & He).
    cbn [fst snd] in He. injection He as -> ->.
    destruct (erase_loop_find _ _ _ _ _ _ _ _ Hf) as [(_ & _ & He)|(n' & Hld & Hip & Hn' & He)]; [exact He|].
    exfalso. apply get_node_inv in Hn'. pose proof (node_live nk key_of hash keq s _ n' W Hn') as Hx. unfold live in Hx. lia.
Qed.
End Erase.
