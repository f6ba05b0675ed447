(** Dense tables after the move assignment of an erasure threw. *)
From Coq Require Import ZArith List Bool Lia.
From Verif Require Import Base BaseLemmas MapSpec DenseSpec DenseModel DenseRun DenseChain DenseInv DenseOps DenseEdit DenseErase EraseThrowModel.
Import ListNotations.
Open Scope Z_scope.

Section Proofs.
Context {E K : Type}.
Variable nk : nat.
Variable key_of : nat -> E -> K.
Variable hash : K -> Z.
Variable keq : K -> K -> bool.
Variable rep : E -> E -> E.
Hypothesis KL : key_laws hash keq.
Notation dense := (dense E).
Notation dwf := (dwf nk key_of hash keq).
Notation matches := (matches key_of keq).

(** ** Calls that do not throw. *)
Definition lift (x : res (dense * Z)) : res (dense * option Z) := let* y := x in Ok (fst y, Some (snd y)).
Lemma node_same : forall (s : dense) pos sl bad, bad = false \/ pos = d_size s - 1 -> t_erase_node bad s pos sl = lift (erase_node s pos sl).
Proof.
  intros s pos sl bad H. unfold t_erase_node, erase_node, lift. destruct (guard (negb (pos =? d_size s)) AssertFailed) as [[]|]; [|reflexivity]. cbn [bind].
  destruct (foldM _ sl s) as [s1|] eqn:E1; [|reflexivity]. cbn [bind].
  assert (Hz : d_size s1 = d_size s).
  { revert E1. clear. revert s. induction sl as [|x l IH]; intros s; cbn [foldM]; [intros X; injection X as <-; reflexivity|]. intros X. apply bind_Ok in X. destruct X as (t & Ht & X).
    rewrite (IH t X). apply bind_Ok in Ht. destruct Ht as (n & _ & Ht). unfold store in Ht. destruct (snd x) as [b|i].
    - apply bind_Ok in Ht. destruct Ht as (_ & _ & Ht). injection Ht as <-. reflexivity.
    - apply bind_Ok in Ht. destruct Ht as (m & _ & Ht). unfold put_node in Ht. apply bind_Ok in Ht. destruct Ht as (_ & _ & Ht). injection Ht as <-. reflexivity. }
  rewrite Hz. destruct (Z.eqb_spec pos (d_size s - 1)) as [_|Hne].
  - cbn [bind]. destruct (pop_node s1); reflexivity.
  - destruct H as [->|H]; [|contradiction]. destruct (foldM _ (map fst sl) s1) as [t|]; [|reflexivity]. cbn [bind]. destruct (get_node t (d_size s - 1)) as [n|]; [|reflexivity]. cbn [bind].
    destruct (put_node t pos n) as [s2|]; [|reflexivity]. cbn [bind]. destruct (pop_node s2); reflexivity.
Qed.
Lemma lift_give : forall x, (let* y := lift x in give_erased y) = let* y := x in give_next y.
Proof. intros [(s, p)|]; reflexivity. Qed.

(** ** The state left behind. *)
Lemma stuck : forall (s : dense) pos sl, dwf s -> live s pos -> pos <> d_size s - 1 ->
  NoDup (map fst sl) -> (forall j, In j (map fst sl) <-> (j < nk)%nat) -> (forall j p, In (j, p) sl -> slot_of s pos j p) ->
  exists t, t_erase_node true s pos sl = Ok (t, None) /\ same s t /\
    forall j, (j < nk)%nat -> exists a r c d hd1 nx1, let en := d_size s - 1 in let bx := bkj s j pos in let bz := bkj s j en in
      (seg (nxj s j) (hdj s j bx) (a ++ pos :: r) /\ NoDup (a ++ pos :: r) /\ (forall i, In i (a ++ pos :: r) <-> live s i /\ bkj s j i = bx)) /\
      hd1 = sth (hdj s j) (ptr_at bx a) (nxj s j pos) /\ nx1 = stn (nxj s j) (ptr_at bx a) (nxj s j pos) /\
      chains hd1 nx1 (fun i => live s i /\ i <> pos) (bkj s j) (d_bc s) /\
      (seg nx1 (hd1 bz) (c ++ en :: d) /\ NoDup (c ++ en :: d) /\ (forall i, In i (c ++ en :: d) <-> (live s i /\ i <> pos) /\ bkj s j i = bz)) /\
      (forall b, hdj t j b = sth hd1 (ptr_at bz c) pos b) /\ (forall i, nxj t j i = stn nx1 (ptr_at bz c) pos i).
Proof.
  intros s pos sl W Hl Hne Hnd Hsl Hslot. pose proof (w_size _ _ _ _ _ W) as Hsz. pose proof (w_cap _ _ _ _ _ W) as Hcp. pose proof (w_mem _ _ _ _ _ W) as Hm.
  assert (Hbc : 0 < d_bc s) by (apply (w_bucket _ _ _ _ _ W); unfold live in Hl; lia).
  destruct (w_live _ _ _ _ _ W pos Hl) as (np & Hnp). unfold live in Hl. set (en := d_size s - 1) in *.
  destruct (fold_idx (fun t jp => let* n := get_node t pos in store t (fst jp) (snd jp) (n_next n (fst jp))) fst
    (fun jp h n => exists a r, (seg (nxj s (fst jp)) (hdj s (fst jp) (bkj s (fst jp) pos)) (a ++ pos :: r) /\ NoDup (a ++ pos :: r) /\ (forall i, In i (a ++ pos :: r) <-> live s i /\ bkj s (fst jp) i = bkj s (fst jp) pos)) /\
      h = sth (hdj s (fst jp)) (ptr_at (bkj s (fst jp) pos) a) (nxj s (fst jp) pos) /\ n = stn (nxj s (fst jp)) (ptr_at (bkj s (fst jp) pos) a) (nxj s (fst jp) pos) /\
      chains h n (fun i => live s i /\ i <> pos) (bkj s (fst jp)) (d_bc s)) sl s Hnd) as (s1 & Hf1 & Hs1 & Hd1 & _).
  { intros (j, p) t Hjp Hst (Hv1 & Hv2). cbn [fst snd] in *. destruct (Hslot j p Hjp) as (a & r & Hseg & Hn & Hin & ->).
    assert (Hj : (j < nk)%nat) by (apply Hsl; apply (in_map fst) in Hjp; exact Hjp).
    destruct (same_node s t pos np Hst Hnp) as (nt & Hnt & _). rewrite (get_node_ok t pos nt (same_okm _ _ Hst Hm) Hnt). cbn [bind].
    assert (Hnx : n_next nt j = nxj s j pos) by (rewrite <- Hv2; unfold nxj; rewrite Hnt; reflexivity). rewrite Hnx.
    destruct (store_ok t j (ptr_at (bkj s j pos) a) (nxj s j pos) (same_okm _ _ Hst Hm)) as (t' & Hst' & Htt & Hh & Hx & Ho).
    { apply (same_vptr s t _ Hst). apply vptr_at; [apply bk_range; exact Hbc|]. intros i Hi. apply (w_live _ _ _ _ _ W). apply (Hin i). apply in_or_app. left. exact Hi. }
    exists t', (sth (hdj s j) (ptr_at (bkj s j pos) a) (nxj s j pos)), (stn (nxj s j) (ptr_at (bkj s j pos) a) (nxj s j pos)).
    split; [exact Hst'|]. split; [exact Htt|]. split; [|split; [|split; [|exact Ho]]].
    - exists a, r. split; [auto|]. split; [reflexivity|]. split; [reflexivity|].
      apply (chains_remove (hdj s j) (nxj s j) (live s) (bkj s j) (d_bc s) pos a r); auto; [apply (w_chain _ _ _ _ _ W j Hj)|apply bk_range; exact Hbc].
    - intros b. rewrite Hh. apply sth_eq. exact Hv1.
    - intros i. rewrite Hx. apply stn_eq. exact Hv2. }
  pose proof (same_okm _ _ Hs1 Hm) as Hm1.
  destruct (w_live _ _ _ _ _ W en) as (ne & Hne'); [unfold live; lia|].
  destruct (same_node s s1 en ne Hs1 Hne') as (ne1 & Hne1 & Hv1 & Hh1).
  destruct (fold_idx (move_chain en pos) (fun j => j)
    (fun j h n => exists a r c d hd1 nx1, let bx := bkj s j pos in let bz := bkj s j en in
      (seg (nxj s j) (hdj s j bx) (a ++ pos :: r) /\ NoDup (a ++ pos :: r) /\ (forall i, In i (a ++ pos :: r) <-> live s i /\ bkj s j i = bx)) /\
      hd1 = sth (hdj s j) (ptr_at bx a) (nxj s j pos) /\ nx1 = stn (nxj s j) (ptr_at bx a) (nxj s j pos) /\
      chains hd1 nx1 (fun i => live s i /\ i <> pos) (bkj s j) (d_bc s) /\
      (seg nx1 (hd1 bz) (c ++ en :: d) /\ NoDup (c ++ en :: d) /\ (forall i, In i (c ++ en :: d) <-> (live s i /\ i <> pos) /\ bkj s j i = bz)) /\
      h = sth hd1 (ptr_at bz c) pos /\ n = stn nx1 (ptr_at bz c) pos) (map fst sl) s1) as (s2 & Hf2 & Hs2 & Hd2 & _).
  { rewrite map_id. exact Hnd. }
  { intros j t Hjl Hst (Hw1 & Hw2). assert (Hj : (j < nk)%nat) by (apply Hsl; exact Hjl).
    apply in_map_iff in Hjl. destruct Hjl as ((j0, p) & Hj0 & Hjp). cbn [fst] in Hj0. subst j0.
    destruct (Hd1 (j, p) Hjp) as (h & n & (a0 & r0 & HX & Eh & En & HC) & H1 & H2). cbn [fst] in *.
    destruct (same_node s1 t en ne1 Hst Hne1) as (nt & Hnt & _ & Hht). pose proof (same_okm _ _ Hst Hm1) as Hmt.
    unfold move_chain. rewrite (get_node_ok t en nt Hmt Hnt). cbn [bind]. unfold get_chain. rewrite (sm_bc _ _ Hst), (sm_bc _ _ Hs1).
    destruct (Z.eqb_spec (d_bc s) 0); [lia|]. cbn [deref bind].
    assert (Hbk : n_hash nt j mod d_bc s = bkj s j en) by (unfold bkj, hsj; rewrite Hne', Hht, Hh1; reflexivity). rewrite Hbk.
    pose proof (bk_range s j en Hbc) as Hbr.
    destruct (chains_split h n (fun i => live s i /\ i <> pos) (bkj s j) (d_bc s) en HC) as (a & r & Hseg & Hn & Hin).
    { unfold live. lia. } { exact Hbr. }
    set (b := bkj s j en) in *.
    assert (Hsegt : seg (nxj t j) (hdj t j b) (a ++ en :: r)) by (rewrite Hw1, H1; apply (seg_ext _ n); [intros i _; rewrite Hw2; apply H2|exact Hseg]).
    assert (Hlvt : forall i, In i (a ++ en :: r) -> exists n, d_nodes t i = Some n).
    { intros i Hi. apply Hin in Hi. destruct (w_live _ _ _ _ _ W i) as (ni & Hni); [apply Hi|]. destruct (same_node s s1 i ni Hs1 Hni) as (n1 & Hn1 & _). destruct (same_node s1 t i n1 Hst Hn1) as (n2 & Hn2 & _). exists n2. exact Hn2. }
    assert (Hbct : 0 <= b < d_bc t) by (rewrite (sm_bc _ _ Hst), (sm_bc _ _ Hs1); exact Hbr).
    assert (Hfp : find_chain_ptr (chain_fuel t) t j (PBucket b) en = Ok (ptr_at b a)).
    { change (PBucket b) with (ptr_at b []). change (ptr_at b a) with (ptr_at b ([] ++ a)). apply (find_chain_ptr_ok (chain_fuel t) t j b a [] en r Hmt Hbct); auto.
      - assert (Hle : Z.of_nat (length (a ++ en :: r)) <= Z.max 0 (d_size s)) by (apply nodup_bound; [exact Hn|]; intros i Hi; apply Hin in Hi; apply Hi).
        rewrite app_length in Hle. cbn [length] in Hle. unfold chain_fuel. rewrite (sm_size _ _ Hst), (sm_size _ _ Hs1). lia.
      - intros Hi. apply NoDup_remove_2 in Hn. apply Hn. apply in_or_app. left. exact Hi. }
    rewrite Hfp. cbn [bind].
    assert (Hvp : vptr t (ptr_at b a)) by (apply vptr_at; [exact Hbct|]; intros i Hi; apply Hlvt; apply in_or_app; left; exact Hi).
    rewrite (load_ok t j _ Hmt Hvp). cbn [bind]. rewrite (ldp_at _ _ b a (en :: r) Hsegt). cbv iota.
    destruct (Z.eqb_spec en npos) as [Hx|_]; [unfold npos in Hx; lia|]. cbn [negb guard bind].
    destruct (store_ok t j (ptr_at b a) pos Hmt Hvp) as (t' & Hst' & Htt & Hh & Hx & Ho).
    exists t', (sth h (ptr_at b a) pos), (stn n (ptr_at b a) pos). split; [exact Hst'|]. split; [exact Htt|]. split; [|split; [|split; [|exact Ho]]].
    - exists a0, r0, a, r, h, n. cbv zeta. subst h n. split; [exact HX|]. split; [reflexivity|]. split; [reflexivity|]. split; [exact HC|]. split; [|split; reflexivity]. auto.
    - intros c. rewrite Hh. apply sth_eq. intros x. rewrite Hw1. apply H1.
    - intros i. rewrite Hx. apply stn_eq. intros x. rewrite Hw2. apply H2. }
  exists s2. split; [|split; [exact (same_trans _ _ _ Hs1 Hs2)|]].
  - unfold t_erase_node. destruct (Z.eqb_spec pos (d_size s)) as [Hx|_]; [lia|]. cbn [negb guard bind]. rewrite Hf1. cbn [bind]. rewrite (sm_size _ _ Hs1). fold en.
    destruct (Z.eqb_spec pos en) as [|_]; [contradiction|]. rewrite Hf2. cbn [bind].
    destruct (same_node s1 s2 en ne1 Hs2 Hne1) as (ne2 & Hne2 & _). rewrite (get_node_ok s2 en ne2 (same_okm _ _ Hs2 Hm1) Hne2). reflexivity.
  - intros j Hj. destruct (Hd2 j) as (h & n & (a & r & c & d & hd1 & nx1 & HX & E1 & E2 & HC & HZ & -> & ->) & H1 & H2); [apply Hsl; exact Hj|].
    exists a, r, c, d, hd1, nx1. cbv zeta. repeat (split; [assumption|]). assumption.
Qed.
(** ** The call. *)
Lemma loop_find : forall bad fuel (s : dense) j k h p i q, find_loop key_of keq fuel s j k h p = Ok (i, q) ->
  (load s j q = Ok npos /\ i = d_size s /\ t_erase_loop nk key_of keq bad fuel s j k h p = Ok (s, Some (d_size s))) \/
  (exists n, load s j q = Ok i /\ i <> npos /\ get_node s i = Ok n /\ t_erase_loop nk key_of keq bad fuel s j k h p =
     (let* sl := chains_to s n i (filter (fun x => negb (Nat.eqb x j)) (js nk)) in t_erase_node bad s i ((j, q) :: sl))).
Proof.
  intros bad. induction fuel as [|fu IH]; intros s j k h p i q H; [discriminate|]. cbn [find_loop t_erase_loop] in *.
  apply bind_Ok in H. destruct H as (v & Hv & H). rewrite Hv. cbn [bind]. destruct (Z.eqb_spec v npos) as [->|Hne].
  - injection H as <- <-. left. auto.
  - apply bind_Ok in H. destruct H as (n & Hn & H). rewrite Hn. cbn [bind]. destruct ((n_hash n j =? h) && keq k (key_of j (n_val n))).
    + injection H as <- <-. right. exists n. auto.
    + apply IH. exact H.
Qed.

Definition slices (s : dense) (pos : Z) (sl : list (nat * cptr)) : Prop :=
  NoDup (map fst sl) /\ (forall j, In j (map fst sl) <-> (j < nk)%nat) /\ (forall j p, In (j, p) sl -> slot_of s pos j p).

Lemma key_call : forall (s : dense) j k, dwf s -> (j < nk)%nat -> 0 < d_bc s ->
  ((forall i, live s i -> ~ matches s j k i) /\ forall bad, t_erase_key nk key_of hash keq bad s j k = Ok (s, Some (d_size s))) \/
  (exists i sl, live s i /\ matches s j k i /\ slices s i sl /\ forall bad, t_erase_key nk key_of hash keq bad s j k = t_erase_node bad s i sl).
Proof.
  intros s j k W Hj Hbc. pose proof (w_mem _ _ _ _ _ W) as Hm. pose proof (w_size _ _ _ _ _ W) as Hsz.
  destruct (find_node_gen key_of hash keq KL s (live s) j k Hm Hbc ltac:(lia)) as (b & l & Hb & Hbe & Hs & Hnd & Hin & Hlen & Hcase).
  { intros i Hi. split; [exact Hi|]. destruct (w_live _ _ _ _ _ W i Hi) as (n & Hn). exists n. split; [exact Hn|]. apply (w_hash _ _ _ _ _ W i n j Hn Hj). }
  { apply (w_chain _ _ _ _ _ W j Hj). }
  unfold t_erase_key, get_chain. destruct (Z.eqb_spec (d_bc s) 0) as [|_]; [lia|]. cbn [deref bind]. rewrite <- Hbe.
  assert (Hlv : forall x, In x l -> exists n, d_nodes s x = Some n) by (intros x Hx; apply (w_live _ _ _ _ _ W); apply (Hin x); exact Hx).
  destruct Hcase as [(a & i & r & -> & (n & Hn & Hk) & _ & Hf & _)|(Hno & Hf)].
  - right. assert (Hil : live s i /\ bkj s j i = b) by (apply Hin; apply in_or_app; right; left; reflexivity).
    destruct (chains_to_ok nk key_of hash keq s i n (filter (fun x => negb (Nat.eqb x j)) (js nk)) W Hn) as (sl & H1 & H2 & H3); [intros x Hx; apply filter_In in Hx; apply js_in; apply Hx|].
    exists i, ((j, ptr_at b a) :: sl). split; [apply Hil|]. split; [exists n; auto|]. split.
    + split; [|split].
      * cbn [map fst]. rewrite H2. constructor; [intros Hx; apply filter_In in Hx; rewrite Nat.eqb_refl in Hx; destruct Hx; discriminate|apply NoDup_filter; apply js_nodup].
      * intros x. cbn [map fst]. rewrite H2. cbn [In]. rewrite filter_In, js_in. destruct (Nat.eqb_spec x j) as [->|Hxj]; cbn [negb]; [tauto|]. split; [intros [<-|(Hx & _)]; [congruence|exact Hx]|auto].
      * intros x p [Hx|Hx]; [|apply H3; exact Hx]. injection Hx as <- <-. destruct Hil as (_ & Hbi). exists a, r. rewrite Hbi. auto.
    + intros bad. destruct (loop_find bad _ _ _ _ _ _ _ _ Hf) as [(Hld & _)|(n' & Hld & Hip & Hn' & He)].
      * rewrite (load_ok s j _ Hm) in Hld by (apply vptr_at; [exact Hb|]; intros x Hx; apply Hlv; apply in_or_app; left; exact Hx).
        rewrite (ldp_at _ _ b a (i :: r) Hs) in Hld. injection Hld as Hld. exfalso. apply (seg_npos _ _ _ i Hs); [apply in_or_app; right; left; reflexivity|exact Hld].
      * rewrite (get_node_ok s i n Hm Hn) in Hn'. injection Hn' as <-. rewrite H1 in He. cbn [bind] in He. exact He.
  - left. split; [exact Hno|]. intros bad. unfold find_node, get_chain in Hf. destruct (Z.eqb_spec (d_bc s) 0); [lia|]. rewrite <- Hbe in Hf. apply bind_Ok in Hf. destruct Hf as ((i, q) & Hf & He).
    cbn [fst snd] in He. injection He as -> ->.
    destruct (loop_find bad _ _ _ _ _ _ _ _ Hf) as [(_ & _ & He)|(n' & Hld & Hip & Hn' & He)]; [exact He|].
    exfalso. apply get_node_inv in Hn'. pose proof (node_live nk key_of hash keq s _ n' W Hn') as Hx. unfold live in Hx. lia.
Qed.

(** A call that erases an element other than the last is erase_node at its slot. *)
Lemma displaced_call : forall v (s : dense) c i, dwf s -> dcall_ok nk c -> displaces key_of keq s c i ->
  exists sl, slices s i sl /\ forall bad, t_exec nk key_of hash keq rep bad v s c = let* x := t_erase_node bad s i sl in give_erased x.
Proof.
  intros v s c i W Hc (Hi & Hd). assert (Hbc : 0 < d_bc s) by (apply (w_bucket _ _ _ _ _ W); lia).
  destruct c as [| | |j k|p| | | | | | | | |]; try contradiction; cbn [dcall_ok t_exec] in *.
  - destruct Hd as (n & Hn & Hk). destruct (key_call s j k W Hc Hbc) as [(Hno & _)|(i' & sl & Hl & (n' & Hn' & Hk') & Hsl & He)].
    + exfalso. apply (Hno i); [unfold live; lia|exists n; auto].
    + assert (i' = i). { apply (w_uniq _ _ _ _ _ W i' i n' n j Hc Hn' Hn). apply (kl_trans _ _ KL _ k); [exact Hk'|apply (kl_sym _ _ KL); exact Hk]. } subst i'.
      exists sl. split; [exact Hsl|]. intros bad. rewrite He. reflexivity.
  - subst p. destruct (w_live _ _ _ _ _ W i) as (n & Hn); [unfold live; lia|].
    destruct (chains_to_ok nk key_of hash keq s i n (js nk) W Hn) as (sl & H1 & H2 & H3); [intros j; apply js_in|].
    exists sl. split; [split; [rewrite H2; apply js_nodup|split; [intros j; rewrite H2; apply js_in|exact H3]]|].
    intros bad. unfold t_erase_at. destruct (Z.eqb_spec i (d_size s)); [lia|]. rewrite (get_node_ok s i n (w_mem _ _ _ _ _ W) Hn). cbn [bind]. rewrite H1. reflexivity.
Qed.

Theorem throw_safe : forall bad v (s : dense) c, dwf s -> dcall_ok nk c -> dcall_pre c (delems s) ->
  (bad = false \/ forall i, ~ displaces key_of keq s c i) ->
  t_exec nk key_of hash keq rep bad v s c = dexec nk key_of hash keq rep v s c.
Proof.
  intros bad v s c W Hc Hp H. destruct c as [| | |j k|p| | | | | | | | |]; try reflexivity; cbn [dcall_ok dcall_pre t_exec dexec] in *.
  - rewrite <- lift_give. destruct H as [->|H].
    + assert (X : t_erase_key nk key_of hash keq false s j k = lift (erase_key nk key_of hash keq s j k)); [|rewrite X; reflexivity].
      unfold t_erase_key, erase_key. destruct (deref (get_chain s (hash k))) as [q|]; [|reflexivity]. cbn [bind]. generalize (chain_fuel s). intros fuel. revert q.
      induction fuel as [|fu IH]; intros q; [reflexivity|]. cbn [t_erase_loop erase_loop]. destruct (load s j q) as [x|]; [|reflexivity]. cbn [bind]. destruct (x =? npos); [reflexivity|].
      destruct (get_node s x) as [n|]; [|reflexivity]. cbn [bind]. destruct (_ && _); [|apply IH]. destruct (chains_to s n x _) as [sl|]; [|reflexivity]. cbn [bind]. apply node_same. left. reflexivity.
    + destruct (Z.eqb_spec (d_bc s) 0) as [Hz|Hz].
      { unfold t_erase_key, erase_key, get_chain. rewrite Hz. reflexivity. }
      pose proof (w_bc _ _ _ _ _ W) as Hb. assert (Hbc : 0 < d_bc s) by lia.
      destruct (key_call s j k W Hc Hbc) as [(Hno & He)|(i & sl & Hl & Hmt & Hsl & He)].
      * destruct (erase_key_ok nk key_of hash keq KL s j k W Hc Hbc) as [(_ & He')|(s' & pos & a & x & b & _ & _ & Hde & Hk & Ha & Hl & _)]; [rewrite He, He'; reflexivity|].
        exfalso. apply (Hno pos Hl). destruct (w_live _ _ _ _ _ W pos Hl) as (n & Hn). exists n. split; [exact Hn|].
        pose proof (delems_nth nk key_of hash keq s pos W Hl) as Hx. rewrite Hde, <- Ha, nth_error_app2, Nat.sub_diag in Hx by lia. cbn [nth_error] in Hx. unfold val in Hx. rewrite Hn in Hx. cbn [option_map] in Hx. congruence.
      * assert (Hi : i = d_size s - 1). { unfold live in Hl. destruct (Z.eq_dec i (d_size s - 1)) as [|X]; [assumption|]. exfalso. apply (H i). split; [lia|exact Hmt]. }
        assert (X : t_erase_key nk key_of hash keq bad s j k = lift (erase_key nk key_of hash keq s j k)); [|rewrite X; reflexivity].
        rewrite He, (node_same s i sl bad (or_intror Hi)). f_equal. pose proof (He false) as Hf. rewrite (node_same s i sl false (or_introl eq_refl)) in Hf.
        assert (Y : t_erase_key nk key_of hash keq false s j k = lift (erase_key nk key_of hash keq s j k)).
        { unfold t_erase_key, erase_key. destruct (deref (get_chain s (hash k))) as [q|]; [|reflexivity]. cbn [bind]. generalize (chain_fuel s). intros fuel. revert q.
          induction fuel as [|fu IH]; intros q; [reflexivity|]. cbn [t_erase_loop erase_loop]. destruct (load s j q) as [x|]; [|reflexivity]. cbn [bind]. destruct (x =? npos); [reflexivity|].
          destruct (get_node s x) as [n|]; [|reflexivity]. cbn [bind]. destruct (_ && _); [|apply IH]. destruct (chains_to s n x _) as [sl'|]; [|reflexivity]. cbn [bind]. apply node_same. left. reflexivity. }
        rewrite Y in Hf. unfold lift in Hf. destruct (erase_key nk key_of hash keq s j k) as [(u, p)|], (erase_node s i sl) as [(u', p')|]; cbn [bind fst snd] in Hf; congruence.
  - rewrite <- lift_give. assert (X : t_erase_at nk bad s p = lift (erase_at nk s p)); [|rewrite X; reflexivity].
    unfold t_erase_at, erase_at. destruct (Z.eqb_spec p (d_size s)) as [|Hne]; [reflexivity|]. destruct (get_node s p) as [n|]; [|reflexivity]. cbn [bind].
    destruct (chains_to s n p (js nk)) as [sl|]; [|reflexivity]. cbn [bind]. apply node_same. destruct H as [->|H]; [left; reflexivity|right].
    rewrite (delems_len nk key_of hash keq s W) in Hp. pose proof (w_size _ _ _ _ _ W). destruct (Z.eq_dec p (d_size s - 1)) as [|X]; [assumption|]. exfalso. apply (H p). split; [lia|reflexivity].
Qed.

(** ** Lookups in the state left behind. *)
Lemma contains_none : forall (t : dense) j k l, okm t -> 0 < d_bc t -> (length l < chain_fuel t)%nat ->
  seg (nxj t j) (hdj t j (hash k mod d_bc t)) l -> (forall i, In i l -> exists n, d_nodes t i = Some n /\ n_hash n j = hash (key_of j (n_val n))) ->
  (forall i, In i l -> ~ matches t j k i) -> contains key_of hash keq t j k = Ok false.
Proof.
  intros t j k l Hm Hbc Hlen Hs Hn Hno. unfold contains, find_node, get_chain. destruct (Z.eqb_spec (d_bc t) 0) as [|_]; [lia|].
  change (PBucket (hash k mod d_bc t)) with (ptr_at (hash k mod d_bc t) []).
  destruct (find_loop_ok key_of hash keq KL (chain_fuel t) t j k (hash k mod d_bc t) l [] Hm) as [(c1 & i & c2 & -> & _ & Hi & _)|(_ & Hf)]; auto.
  - apply Z.mod_pos_bound. exact Hbc.
  - intros i Hi. destruct (Hn i Hi) as (n & Hx & _). exists n. exact Hx.
  - intros i n Hx Hi. destruct (Hn i Hi) as (n' & Hy & Hh). rewrite Hx in Hy. injection Hy as <-. exact Hh.
  - exfalso. apply (Hno i); [apply in_or_app; right; left; reflexivity|exact Hi].
  - rewrite Hf. cbn [bind fst]. rewrite Z.eqb_refl. reflexivity.
Qed.
Lemma nodup_app : forall (a b : list Z), NoDup a -> NoDup b -> (forall i, In i a -> ~ In i b) -> NoDup (a ++ b).
Proof.
  induction a as [|x a IH]; intros b Ha Hb Hd; cbn [app]; [exact Hb|]. inversion Ha; subst. constructor.
  - intros Hi. apply in_app_or in Hi. destruct Hi as [Hi|Hi]; [contradiction|]. apply (Hd x); [left; reflexivity|exact Hi].
  - apply IH; auto. intros i Hi. apply Hd. right. exact Hi.
Qed.

(** The erased element and the last one are in different buckets: neither is found again. *)
Lemma lost_node : forall (s : dense) i sl, dwf s -> 0 <= i < d_size s - 1 -> slices s i sl ->
  exists t, t_erase_node true s i sl = Ok (t, None) /\ same s t /\ delems t = delems s /\
    forall j x y, (j < nk)%nat -> apart key_of hash s j i (d_size s - 1) -> d_nodes s i = Some x -> d_nodes s (d_size s - 1) = Some y ->
      contains key_of hash keq t j (key_of j (n_val x)) = Ok false /\ contains key_of hash keq t j (key_of j (n_val y)) = Ok false.
Proof.
  intros s i sl W Hi (S1 & S2 & S3).
  assert (Hbc : 0 < d_bc s) by (apply (w_bucket _ _ _ _ _ W); lia).
  destruct (stuck s i sl W) as (t & Ht & Hst & Hj); [unfold live; lia|lia|exact S1|exact S2|exact S3|].
  exists t. split; [exact Ht|]. split; [exact Hst|]. split.
  { unfold delems. rewrite (sm_size _ _ Hst). apply flat_map_ext. intros p. pose proof (sm_vh _ _ Hst p) as Hv. unfold vh in Hv. destruct (d_nodes t p), (d_nodes s p); cbn [option_map] in Hv; congruence. }
  intros j x y Hjn (x' & y' & Hx' & Hy' & Hap) Hx Hy. rewrite Hx in Hx'. injection Hx' as <-. rewrite Hy in Hy'. injection Hy' as <-.
  pose proof (same_okm _ _ Hst (w_mem _ _ _ _ _ W)) as Hmt.
  destruct (Hj j Hjn) as (a & r & c0 & d & hd1 & nx1 & (X1 & X2 & X3) & E1 & E2 & HC & (Z1 & Z2 & Z3) & Hh & Hn). set (en := d_size s - 1) in *. assert (Hen : en = d_size s - 1) by reflexivity.
  assert (Hbx : bkj s j i = hash (key_of j (n_val x)) mod d_bc s) by (unfold bkj, hsj; rewrite Hx, (w_hash _ _ _ _ _ W i x j Hx Hjn); reflexivity).
  assert (Hby : bkj s j en = hash (key_of j (n_val y)) mod d_bc s) by (unfold bkj, hsj; rewrite Hy, (w_hash _ _ _ _ _ W en y j Hy Hjn); reflexivity).
  rewrite <- Hbx, <- Hby in Hap.
  assert (Hlv : forall p, live s p -> exists n, d_nodes t p = Some n /\ n_hash n j = hash (key_of j (n_val n))).
  { intros p Hp. destruct (w_live _ _ _ _ _ W p Hp) as (n & Hpn). destruct (same_node s t p n Hst Hpn) as (n' & Hn' & Hv' & Hh'). exists n'. split; [exact Hn'|]. rewrite Hv', Hh'. apply (w_hash _ _ _ _ _ W p n j Hpn Hjn). }
  assert (Huniq : forall p q n, live s p -> d_nodes s q = Some n -> matches t j (key_of j (n_val n)) p -> p = q).
  { intros p q n Hp Hq (n' & Hn' & Hk). destruct (same_node t s p n' (same_sym _ _ Hst) Hn') as (n'' & Hn'' & Hv & _). rewrite <- Hv in Hk. apply (w_uniq _ _ _ _ _ W p q n'' n j Hjn Hn'' Hq Hk). }
  assert (Hir : ~ In i (a ++ r)) by (apply NoDup_remove_2 in X2; exact X2).
  assert (Har : NoDup (a ++ r)) by (apply NoDup_remove_1 in X2; exact X2).
  assert (Hrl : forall p, In p (a ++ r) -> live s p /\ bkj s j p = bkj s j i) by (intros p Hp; apply X3; apply in_app_or in Hp; apply in_or_app; cbn [In]; tauto).
  assert (Hcl : forall p, In p c0 -> (live s p /\ p <> i) /\ bkj s j p = bkj s j en) by (intros p Hp; apply Z3; apply in_or_app; left; exact Hp).
  assert (Hbrx : 0 <= bkj s j i < d_bc s) by (apply bk_range; exact Hbc). assert (Hbry : 0 <= bkj s j en < d_bc s) by (apply bk_range; exact Hbc).
  assert (Hseg_r : seg nx1 (nxj s j i) r).
  { apply seg_app in X1. destruct X1 as (_ & X1). subst nx1. apply (seg_ext r (nxj s j)); [|exact X1]. intros p Hp. apply stn_ptr_other. intros Ha.
    clear - Har Hp Ha. induction a as [|z a IH]; [destruct Ha|]. cbn [app] in Har. inversion Har; subst. destruct Ha as [->|Ha]; [apply H1; apply in_or_app; right; exact Hp|exact (IH H2 Ha)]. }
  assert (Hnxi : nx1 i = nxj s j i) by (subst nx1; apply stn_ptr_other; intros Hp; apply Hir; apply in_or_app; left; exact Hp).
  assert (Hsx : seg (nxj t j) (hdj t j (bkj s j i)) (a ++ r)).
  { rewrite Hh. apply (seg_ext _ (stn nx1 (ptr_at (bkj s j en) c0) i)); [intros p _; apply Hn|].
    apply (other_bucket hd1 nx1 (fun p => live s p /\ p <> i) (bkj s j) (d_bc s) (bkj s j en) c0 (en :: d) _ i (bkj s j i) (a ++ r) HC Hbry Hbrx); auto.
    - intros p Hp. apply Hcl. exact Hp.
    - subst hd1 nx1. apply (seg_store (hdj s j) (nxj s j) (bkj s j i) a (i :: r) r (nxj s j i) X1).
      + exact (nodup_left a r Har).
      + intros p Hp Hq. clear - Har Hp Hq. induction a as [|z a IH]; [destruct Hp|]. cbn [app] in Har. inversion Har; subst. destruct Hp as [->|Hp]; [apply H1; apply in_or_app; right; exact Hq|exact (IH H2 Hp)].
      + apply seg_app in X1. apply X1.
    - intros p Hp. apply Hrl. exact Hp. }
  assert (Hsy : seg (nxj t j) (hdj t j (bkj s j en)) (c0 ++ i :: r)).
  { rewrite Hh. apply (seg_ext _ (stn nx1 (ptr_at (bkj s j en) c0) i)); [intros p _; apply Hn|].
    apply (seg_store hd1 nx1 (bkj s j en) c0 (en :: d) (i :: r) i Z1).
    - exact (nodup_left c0 _ Z2).
    - intros p Hp [<-|Hq]; [destruct (Hcl i Hp); tauto|]. destruct (Hrl p) as (_ & B1); [apply in_or_app; right; exact Hq|]. destruct (Hcl p Hp) as (_ & B2). congruence.
    - cbn [seg]. split; [reflexivity|]. split; [apply (seg_npos _ _ _ i X1); apply in_or_app; right; left; reflexivity|]. rewrite Hnxi. exact Hseg_r. }
  assert (Hli : live s i) by (unfold live; lia).
  assert (Hsl : forall p, In p (c0 ++ i :: r) -> live s p).
  { intros p Hp. apply in_app_or in Hp. destruct Hp as [Hp|[<-|Hp]]; [apply Hcl; exact Hp|exact Hli|]. apply Hrl. apply in_or_app. right. exact Hp. }
  split.
  - apply (contains_none t j _ (a ++ r) Hmt); try (rewrite (sm_bc _ _ Hst)).
    + exact Hbc.
    + assert (Hle : Z.of_nat (length (a ++ r)) <= Z.max 0 (d_size s)) by (apply nodup_bound; [exact Har|]; intros p Hp; apply Hrl in Hp; apply Hp). unfold chain_fuel. rewrite (sm_size _ _ Hst). lia.
    + rewrite <- Hbx. exact Hsx.
    + intros p Hp. apply Hlv. apply Hrl. exact Hp.
    + intros p Hp Hmt'. assert (p = i) by (apply (Huniq p i x); [apply Hrl; exact Hp|exact Hx|exact Hmt']). subst p. contradiction.
  - apply (contains_none t j _ (c0 ++ i :: r) Hmt); try (rewrite (sm_bc _ _ Hst)).
    + exact Hbc.
    + assert (Hle : Z.of_nat (length (c0 ++ i :: r)) <= Z.max 0 (d_size s)).
      { apply nodup_bound; [|exact Hsl]. apply nodup_app; [exact (nodup_left c0 _ Z2)| |].
        - constructor; [intros Hp; apply Hir; apply in_or_app; right; exact Hp|]. clear - Har. induction a as [|z a IH]; [exact Har|]. cbn [app] in Har. inversion Har; subst. exact (IH H2).
        - intros p Hp [<-|Hq]; [destruct (Hcl i Hp); tauto|]. destruct (Hrl p) as (_ & B1); [apply in_or_app; right; exact Hq|]. destruct (Hcl p Hp) as (_ & B2). congruence. }
      unfold chain_fuel. rewrite (sm_size _ _ Hst). lia.
    + rewrite <- Hby. exact Hsy.
    + intros p Hp. apply Hlv. apply Hsl. exact Hp.
    + intros p Hp Hmt'. assert (p = en) by (apply (Huniq p en y); [apply Hsl; exact Hp|exact Hy|exact Hmt']). subst p.
      apply in_app_or in Hp. destruct Hp as [Hp|[Hp|Hp]].
      * apply NoDup_remove_2 in Z2. apply Z2. apply in_or_app. left. exact Hp.
      * lia.
      * destruct (Hrl en) as (_ & B); [apply in_or_app; right; exact Hp|]. congruence.
Qed.
Theorem throw_lost : forall v (s : dense) c i, dwf s -> dcall_ok nk c -> displaces key_of keq s c i ->
  exists t, t_exec nk key_of hash keq rep true v s c = Ok (t, QThrow) /\ d_size t = d_size s /\ delems t = delems s /\
    forall j x y, (j < nk)%nat -> apart key_of hash s j i (d_size s - 1) -> d_nodes s i = Some x -> d_nodes s (d_size s - 1) = Some y ->
      contains key_of hash keq t j (key_of j (n_val x)) = Ok false /\ contains key_of hash keq t j (key_of j (n_val y)) = Ok false.
Proof.
  intros v s c i W Hc Hd. destruct (displaced_call v s c i W Hc Hd) as (sl & Hsl & He). destruct Hd as (Hi & _).
  destruct (lost_node s i sl W Hi Hsl) as (t & Ht & Hst & Hd & Hlost). exists t. split; [rewrite He, Ht; reflexivity|]. split; [apply (sm_size _ _ Hst)|]. auto.
Qed.
(** The erased element stands before the last one in a chain, with others between them: the chain
    leads back into itself. *)
Lemma along_seg : forall l (s : dense) j p r, along s j p l -> okm s -> vptr s p -> (forall i, In i r -> exists n, d_nodes s i = Some n) ->
  seg (nxj s j) (ldp (hdj s j) (nxj s j) p) r -> exists d, r = l ++ d.
Proof.
  induction l as [|i l IH]; intros s j p r Ha Hm Hp Hr Hs; [exists r; reflexivity|]. cbn [along] in Ha. destruct Ha as (Hl & Hi & Ha).
  rewrite (load_ok s j p Hm Hp) in Hl. injection Hl as Hl. rewrite Hl in Hs. destruct r as [|x r]; cbn [seg] in Hs; [contradiction|].
  destruct Hs as (<- & Hx & Hs). destruct (IH s j (PNext i) r Ha Hm) as (d & ->); [apply Hr; left; reflexivity|intros y Hy; apply Hr; right; exact Hy|exact Hs|].
  exists d. reflexivity.
Qed.
Lemma seg_det : forall l l' nx v, seg nx v l -> seg nx v l' -> l = l'.
Proof.
  induction l as [|x l IH]; intros [|x' l'] nx v H H'; cbn [seg] in *; [reflexivity|destruct H' as (<- & X & _); contradiction|destruct H as (<- & X & _); contradiction|].
  destruct H as (-> & _ & H), H' as (-> & _ & H'). f_equal. exact (IH l' nx _ H H').
Qed.
Lemma closed_loop : forall (t : dense) j k C, okm t -> (forall i, In i C -> exists n, d_nodes t i = Some n /\ keq k (key_of j (n_val n)) = false) ->
  (forall i, In i C -> i <> npos /\ In (nxj t j i) C) -> forall fuel p, vptr t p -> In (ldp (hdj t j) (nxj t j) p) C ->
  find_loop key_of keq fuel t j k (hash k) p = Err Diverges.
Proof.
  intros t j k C Hm Hn Hc. induction fuel as [|fu IH]; intros p Hp Hi; [reflexivity|]. cbn [find_loop]. rewrite (load_ok t j p Hm Hp). cbn [bind].
  destruct (Z.eqb_spec (ldp (hdj t j) (nxj t j) p) npos) as [Hx|_]; [exfalso; apply (Hc _ Hi); exact Hx|]. set (i := ldp (hdj t j) (nxj t j) p) in *.
  destruct (Hn i Hi) as (n & Hni & Hk). rewrite (get_node_ok t i n Hm Hni). cbn [bind]. rewrite Hk, andb_false_r. apply IH; [exists n; exact Hni|]. cbn [ldp]. apply Hc. exact Hi.
Qed.
Lemma app_split : forall (a a' : list Z) x r r', NoDup (a ++ x :: r) -> a ++ x :: r = a' ++ x :: r' -> a = a' /\ r = r'.
Proof.
  induction a as [|y a IH]; intros [|y' a'] x r r' Hnd He; cbn [app] in *.
  - injection He as ->. auto.
  - injection He as <- ->. exfalso. inversion Hnd; subst. apply H1. apply in_or_app. right. left. reflexivity.
  - injection He as -> <-. exfalso. inversion Hnd; subst. apply H1. apply in_or_app. right. left. reflexivity.
  - injection He as -> He. inversion Hnd; subst. destruct (IH a' x r r' H2 He) as (-> & ->). auto.
Qed.
(** Following one's way through a chain. *)
Lemma seg_steps : forall l nx v x r, seg nx v (l ++ x :: r) -> In v (l ++ [x]) /\ forall y, In y l -> In (nx y) (l ++ [x]).
Proof.
  induction l as [|z l IH]; intros nx v x r Hs; cbn [app seg] in *.
  - destruct Hs as (-> & _). split; [left; reflexivity|intros y []].
  - destruct Hs as (-> & _ & Hs). destruct (IH _ _ _ _ Hs) as (H1 & H2). split; [left; reflexivity|]. intros y [<-|Hy]; right; [exact H1|exact (H2 y Hy)].
Qed.

Theorem throw_cycle : forall v (s : dense) c i j k a m b, dwf s -> dcall_ok nk c -> displaces key_of keq s c i -> (j < nk)%nat ->
  chain_of hash s j k (a ++ i :: m :: b ++ [d_size s - 1]) -> (forall p n, d_nodes s p = Some n -> keq (key_of j (n_val n)) k = false) ->
  exists t, t_exec nk key_of hash keq rep true v s c = Ok (t, QThrow) /\
    forall fuel, find_loop key_of keq fuel t j k (hash k) (PBucket (hash k mod d_bc t)) = Err Diverges.
Proof.
  intros v s c i j k a m b W Hc Hd Hjn Hch Hab. destruct (displaced_call v s c i W Hc Hd) as (sl & (S1 & S2 & S3) & He). destruct Hd as (Hi & _).
  assert (Hbc : 0 < d_bc s) by (apply (w_bucket _ _ _ _ _ W); lia). pose proof (w_mem _ _ _ _ _ W) as Hm.
  destruct (stuck s i sl W) as (t & Ht & Hst & Hj); [unfold live; lia|lia|exact S1|exact S2|exact S3|].
  exists t. split; [rewrite He, Ht; reflexivity|]. unfold chain_of in Hch. rewrite (sm_bc _ _ Hst). set (B := hash k mod d_bc s) in *. set (en := d_size s - 1) in *.
  assert (HB : 0 <= B < d_bc s) by (apply Z.mod_pos_bound; exact Hbc).
  pose proof (same_okm _ _ Hst Hm) as Hmt.
  destruct (w_chain _ _ _ _ _ W j Hjn B HB) as (l & Hl & Hnd & Hin).
  assert (Hll : forall p, In p l -> exists n, d_nodes s p = Some n) by (intros p Hp; apply (w_live _ _ _ _ _ W); apply (Hin p); exact Hp).
  destruct (along_seg _ s j (PBucket B) l Hch Hm HB Hll Hl) as (d & El).
  destruct (Hj j Hjn) as (a0 & r0 & c0 & d0 & hd1 & nx1 & (X1 & X2 & X3) & E1 & E2 & HC & (Z1 & Z2 & Z3) & Hh & Hn). fold en in Z1, Z2, Z3, Hh, Hn.
  assert (Bi : bkj s j i = B) by (apply (Hin i); rewrite El; apply in_or_app; left; apply in_or_app; right; left; reflexivity).
  assert (Be : bkj s j en = B) by (apply (Hin en); rewrite El; apply in_or_app; left; apply in_or_app; right; right; right; apply in_or_app; right; left; reflexivity).
  rewrite Bi in *. rewrite Be in *.
  assert (El' : l = a ++ i :: (m :: b) ++ en :: d) by (rewrite El, <- app_assoc; cbn [app]; rewrite <- app_assoc; reflexivity). clear El.
  pose proof (seg_det _ _ _ _ Hl X1) as Eq. rewrite El' in Eq, Hnd. destruct (app_split _ _ _ _ _ Hnd Eq) as (<- & <-).
  assert (Hni : ~ In i (a ++ (m :: b) ++ en :: d)) by (apply NoDup_remove_2 in Hnd; exact Hnd).
  assert (Hnd1 : NoDup (a ++ (m :: b) ++ en :: d)) by (apply NoDup_remove_1 in Hnd; exact Hnd).
  assert (Y1 : seg nx1 (hd1 B) (a ++ (m :: b) ++ en :: d)).
  { subst hd1 nx1. apply (seg_store (hdj s j) (nxj s j) B a (i :: (m :: b) ++ en :: d) _ (nxj s j i) X1).
    - exact (nodup_left a _ Hnd1).
    - intros p Hp Hq. clear - Hnd1 Hp Hq. induction a as [|z a IH]; [destruct Hp|]. cbn [app] in Hnd1. inversion Hnd1; subst. destruct Hp as [->|Hp]; [apply H1; apply in_or_app; right; exact Hq|exact (IH H2 Hp)].
    - apply seg_app in X1. apply X1. }
  pose proof (seg_det _ _ _ _ Y1 Z1) as Eq1. rewrite app_assoc in Eq1, Hnd1, Hni. destruct (app_split _ _ _ _ _ Hnd1 Eq1) as (<- & <-).
  assert (Hic : ~ In i (a ++ m :: b)) by (intros X; apply Hni; apply in_or_app; left; exact X).
  assert (Hsi : seg (upd nx1 i npos) (hd1 B) ((a ++ m :: b) ++ en :: d)) by (apply (seg_ext _ nx1); [|exact Z1]; intros p Hp; apply upd_other; intros ->; contradiction).
  assert (Hip : i <> npos) by (apply (seg_npos _ _ _ i X1); apply in_or_app; right; left; reflexivity).
  assert (Hst' : seg (stn (upd nx1 i npos) (ptr_at B (a ++ m :: b)) i) (sth hd1 (ptr_at B (a ++ m :: b)) i B) ((a ++ m :: b) ++ [i])).
  { apply (seg_store hd1 (upd nx1 i npos) B (a ++ m :: b) (en :: d) [i] i Hsi).
    - exact (nodup_left _ _ Hnd1).
    - intros p Hp [<-|[]]. contradiction.
    - cbn [seg]. rewrite upd_same. auto. }
  destruct (seg_steps _ _ _ _ _ Hst') as (T1 & T2).
  assert (Hnt : forall y, In y (a ++ m :: b) -> nxj t j y = stn (upd nx1 i npos) (ptr_at B (a ++ m :: b)) i y).
  { intros y Hy. assert (y <> i) by (intros ->; contradiction). rewrite Hn. destruct (ptr_at B (a ++ m :: b)) as [q|q]; cbn [stn]; unfold upd; destruct (Z.eqb_spec y q); destruct (Z.eqb_spec y i); congruence. }
  assert (Hnti : nxj t j i = m).
  { rewrite Hn, stn_ptr_other by exact Hic. subst nx1. rewrite stn_ptr_other by (intros X; apply Hic; apply in_or_app; left; exact X). apply seg_app in X1. destruct X1 as (_ & X1). cbn [app seg] in X1. exact (proj1 X1). }
  assert (Hlv : forall p, In p ((a ++ m :: b) ++ [i]) -> In p l).
  { intros p Hp. rewrite El'. rewrite !in_app_iff in *. cbn [In] in *. rewrite in_app_iff. cbn [In]. tauto. }
  intros fuel. apply (closed_loop t j k ((a ++ m :: b) ++ [i]) Hmt).
  - intros p Hp. destruct (Hll p (Hlv p Hp)) as (n & Hpn). destruct (same_node s t p n Hst Hpn) as (n' & Hn' & Hv & _). exists n'. split; [exact Hn'|]. rewrite Hv.
    destruct (keq k (key_of j (n_val n))) eqn:Ek; [|reflexivity]. apply (kl_sym _ _ KL) in Ek. rewrite (Hab p n Hpn) in Ek. discriminate.
  - intros p Hp. split; [exact (seg_npos _ _ _ p Hl (Hlv p Hp))|]. apply in_app_or in Hp. destruct Hp as [Hp|[<-|[]]].
    + rewrite (Hnt p Hp). apply T2. exact Hp.
    + rewrite Hnti. apply in_or_app. left. apply in_or_app. right. left. reflexivity.
  - cbn [vptr]. rewrite (sm_bc _ _ Hst). exact HB.
  - cbn [ldp]. rewrite Hh. exact T1.
Qed.
End Proofs.
