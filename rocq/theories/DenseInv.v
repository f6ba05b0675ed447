(** Invariant of the dense table; memory access and lookup under the invariant. *)
From Coq Require Import ZArith List Bool Lia.
From Verif Require Import Base BaseLemmas MapSpec Float32 DenseSpec DenseModel DenseRun DenseChain.
Import ListNotations.
Open Scope Z_scope.

Section Views.
Context {E : Type}.
Notation dense := (dense E).
(** Heads, next positions, hashes and buckets of one key index. *)
Definition hdj (s : dense) (j : nat) (b : Z) : Z := d_sparse s b j.
Definition nxj (s : dense) (j : nat) (i : Z) : Z := match d_nodes s i with Some n => n_next n j | None => 0 end.
Definition hsj (s : dense) (j : nat) (i : Z) : Z := match d_nodes s i with Some n => n_hash n j | None => 0 end.
Definition bkj (s : dense) (j : nat) (i : Z) : Z := hsj s j i mod d_bc s.
Definition live (s : dense) (i : Z) : Prop := 0 <= i < d_size s.
Definition vh (s : dense) (i : Z) : option (E * (nat -> Z)) := option_map (fun n => (n_val n, n_hash n)) (d_nodes s i).

(** The buffers are usable and every node lies inside the element array. *)
Record okm (s : dense) : Prop := {
  om_sok : d_sok s = true;
  om_dok : d_dok s = true;
  om_in : forall i n, d_nodes s i = Some n -> 0 <= i < d_cap s
}.
(** Only chain positions differ. *)
Record same (s s' : dense) : Prop := {
  sm_size : d_size s' = d_size s;
  sm_cap : d_cap s' = d_cap s;
  sm_bc : d_bc s' = d_bc s;
  sm_sok : d_sok s' = d_sok s;
  sm_dok : d_dok s' = d_dok s;
  sm_mlf : d_mlf s' = d_mlf s;
  sm_vh : forall i, vh s' i = vh s i
}.
Lemma same_refl : forall s, same s s. Proof. intros s. constructor; reflexivity. Qed.
Lemma same_trans : forall a b c, same a b -> same b c -> same a c.
Proof. intros a b c [] []. constructor; congruence. Qed.

Lemma same_hs : forall s s' j i, same s s' -> hsj s' j i = hsj s j i.
Proof.
  intros s s' j i H. pose proof (sm_vh _ _ H i) as Hv. unfold vh, hsj in *.
  destruct (d_nodes s' i) as [n'|], (d_nodes s i) as [n|]; cbn [option_map] in Hv; congruence.
Qed.
Lemma same_bk : forall s s' j i, same s s' -> bkj s' j i = bkj s j i.
Proof. intros s s' j i H. unfold bkj. rewrite (same_hs s s' j i H), (sm_bc _ _ H). reflexivity. Qed.
Lemma same_node : forall s s' i n, same s s' -> d_nodes s i = Some n ->
  exists n', d_nodes s' i = Some n' /\ n_val n' = n_val n /\ n_hash n' = n_hash n.
Proof.
  intros s s' i n H Hn. pose proof (sm_vh _ _ H i) as Hv. unfold vh in Hv. rewrite Hn in Hv.
  destruct (d_nodes s' i) as [n'|]; cbn [option_map] in Hv; [|discriminate]. injection Hv as H1 H2. exists n'. auto.
Qed.
Lemma same_none : forall s s' i, same s s' -> d_nodes s i = None -> d_nodes s' i = None.
Proof.
  intros s s' i H Hn. pose proof (sm_vh _ _ H i) as Hv. unfold vh in Hv. rewrite Hn in Hv.
  destruct (d_nodes s' i) as [n'|]; cbn [option_map] in Hv; [discriminate|reflexivity].
Qed.
Lemma same_sym : forall s s', same s s' -> same s' s.
Proof. intros s s' []. constructor; congruence. Qed.
Lemma same_okm : forall s s', same s s' -> okm s -> okm s'.
Proof.
  intros s s' H [H1 H2 H3]. constructor; [rewrite (sm_sok _ _ H); exact H1|rewrite (sm_dok _ _ H); exact H2|].
  intros i n Hn. rewrite (sm_cap _ _ H). destruct (same_node s' s i n (same_sym _ _ H) Hn) as (n' & Hn' & _). exact (H3 i n' Hn').
Qed.

(** Pointers that may be dereferenced. *)
Definition vptr (s : dense) (p : cptr) : Prop :=
  match p with PBucket b => 0 <= b < d_bc s | PNext i => exists n, d_nodes s i = Some n end.
Lemma same_vptr : forall s s' p, same s s' -> vptr s p -> vptr s' p.
Proof.
  intros s s' [b|i] H; cbn [vptr]; [rewrite (sm_bc _ _ H); auto|]. intros (n & Hn).
  destruct (same_node s s' i n H Hn) as (n' & Hn' & _). exists n'. exact Hn'.
Qed.

Lemma get_node_ok : forall s i n, okm s -> d_nodes s i = Some n -> get_node s i = Ok n.
Proof.
  intros s i n Hm Hn. pose proof (om_in s Hm i n Hn). unfold get_node.
  destruct (Z.eqb_spec (d_cap s) 0); [lia|]. cbn [negb guard bind]. rewrite (om_dok s Hm). cbn [guard bind].
  destruct (Z.leb_spec 0 i); [|lia]. destruct (Z.ltb_spec i (d_cap s)); [|lia]. cbn [andb guard bind]. rewrite Hn. reflexivity.
Qed.
Lemma get_node_inv : forall (s : dense) i n, get_node s i = Ok n -> d_nodes s i = Some n.
Proof.
  intros s i n H. unfold get_node in H. destruct (negb (d_cap s =? 0)); [|discriminate]. cbn [guard bind] in H.
  destruct (d_dok s); [|discriminate]. cbn [guard bind] in H. destruct ((0 <=? i) && (i <? d_cap s)); [|discriminate]. cbn [guard bind] in H.
  destruct (d_nodes s i); [|discriminate]. congruence.
Qed.
Lemma put_node_ok : forall s i n n', okm s -> d_nodes s i = Some n -> put_node s i n' = Ok (set_nodes s (upd (d_nodes s) i (Some n'))).
Proof. intros s i n n' Hm Hn. unfold put_node. rewrite (get_node_ok s i n Hm Hn). reflexivity. Qed.
Lemma kill_node_ok : forall s i n, okm s -> d_nodes s i = Some n -> kill_node s i = Ok (set_nodes s (upd (d_nodes s) i None)).
Proof. intros s i n Hm Hn. unfold kill_node. rewrite (get_node_ok s i n Hm Hn). reflexivity. Qed.
Lemma new_node_ok : forall s i n, okm s -> 0 <= i < d_cap s -> d_nodes s i = None -> new_node s i n = Ok (set_nodes s (upd (d_nodes s) i (Some n))).
Proof.
  intros s i n Hm Hi Hn. unfold new_node.
  destruct (Z.eqb_spec (d_cap s) 0); [lia|]. cbn [negb guard bind]. rewrite (om_dok s Hm). cbn [guard bind].
  destruct (Z.leb_spec 0 i); [|lia]. destruct (Z.ltb_spec i (d_cap s)); [|lia]. cbn [andb guard bind]. rewrite Hn. reflexivity.
Qed.

Lemma check_bucket_ok : forall s b, okm s -> 0 <= b < d_bc s -> check_bucket s b = Ok tt.
Proof.
  intros s b Hm Hb. unfold check_bucket. destruct (Z.eqb_spec (d_bc s) 0); [lia|]. cbn [negb guard bind]. rewrite (om_sok s Hm). cbn [guard bind].
  destruct (Z.leb_spec 0 b); [|lia]. destruct (Z.ltb_spec b (d_bc s)); [|lia]. reflexivity.
Qed.
Lemma load_ok : forall s j p, okm s -> vptr s p -> load s j p = Ok (ldp (hdj s j) (nxj s j) p).
Proof.
  intros s j [b|i] Hm Hp; cbn [load vptr ldp] in *.
  - rewrite (check_bucket_ok s b Hm Hp). reflexivity.
  - destruct Hp as (n & Hn). rewrite (get_node_ok s i n Hm Hn). cbn [bind]. unfold nxj. rewrite Hn. reflexivity.
Qed.

Lemma updj_same : forall a j v, updj a j v j = v.
Proof. intros. unfold updj. rewrite Nat.eqb_refl. reflexivity. Qed.
Lemma updj_other : forall a j v j', j' <> j -> updj a j v j' = a j'.
Proof. intros a j v j' H. unfold updj. destruct (Nat.eqb_spec j' j); [contradiction|reflexivity]. Qed.

(** The chains of index [j'] are the same in both tables. *)
Definition samej (s s' : dense) (j : nat) : Prop := (forall b, hdj s' j b = hdj s j b) /\ (forall i, nxj s' j i = nxj s j i).
Lemma samej_refl : forall s j, samej s s j. Proof. split; reflexivity. Qed.
Lemma samej_trans : forall a b c j, samej a b j -> samej b c j -> samej a c j.
Proof. intros a b c j (H1 & H2) (H3 & H4). split; intros; [rewrite H3; apply H1|rewrite H4; apply H2]. Qed.

Lemma set_next_ok : forall s j i n v, okm s -> d_nodes s i = Some n ->
  let s' := set_nodes s (upd (d_nodes s) i (Some (mkn (n_val n) (n_hash n) (updj (n_next n) j v)))) in
  same s s' /\ (forall b, hdj s' j b = hdj s j b) /\ (forall x, nxj s' j x = upd (nxj s j) i v x) /\ forall j', j' <> j -> samej s s' j'.
Proof.
  intros s j i n v Hm Hn s'. split; [|split; [|split]].
  - constructor; try reflexivity. intros x. unfold vh, s'. cbn [set_nodes d_nodes]. unfold upd. destruct (Z.eqb_spec x i) as [->|]; [rewrite Hn; reflexivity|reflexivity].
  - reflexivity.
  - intros x. unfold nxj, s'. cbn [set_nodes d_nodes]. unfold upd. destruct (Z.eqb_spec x i) as [->|]; [cbn [n_next]; apply updj_same|reflexivity].
  - intros j' Hj. split; [reflexivity|]. intros x. unfold nxj, s'. cbn [set_nodes d_nodes]. unfold upd.
    destruct (Z.eqb_spec x i) as [->|]; [rewrite Hn; cbn [n_next]; apply updj_other; exact Hj|reflexivity].
Qed.

Lemma store_ok : forall s j p v, okm s -> vptr s p -> exists s', store s j p v = Ok s' /\ same s s' /\
  (forall b, hdj s' j b = sth (hdj s j) p v b) /\ (forall i, nxj s' j i = stn (nxj s j) p v i) /\ forall j', j' <> j -> samej s s' j'.
Proof.
  intros s j [b|i] v Hm Hp; cbn [store vptr sth stn] in *.
  - rewrite (check_bucket_ok s b Hm Hp). cbn [bind]. eexists. split; [reflexivity|]. split; [constructor; reflexivity|]. split; [|split; [reflexivity|]].
    + intros x. unfold hdj. cbn [set_sparse d_sparse]. unfold upd. destruct (Z.eqb_spec x b); [apply updj_same|reflexivity].
    + intros j' Hj. split; [|reflexivity]. intros x. unfold hdj. cbn [set_sparse d_sparse]. unfold upd. destruct (Z.eqb_spec x b) as [->|]; [apply updj_other; exact Hj|reflexivity].
  - destruct Hp as (n & Hn). rewrite (get_node_ok s i n Hm Hn). cbn [bind]. rewrite (put_node_ok s i n _ Hm Hn). eexists. split; [reflexivity|].
    exact (set_next_ok s j i n v Hm Hn).
Qed.

(** Length of a list of different positions below n. *)
Lemma nodup_bound : forall (l : list Z) n, NoDup l -> (forall i, In i l -> 0 <= i < n) -> Z.of_nat (length l) <= Z.max 0 n.
Proof.
  intros l n Hnd Hb. assert (H : (length l <= length (zrange n))%nat).
  { apply NoDup_incl_length; [exact Hnd|]. intros i Hi. apply zrange_In. apply Hb. exact Hi. }
  rewrite zrange_length in H. lia.
Qed.

Lemma vptr_at : forall s b a, 0 <= b < d_bc s -> (forall i, In i a -> exists n, d_nodes s i = Some n) -> vptr s (ptr_at b a).
Proof.
  intros s b a Hb Ha. destruct (snoc_cases a) as [->|(a' & x & ->)]; [rewrite ptr_at_nil; exact Hb|]. rewrite ptr_at_snoc. cbn [vptr].
  apply Ha. apply in_or_app. right. left. reflexivity.
Qed.

Lemma ptr_next : forall b a x, PNext x = ptr_at b (a ++ [x]). Proof. intros. rewrite ptr_at_snoc. reflexivity. Qed.

Lemma find_chain_ptr_ok : forall fuel s j b c a pos r, okm s -> 0 <= b < d_bc s -> (length c < fuel)%nat ->
  seg (nxj s j) (hdj s j b) (a ++ c ++ pos :: r) -> (forall i, In i (a ++ c ++ pos :: r) -> exists n, d_nodes s i = Some n) ->
  ~ In pos c -> find_chain_ptr fuel s j (ptr_at b a) pos = Ok (ptr_at b (a ++ c)).
Proof.
  induction fuel as [|fu IH]; intros s j b c a pos r Hm Hb Hf Hs Hl Hp; [lia|]. cbn [find_chain_ptr].
  rewrite (load_ok s j _ Hm) by (apply vptr_at; [exact Hb|]; intros i Hi; apply Hl; apply in_or_app; left; exact Hi). cbn [bind].
  rewrite (ldp_at (hdj s j) (nxj s j) b a (c ++ pos :: r) Hs). destruct c as [|x c]; cbn [app] in *.
  - rewrite Z.eqb_refl, orb_true_r, app_nil_r. reflexivity.
  - assert (Hx : x <> npos) by (apply (seg_npos _ _ _ x Hs); apply in_or_app; right; left; reflexivity).
    destruct (Z.eqb_spec x npos); [contradiction|]. destruct (Z.eqb_spec x pos) as [->|_]; [exfalso; apply Hp; left; reflexivity|]. cbn [orb].
    rewrite (ptr_next b a x). replace (a ++ x :: c) with ((a ++ [x]) ++ c) by (rewrite <- app_assoc; reflexivity).
    cbn [length] in Hf. apply (IH s j b c (a ++ [x]) pos r); rewrite <- ?app_assoc; cbn [app]; [exact Hm|exact Hb|lia|exact Hs|exact Hl|].
    intros Hi. apply Hp. right. exact Hi.
Qed.
End Views.

Section Inv.
Context {E K : Type}.
Variable nk : nat.
Variable key_of : nat -> E -> K.
Variable hash : K -> Z.
Variable keq : K -> K -> bool.
Hypothesis KL : key_laws hash keq.
Notation dense := (dense E).

(** Node [i] has key [k] under index [j]. *)
Definition matches (s : dense) (j : nat) (k : K) (i : Z) : Prop :=
  exists n, d_nodes s i = Some n /\ keq (key_of j (n_val n)) k = true.

Record dwf (s : dense) : Prop := {
  w_mem : okm s;
  w_size : 0 <= d_size s <= d_cap s;
  w_cap : d_cap s < 2 ^ 59;
  w_bc : 0 <= d_bc s < 2 ^ 60;
  w_bucket : 0 < d_size s -> 0 < d_bc s;
  w_live : forall i, live s i -> exists n, d_nodes s i = Some n;
  w_dead : forall i, ~ live s i -> d_nodes s i = None;
  w_hash : forall i n j, d_nodes s i = Some n -> (j < nk)%nat -> n_hash n j = hash (key_of j (n_val n));
  w_chain : forall j, (j < nk)%nat -> chains (hdj s j) (nxj s j) (live s) (bkj s j) (d_bc s);
  w_uniq : forall i i' n n' j, (j < nk)%nat -> d_nodes s i = Some n -> d_nodes s i' = Some n' ->
    keq (key_of j (n_val n)) (key_of j (n_val n')) = true -> i = i';
  w_mlf : 0 < fst (d_mlf s) /\ 0 < snd (d_mlf s) /\ snd (d_mlf s) <= 16 * fst (d_mlf s)
}.

Lemma find_loop_ok : forall fuel (s : dense) j k b c a, okm s -> 0 <= b < d_bc s -> (length c < fuel)%nat ->
  seg (nxj s j) (hdj s j b) (a ++ c) -> (forall i, In i (a ++ c) -> exists n, d_nodes s i = Some n) ->
  (forall i n, d_nodes s i = Some n -> In i c -> n_hash n j = hash (key_of j (n_val n))) ->
  (exists c1 i c2, c = c1 ++ i :: c2 /\ (forall x, In x c1 -> ~ matches s j k x) /\ matches s j k i /\
    find_loop key_of keq fuel s j k (hash k) (ptr_at b a) = Ok (i, ptr_at b (a ++ c1))) \/
  ((forall x, In x c -> ~ matches s j k x) /\ find_loop key_of keq fuel s j k (hash k) (ptr_at b a) = Ok (d_size s, ptr_at b (a ++ c))).
Proof.
  induction fuel as [|fu IH]; intros s j k b c a Hm Hb Hf Hs Hl Hh; [lia|]. cbn [find_loop].
  rewrite (load_ok s j _ Hm) by (apply vptr_at; [exact Hb|]; intros i Hi; apply Hl; apply in_or_app; left; exact Hi). cbn [bind].
  rewrite (ldp_at (hdj s j) (nxj s j) b a c Hs). destruct c as [|x c].
  - right. split; [intros x []|]. rewrite Z.eqb_refl, app_nil_r. reflexivity.
  - assert (Hx : x <> npos) by (apply (seg_npos _ _ _ x Hs); apply in_or_app; right; left; reflexivity).
    destruct (Z.eqb_spec x npos) as [|_]; [contradiction|].
    destruct (Hl x) as (n & Hn); [apply in_or_app; right; left; reflexivity|].
    rewrite (get_node_ok s x n Hm Hn). cbn [bind].
    destruct ((n_hash n j =? hash k) && keq k (key_of j (n_val n))) eqn:Et.
    + left. exists [], x, c. split; [reflexivity|]. split; [intros ? []|]. apply andb_true_iff in Et. split; [|rewrite app_nil_r; reflexivity].
      exists n. split; [exact Hn|]. apply (kl_sym _ _ KL). tauto.
    + assert (Hnm : ~ matches s j k x).
      { intros (n' & Hn' & Hk). rewrite Hn in Hn'. injection Hn' as <-. apply andb_false_iff in Et. destruct Et as [Et|Et].
        - apply Z.eqb_neq in Et. apply Et. rewrite (Hh x n Hn (or_introl eq_refl)). apply (kl_hash _ _ KL). exact Hk.
        - apply (kl_sym _ _ KL) in Hk. congruence. }
      rewrite (ptr_next b a x).
      destruct (IH s j k b c (a ++ [x]) Hm Hb) as [(c1 & i & c2 & -> & H1 & H2 & H3)|(H1 & H3)].
      * cbn [length] in Hf. lia.
      * rewrite <- app_assoc. exact Hs.
      * intros i Hi. apply Hl. rewrite <- app_assoc in Hi. exact Hi.
      * intros i m H1 H2. apply (Hh i m H1). right. exact H2.
      * left. exists (x :: c1), i, c2. split; [reflexivity|]. split; [|split; [exact H2|]].
        -- intros y [<-|Hy]; auto.
        -- rewrite H3, <- app_assoc. reflexivity.
      * right. split; [intros y [<-|Hy]; auto|]. rewrite H3, <- app_assoc. reflexivity.
Qed.

(** Lookup, for a table whose chains of index [j] hold the positions [L]. *)
Lemma find_node_gen : forall (s : dense) (L : Z -> Prop) j k, okm s -> 0 < d_bc s -> 0 <= d_size s ->
  (forall i, L i -> 0 <= i < d_size s /\ exists n, d_nodes s i = Some n /\ n_hash n j = hash (key_of j (n_val n))) ->
  chains (hdj s j) (nxj s j) L (bkj s j) (d_bc s) ->
  exists b l, 0 <= b < d_bc s /\ b = hash k mod d_bc s /\ seg (nxj s j) (hdj s j b) l /\ NoDup l /\ (forall i, In i l <-> L i /\ bkj s j i = b) /\
    (Z.of_nat (length l) <= d_size s) /\
    ((exists a i r, l = a ++ i :: r /\ matches s j k i /\ find_node key_of keq s j k (hash k) = Ok (i, Some (ptr_at b a)) /\
        find_loop key_of keq (chain_fuel s) s j k (hash k) (PBucket b) = Ok (i, ptr_at b a) /\ (forall x, In x a -> ~ matches s j k x)) \/
     ((forall i, L i -> ~ matches s j k i) /\ find_node key_of keq s j k (hash k) = Ok (d_size s, Some (ptr_at b l)))).
Proof.
  intros s L j k Hm Hbc Hsz HL Hc. set (b := hash k mod d_bc s). assert (Hb : 0 <= b < d_bc s) by (apply Z.mod_pos_bound; exact Hbc).
  destruct (Hc b Hb) as (l & Hs & Hnd & Hin). exists b, l. split; [exact Hb|]. split; [reflexivity|]. split; [exact Hs|]. split; [exact Hnd|]. split; [exact Hin|].
  assert (Hlen : Z.of_nat (length l) <= Z.max 0 (d_size s)).
  { apply nodup_bound; [exact Hnd|]. intros i Hi. apply Hin in Hi. apply HL. tauto. }
  assert (Hlen' : Z.of_nat (length l) <= d_size s).
  { lia. }
  split; [exact Hlen'|].
  destruct (find_loop_ok (chain_fuel s) s j k b l [] Hm Hb) as [(c1 & i & c2 & Hl & H1 & H2 & H3)|(H1 & H3)].
  - unfold chain_fuel. lia.
  - exact Hs.
  - intros i Hi. apply Hin in Hi. destruct (HL i) as (_ & n & Hn & _); [tauto|]. exists n. exact Hn.
  - intros i n Hn Hi. apply Hin in Hi. destruct (HL i) as (_ & n' & Hn' & Hh); [tauto|]. rewrite Hn in Hn'. injection Hn' as <-. exact Hh.
  - left. exists c1, i, c2. split; [exact Hl|]. split; [exact H2|]. unfold find_node, get_chain. destruct (Z.eqb_spec (d_bc s) 0); [lia|].
    fold b. rewrite ptr_at_nil in H3. rewrite H3. cbn [bind app fst snd]. auto.
  - right. split.
    + intros i Hi Hmt. destruct Hmt as (n & Hn & Hk). apply (H1 i); [|exists n; auto]. apply Hin. split; [exact Hi|].
      unfold bkj, hsj. rewrite Hn. destruct (HL i Hi) as (_ & n' & Hn' & Hh). rewrite Hn in Hn'. injection Hn' as <-.
      unfold b. f_equal. rewrite Hh. apply (kl_hash _ _ KL). exact Hk.
    + unfold find_node, get_chain. destruct (Z.eqb_spec (d_bc s) 0); [lia|]. fold b. rewrite ptr_at_nil in H3. rewrite H3. reflexivity.
Qed.
End Inv.
