(** The ordered dense table simulates the dense table and keeps the ring of links. *)
From Coq Require Import ZArith List Bool Lia Permutation.
From Verif Require Import Base BaseLemmas MapSpec Float32 Float32Facts DenseSpec DenseModel DenseRun DenseChain DenseInv DenseOps DenseEdit DenseErase DenseRefine
  LinkModel LinkProofs OrderedSpec OrderedDense OrderedRun OrderedLinks.
Import ListNotations.
Open Scope Z_scope.

(** ** Elements in the order of their slots. *)
Section Pick.
Context {A : Type}.
Definition pick (l : list A) (ord : list Z) : list A := flat_map (fun i => match nth_error l (Z.to_nat i) with Some x => [x] | None => [] end) ord.
Lemma pick_split : forall l o1 o2, pick l (o1 ++ o2) = pick l o1 ++ pick l o2.
Proof. intros. apply flat_map_app. Qed.
Lemma pick_cons : forall l i o x, nth_error l (Z.to_nat i) = Some x -> pick l (i :: o) = x :: pick l o.
Proof. intros l i o x H. unfold pick. cbn [flat_map]. rewrite H. reflexivity. Qed.
Lemma pick_ext : forall l l' f ord, (forall i, In i ord -> nth_error l (Z.to_nat i) = nth_error l' (Z.to_nat (f i))) -> pick l ord = pick l' (map f ord).
Proof.
  intros l l' f ord. induction ord as [|i o IH]; intros H; [reflexivity|]. unfold pick in *. cbn [flat_map map]. rewrite (H i (or_introl eq_refl)), IH by (intros j Hj; apply H; right; exact Hj). reflexivity.
Qed.
Lemma pick_app : forall l e ord, (forall i, In i ord -> 0 <= i < Z.of_nat (length l)) -> pick (l ++ [e]) ord = pick l ord.
Proof.
  intros l e ord H. rewrite <- (map_id ord) at 2. apply pick_ext. intros i Hi. specialize (H i Hi). rewrite nth_error_app1 by lia. reflexivity.
Qed.
Lemma pick_last : forall l (e : A), pick (l ++ [e]) [Z.of_nat (length l)] = [e].
Proof. intros l e. unfold pick. cbn [flat_map]. rewrite Nat2Z.id, nth_error_app2, Nat.sub_diag by lia. reflexivity. Qed.
Lemma pick_in : forall l ord x, In x (pick l ord) <-> exists i, In i ord /\ nth_error l (Z.to_nat i) = Some x.
Proof.
  intros l ord x. unfold pick. rewrite in_flat_map. split; intros (i & Hi & H); exists i; (split; [exact Hi|]).
  - destruct (nth_error l (Z.to_nat i)) as [y|]; [|destruct H]. destruct H as [->|[]]. reflexivity.
  - rewrite H. left. reflexivity.
Qed.
Lemma pick_len : forall l ord, (forall i, In i ord -> 0 <= i < Z.of_nat (length l)) -> length (pick l ord) = length ord.
Proof.
  intros l ord. induction ord as [|i o IH]; intros H; [reflexivity|]. destruct (nth_error l (Z.to_nat i)) as [x|] eqn:Ex.
  - rewrite (pick_cons l i o x Ex). cbn [length]. rewrite IH by (intros j Hj; apply H; right; exact Hj). reflexivity.
  - apply nth_error_None in Ex. specialize (H i (or_introl eq_refl)). lia.
Qed.
Lemma pick_zrange : forall l : list A, pick l (zrange (Z.of_nat (length l))) = l.
Proof.
  intros l. induction l as [|x l IH] using rev_ind; [reflexivity|]. rewrite app_length. cbn [length]. replace (Z.of_nat (length l + 1)) with (Z.of_nat (length l) + 1) by lia.
  rewrite zrange_succ, pick_split, pick_last, pick_app, IH by (try lia; intros i Hi; apply zrange_In in Hi; exact Hi). reflexivity.
Qed.
Lemma pick_perm : forall l ord, NoDup ord -> (forall i, In i ord <-> 0 <= i < Z.of_nat (length l)) -> Permutation (pick l ord) l.
Proof.
  intros l ord Hn Hi. rewrite <- (pick_zrange l) at 2. unfold pick. apply Permutation_flat_map. apply NoDup_Permutation; [exact Hn|apply zrange_NoDup|].
  intros i. rewrite zrange_In. apply Hi.
Qed.
Lemma pick_nth : forall l ord k, (forall i, In i ord -> 0 <= i < Z.of_nat (length l)) -> nth_error (pick l ord) k = match nth_error ord k with Some i => nth_error l (Z.to_nat i) | None => None end.
Proof.
  intros l ord. induction ord as [|i o IH]; intros k H; [destruct k; reflexivity|]. destruct (nth_error l (Z.to_nat i)) as [x|] eqn:Ex.
  - rewrite (pick_cons l i o x Ex). destruct k as [|k]; cbn [nth_error]; [symmetry; exact Ex|]. apply IH. intros j Hj. apply H. right. exact Hj.
  - apply nth_error_None in Ex. specialize (H i (or_introl eq_refl)). lia.
Qed.
Lemma pick_rev : forall l ord, pick l (rev ord) = rev (pick l ord).
Proof.
  intros l ord. induction ord as [|i o IH]; [reflexivity|]. cbn [rev]. rewrite pick_split, IH. unfold pick. cbn [flat_map]. rewrite rev_app_distr. destruct (nth_error l (Z.to_nat i)); reflexivity.
Qed.
(** Change of one element. *)
Lemma pick_replace : forall a (x y : A) b o1 o2, NoDup (o1 ++ Z.of_nat (length a) :: o2) -> (forall i, In i (o1 ++ Z.of_nat (length a) :: o2) -> 0 <= i) ->
  exists p q, pick (a ++ x :: b) (o1 ++ Z.of_nat (length a) :: o2) = p ++ x :: q /\ pick (a ++ y :: b) (o1 ++ Z.of_nat (length a) :: o2) = p ++ y :: q.
Proof.
  intros a x y b o1 o2 Hn Hp. exists (pick (a ++ x :: b) o1), (pick (a ++ x :: b) o2). apply NoDup_remove_2 in Hn.
  assert (Hx : forall i, In i (o1 ++ o2) -> nth_error (a ++ x :: b) (Z.to_nat i) = nth_error (a ++ y :: b) (Z.to_nat i)).
  { intros i Hi. assert (i <> Z.of_nat (length a)) by (intros ->; apply Hn; exact Hi). assert (0 <= i) by (apply Hp; rewrite in_app_iff in *; cbn [In]; tauto).
    destruct (Z_lt_ge_dec i (Z.of_nat (length a))); [rewrite !nth_error_app1 by lia; reflexivity|]. rewrite !nth_error_app2 by lia. destruct (Z.to_nat i - length a)%nat eqn:Ed; [lia|]. reflexivity. }
  rewrite !pick_split. split.
  - f_equal. apply pick_cons. rewrite Nat2Z.id, nth_error_app2, Nat.sub_diag by lia. reflexivity.
  - rewrite (pick_cons _ _ _ y) by (rewrite Nat2Z.id, nth_error_app2, Nat.sub_diag by lia; reflexivity).
    rewrite (pick_ext (a ++ y :: b) (a ++ x :: b) (fun i => i) o1), (pick_ext (a ++ y :: b) (a ++ x :: b) (fun i => i) o2), !map_id; [reflexivity| |]; intros i Hi; symmetry; apply Hx; apply in_or_app; auto.
Qed.
(** Removal of one element, with the last slot moved into the hole. *)
Lemma pick_erase : forall a (x : A) b o1 o2, let n := Z.of_nat (length (a ++ x :: b)) in
  NoDup (o1 ++ Z.of_nat (length a) :: o2) -> (forall i, In i (o1 ++ Z.of_nat (length a) :: o2) <-> 0 <= i < n) ->
  pick (a ++ x :: b) (o1 ++ Z.of_nat (length a) :: o2) = pick (a ++ x :: b) o1 ++ x :: pick (a ++ x :: b) o2 /\
  pick (swap_remove a b) (map (subst_last (Z.of_nat (length a)) (n - 1)) (o1 ++ o2)) = pick (a ++ x :: b) o1 ++ pick (a ++ x :: b) o2 /\
  length (pick (a ++ x :: b) o1) = length o1.
Proof.
  intros a x b o1 o2 n Hn Hi. pose proof (NoDup_remove_2 _ _ _ Hn) as Hnp. split; [|split].
  - rewrite pick_split. f_equal. apply pick_cons. rewrite Nat2Z.id, nth_error_app2, Nat.sub_diag by lia. reflexivity.
  - rewrite <- pick_split. symmetry. apply pick_ext. intros i Hin.
    assert (Hr : 0 <= i < n) by (apply Hi; rewrite in_app_iff in *; cbn [In]; tauto). assert (Hne : i <> Z.of_nat (length a)) by (intros ->; apply Hnp; exact Hin).
    subst n. rewrite app_length in *. cbn [length] in *. unfold subst_last. destruct (Z.eqb_spec i (Z.of_nat (length a + S (length b)) - 1)) as [He|He].
    + rewrite (swap_remove_nth 0%nat (fun _ _ => tt) a x b) by lia. rewrite Nat2Z.id, Nat.eqb_refl. f_equal. lia.
    + rewrite (swap_remove_nth 0%nat (fun _ _ => tt) a x b) by lia. destruct (Nat.eqb_spec (Z.to_nat i) (length a)); [lia|reflexivity].
  - apply pick_len. intros i Hin. apply Hi. apply in_or_app. left. exact Hin.
Qed.
End Pick.

Section Perm.
Context {E K : Type}.
Variable nk : nat. Variable key_of : nat -> E -> K. Variable keq : K -> K -> bool.
Lemma absent_perm : forall j k (l l' : list E), Permutation l l' -> dabsent key_of keq j k l -> dabsent key_of keq j k l'.
Proof. intros j k l l' P H x Hx. apply H. apply (Permutation_in _ (Permutation_sym P) Hx). Qed.
Lemma new_perm : forall e (l l' : list E), Permutation l l' -> dnew nk key_of keq e l -> dnew nk key_of keq e l'.
Proof. intros e l l' P H j Hj. apply (absent_perm j _ l l' P). apply H. exact Hj. Qed.
Lemma clash_perm : forall e (l l' : list E) x, Permutation l l' -> dclash nk key_of keq e l x -> dclash nk key_of keq e l' x.
Proof. intros e l l' x P (j & H1 & H2 & H3 & H4). exists j. split; [exact H1|]. split; [apply (Permutation_in _ P H2)|]. split; [exact H3|]. intros i Hi. apply (absent_perm i _ l l' P). apply H4. exact Hi. Qed.
Lemma located_perm : forall j k (l l' : list E) a x b, Permutation l l' -> dlocated key_of keq j k l a x b -> exists a' b', dlocated key_of keq j k l' a' x b'.
Proof.
  intros j k l l' a x b P (-> & H2). assert (Hi : In x l') by (apply (Permutation_in _ P); apply in_or_app; right; left; reflexivity).
  apply in_split in Hi. destruct Hi as (a' & b' & ->). exists a', b'. split; [reflexivity|exact H2].
Qed.
Hypothesis keq_sym : forall x y, keq x y = keq y x.
Lemma fop_perm : forall (R : E -> E -> Prop) l l', (forall a b, R a b -> R b a) -> Permutation l l' -> ForallOrdPairs R l -> ForallOrdPairs R l'.
Proof.
  intros R l l' HR P. induction P as [|x l l' P IH|x y l|l l' l'' P1 IH1 P2 IH2]; intros H.
  - constructor.
  - inversion H as [|? ? H1 H2]; subst. constructor; [|apply IH; exact H2]. apply Forall_forall. intros z Hz. rewrite Forall_forall in H1. apply H1. apply (Permutation_in _ (Permutation_sym P) Hz).
  - inversion H as [|? ? H1 H2]; subst. inversion H2 as [|? ? H3 H4]; subst. inversion H1 as [|? ? H5 H6]; subst. constructor; [constructor; [apply HR; exact H5|exact H3]|]. constructor; assumption.
  - apply IH2, IH1. exact H.
Qed.
Lemma distinct_perm : forall l l' : list E, Permutation l l' -> dkeys_distinct nk key_of keq l -> dkeys_distinct nk key_of keq l'.
Proof. intros l l' P H j Hj. apply (fop_perm _ l l'); [|exact P|apply H; exact Hj]. intros a b Hab. rewrite keq_sym. exact Hab. Qed.
End Perm.

(** ** Sizes. *)
Section Sizes.
Context {E K : Type}.
Notation dense := (dense E).
Definition dims (s s' : dense) : Prop := d_size s' = d_size s /\ d_cap s' = d_cap s.
Lemma store_dims : forall (s s' : dense) j p v, store s j p v = Ok s' -> dims s s'.
Proof.
  intros s s' j p v H. destruct p; cbn [store] in H.
  - apply bind_Ok in H. destruct H as (u & _ & H). injection H as <-. split; reflexivity.
  - apply bind_Ok in H. destruct H as (n & _ & H). unfold put_node in H. apply bind_Ok in H. destruct H as (n' & _ & H). injection H as <-. split; reflexivity.
Qed.
Lemma foldM_dims : forall {A} (f : dense -> A -> res dense) l (s s' : dense), (forall t x t', f t x = Ok t' -> dims t t') -> foldM f l s = Ok s' -> dims s s'.
Proof.
  intros A f l. induction l as [|x l IH]; intros s s' Hf H; cbn [foldM] in H.
  - injection H as <-. split; reflexivity.
  - apply bind_Ok in H. destruct H as (t & H1 & H2). destruct (Hf _ _ _ H1), (IH _ _ Hf H2). split; congruence.
Qed.
Lemma commit_dims : forall (s s' : dense) pos sl hs, commit_node s pos sl hs = Ok s' -> dims s s'.
Proof.
  intros s s' pos sl hs H. unfold commit_node in H. apply bind_Ok in H. destruct H as (s1 & H1 & H). apply bind_Ok in H. destruct H as (n & _ & H). unfold put_node in H. apply bind_Ok in H. destruct H as (n' & _ & H). injection H as <-.
  destruct (foldM_dims (fun t jp => store t (fst jp) (snd jp) pos) sl s s1) as (A & B); [|exact H1|split; cbn [set_nodes d_size d_cap]; congruence]. intros t x t' Ht. apply (store_dims _ _ _ _ _ Ht).
Qed.
Lemma push_dims : forall (s s' : dense) e o, push_node true s e = Ok (s', o) -> o = Some (d_size s) /\ d_size s' = d_size s + 1 /\ d_cap s' = d_cap s.
Proof.
  intros s s' e o H. unfold push_node in H. apply bind_Ok in H. destruct H as (s1 & H1 & H). injection H as <- <-.
  unfold new_node in H1. do 3 (apply bind_Ok in H1; destruct H1 as (?u & _ & H1)). destruct (d_nodes _ _); [discriminate|]. injection H1 as <-. auto.
Qed.
Lemma pop_dims : forall (s s' : dense), pop_node s = Ok s' -> d_size s' = d_size s - 1 /\ d_cap s' = d_cap s.
Proof. intros s s' H. unfold pop_node, kill_node in H. apply bind_Ok in H. destruct H as (n & _ & H). injection H as <-. auto. Qed.
Lemma rehash_none_dims : forall nk lim (s s' : dense) n, rehash nk lim s n = Ok (s', None) -> dims s s'.
Proof.
  intros nk lim s s' n H. unfold rehash in H. destruct ((n =? 0) && (d_size s =? 0)); [discriminate|]. apply bind_Ok in H. destruct H as (m & _ & H).
  destruct ((n =? 0) || negb (Z.max m n =? d_bc s)); [|discriminate]. unfold do_rehash, realloc_sparse in H. destruct (d_bc s <? Z.max m n).
  - destruct (lim <? Z.max m n); [injection H as <-; split; reflexivity|]. do 2 (apply bind_Ok in H; destruct H as (?u & _ & H)). discriminate.
  - do 2 (apply bind_Ok in H; destruct H as (?u & _ & H)). discriminate.
Qed.
Lemma maybe_rehash_none_dims : forall nk lim (s s' : dense), maybe_rehash nk lim s = Ok (s', None) -> dims s s'.
Proof.
  intros nk lim s s' H. unfold maybe_rehash in H. destruct (d_bc s =? 0); [apply (rehash_none_dims _ _ _ _ _ H)|]. destruct (overloaded s); [apply (rehash_none_dims _ _ _ _ _ H)|discriminate].
Qed.
End Sizes.

(** ** Simulation. *)
Section Sim.
Context {E K : Type}.
Variable sz : Z.
Variable nk : nat.
Variable key_of : nat -> E -> K.
Variable hash : K -> Z.
Variable keq : K -> K -> bool.
Variable rep : E -> E -> E.
Hypothesis Hsz : 0 < sz.
Hypothesis KL : key_laws hash keq.
Notation odense := (odense E).
Notation dense := (dense E).
Notation dwf := (dwf nk key_of hash keq).

Definition lnk (h : heap) (s : odense) (ord : list Z) : Prop := olinks sz h (o_hdr s) (o_base s) (d_cap (o_d s)) (d_size (o_d s)) ord.
Definition ofr (h : heap) (s : odense) (h' : heap) (s' : odense) : Prop :=
  o_hdr s' = o_hdr s /\ frame sz h (o_hdr s) (o_base s) (d_cap (o_d s)) h' (o_hdr s') (o_base s') (d_cap (o_d s')).
Lemma ofr_refl : forall h s, ofr h s h s. Proof. intros h s. split; [reflexivity|apply frame_refl]. Qed.
Lemma ofr_trans : forall h0 s0 h1 s1 h2 s2, ofr h0 s0 h1 s1 -> ofr h1 s1 h2 s2 -> ofr h0 s0 h2 s2.
Proof. intros h0 s0 h1 s1 h2 s2 (A & B) (C & D). split; [congruence|]. apply (frame_trans _ _ _ _ _ _ _ _ _ _ _ _ _ B D). Qed.
Lemma ofr_dims : forall h s d, d_cap d = d_cap (o_d s) -> ofr h s h (with_d s d).
Proof. intros h s d H. split; [reflexivity|]. cbn [with_d o_hdr o_base o_d]. rewrite H. apply frame_refl. Qed.
Lemma lnk_dims : forall h s d ord, lnk h s ord -> d_size d = d_size (o_d s) -> d_cap d = d_cap (o_d s) -> lnk h (with_d s d) ord.
Proof. intros h s d ord H H1 H2. unfold lnk in *. cbn [with_d o_hdr o_base o_d]. rewrite H1, H2. exact H. Qed.

(** Where a hint makes the new node go. *)
Definition hint_at (s : odense) (hint : Z) (o1 o2 : list Z) : Prop :=
  (hint = 0 /\ o2 = []) \/ (hint <> 0 /\ hint = last (o_hdr s :: map (slot sz s) o1) (o_hdr s)).
(** The hint survives a growth of the element array. *)
Definition hint_kept (v : oenv) (s : odense) (hint : Z) (o1 : list Z) : Prop :=
  hint = 0 \/ d_cap (o_d s) <> d_size (o_d s) \/ (o1 <> [] /\ 0 < ov_base v).

Lemma hdr_prev : forall h s ord, lnk h s ord -> prev_link h (o_hdr s) = Ok (last (o_hdr s :: map (slot sz s) ord) (o_hdr s)).
Proof.
  intros h s ord H. apply prev_link_ok. pose proof (ol_ring _ _ _ _ _ _ _ H) as R. fold (slot sz s) in R. 
  destruct (exists_last (l := o_hdr s :: map (slot sz s) ord) ltac:(discriminate)) as (m & p & Hm). rewrite Hm, last_last.
  change (fun i => o_base s + i * sz) with (slot sz s) in R. rewrite Hm in R. apply ring_rot in R. destruct m as [|x m]; cbn [app] in *.
  - injection Hm as -> Hm. destruct R as (R & _). cbn [path] in R. apply R.
  - injection Hm as <- Hm. destruct R as (R & _). cbn [path] in R. apply R.
Qed.

(** Growth. *)
Lemma o_resize_sim : forall v h s ord cap d1 o, lnk h s ord -> d_size (o_d s) <= cap -> resize_data (dv_dlim (ov_d v)) (o_d s) cap = Ok (d1, o) ->
  o_resize_data sz v h s cap = Err BadPlacement \/
  exists h1 s1, o_resize_data sz v h s cap = Ok (h1, s1, o) /\ o_d s1 = d1 /\ lnk h1 s1 ord /\ ofr h s h1 s1 /\
    (o = None -> s1 = s) /\ (o <> None -> o_base s1 = ov_base v).
Proof.
  intros v h s ord cap d1 o L Hc H. unfold o_resize_data. rewrite H. cbn [bind]. unfold resize_data in H. destruct (dv_dlim (ov_d v) <? cap).
  - injection H as <- <-. right. exists h, s. destruct s as [d hd b]. cbn [with_d o_d o_hdr o_base] in *. split; [reflexivity|]. split; [reflexivity|]. split; [exact L|]. split; [apply ofr_refl|]. split; [reflexivity|congruence].
  - apply bind_Ok in H. destruct H as (m & _ & H). injection H as <- <-. cbv iota.
    destruct (place_cases (ov_junk v) h (ov_base v) sz cap Hsz) as [->|(h1 & -> & P1 & P2 & P3)]; [left; reflexivity|right]. cbn [bind].
    destruct (relocate_ok sz Hsz h (o_hdr s) (o_base s) (d_cap (o_d s)) (d_size (o_d s)) ord (ov_base v) cap h1 L Hc P1 P2 P3) as (h2 & E2 & L2 & F2).
    unfold relink_step. rewrite E2. cbn [bind]. eexists _, _. split; [reflexivity|]. split; [reflexivity|]. split; [exact L2|]. split; [split; [reflexivity|exact F2]|]. split; [discriminate|reflexivity].
Qed.

Lemma hint_same : forall s s' hint o1 o2, o_hdr s' = o_hdr s -> o_base s' = o_base s -> hint_at s hint o1 o2 -> hint_at s' hint o1 o2.
Proof. intros s s' hint o1 o2 H1 H2 H. unfold hint_at, slot in *. rewrite H1, H2. exact H. Qed.
Lemma last_map_ne : forall (f : Z -> Z) x l d, l <> [] -> last (x :: map f l) d = f (last l 0).
Proof.
  intros f x l d Hl. destruct (exists_last Hl) as (m & y & ->). rewrite map_app. cbn [map]. change (x :: map f m ++ [f y]) with ((x :: map f m) ++ [f y]). rewrite !last_last. reflexivity.
Qed.

Lemma o_make_room_sim : forall v h s ord hint o1 o2, dwf (o_d s) -> denv_ok (ov_d v) -> lnk h s ord -> ord = o1 ++ o2 -> hint_at s hint o1 o2 -> hint_kept v s hint o1 ->
  o_make_room sz nk v h s hint = Err BadPlacement \/
  exists h1 s1 hint1 o, o_make_room sz nk v h s hint = Ok (h1, s1, hint1, o) /\ make_room nk (dv_dlim (ov_d v)) (dv_slim (ov_d v)) (o_d s) = Ok (o_d s1, o) /\
    lnk h1 s1 ord /\ ofr h s h1 s1 /\ (o <> None -> hint_at s1 hint1 o1 o2).
Proof.
  intros v h s ord hint o1 o2 W (Hd & Hs) L Hord Hh Hk. unfold o_make_room, make_room, o_maybe_resize. pose proof (w_size _ _ _ _ _ W) as Hsize.
  assert (Hstep : forall h1 s1 hint1 d0, o_d s1 = d0 -> dwf d0 -> lnk h1 s1 ord -> ofr h s h1 s1 -> hint_at s1 hint1 o1 o2 -> exists h2 s2 hint2 o,
    (let* y := maybe_rehash nk (dv_slim (ov_d v)) (o_d s1) in let '(d2, o2) := y in Ok (h1, with_d s1 d2, hint1, o2)) = Ok (h2, s2, hint2, o) /\ maybe_rehash nk (dv_slim (ov_d v)) d0 = Ok (o_d s2, o) /\
    lnk h2 s2 ord /\ ofr h s h2 s2 /\ (o <> None -> hint_at s2 hint2 o1 o2)).
  { intros h1 s1 hint1 d0 Hd0 W1 L1 F1 H1. destruct (maybe_rehash_ok nk key_of hash keq (dv_slim (ov_d v)) d0 W1 Hs) as (d2 & o & Hr & (Hes & _) & Hcap). rewrite Hd0, Hr. cbn [bind].
    assert (Hc : d_cap d2 = d_cap (o_d s1)) by (destruct o as [u|]; [rewrite Hd0; apply (Hcap ltac:(discriminate))|destruct (maybe_rehash_none_dims _ _ _ _ Hr); congruence]).
    eexists _, _, _, _. split; [reflexivity|]. split; [reflexivity|]. split; [apply lnk_dims; [exact L1|rewrite Hd0; apply Hes|exact Hc]|].
    split; [apply (ofr_trans _ _ h1 s1 _ _ F1); apply ofr_dims; exact Hc|]. intros _. apply (hint_same s1); [reflexivity|reflexivity|exact H1]. }
  assert (Hcc : d_size (o_d s) <= (if d_cap (o_d s) =? 0 then 1 else d_cap (o_d s) * 2 mod two64) \/ d_cap (o_d s) <> d_size (o_d s)).
  { destruct (Z.eq_dec (d_cap (o_d s)) (d_size (o_d s))) as [He|He]; [left|right; exact He]. pose proof (w_cap _ _ _ _ _ W). destruct (Z.eqb_spec (d_cap (o_d s)) 0) as [E0|E0]; [lia|]. rewrite Z.mod_small by (unfold two64; lia). lia. }
  destruct (maybe_resize_ok nk key_of hash keq (dv_dlim (ov_d v)) (o_d s) W Hd) as [Hn|(d1 & Hr & W1 & Hes & Hlt & _)].
  - rewrite Hn. cbn [bind]. unfold maybe_resize in Hn. destruct (Z.eqb_spec (d_cap (o_d s)) (d_size (o_d s))) as [He|He].
    + destruct Hcc as [Hcc|Hcc]; [|contradiction]. destruct (o_resize_sim v h s ord _ _ _ L Hcc Hn) as [->|(h1 & s1 & -> & E1 & L1 & F1 & Hsame & _)]; [left; reflexivity|right].
      * cbn [bind]. eexists _, _, _, _. split; [reflexivity|]. rewrite E1. split; [reflexivity|]. split; [exact L1|]. split; [exact F1|congruence].
    + discriminate Hn.
  - rewrite Hr. cbn [bind]. unfold maybe_resize in Hr. destruct (Z.eqb_spec (d_cap (o_d s)) (d_size (o_d s))) as [He|He].
    + destruct Hcc as [Hcc|Hcc]; [|contradiction]. destruct (o_resize_sim v h s ord _ _ _ L Hcc Hr) as [->|(h1 & s1 & -> & E1 & L1 & F1 & _ & Hb)]; [left; reflexivity|right].
      * cbn [bind]. specialize (Hb ltac:(discriminate)). apply Hstep; [exact E1|exact W1|exact L1|exact F1|].
        destruct Hh as [(-> & ->)|(Hh0 & Hh1)]; [left; auto|]. destruct Hk as [Hk|[Hk|(Hk & Hpos)]]; [contradiction|contradiction|]. right.
        destruct F1 as (Fh & _). rewrite (last_map_ne _ _ o1 _ Hk). rewrite (last_map_ne _ _ o1 _ Hk) in Hh1. destruct (Z.eqb_spec hint 0) as [|_]; [contradiction|]. rewrite Hh1. unfold slot. rewrite Hb.
        assert (Hin : In (last o1 0) ord) by (rewrite Hord; apply in_or_app; left; destruct (exists_last Hk) as (m & y & ->); rewrite last_last; apply in_or_app; right; left; reflexivity).
        apply (ol_in _ _ _ _ _ _ _ L1) in Hin. split; [nia|lia].
    + injection Hr as <-. right. cbn [bind]. apply Hstep; [reflexivity|exact W|exact L|apply ofr_refl|exact Hh].
Qed.

(** commit_node links the node. *)
Lemma o_commit_sim : forall h s d1 ord hint o1 o2 sl hs d2, lnk h s ord -> ord = o1 ++ o2 -> hint_at s hint o1 o2 -> d_size (o_d s) < d_cap (o_d s) ->
  d_size d1 = d_size (o_d s) + 1 -> d_cap d1 = d_cap (o_d s) -> commit_node d1 (d_size (o_d s)) sl hs = Ok d2 ->
  exists h2, o_commit sz h (with_d s d1) hint (d_size (o_d s)) sl hs = Ok (h2, with_d s d2) /\ lnk h2 (with_d s d2) (o1 ++ d_size (o_d s) :: o2) /\ ofr h s h2 (with_d s d2).
Proof.
  intros h s d1 ord hint o1 o2 sl hs d2 L Hord Hh Hlt H1 H2 H. unfold o_commit. cbn [with_d o_hdr o_base o_d].
  assert (Hp : (if hint =? 0 then prev_link h (o_hdr s) else Ok hint) = Ok (last (o_hdr s :: map (fun i => o_base s + i * sz) o1) (o_hdr s))).
  { destruct Hh as [(-> & ->)|(Hh0 & Hh1)].
    - rewrite app_nil_r in Hord. subst o1. cbn [Z.eqb]. apply (hdr_prev h s ord L).
    - destruct (Z.eqb_spec hint 0); [contradiction|]. rewrite Hh1. reflexivity. }
  rewrite Hp. cbn [bind]. subst ord.
  destruct (insert_after_ok sz Hsz h (o_hdr s) (o_base s) _ _ o1 o2 _ L Hlt eq_refl) as (h2 & E2 & L2 & F2).
  change (slot sz (with_d s d1) (d_size (o_d s))) with (o_base s + d_size (o_d s) * sz). rewrite E2. cbn [bind]. rewrite H. cbn [bind]. exists h2. destruct (commit_dims _ _ _ _ _ H) as (C1 & C2). split; [reflexivity|]. split.
  - unfold lnk. cbn [with_d o_hdr o_base o_d]. rewrite C1, C2, H1, H2. exact L2.
  - split; [reflexivity|]. cbn [with_d o_hdr o_base o_d]. rewrite C2, H2. exact F2.
Qed.

(** The results of the insertion functions correspond. *)
Definition ins_sim (h : heap) (s : odense) (o1 o2 : list Z) (d' : dense) (r : ins_result) (x : res (heap * odense * o_result)) : Prop :=
  x = Err BadPlacement \/
  exists h' s', x = Ok (h', s', match r with None => None | Some (p, b) => Some (slot sz s' p, b) end) /\ o_d s' = d' /\ ofr h s h' s' /\
    lnk h' s' (match r with Some (_, true) => o1 ++ d_size (o_d s) :: o2 | _ => o1 ++ o2 end).

Lemma o_emplace_sim : forall h s e hint o1 o2 sl hs d' r, lnk h s (o1 ++ o2) -> hint_at s hint o1 o2 -> d_size (o_d s) < d_cap (o_d s) ->
  (let* y := emplace_node true (o_d s) sl hs e in let '(s2, o2) := y in Ok (s2, match o2 with None => None | Some pos => Some (pos, true) end)) = Ok (d', r) ->
  exists h', (let* y := o_emplace_node sz true h s hint sl hs e in let '(h2, s2, o2) := y in Ok (h2, s2, match o2 with None => None | Some pos => Some (slot sz s2 pos, true) end)) =
      Ok (h', with_d s d', Some (slot sz s (d_size (o_d s)), true)) /\ r = Some (d_size (o_d s), true) /\ lnk h' (with_d s d') (o1 ++ d_size (o_d s) :: o2) /\ ofr h s h' (with_d s d').
Proof.
  intros h s e hint o1 o2 sl hs d' r L Hh Hlt H. apply bind_Ok in H. destruct H as ((s2, oo) & H1 & H). unfold emplace_node in H1. apply bind_Ok in H1. destruct H1 as ((d1, op) & Hp & H1).
  destruct (push_dims _ _ _ _ Hp) as (-> & P1 & P2). apply bind_Ok in H1. destruct H1 as (d2 & Hc & H1). injection H1 as <- <-. injection H as <- <-.
  destruct (o_commit_sim h s d1 _ hint o1 o2 sl hs d2 L eq_refl Hh Hlt P1 P2 Hc) as (h2 & E2 & L2 & F2).
  exists h2. unfold o_emplace_node. rewrite Hp. cbn [bind]. rewrite E2. cbn [bind]. auto.
Qed.

Lemma o_do_insert_sim : forall v h s ord hint o1 o2 e d' r, dwf (o_d s) -> denv_ok (ov_d v) -> lnk h s ord -> ord = o1 ++ o2 -> hint_at s hint o1 o2 -> hint_kept v s hint o1 ->
  do_insert nk key_of hash keq (dv_dlim (ov_d v)) (dv_slim (ov_d v)) true (o_d s) e = Ok (d', r) -> (forall p, r = Some (p, false) -> p <> d_size d') ->
  ins_sim h s o1 o2 d' r (o_do_insert sz nk key_of hash keq v true h s hint e).
Proof.
  intros v h s ord hint o1 o2 e d' r W V L Hord Hh Hk H Hr. unfold o_do_insert.
  destruct (o_make_room_sim v h s ord hint o1 o2 W V L Hord Hh Hk) as [->|(h1 & s1 & hint1 & o & -> & Hm & L1 & F1 & H1)]; [left; reflexivity|right]. cbn [bind].
  unfold do_insert in H. rewrite Hm in H. cbn [bind] in H.
  destruct (make_room_ok nk key_of hash keq _ _ (o_d s) W (proj1 V) (proj2 V)) as (d1' & o' & Hm' & (Hes & _) & Hcap). rewrite Hm in Hm'. injection Hm' as <- <-.
  subst ord. destruct o as [u|]; [|injection H as <- <-; exists h1, s1; auto].
  specialize (H1 ltac:(discriminate)). destruct (Hcap ltac:(discriminate)) as (Hlt & _). apply bind_Ok in H. destruct H as (l & Hl & H). rewrite Hl. cbn [bind]. apply bind_Ok in H. destruct H as (c & Hc & H). rewrite Hc. cbn [bind].
  destruct c as [i|].
  - injection H as <- <-. exists h1, s1. split; [|auto]. unfold iter_of. destruct (Z.eqb_spec i (d_size (o_d s1))) as [He|He]; [exfalso; apply (Hr i eq_refl He)|reflexivity].
  - apply bind_Ok in H. destruct H as (sl & Hsl & H). rewrite Hsl. cbn [bind].
    destruct (o_emplace_sim h1 s1 e hint1 o1 o2 sl _ d' r L1 H1 Hlt H) as (h2 & E2 & -> & L2 & F2). rewrite E2. exists h2, (with_d s1 d'). split; [reflexivity|]. split; [reflexivity|].
    split; [apply (ofr_trans _ _ _ _ _ _ F1 F2)|]. destruct Hes as (Hes & _). rewrite <- Hes. exact L2.
Qed.

Lemma o_do_emplace_sim : forall v h s ord hint o1 o2 e d' r, dwf (o_d s) -> denv_ok (ov_d v) -> lnk h s ord -> ord = o1 ++ o2 -> hint_at s hint o1 o2 -> hint_kept v s hint o1 ->
  do_emplace nk key_of hash keq (dv_dlim (ov_d v)) (dv_slim (ov_d v)) true (o_d s) e = Ok (d', r) ->
  ins_sim h s o1 o2 d' r (o_do_emplace sz nk key_of hash keq v true h s hint e).
Proof. clear rep KL.
  intros v h s ord hint o1 o2 e d' r W V L Hord Hh Hk H. unfold o_do_emplace.
  destruct (o_make_room_sim v h s ord hint o1 o2 W V L Hord Hh Hk) as [->|(h1 & s1 & hint1 & o & -> & Hm & L1 & F1 & H1)]; [left; reflexivity|right]. cbn [bind].
  unfold do_emplace in H. rewrite Hm in H. cbn [bind] in H.
  destruct (make_room_ok nk key_of hash keq _ _ (o_d s) W (proj1 V) (proj2 V)) as (d1' & o' & Hm' & (Hes & _) & Hcap). rewrite Hm in Hm'. injection Hm' as <- <-. destruct Hes as (Hes & _).
  subst ord. destruct o as [u|]; [|injection H as <- <-; exists h1, s1; auto].
  specialize (H1 ltac:(discriminate)). destruct (Hcap ltac:(discriminate)) as (Hlt & _). apply bind_Ok in H. destruct H as ((d2, op) & Hp & H). rewrite Hp. cbn [bind].
  destruct (push_dims _ _ _ _ Hp) as (-> & P1 & P2). apply bind_Ok in H. destruct H as (tmp & Ht & H). rewrite Ht. cbn [bind] in *. apply bind_Ok in H. destruct H as (l & Hl & H). rewrite Hl. cbn [bind].
  apply bind_Ok in H. destruct H as (c & Hc & H). rewrite Hc. cbn [bind]. destruct c as [i|].
  - apply bind_Ok in H. destruct H as (d3 & H3 & H). rewrite H3. cbn [bind]. injection H as <- <-. destruct (pop_dims _ _ H3) as (Q1 & Q2).
    exists h1, (with_d s1 d3). split; [reflexivity|]. split; [reflexivity|]. split; [apply (ofr_trans _ _ _ _ _ _ F1); apply ofr_dims; congruence|]. apply lnk_dims; [exact L1|lia|congruence].
  - apply bind_Ok in H. destruct H as (sl & Hsl & H). rewrite Hsl. cbn [bind]. apply bind_Ok in H. destruct H as (d3 & H3 & H). injection H as <- <-.
    destruct (o_commit_sim h1 s1 d2 _ hint1 o1 o2 sl _ d3 L1 eq_refl H1 Hlt P1 P2 H3) as (h2 & E2 & L2 & F2). rewrite E2. cbn [bind].
    exists h2, (with_d s1 d3). split; [reflexivity|]. split; [reflexivity|]. split; [apply (ofr_trans _ _ _ _ _ _ F1 F2)|]. rewrite <- Hes. exact L2.
Qed.

Lemma o_do_assign_sim : forall v h s ord hint o1 o2 e d' r, dwf (o_d s) -> denv_ok (ov_d v) -> lnk h s ord -> ord = o1 ++ o2 -> hint_at s hint o1 o2 -> hint_kept v s hint o1 ->
  do_insert_or_assign nk key_of hash keq rep (dv_dlim (ov_d v)) (dv_slim (ov_d v)) true (o_d s) e = Ok (d', r) ->
  ins_sim h s o1 o2 d' r (o_do_insert_or_assign sz nk key_of hash keq rep v true h s hint e).
Proof.
  intros v h s ord hint o1 o2 e d' r W V L Hord Hh Hk H. unfold o_do_insert_or_assign.
  destruct (o_make_room_sim v h s ord hint o1 o2 W V L Hord Hh Hk) as [->|(h1 & s1 & hint1 & o & -> & Hm & L1 & F1 & H1)]; [left; reflexivity|right]. cbn [bind].
  unfold do_insert_or_assign in H. rewrite Hm in H. cbn [bind] in H.
  destruct (make_room_ok nk key_of hash keq _ _ (o_d s) W (proj1 V) (proj2 V)) as (d1' & o' & Hm' & (Hes & _) & Hcap). rewrite Hm in Hm'. injection Hm' as <- <-. destruct Hes as (Hes & _).
  subst ord. destruct o as [u|]; [|injection H as <- <-; exists h1, s1; auto].
  specialize (H1 ltac:(discriminate)). destruct (Hcap ltac:(discriminate)) as (Hlt & _). apply bind_Ok in H. destruct H as ((i, op) & Hf & H). rewrite Hf. cbn [bind].
  apply bind_Ok in H. destruct H as (isnew & Hn & H). rewrite Hn. cbn [bind]. destruct isnew.
  - apply bind_Ok in H. destruct H as (p & Hp & H). rewrite Hp. cbn [bind].
    destruct (o_emplace_sim h1 s1 e hint1 o1 o2 _ _ d' r L1 H1 Hlt H) as (h2 & E2 & -> & L2 & F2). rewrite E2. exists h2, (with_d s1 d'). split; [reflexivity|]. split; [reflexivity|].
    split; [apply (ofr_trans _ _ _ _ _ _ F1 F2)|]. rewrite <- Hes. exact L2.
  - apply bind_Ok in H. destruct H as (n & Hg & H). rewrite Hg. cbn [bind]. apply bind_Ok in H. destruct H as (d2 & Hd2 & H). rewrite Hd2. cbn [bind]. injection H as <- <-.
    assert (Hq : dims (o_d s1) d2) by (unfold put_node in Hd2; apply bind_Ok in Hd2; destruct Hd2 as (? & _ & Hd2); injection Hd2 as <-; split; reflexivity). destruct Hq as (Q1 & Q2).
    exists h1, (with_d s1 d2). split; [reflexivity|]. split; [reflexivity|]. split; [apply (ofr_trans _ _ _ _ _ _ F1); apply ofr_dims; exact Q2|]. apply lnk_dims; assumption.
Qed.

(** reserve. *)
Lemma o_reserve_sim : forall v h s ord n d' o, dwf (o_d s) -> denv_ok (ov_d v) -> 0 <= n < 2 ^ 59 -> lnk h s ord ->
  reserve nk (dv_dlim (ov_d v)) (dv_slim (ov_d v)) (o_d s) n = Ok (d', o) ->
  o_reserve sz nk v h s n = Err BadPlacement \/
  exists h' s', o_reserve sz nk v h s n = Ok (h', s', o) /\ o_d s' = d' /\ lnk h' s' ord /\ ofr h s h' s'.
Proof.
  intros v h s ord n d' o W (Vd & Vs) Hn L H. unfold o_reserve. unfold reserve in H. apply bind_Ok in H. destruct H as ((d1, o1) & H1 & H).
  pose proof (ol_le _ _ _ _ _ _ _ L) as Hle.
  assert (Hstep : forall h1 s1, o_d s1 = d1 -> dwf d1 -> lnk h1 s1 ord -> ofr h s h1 s1 -> (let* m := f32_trunc (f32_div (f32_of n) (d_mlf d1)) in rehash nk (dv_slim (ov_d v)) d1 m) = Ok (d', o) ->
    exists h' s', (let* m := f32_trunc (f32_div (f32_of n) (d_mlf (o_d s1))) in let* y := rehash nk (dv_slim (ov_d v)) (o_d s1) m in let '(d2, o2) := y in Ok (h1, with_d s1 d2, o2)) = Ok (h', s', o) /\
      o_d s' = d' /\ lnk h' s' ord /\ ofr h s h' s').
  { intros h1 s1 E1 W1 L1 F1 Hr. apply bind_Ok in Hr. destruct Hr as (m & Hm & Hr). rewrite E1, Hm. cbn [bind]. rewrite Hr. cbn [bind].
    assert (Hd : dims d1 d').
    { destruct o as [u|]; [|apply (rehash_none_dims _ _ _ _ _ Hr)]. assert (Hm0 : 0 <= m) by (destruct (w_mlf _ _ _ _ _ W1) as (Hp & Hq & Hpq); destruct (trunc_ok n (d_mlf d1) Hn Hp Hq Hpq) as (m' & Hm' & Hm0); congruence). destruct (rehash_ok nk key_of hash keq (dv_slim (ov_d v)) d1 m W1 Vs Hm0) as (d2 & o2 & Hr' & (Hes & _) & Hc & _).
      rewrite Hr in Hr'. injection Hr' as <- <-. split; [apply Hes|apply (Hc ltac:(discriminate))]. }
    destruct Hd as (D1 & D2). eexists _, _. split; [reflexivity|]. split; [reflexivity|]. split; [apply lnk_dims; [exact L1|congruence|congruence]|]. apply (ofr_trans _ _ _ _ _ _ F1). apply ofr_dims. congruence. }
  destruct (Z.ltb_spec (d_cap (o_d s)) n) as [Hlt|Hlt].
  - destruct (o_resize_sim v h s ord n d1 o1 L ltac:(lia) H1) as [->|(h1 & s1 & -> & E1 & L1 & F1 & Hsame & _)]; [left; reflexivity|right]. cbn [bind]. destruct o1 as [u|].
    + apply (Hstep h1 s1 E1); [|exact L1|exact F1|exact H]. destruct (resize_data_ok nk key_of hash keq (dv_dlim (ov_d v)) (o_d s) n W ltac:(lia) Vd) as [(_ & Hx)|(_ & d2 & Hx & W2 & _)]; rewrite H1 in Hx; [discriminate Hx|injection Hx as <-; exact W2].
    + injection H as <- <-. exists h1, s1. auto.
  - injection H1 as <- <-. cbn [bind]. right. apply (Hstep h s eq_refl W L (ofr_refl h s) H).
Qed.

(** clear. *)
Lemma o_clear_sim : forall h s ord d', lnk h s ord -> clear (o_d s) = Ok d' -> d_size d' = 0 -> d_cap d' = d_cap (o_d s) ->
  exists h', o_clear h s = Ok (h', with_d s d') /\ lnk h' (with_d s d') [] /\ ofr h s h' (with_d s d').
Proof.
  intros h s ord d' L H H0 H1. unfold o_clear. destruct (reset_ok sz h _ _ _ _ _ L) as (h' & Er & L' & F). rewrite Er. cbn [bind]. rewrite H. cbn [bind]. exists h'. split; [reflexivity|].
  unfold lnk, ofr. cbn [with_d o_hdr o_base o_d]. rewrite H0, H1. auto.
Qed.

(** erase. *)
Lemma o_erase_node_sim : forall h s o1 pos o2 sl d', lnk h s (o1 ++ pos :: o2) -> erase_node (o_d s) pos sl = Ok (d', pos) -> d_size d' = d_size (o_d s) - 1 -> d_cap d' = d_cap (o_d s) ->
  exists h', o_erase_node sz h s pos sl = Ok (h', with_d s d', match o2 with [] => o_hdr s | i :: _ => slot sz s i end) /\
    lnk h' (with_d s d') (map (subst_last pos (d_size (o_d s) - 1)) (o1 ++ o2)) /\ ofr h s h' (with_d s d').
Proof.
  intros h s o1 pos o2 sl d' L H H1 H2. destruct (erase_links_ok sz Hsz h _ _ _ _ _ _ _ L) as (h1 & h2 & E1 & E2 & L2 & F2 & E3).
  unfold o_erase_node. unfold slot. rewrite E3. cbn [bind]. rewrite E1. cbn [bind]. rewrite H. cbn [bind fst]. rewrite E2. cbn [bind]. exists h2. split; [reflexivity|].
  unfold lnk, ofr. cbn [with_d o_hdr o_base o_d]. rewrite H1, H2. auto.
Qed.
Lemma slot_index : forall h s ord i, lnk h s ord -> In i ord -> slot sz s i <> o_hdr s /\ index_of sz s (slot sz s i) = Ok i.
Proof. clear rep KL keq hash key_of nk.
  intros h s ord i L Hi. apply (ol_in _ _ _ _ _ _ _ L) in Hi. pose proof (ol_le _ _ _ _ _ _ _ L) as Hle. split; [apply (ol_hdr _ _ _ _ _ _ _ L); lia|].
  unfold index_of, slot. rewrite slot_ix_of by lia. reflexivity.
Qed.
Lemma o_erase_at_sim : forall h s o1 pos o2 d', lnk h s (o1 ++ pos :: o2) -> erase_at nk (o_d s) pos = Ok (d', pos) -> d_size d' = d_size (o_d s) - 1 -> d_cap d' = d_cap (o_d s) ->
  exists h', o_erase_at sz nk h s (slot sz s pos) = Ok (h', with_d s d', match o2 with [] => o_hdr s | i :: _ => slot sz s i end) /\
    lnk h' (with_d s d') (map (subst_last pos (d_size (o_d s) - 1)) (o1 ++ o2)) /\ ofr h s h' (with_d s d').
Proof. clear rep KL keq hash key_of.
  intros h s o1 pos o2 d' L H H1 H2. assert (Hin : In pos (o1 ++ pos :: o2)) by (apply in_or_app; right; left; reflexivity). destruct (slot_index h s _ pos L Hin) as (Hne & Hix).
  unfold o_erase_at. destruct (Z.eqb_spec (slot sz s pos) (o_hdr s)) as [|_]; [contradiction|]. rewrite Hix. cbn [bind].
  unfold erase_at in H. destruct (Z.eqb_spec pos (d_size (o_d s))) as [He|He]; [apply (ol_in _ _ _ _ _ _ _ L) in Hin; lia|].
  apply bind_Ok in H. destruct H as (n & Hn & H). rewrite Hn. cbn [bind]. apply bind_Ok in H. destruct H as (sl & Hsl & H). rewrite Hsl. cbn [bind]. apply o_erase_node_sim; assumption.
Qed.
Lemma o_erase_loop_sim : forall fuel h s j k hk p d' pos, erase_loop nk key_of keq fuel (o_d s) j k hk p = Ok (d', pos) ->
  (d' = o_d s /\ pos = d_size (o_d s) /\ o_erase_loop sz nk key_of keq fuel h s j k hk p = Ok (h, s, o_hdr s)) \/
  (exists sl, erase_node (o_d s) pos sl = Ok (d', pos) /\ o_erase_loop sz nk key_of keq fuel h s j k hk p = o_erase_node sz h s pos sl).
Proof.
  induction fuel as [|fu IH]; intros h s j k hk p d' pos H; [discriminate H|]. cbn [erase_loop o_erase_loop] in *. apply bind_Ok in H. destruct H as (q & Hq & H). rewrite Hq. cbn [bind].
  destruct (q =? npos); [injection H as <- <-; left; auto|]. apply bind_Ok in H. destruct H as (n & Hn & H). rewrite Hn. cbn [bind]. destruct ((n_hash n j =? hk) && keq k (key_of j (n_val n))); [|apply IH; exact H].
  right. apply bind_Ok in H. destruct H as (sl & Hsl & H). rewrite Hsl. cbn [bind]. assert (Hpos : pos = q).
  { unfold erase_node in H. do 4 (apply bind_Ok in H; destruct H as (?u & _ & H)). injection H as _ <-. reflexivity. }
  subst q. exists ((j, p) :: sl). auto.
Qed.
End Sim.
