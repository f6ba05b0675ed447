(** The bucket interface of dense tables walks the chains of the buckets. *)
From Coq Require Import ZArith List Bool Lia Arith Permutation.
From Verif Require Import Base BaseLemmas MapSpec DenseSpec DenseModel DenseRun DenseChain DenseInv DenseOps DenseEdit DenseBuckets.
Import ListNotations.
Open Scope Z_scope.

Section Proofs.
Context {E K : Type}.
Variable nk : nat.
Variable key_of : nat -> E -> K.
Variable hash : K -> Z.
Variable keq : K -> K -> bool.
Notation dense := (dense E).
Notation dwf := (dwf nk key_of hash keq).

Definition vals_at (s : dense) (l : list Z) : list E := flat_map (fun i => match d_nodes s i with Some n => [n_val n] | None => [] end) l.

Lemma perm_vals : forall (s : dense) l l', Permutation l l' -> Permutation (vals_at s l) (vals_at s l').
Proof. intros s l l' H. apply Permutation_flat_map. exact H. Qed.

Lemma filter_vals : forall (s : dense) p l, filter p (vals_at s l) = vals_at s (filter (fun i => match d_nodes s i with Some n => p (n_val n) | None => false end) l).
Proof.
  intros s p. induction l as [|i l IH]; [reflexivity|]. cbn [vals_at flat_map filter]. fold (vals_at s l). rewrite filter_app, IH.
  destruct (d_nodes s i) as [n|] eqn:En; [|reflexivity]. cbn [filter]. destruct (p (n_val n)); [|reflexivity].
  cbn [vals_at flat_map]. rewrite En. reflexivity.
Qed.

Definition past (s : dense) : err := if d_cap s =? 0 then NullDeref else OutOfBounds.

Lemma past_node : forall s : dense, dwf s -> biter_node s (mkb (negb (d_cap s =? 0)) npos) = Err (past s).
Proof.
  intros s W. unfold biter_node, past, get_node. cbn [b_base b_pos]. destruct (d_cap s =? 0) eqn:Ec; cbn [negb guard bind]; [reflexivity|].
  rewrite (om_dok _ (w_mem _ _ _ _ _ W)). cbn [guard bind]. pose proof (w_cap _ _ _ _ _ W). unfold npos.
  replace (2 ^ 64 - 1 <? d_cap s) with false by (symmetry; apply Z.ltb_ge; lia). rewrite andb_false_r. reflexivity.
Qed.

Lemma loop_ok : forall j (s : dense) l v fuel, dwf s -> seg (nxj s j) v l -> (forall i, In i l -> live s i) -> (length l < fuel)%nat ->
  bucket_loop fuel s j (mkb (negb (d_cap s =? 0)) v) = (vals_at s l, Err (past s)).
Proof.
  intros j s. induction l as [|i l IH]; intros v fuel W Hs Hl Hf; (destruct fuel as [|fu]; [cbn [length] in Hf; lia|]); cbn [bucket_loop seg] in *.
  - subst v. replace (biter_eq (mkb (negb (d_cap s =? 0)) npos) bucket_end) with false.
    2:{ unfold biter_eq, bucket_end. cbn [b_base b_pos]. change (npos =? 0) with false. rewrite andb_false_r. reflexivity. }
    rewrite (past_node s W). reflexivity.
  - destruct Hs as (-> & Hi & Hs). pose proof (Hl i (or_introl eq_refl)) as Hli. destruct (w_live _ _ _ _ _ W i Hli) as (n & Hn).
    pose proof (om_in _ (w_mem _ _ _ _ _ W) i n Hn) as Hc.
    replace (d_cap s =? 0) with false in * by (symmetry; apply Z.eqb_neq; lia). cbn [negb] in *. unfold biter_eq at 1, bucket_end. cbn [b_base b_pos Bool.eqb andb].
    unfold biter_next, biter_node at 1 2. cbn [b_base b_pos guard bind]. rewrite (get_node_ok s i n (w_mem _ _ _ _ _ W) Hn). cbn [bind].
    unfold nxj at 2 in Hs. rewrite Hn in Hs. cbn [length] in Hf. rewrite (IH (n_next n j) fu W Hs); [|intros x Hx; apply Hl; right; exact Hx|lia].
    cbn [vals_at flat_map]. rewrite Hn. reflexivity.
Qed.

Lemma filter_len : forall (p : Z -> bool) l, (length (filter p l) <= length l)%nat.
Proof. intros p. induction l as [|x l IH]; cbn [filter length]; [lia|]. destruct (p x); cbn [length]; lia. Qed.

Lemma walk_ok : forall j (s : dense) b, dwf s -> (j < nk)%nat -> 0 <= b < d_bc s ->
  Permutation (fst (bucket_walk s j b)) (filter (fun x => hash (key_of j x) mod d_bc s =? b) (delems s)) /\
  snd (bucket_walk s j b) = Err (past s).
Proof.
  intros j s b W Hj Hb. destruct (w_chain _ _ _ _ _ W j Hj b Hb) as (l & Hs & Hnd & Hin).
  unfold bucket_walk, bucket_begin, check_bucket. destruct (Z.eqb_spec (d_bc s) 0) as [|_]; [lia|]. cbn [negb guard bind]. rewrite (om_sok _ (w_mem _ _ _ _ _ W)). cbn [guard bind].
  replace ((0 <=? b) && (b <? d_bc s)) with true by (symmetry; apply andb_true_iff; split; [apply Z.leb_le|apply Z.ltb_lt]; lia). cbn [guard bind].
  assert (Hlv : forall i, In i l -> live s i) by (intros i Hi; apply Hin in Hi; tauto).
  assert (Hp : Permutation l (filter (fun i => match d_nodes s i with Some n => hash (key_of j (n_val n)) mod d_bc s =? b | None => false end) (zrange (d_size s)))).
  { apply NoDup_Permutation; [exact Hnd|apply NoDup_filter; apply zrange_NoDup|]. intros i. rewrite Hin, filter_In, zrange_In. unfold live, bkj, hsj. split.
    - intros (Hi & Hk). split; [exact Hi|]. destruct (w_live _ _ _ _ _ W i Hi) as (n & Hn). rewrite Hn in *. rewrite (w_hash _ _ _ _ _ W i n j Hn Hj) in Hk. apply Z.eqb_eq. exact Hk.
    - intros (Hi & Hk). split; [exact Hi|]. destruct (d_nodes s i) as [n|] eqn:Hn; [|discriminate]. rewrite (w_hash _ _ _ _ _ W i n j Hn Hj). apply Z.eqb_eq. exact Hk. }
  change (d_sparse s b j) with (hdj s j b). rewrite (loop_ok j s l (hdj s j b) (chain_fuel s) W Hs Hlv).
  - cbn [fst snd]. split; [|reflexivity]. change (delems s) with (vals_at s (zrange (d_size s))). rewrite filter_vals. apply perm_vals. exact Hp.
  - apply Permutation_length in Hp. rewrite Hp. unfold chain_fuel.
    eapply Nat.le_lt_trans; [apply filter_len|]. rewrite zrange_length. lia.
Qed.

Lemma size_err : forall j (s : dense) b, dwf s -> (j < nk)%nat -> exists e, bucket_size s j b = Err e.
Proof.
  intros j s b W Hj. unfold bucket_size. destruct (Z_lt_dec b 0) as [Hn|Hn]; [|destruct (Z_lt_dec b (d_bc s)) as [Hl|Hl]].
  1,3: unfold bucket_walk, bucket_begin, check_bucket; rewrite (om_sok _ (w_mem _ _ _ _ _ W)); destruct (d_bc s =? 0); cbn [negb guard bind]; [exists NullDeref; reflexivity|];
    replace ((0 <=? b) && (b <? d_bc s)) with false by (symmetry; apply andb_false_iff; rewrite Z.leb_gt, Z.ltb_ge; lia); exists OutOfBounds; reflexivity.
  destruct (walk_ok j s b W Hj ltac:(lia)) as (_ & Hr). destruct (bucket_walk s j b) as [l r]. cbn [snd] in Hr. subst r. exists (past s). reflexivity.
Qed.

Lemma bucket_ok : forall (s : dense) k, dwf s -> 0 < d_bc s -> bucket hash s k = Ok (hash k mod d_bc s) /\ 0 <= hash k mod d_bc s < d_bc s.
Proof. intros s k W Hb. unfold bucket. destruct (Z.eqb_spec (d_bc s) 0) as [|_]; [lia|]. split; [reflexivity|]. apply Z.mod_pos_bound. lia. Qed.
End Proofs.
