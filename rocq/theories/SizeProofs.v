(** capacity() and max_size() of dense tables. *)
From Coq Require Import ZArith List Bool Lia.
From Verif Require Import Base BaseLemmas MapSpec Float32 Float32Facts DenseSpec DenseModel DenseRun DenseChain DenseInv DenseOps DenseEdit DenseErase DenseRefine DenseMono DenseMore DenseReserve BoundsSpec DenseBounds LoadSpec DenseLoad SizeModel.
Import ListNotations.
Open Scope Z_scope.

(** ** max_size(). *)
(** The largest bucket count is rounded to 2^64. *)
Lemma max_buckets_float : f32_of d_max_buckets = (2 ^ 64, 1).
Proof. vm_compute. reflexivity. Qed.
Lemma big_mul : forall p q, f32_mul (f32_of d_max_buckets) (p, q) = f32 (2 ^ 64 * p, q).
Proof. intros p q. unfold f32_mul. rewrite max_buckets_float. cbn [fst snd]. rewrite Z.mul_1_l. reflexivity. Qed.
Lemma max_size_below : forall p q, 0 < p -> 0 < q -> p * 2 ^ 24 <= (2 ^ 24 - 1) * q ->
  exists m, f32_trunc (f32_mul (f32_of d_max_buckets) (p, q)) = Ok m /\ 0 <= m <= 2 ^ 64 - 2 ^ 40.
Proof.
  intros p q Hp Hq H. rewrite big_mul.
  pose proof (f32_le (2 ^ 64 * p) q (2 ^ 24 - 1) 40 ltac:(lia) Hq ltac:(lia)) as H1.
  change (2 ^ Z.max 0 (- (40))) with 1 in H1. change (2 ^ Z.max 0 40) with (2 ^ 40) in H1. specialize (H1 ltac:(lia)).
  pose proof (f32_pos (2 ^ 64 * p) q ltac:(lia) Hq) as [Ha Hb]. set (x := f32 (2 ^ 64 * p, q)) in *. clearbody x.
  unfold f32_trunc. exists (fst x / snd x).
  assert (Hle : fst x / snd x <= 2 ^ 64 - 2 ^ 40) by (apply Z.div_le_upper_bound; lia).
  destruct (Z.ltb_spec (fst x / snd x) two64) as [Hl|Hl]; [|unfold two64 in Hl; lia]. split; [reflexivity|]. split; [apply Z.div_pos; lia|exact Hle].
Qed.
Lemma max_size_above : forall p q, 0 < q -> q <= p -> f32_trunc (f32_mul (f32_of d_max_buckets) (p, q)) = Err BadCast.
Proof.
  intros p q Hq H. rewrite big_mul.
  pose proof (f32_ge (2 ^ 64 * p) q 1 64 ltac:(lia) Hq ltac:(lia)) as H1.
  change (2 ^ Z.max 0 (- (64))) with 1 in H1. change (2 ^ Z.max 0 64) with (2 ^ 64) in H1. specialize (H1 ltac:(lia)).
  pose proof (f32_pos (2 ^ 64 * p) q ltac:(lia) Hq) as [Ha Hb]. set (x := f32 (2 ^ 64 * p, q)) in *. clearbody x.
  unfold f32_trunc. assert (Hge : 2 ^ 64 <= fst x / snd x) by (apply Z.div_le_lower_bound; lia).
  destruct (Z.ltb_spec (fst x / snd x) two64) as [Hl|Hl]; [unfold two64 in Hl; lia|reflexivity].
Qed.

(** ** capacity() with the default growth. *)
Lemma exact_mul : forall k, 0 <= k -> 7 * 2 ^ k < 2 ^ 64 -> f32_trunc (f32_mul (f32_of (8 * 2 ^ k)) (7, 8)) = Ok (7 * 2 ^ k).
Proof.
  intros k Hk Hlt. assert (Hp : 0 < 2 ^ k) by (apply Z.pow_pos_nonneg; lia). unfold f32_mul, f32_of. cbn [fst snd].
  pose proof (f32_le (8 * 2 ^ k) 1 8 k ltac:(lia) ltac:(lia) ltac:(lia)) as H2.
  pose proof (f32_ge (8 * 2 ^ k) 1 8 k ltac:(lia) ltac:(lia) ltac:(lia)) as H4.
  replace (Z.max 0 (- k)) with 0 in * by lia. replace (Z.max 0 k) with k in * by lia. rewrite Z.pow_0_r in *. specialize (H2 ltac:(lia)). specialize (H4 ltac:(lia)).
  pose proof (f32_pos (8 * 2 ^ k) 1 ltac:(lia) ltac:(lia)) as [Hb1 Hb2].
  set (y := f32 (8 * 2 ^ k, 1)) in *. set (b1 := fst y) in *. set (b2 := snd y) in *. clearbody b1 b2.
  assert (Hb : b1 = 8 * 2 ^ k * b2) by lia. assert (Hbp : 0 < b1) by nia.
  pose proof (f32_le (b1 * 7) (b2 * 8) 7 k ltac:(lia) ltac:(lia) ltac:(lia)) as H5.
  pose proof (f32_ge (b1 * 7) (b2 * 8) 7 k ltac:(lia) ltac:(lia) ltac:(lia)) as H6.
  replace (Z.max 0 (- k)) with 0 in * by lia. replace (Z.max 0 k) with k in * by lia. rewrite Z.pow_0_r in *. specialize (H5 ltac:(lia)). specialize (H6 ltac:(lia)).
  pose proof (f32_pos (b1 * 7) (b2 * 8) ltac:(lia) ltac:(lia)) as [Hc1 Hc2].
  set (x := f32 (b1 * 7, b2 * 8)) in *. clearbody x. unfold f32_trunc.
  assert (Hx : fst x / snd x = 7 * 2 ^ k) by (symmetry; apply Z.div_unique with 0; lia).
  rewrite Hx. destruct (Z.ltb_spec (7 * 2 ^ k) two64) as [_|Hl]; [reflexivity|unfold two64 in Hl; lia].
Qed.

(** Fewer elements than 7/8 of the buckets are recognised as such as long as their number is exact
    in single precision. *)
Lemma not_yet : forall n k, 0 <= k -> 0 <= n < 2 ^ 24 -> n < 7 * 2 ^ k -> rle (7, 8) (f32_div (f32_of n) (f32_of (8 * 2 ^ k))) = false.
Proof.
  intros n k Hk Hn Hlt. assert (Hp : 0 < 2 ^ k) by (apply Z.pow_pos_nonneg; lia). unfold rle, f32_div, f32_of. cbn [fst snd]. apply Z.leb_gt.
  pose proof (f32_le n 1 n 0 ltac:(lia) ltac:(lia) Hn) as H1. change (Z.max 0 (- 0)) with 0 in H1. change (Z.max 0 0) with 0 in H1. rewrite Z.pow_0_r in H1. specialize (H1 ltac:(lia)).
  pose proof (f32_ge (8 * 2 ^ k) 1 8 k ltac:(lia) ltac:(lia) ltac:(lia)) as H2.
  replace (Z.max 0 (- k)) with 0 in * by lia. replace (Z.max 0 k) with k in * by lia. rewrite Z.pow_0_r in *. specialize (H2 ltac:(lia)).
  pose proof (f32_pos n 1 ltac:(lia) ltac:(lia)) as [Ha1 Ha2]. pose proof (f32_pos (8 * 2 ^ k) 1 ltac:(lia) ltac:(lia)) as [Hb1 Hb2].
  set (x := f32 (n, 1)) in *. set (a1 := fst x) in *. set (a2 := snd x) in *. clearbody a1 a2.
  set (y := f32 (8 * 2 ^ k, 1)) in *. set (b1 := fst y) in *. set (b2 := snd y) in *. clearbody b1 b2.
  assert (h1 : 0 < b1) by nia.
  pose proof (f32_le (a1 * b2) (a2 * b1) n (- (k + 3)) ltac:(nia) ltac:(nia) Hn) as H3.
  replace (Z.max 0 (- - (k + 3))) with (k + 3) in H3 by lia. replace (Z.max 0 (- (k + 3))) with 0 in H3 by lia. rewrite Z.pow_0_r in H3.
  rewrite Z.pow_add_r in H3 by lia. change (2 ^ 3) with 8 in H3. set (u := 2 ^ k) in *. clearbody u.
  assert (h3 : n * a2 * (8 * u * b2) <= n * a2 * b1) by (apply Z.mul_le_mono_nonneg_l; nia).
  assert (h4 : 8 * u * b2 * a1 <= 8 * u * b2 * (n * a2)) by (apply Z.mul_le_mono_nonneg_l; nia).
  specialize (H3 ltac:(lia)). pose proof (f32_pos (a1 * b2) (a2 * b1) ltac:(nia) ltac:(nia)) as [Hc1 Hc2].
  set (z := f32 (a1 * b2, a2 * b1)) in *. clearbody z.
  (* fst z * 8u <= n * snd z < 7 u snd z *)
  assert (h5 : fst z * 8 * u < 7 * snd z * u) by nia. apply (Zmult_lt_reg_r _ _ u); lia.
Qed.

Section Sizes.
Context {E K : Type}.
Variable nk : nat.
Variable key_of : nat -> E -> K.
Variable hash : K -> Z.
Variable keq : K -> K -> bool.
Variable rep : E -> E -> E.
Notation dense := (dense E).
Notation dwf := (dwf nk key_of hash keq).
Notation dexec := (dexec nk key_of hash keq rep).
Notation drun := (drun nk key_of hash keq rep).

Lemma default_capacity : forall s : dense, dwf s -> default s -> exists c, d_capacity s = Ok c /\ 8 * c = 7 * d_bc s /\ size s <= c.
Proof.
  intros s W (Hf & Hd & Hl). pose proof (w_bc _ _ _ _ _ W) as Hb. unfold d_capacity, to_load_factor, size. rewrite Hf.
  destruct Hd as [Hd|(k & Hk & Hd)].
  - exists 0. rewrite Hd. split; [vm_compute; reflexivity|]. split; [lia|]. rewrite Hd in Hl. lia.
  - exists (7 * 2 ^ k). rewrite Hd in *. split; [apply exact_mul; lia|]. split; lia.
Qed.
Lemma default_max_size : forall s : dense, default s -> d_max_size s = Ok (7 * 2 ^ 61).
Proof. intros s (Hf & _). unfold d_max_size, to_load_factor. rewrite Hf. vm_compute. reflexivity. Qed.

(** With fewer than capacity() elements an insertion does not add buckets; with capacity() elements it doubles them. *)
Lemma default_grow : forall v (s t : dense) c r n, dwf s -> denv_ok v -> default s -> 0 < d_bc s -> inserting c -> dexec v s c = Ok (t, r) -> d_capacity s = Ok n ->
  (size s < n -> size s < 2 ^ 24 -> d_bc t = d_bc s) /\ (size s = n -> r <> QThrow -> d_bc t = 2 * d_bc s).
Proof.
  intros v s t c r n W Hv Hdf Hbp Hi H Hn. destruct (default_capacity s W Hdf) as (n' & Hn' & He & Hle). rewrite Hn in Hn'. injection Hn' as <-.
  destruct Hdf as (Hf & Hd & Hl). destruct Hd as [Hd|(k & Hk & Hd)]; [lia|].
  pose proof (w_size _ _ _ _ _ W) as Hsz. pose proof (w_bc _ _ _ _ _ W) as Hb.
  destruct (insert_room _ _ _ _ _ _ _ _ _ _ Hi H) as (s1 & o & Hro & Hdm & H1 & H2). injection Hdm as -> _ _.
  unfold make_room in Hro. bstep Hro. destruct a as [s0 o0]. destruct (resize_dims _ _ _ _ Eb) as (Hb0 & Hm0 & Hz0).
  unfold size in *. destruct o0 as [u|].
  2:{ injection Hro as <- <-. split; [intros _ _; exact Hb0|]. intros _ Hr. exfalso. apply Hr. apply H1. reflexivity. }
  unfold maybe_rehash in Hro. destruct (Z.eqb_spec (d_bc s0) 0) as [Hx|_]; [lia|]. split.
  - intros Hlt H24. unfold overloaded in Hro. rewrite Hm0, Hz0, Hb0, Hf, Hd, (not_yet (d_size s) k Hk ltac:(lia) ltac:(lia)) in Hro. injection Hro as <- <-. exact Hb0.
  - intros Heq Hr. assert (Ho : overloaded s0 = true) by (unfold overloaded; rewrite Hm0, Hz0, Hb0, Hf, Hd; apply overload_default; lia).
    rewrite Ho in Hro. rewrite Hb0, Z.mod_small in Hro by (change two64 with (2 ^ 64); lia).
    destruct (rehash_exact nk key_of _ _ _ _ _ Hro ltac:(lia)) as (m & Ht & _ & _ & H5). rewrite (H5 ltac:(intros Hx; apply Hr; apply H1; exact Hx)).
    rewrite Hz0, Hm0, Hf in Ht. pose proof (trunc_default _ (d_bc s) _ (proj1 Hsz) ltac:(right; exists k; auto) Hl Ht). lia.
Qed.

Section Hist.
Hypothesis KL : key_laws hash keq.
Hypothesis rep_key : forall x e, key_of 0%nat (rep x e) = key_of 0%nat x.
Lemma history_sizes : forall h (s : dense) rs, dhistory_ok nk h -> Forall (fun vc => keeps_policy (snd vc)) h ->
  (forall h1 v c h2 s1 rs1, h = h1 ++ (v, c) :: h2 -> drun empty_dense h1 = Ok (s1, rs1) -> ~ blocked nk key_of hash keq rep v s1 c) ->
  drun empty_dense h = Ok (s, rs) ->
  d_max_size s = Ok (7 * 2 ^ 61) /\ exists n, d_capacity s = Ok n /\ 8 * n = 7 * d_bc s /\ size s <= n /\
  forall v c t r, denv_ok v -> 0 < d_bc s -> inserting c -> dexec v s c = Ok (t, r) ->
    (size s < n -> size s < 2 ^ 24 -> d_bc t = d_bc s) /\ (size s = n -> r <> QThrow -> d_bc t = 2 * d_bc s).
Proof.
  intros h s rs Hh Hp Hnb Hr.
  destruct (run_keeps nk key_of hash keq rep KL rep_key default keeps_policy (step_default nk key_of hash keq rep KL rep_key) h empty_dense s rs (empty_wf nk key_of hash keq) Hh Hp Hnb empty_default Hr) as (Hdf & W).
  split; [exact (default_max_size s Hdf)|]. destruct (default_capacity s W Hdf) as (n & H1 & H2 & H3). exists n. split; [exact H1|]. split; [exact H2|]. split; [exact H3|].
  intros v c t r Hv Hb Hi He. exact (default_grow v s t c r n W Hv Hdf Hb Hi He H1).
Qed.
End Hist.
End Sizes.
