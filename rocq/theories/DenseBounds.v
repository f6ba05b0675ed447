(** When calls on the unordered dense table throw, and how large its two arrays grow. *)
From Coq Require Import ZArith List Bool Lia.
From Verif Require Import Base BaseLemmas MapSpec Float32 Float32Facts DenseSpec DenseModel DenseRun DenseChain DenseInv DenseOps DenseEdit DenseErase DenseRefine DenseMono BoundsSpec.
Import ListNotations.
Open Scope Z_scope.

(** ** Rounding errors. *)
Lemma f32_rel_lo : forall n d, 0 <= n -> 0 < d -> n * snd (f32 (n, d)) * (2 ^ 23 - 1) <= fst (f32 (n, d)) * d * 2 ^ 23.
Proof.
  intros n d Hn Hd. unfold f32. destruct (Z.eqb_spec n 0) as [->|Hne]; [cbn [fst snd]; lia|]. cbn [fst snd].
  pose proof (f32_exp_spec n d ltac:(lia) Hd) as Hs. cbn zeta in Hs. pose proof (pow_split (f32_exp n d)) as (Hp & Hq).
  set (e := f32_exp n d) in *. set (p := 2 ^ Z.max 0 e) in *. set (q := 2 ^ Z.max 0 (- e)) in *. clearbody e p q.
  pose proof (round_even_bounds (n * q) (d * p) ltac:(nia)) as Hr. set (m := round_even (n * q) (d * p)) in *. clearbody m.
  change (2 ^ 23) with 8388608 in *. change (2 ^ 24) with 16777216 in *. nia.
Qed.

(** m = trunc(float(n) / (p/q)) is at most 2n / (p/q). *)
Lemma trunc_bound : forall n p q m, 0 <= n -> 0 < p -> 0 < q -> f32_trunc (f32_div (f32_of n) (p, q)) = Ok m -> m * p <= 2 * q * n.
Proof.
  intros n p q m Hn Hp Hq E0. unfold f32_trunc, f32_div, f32_of in E0. cbn [fst snd] in E0.
  pose proof (f32_pos n 1 Hn ltac:(lia)) as [Ha Hb]. pose proof (f32_rel n 1 Hn ltac:(lia)) as Hr.
  set (x := f32 (n, 1)) in *. set (a := fst x) in *. set (b := snd x) in *. clearbody a b.
  pose proof (f32_pos (a * q) (b * p) ltac:(nia) ltac:(nia)) as [Hc Hd]. pose proof (f32_rel (a * q) (b * p) ltac:(nia) ltac:(nia)) as Hr2.
  set (y := f32 (a * q, b * p)) in *. set (c := fst y) in *. set (d := snd y) in *. clearbody c d.
  destruct (c / d <? two64); [|discriminate]. injection E0 as <-.
  pose proof (Z.mul_div_le c d Hd) as Hm. assert (Hm0 : 0 <= c / d) by (apply Z.div_pos; lia). set (m := c / d) in *. clearbody m.
  change (2 ^ 23) with 8388608 in *.
  assert (H1 : m * p * (d * b) * 8388608 <= a * q * d * 8388609).
  { assert (H4 : d * m * (b * p) <= c * (b * p)) by (apply Z.mul_le_mono_nonneg_r; nia). lia. }
  assert (H2 : a * 8388608 <= n * b * 8388609) by lia.
  assert (H3 : m * p * (d * b) * (8388608 * 8388608) <= n * q * (d * b) * (8388609 * 8388609)).
  { assert (H4 : a * 8388608 * (q * d * 8388609) <= n * b * 8388609 * (q * d * 8388609)) by (apply Z.mul_le_mono_nonneg_r; nia). lia. }
  assert (H5 : m * p * (8388608 * 8388608) <= n * q * (8388609 * 8388609)).
  { apply (Z.mul_le_mono_pos_r _ _ (d * b)); [nia|]. lia. }
  assert (0 <= n * q) by nia. lia.
Qed.

(** A load factor p/q reached by n elements in b buckets means b at most 3/2 n / (p/q). *)
Lemma load_bound : forall n b p q, 0 <= n -> 0 < b -> 0 < p -> 0 < q ->
  rle (p, q) (f32_div (f32_of n) (f32_of b)) = true -> 2 * b * p <= 3 * q * n.
Proof.
  intros n b p q Hn Hb Hp Hq E0. unfold rle, f32_div, f32_of in E0. cbn [fst snd] in E0. apply Z.leb_le in E0.
  pose proof (f32_pos n 1 Hn ltac:(lia)) as [Ha1 Ha2]. pose proof (f32_rel n 1 Hn ltac:(lia)) as Hr.
  pose proof (f32_pos b 1 ltac:(lia) ltac:(lia)) as [Hb1 Hb2]. pose proof (f32_rel_lo b 1 ltac:(lia) ltac:(lia)) as Hl.
  set (x := f32 (n, 1)) in *. set (a1 := fst x) in *. set (a2 := snd x) in *. clearbody a1 a2.
  set (y := f32 (b, 1)) in *. set (b1 := fst y) in *. set (b2 := snd y) in *. clearbody b1 b2.
  change (2 ^ 23) with 8388608 in *.
  assert (Hbp : 0 < b1) by nia.
  pose proof (f32_pos (a1 * b2) (a2 * b1) ltac:(nia) ltac:(nia)) as [Hc Hd]. pose proof (f32_rel (a1 * b2) (a2 * b1) ltac:(nia) ltac:(nia)) as Hr2.
  set (z := f32 (a1 * b2, a2 * b1)) in *. set (c := fst z) in *. set (d := snd z) in *. clearbody c d. change (2 ^ 23) with 8388608 in *.
  assert (H1 : p * (a2 * b1) * 8388608 <= q * (a1 * b2) * 8388609).
  { apply (Z.mul_le_mono_pos_r _ _ d); [lia|].
    assert (h1 : p * d * (a2 * b1 * 8388608) <= c * q * (a2 * b1 * 8388608)) by (apply Z.mul_le_mono_nonneg_r; nia).
    assert (h2 : q * (c * (a2 * b1) * 8388608) <= q * (a1 * b2 * d * 8388609)) by (apply Z.mul_le_mono_nonneg_l; lia). lia. }
  assert (H2 : p * (a2 * (b * b2 * 8388607)) <= p * (a2 * (b1 * 8388608))) by (apply Z.mul_le_mono_nonneg_l; [lia|]; apply Z.mul_le_mono_nonneg_l; lia).
  assert (H3 : q * b2 * 8388609 * (a1 * 8388608) <= q * b2 * 8388609 * (n * a2 * 8388609)) by (apply Z.mul_le_mono_nonneg_l; [nia|lia]).
  assert (H4 : p * b * 8388607 * 8388608 <= q * n * (8388609 * 8388609)).
  { apply (Z.mul_le_mono_pos_r _ _ (a2 * b2)); [nia|]. lia. }
  assert (0 <= q * n) by nia. nia.
Qed.

Section Bounds.
Context {E K : Type}.
Variable nk : nat.
Variable key_of : nat -> E -> K.
Variable hash : K -> Z.
Variable keq : K -> K -> bool.
Variable rep : E -> E -> E.
Notation dense := (dense E).
Notation dwf := (dwf nk key_of hash keq).

(** ** Functions that touch neither array's size. *)
Definition dims (s : dense) : Z * Z * rat := (d_bc s, d_cap s, d_mlf s).
Lemma put_dims : forall (s t : dense) i n, put_node s i n = Ok t -> dims t = dims s. Proof. intros s t i n H. unfold put_node in H. binv H. reflexivity. Qed.
Lemma kill_dims : forall (s t : dense) i, kill_node s i = Ok t -> dims t = dims s. Proof. intros s t i H. unfold kill_node in H. binv H. reflexivity. Qed.
Lemma new_dims : forall (s t : dense) i n, new_node s i n = Ok t -> dims t = dims s. Proof. intros s t i n H. unfold new_node in H. binv H. reflexivity. Qed.
Lemma store_dims : forall (s t : dense) j p v, store s j p v = Ok t -> dims t = dims s.
Proof. intros s t j [b|i] v H; cbn [store] in H; bstep H; [injection H as <-; reflexivity|]. exact (put_dims _ _ _ _ H). Qed.
Lemma fold_dims : forall A (f : dense -> A -> res dense) (l : list A) (s t : dense),
  (forall x s t, f s x = Ok t -> dims t = dims s) -> foldM f l s = Ok t -> dims t = dims s.
Proof.
  intros A f l s t Hf. revert s. induction l as [|x l IH]; intros s H; cbn [foldM] in H; [injection H as ->; reflexivity|].
  bstep H. rewrite (IH _ H). apply (Hf x). exact Eb.
Qed.
Lemma insert_node_dims : forall pos (s t : dense) j, insert_node pos s j = Ok t -> dims t = dims s.
Proof. intros pos s t j H. unfold insert_node in H. do 4 bstep H. rewrite (store_dims _ _ _ _ _ H). exact (put_dims _ _ _ _ Eb2). Qed.
Lemma move_chain_dims : forall a b (s t : dense) j, move_chain a b s j = Ok t -> dims t = dims s.
Proof. intros a b s t j H. unfold move_chain in H. do 5 bstep H. exact (store_dims _ _ _ _ _ H). Qed.
Lemma commit_dims : forall (s t : dense) pos sl hs, commit_node s pos sl hs = Ok t -> dims t = dims s.
Proof.
  intros s t pos sl hs H. unfold commit_node in H. do 2 bstep H. rewrite (put_dims _ _ _ _ H). revert Eb. apply fold_dims. intros [j p] x y. apply store_dims.
Qed.
Lemma pop_dims : forall (s t : dense), pop_node s = Ok t -> dims t = dims s.
Proof. intros s t H. unfold pop_node in H. apply kill_dims in H. exact H. Qed.
Lemma push_dims : forall c (s t : dense) e o, push_node c s e = Ok (t, o) -> dims t = dims s.
Proof. intros c s t e o H. unfold push_node in H. destruct c; [|injection H as <- <-; reflexivity]. bstep H. injection H as <- <-. apply new_dims in Eb. exact Eb. Qed.
Lemma emplace_node_dims : forall c (s t : dense) sl hs e o, emplace_node c s sl hs e = Ok (t, o) -> dims t = dims s.
Proof.
  intros c s t sl hs e o H. unfold emplace_node in H. bstep H. destruct a as [s1 [p|]]; [|injection H as <- <-; exact (push_dims _ _ _ _ _ Eb)].
  bstep H. injection H as <- <-. rewrite (commit_dims _ _ _ _ _ Eb0). exact (push_dims _ _ _ _ _ Eb).
Qed.
Lemma erase_node_dims : forall (s t : dense) pos sl p, erase_node s pos sl = Ok (t, p) -> dims t = dims s.
Proof.
  intros s t pos sl p H. unfold erase_node in H. bstep H. bstep H. bstep H. bstep H. injection H as <- <-. rewrite (pop_dims _ _ Eb2).
  assert (H1 : dims a0 = dims s).
  { revert Eb0. apply fold_dims. intros [j q] x y Hx. bstep Hx. exact (store_dims _ _ _ _ _ Hx). }
  destruct (pos =? d_size a0 - 1); [injection Eb1 as <-; exact H1|]. bstep Eb1. bstep Eb1. rewrite (put_dims _ _ _ _ Eb1), <- H1. revert Eb3. apply fold_dims. intros j x y. apply move_chain_dims.
Qed.
Lemma erase_at_dims : forall (s t : dense) i p, erase_at nk s i = Ok (t, p) -> dims t = dims s.
Proof. intros s t i p H. unfold erase_at in H. destruct (i =? d_size s); [injection H as <- _; reflexivity|]. do 2 bstep H. exact (erase_node_dims _ _ _ _ _ H). Qed.
Lemma erase_loop_dims : forall fu (s t : dense) j k h p q, erase_loop nk key_of keq fu s j k h p = Ok (t, q) -> dims t = dims s.
Proof.
  induction fu as [|fu IH]; intros s t j k h p q H; cbn [erase_loop] in H; [discriminate|]. bstep H. destruct (a =? npos); [injection H as <- _; reflexivity|].
  bstep H. destruct ((n_hash a0 j =? h) && keq k (key_of j (n_val a0))); [|exact (IH _ _ _ _ _ _ _ H)]. bstep H. exact (erase_node_dims _ _ _ _ _ H).
Qed.
Lemma erase_range_dims : forall n (s t : dense) a r p, erase_range_loop nk n s a r = Ok (t, p) -> dims t = dims s.
Proof.
  induction n as [|n IH]; intros s t a r p H; cbn [erase_range_loop] in H; [injection H as <- _; reflexivity|]. bstep H. destruct a0 as [s1 q].
  rewrite (IH _ _ _ _ _ H). exact (erase_at_dims _ _ _ _ Eb).
Qed.
Lemma clear_dims : forall (s t : dense), clear s = Ok t -> dims t = dims s.
Proof.
  intros s t H. unfold clear in H. bstep H. assert (H1 : dims a = dims s) by (unfold fill_sparse in Eb; binv Eb; reflexivity). rewrite <- H1.
  unfold clear_data in H. apply (fold_dims _ kill_node) in H; [exact H|]. intros i x y. apply kill_dims.
Qed.

(** ** Growing. *)
Lemma resize_caps : forall lim (s t : dense) c o, resize_data lim s c = Ok (t, o) ->
  (o = None /\ t = s /\ lim < c) \/ (o = Some tt /\ dims t = (d_bc s, c, d_mlf s) /\ d_size t = d_size s).
Proof.
  intros lim s t c o H. unfold resize_data in H. destruct (Z.ltb_spec lim c); [injection H as <- <-; left; auto|].
  bstep H. injection H as <- <-. right. auto.
Qed.

Lemma maybe_resize_caps : forall lim (s t : dense) o, dwf s -> maybe_resize lim s = Ok (t, o) ->
  d_cap t <= Z.max (d_cap s) (nodes_for (d_size s)) /\ d_bc t = d_bc s /\ d_mlf t = d_mlf s /\ d_size t = d_size s /\ (o = None -> t = s /\ lim < nodes_for (d_size s)).
Proof.
  intros lim s t o W H. unfold maybe_resize in H. unfold nodes_for. pose proof (w_cap _ _ _ _ _ W) as Hc. pose proof (w_size _ _ _ _ _ W) as Hsz.
  destruct (Z.eqb_spec (d_cap s) (d_size s)) as [He|He]; [|injection H as <- <-; split; [lia|]; do 3 (split; [reflexivity|]); discriminate].
  assert (Hv : (if d_cap s =? 0 then 1 else d_cap s * 2 mod two64) <= Z.max 1 (2 * d_size s)).
  { destruct (Z.eqb_spec (d_cap s) 0); [lia|]. rewrite Z.mod_small by (change two64 with (2 ^ 64); lia). lia. }
  destruct (resize_caps _ _ _ _ _ H) as [(-> & -> & Hl)|(-> & Hd & Hs)].
  - split; [lia|]. do 3 (split; [reflexivity|]). intros _. split; [reflexivity|lia].
  - injection Hd as -> -> ->. split; [lia|]. do 3 (split; [auto|]). discriminate.
Qed.

Lemma do_rehash_caps : forall lim (s t : dense) n o, do_rehash nk lim s n = Ok (t, o) ->
  d_cap t = d_cap s /\ d_mlf t = d_mlf s /\ d_bc t <= Z.max (d_bc s) n /\ (o = None -> lim < n).
Proof.
  intros lim s t n o H. unfold do_rehash in H. destruct (realloc_sparse lim s n) as [s1 b] eqn:Er.
  assert (H1 : d_cap s1 = d_cap s /\ d_mlf s1 = d_mlf s /\ d_bc s1 <= Z.max (d_bc s) n /\ (b = false -> lim < n)).
  { unfold realloc_sparse in Er; destruct (Z.ltb_spec (d_bc s) n); [destruct (Z.ltb_spec lim n)|]; injection Er as <- <-; cbn [d_bc d_cap d_mlf];
      (split; [reflexivity|]; split; [reflexivity|]; split; [lia|]; intros; (discriminate || assumption)). }
  destruct H1 as (Hc & Hm & Hb & Hl). destruct b; [|injection H as <- <-; auto]. bstep H. bstep H. injection H as <- <-.
  assert (H2 : dims a = dims s1) by (unfold fill_sparse in Eb; binv Eb; reflexivity).
  assert (H3 : dims a0 = dims a).
  { revert Eb0. apply fold_dims. intros i x y. unfold insert_step. apply fold_dims. intros j u w. apply insert_node_dims. }
  rewrite H2 in H3. injection H3 as Hx Hy Hz. split; [congruence|]. split; [congruence|]. split; [lia|discriminate].
Qed.

Variable lp lq : Z.
Hypothesis Hlp : 0 < lp.
Hypothesis Hlq : 0 < lq.
(** lp/lq is a lower bound of the max load factor. *)
Definition loaded (s : dense) : Prop := lp * snd (d_mlf s) <= fst (d_mlf s) * lq.
Notation buckets_for := (buckets_for lp lq).
Notation load_ok := (load_ok lp lq).

Lemma buckets_mono : forall n m b c, n <= m -> b <= c -> buckets_for n c -> buckets_for m b.
Proof. intros n m b c Hn Hb [H|H]; [left; lia|right; nia]. Qed.
Lemma buckets_max : forall n b c, buckets_for n b -> buckets_for n c -> buckets_for n (Z.max b c).
Proof. intros n b c Hb Hc. destruct (Z.max_spec b c) as [[_ ->]|[_ ->]]; assumption. Qed.

Lemma scale : forall (s : dense) b n k, dwf s -> loaded s -> 0 <= k * n -> b * fst (d_mlf s) <= k * (snd (d_mlf s) * n) -> lp * b <= k * (lq * n).
Proof.
  intros s b n k W Hl Hk H. destruct (w_mlf _ _ _ _ _ W) as (Hp & Hq & _). unfold loaded in Hl. destruct (d_mlf s) as [p q]. cbn [fst snd] in *.
  destruct (Z_le_dec b 0) as [Hb|Hb]; [assert (0 <= k * (lq * n)) by nia; nia|].
  apply (Z.mul_le_mono_pos_r _ _ q Hq).
  assert (h1 : lp * q * b <= p * lq * b) by (apply Z.mul_le_mono_nonneg_r; lia).
  assert (h2 : b * p * lq <= k * (q * n) * lq) by (apply Z.mul_le_mono_nonneg_r; lia). lia.
Qed.

Lemma rehash_caps : forall lim (s t : dense) n m o, dwf s -> loaded s -> d_size s <= m -> 0 <= m -> buckets_for m n -> rehash nk lim s n = Ok (t, o) ->
  d_cap t = d_cap s /\ d_mlf t = d_mlf s /\ (buckets_for m (d_bc s) -> buckets_for m (d_bc t)) /\ (o = None -> exists b, buckets_for m b /\ lim < b).
Proof.
  intros lim s t n m o W Hl Hs Hm0 Hn H. unfold rehash in H. destruct ((n =? 0) && (d_size s =? 0)); [injection H as <- <-; split; [reflexivity|]; split; [reflexivity|]; split; [auto|discriminate]|].
  bstep H. pose proof (w_size _ _ _ _ _ W) as Hsz. destruct (w_mlf _ _ _ _ _ W) as (Hp & Hq & _).
  assert (Ha : buckets_for m a).
  { right. pose proof (trunc_bound (d_size s) (fst (d_mlf s)) (snd (d_mlf s)) a ltac:(lia) Hp Hq) as Ht. rewrite <- surjective_pairing in Ht. specialize (Ht Eb).
    pose proof (scale s a (d_size s) 2 W Hl ltac:(lia) ltac:(lia)). assert (lq * d_size s <= lq * m) by nia. assert (0 <= lq * d_size s) by nia. lia. }
  destruct ((n =? 0) || negb (Z.max a n =? d_bc s)); [|injection H as <- <-; split; [reflexivity|]; split; [reflexivity|]; split; [auto|discriminate]].
  destruct (do_rehash_caps _ _ _ _ _ H) as (Hc & Hm & Hb & Hlm). split; [exact Hc|]. split; [exact Hm|]. split.
  - intros Hs0. eapply buckets_mono; [apply Z.le_refl|exact Hb|]. repeat apply buckets_max; assumption.
  - intros Ho. exists (Z.max a n). split; [apply buckets_max; assumption|auto].
Qed.

Lemma maybe_rehash_caps : forall lim (s t : dense) o, dwf s -> loaded s -> maybe_rehash nk lim s = Ok (t, o) ->
  d_cap t = d_cap s /\ d_mlf t = d_mlf s /\ (buckets_for (d_size s) (d_bc s) -> buckets_for (d_size s) (d_bc t) ) /\
  (forall m, d_size s <= m -> buckets_for m (d_bc s) -> buckets_for m (d_bc t)) /\ (o = None -> exists b, buckets_for (d_size s) b /\ lim < b).
Proof.
  intros lim s t o W Hl H. unfold maybe_rehash in H. pose proof (w_size _ _ _ _ _ W) as Hsz. pose proof (w_bc _ _ _ _ _ W) as Hbc.
  assert (Hgen : forall n, buckets_for (d_size s) n -> rehash nk lim s n = Ok (t, o) -> d_cap t = d_cap s /\ d_mlf t = d_mlf s /\ (buckets_for (d_size s) (d_bc s) -> buckets_for (d_size s) (d_bc t) ) /\
    (forall m, d_size s <= m -> buckets_for m (d_bc s) -> buckets_for m (d_bc t)) /\ (o = None -> exists b, buckets_for (d_size s) b /\ lim < b)).
  { intros n Hn Hr. destruct (rehash_caps lim s t n (d_size s) o W Hl ltac:(lia) ltac:(lia) Hn Hr) as (H1 & H2 & H3 & H4).
    split; [exact H1|]. split; [exact H2|]. split; [exact H3|]. split; [|exact H4].
    intros m Hm. apply (rehash_caps lim s t n m o W Hl Hm ltac:(lia)); [|exact Hr]. eapply buckets_mono; [exact Hm|apply Z.le_refl|exact Hn]. }
  destruct (Z.eqb_spec (d_bc s) 0); [apply (Hgen 8); [left; lia|exact H]|].
  destruct (overloaded s) eqn:Eo; [|injection H as <- <-; split; [reflexivity|]; split; [reflexivity|]; split; [auto|]; split; [auto|discriminate]].
  apply (Hgen (d_bc s * 2 mod two64)); [|exact H]. rewrite Z.mod_small by (change two64 with (2 ^ 64); lia). right.
  destruct (w_mlf _ _ _ _ _ W) as (Hp & Hq & _). unfold overloaded in Eo. rewrite (surjective_pairing (d_mlf s)) in Eo.
  pose proof (load_bound (d_size s) (d_bc s) (fst (d_mlf s)) (snd (d_mlf s)) ltac:(lia) ltac:(lia) Hp Hq Eo).
  pose proof (scale s (d_bc s * 2) (d_size s) 3 W Hl ltac:(lia) ltac:(lia)). lia.
Qed.

Lemma make_room_caps : forall dlim slim (s t : dense) o m, dwf s -> dlim < 2 ^ 59 -> loaded s -> d_size s <= m -> make_room nk dlim slim s = Ok (t, o) ->
  d_mlf t = d_mlf s /\ d_cap t <= Z.max (d_cap s) (nodes_for (d_size s)) /\ (buckets_for m (d_bc s) -> buckets_for m (d_bc t)) /\
  (o = None -> dlim < nodes_for (d_size s) \/ exists b, buckets_for (d_size s) b /\ slim < b).
Proof.
  intros dlim slim s t o m W Hd Hl Hm H. unfold make_room in H. bstep H. destruct a as [s1 o1].
  destruct (maybe_resize_caps _ _ _ _ W Eb) as (Hc & Hb & Hf & Hs & Hn). destruct o1 as [u|].
  - assert (W1 : dwf s1).
    { destruct (maybe_resize_ok nk key_of hash keq dlim s W Hd) as [Hx|(s1' & Hx & W1 & _)]; rewrite Eb in Hx; [discriminate|]. injection Hx as <- _. exact W1. }
    assert (Hl1 : loaded s1) by (unfold loaded; rewrite Hf; exact Hl).
    destruct (maybe_rehash_caps _ _ _ _ W1 Hl1 H) as (H1 & H2 & _ & H4 & H5). rewrite Hs, Hb in *.
    split; [congruence|]. split; [lia|]. split; [intros Hx; apply H4; assumption|]. intros Ho. right. apply H5. exact Ho.
  - injection H as <- <-. split; [exact Hf|]. split; [exact Hc|]. split; [rewrite Hb; auto|]. intros _. left. apply Hn. reflexivity.
Qed.

Lemma reserve_caps : forall dlim slim (s t : dense) n o m, dwf s -> dlim < 2 ^ 59 -> loaded s -> 0 <= n -> d_size s <= m -> n <= m -> reserve nk dlim slim s n = Ok (t, o) ->
  d_mlf t = d_mlf s /\ d_cap t <= Z.max (d_cap s) n /\ (buckets_for m (d_bc s) -> buckets_for m (d_bc t)) /\
  (o = None -> dlim < n \/ exists b, buckets_for m b /\ slim < b).
Proof.
  intros dlim slim s t n o m W Hd Hl Hn0 Hs Hn H. unfold reserve in H. bstep H. destruct a as [s1 o1]. pose proof (w_size _ _ _ _ _ W) as Hsz.
  assert (H1 : d_cap s1 <= Z.max (d_cap s) n /\ d_bc s1 = d_bc s /\ d_mlf s1 = d_mlf s /\ d_size s1 = d_size s /\ (o1 <> None -> dwf s1) /\ (o1 = None -> dlim < n)).
  { destruct (Z.ltb_spec (d_cap s) n) as [Hlt|Hge].
    - destruct (resize_data_ok nk key_of hash keq dlim s n W ltac:(lia) Hd) as [(Hl' & Hx)|(_ & s1' & Hx & W1 & (He & _) & Hc & Hb & Hm & _)]; rewrite Eb in Hx; injection Hx as -> ->.
      + split; [lia|]. do 3 (split; [reflexivity|]). split; [congruence|auto].
      + split; [lia|]. split; [exact Hb|]. split; [exact Hm|]. split; [congruence|]. split; [auto|discriminate].
    - injection Eb as <- <-. split; [lia|]. do 3 (split; [reflexivity|]). split; [auto|discriminate]. }
  destruct H1 as (H1 & H2 & H3 & H4 & H5 & H6). destruct o1 as [u|].
  - specialize (H5 ltac:(discriminate)). bstep H. assert (Hl1 : loaded s1) by (unfold loaded; rewrite H3; exact Hl).
    assert (Ha : buckets_for m a).
    { right. destruct (w_mlf _ _ _ _ _ H5) as (Hp & Hq & _).
      pose proof (trunc_bound n (fst (d_mlf s1)) (snd (d_mlf s1)) a ltac:(lia) Hp Hq) as Ht. rewrite <- surjective_pairing in Ht. specialize (Ht Eb0).
      pose proof (scale s1 a n 2 H5 Hl1 ltac:(lia) ltac:(lia)). assert (lq * n <= lq * m) by nia. assert (0 <= lq * n) by nia. lia. }
    destruct (rehash_caps slim s1 t a m o H5 Hl1 ltac:(lia) ltac:(lia) Ha H) as (Hc & Hm & Hb & Ho). rewrite H2 in Hb.
    split; [congruence|]. split; [lia|]. split; [exact Hb|auto].
  - injection H as <- <-. split; [exact H3|]. split; [exact H1|]. split; [rewrite H2; auto|auto].
Qed.

(** ** Calls. *)
(** Shape of what a call may do to the arrays, with room for m elements. *)
Definition grown (m : Z) (v : denv) (s t : dense) (thrown : Prop) : Prop :=
  d_mlf t = d_mlf s /\ d_cap t <= Z.max (d_cap s) (nodes_for m) /\ (buckets_for m (d_bc s) -> buckets_for m (d_bc t)) /\
  (thrown -> dv_dlim v < nodes_for m \/ exists b, buckets_for m b /\ dv_slim v < b).
Lemma grown_same : forall m v (s t : dense), dims t = dims s -> grown m v s t False.
Proof. intros m v s t H. injection H as H1 H2 H3. unfold grown. rewrite H1, H2, H3. split; [reflexivity|]. split; [lia|]. split; [auto|intros []]. Qed.

Lemma grown_imp : forall m v (s t : dense) (P Q : Prop), grown m v s t P -> (Q -> P) -> grown m v s t Q.
Proof. intros m v s t P Q (H1 & H2 & H3 & H4) H. split; [exact H1|]. split; [exact H2|]. split; [exact H3|auto]. Qed.

Lemma room_grown : forall m v (s t u : dense) o, dwf s -> denv_ok v -> loaded s -> d_size s <= m -> make_room nk (dv_dlim v) (dv_slim v) s = Ok (t, o) -> dims u = dims t ->
  grown m v s u (o = None).
Proof.
  intros m v s t u o W Hv Hl Hm H Hd. injection Hd as H1 H2 H3. unfold grown. rewrite H1, H2, H3.
  destruct (make_room_caps _ _ _ _ _ m W (proj1 Hv) Hl Hm H) as (Ha & Hb & Hc & He). unfold nodes_for in *.
  split; [exact Ha|]. split; [lia|]. split; [exact Hc|]. intros Ho. destruct (He Ho) as [Hx|(b & Hx & Hy)]; [left; lia|right]. exists b. split; [|exact Hy].
  eapply buckets_mono; [exact Hm|apply Z.le_refl|exact Hx].
Qed.

Lemma do_insert_grown : forall m v (s t : dense) e o, dwf s -> denv_ok v -> loaded s -> d_size s <= m ->
  do_insert nk key_of hash keq (dv_dlim v) (dv_slim v) true s e = Ok (t, o) -> grown m v s t (o = None).
Proof.
  intros m v s t e o W Hv Hl Hm H. unfold do_insert in H. bstep H. destruct a as [s1 [u|]].
  - do 2 bstep H. destruct a0 as [i|].
    + injection H as <- <-. pose proof (room_grown m v s s1 s1 _ W Hv Hl Hm Eb eq_refl) as (H1 & H2 & H3 & _). split; [exact H1|]. split; [exact H2|]. split; [exact H3|discriminate].
    + do 2 bstep H. destruct a1 as [s2 o2]. injection H as <- <-.
      pose proof (room_grown m v s s1 s2 _ W Hv Hl Hm Eb (emplace_node_dims _ _ _ _ _ _ _ Eb3)) as (H1 & H2 & H3 & _). split; [exact H1|]. split; [exact H2|]. split; [exact H3|].
      unfold emplace_node in Eb3. bstep Eb3. destruct a1 as [s3 o3]. unfold push_node in Eb4. bstep Eb4. injection Eb4 as <- <-. bstep Eb3. injection Eb3 as <- <-. discriminate.
  - injection H as <- <-. apply (grown_imp m v s s1 _ _ (room_grown m v s s1 s1 _ W Hv Hl Hm Eb eq_refl)). reflexivity.
Qed.
Lemma do_emplace_grown : forall m v (s t : dense) e o, dwf s -> denv_ok v -> loaded s -> d_size s <= m ->
  do_emplace nk key_of hash keq (dv_dlim v) (dv_slim v) true s e = Ok (t, o) -> grown m v s t (o = None).
Proof.
  intros m v s t e o W Hv Hl Hm H. unfold do_emplace in H. bstep H. destruct a as [s1 [u|]].
  - bstep H. destruct a as [s2 o2]. pose proof (push_dims _ _ _ _ _ Eb0) as Hd. unfold push_node in Eb0. bstep Eb0. injection Eb0 as -> <-.
    do 3 bstep H. destruct a1 as [i|].
    + destruct (pop_node s2) as [s3|] eqn:E3; cbn [bind] in H; [|discriminate]. injection H as <- <-. apply pop_dims in E3. rewrite Hd in E3.
      pose proof (room_grown m v s s1 _ _ W Hv Hl Hm Eb E3) as (H1 & H2 & H3 & _). split; [exact H1|]. split; [exact H2|]. split; [exact H3|discriminate].
    + bstep H. destruct (commit_node s2 _ _ _) as [s3|] eqn:E3; cbn [bind] in H; [|discriminate]. injection H as <- <-. apply commit_dims in E3. rewrite Hd in E3.
      pose proof (room_grown m v s s1 _ _ W Hv Hl Hm Eb E3) as (H1 & H2 & H3 & _). split; [exact H1|]. split; [exact H2|]. split; [exact H3|discriminate].
  - injection H as <- <-. apply (grown_imp m v s s1 _ _ (room_grown m v s s1 s1 _ W Hv Hl Hm Eb eq_refl)). reflexivity.
Qed.
Lemma do_assign_grown : forall m v (s t : dense) e o, dwf s -> denv_ok v -> loaded s -> d_size s <= m ->
  do_insert_or_assign nk key_of hash keq rep (dv_dlim v) (dv_slim v) true s e = Ok (t, o) -> grown m v s t (o = None).
Proof.
  intros m v s t e o W Hv Hl Hm H. unfold do_insert_or_assign in H. bstep H. destruct a as [s1 [u|]].
  - bstep H. destruct a as [i op]. bstep H. destruct a.
    + do 2 bstep H. destruct a0 as [s2 o2]. injection H as <- <-.
      pose proof (room_grown m v s s1 s2 _ W Hv Hl Hm Eb (emplace_node_dims _ _ _ _ _ _ _ Eb3)) as (H1 & H2 & H3 & _). split; [exact H1|]. split; [exact H2|]. split; [exact H3|].
      unfold emplace_node in Eb3. bstep Eb3. destruct a0 as [s3 o3]. unfold push_node in Eb4. bstep Eb4. injection Eb4 as <- <-. bstep Eb3. injection Eb3 as <- <-. discriminate.
    + do 2 bstep H. injection H as <- <-. apply put_dims in Eb3.
      pose proof (room_grown m v s s1 _ _ W Hv Hl Hm Eb Eb3) as (H1 & H2 & H3 & _). split; [exact H1|]. split; [exact H2|]. split; [exact H3|discriminate].
  - injection H as <- <-. apply (grown_imp m v s s1 _ _ (room_grown m v s s1 s1 _ W Hv Hl Hm Eb eq_refl)). reflexivity.
Qed.

Hypothesis Hlpq : lp <= 3 * lq.

Lemma dexec_grown : forall v (s t : dense) c r m, dwf s -> denv_ok v -> dcall_ok nk c -> load_ok c -> loaded s -> 0 <= m -> ddemand (d_size s) c <= m ->
  dexec nk key_of hash keq rep v s c = Ok (t, r) ->
  loaded t /\ d_cap t <= Z.max (d_cap s) (nodes_for m) /\ (buckets_for m (d_bc s) -> buckets_for m (d_bc t)) /\
  (r = QThrow -> dv_dlim v < nodes_for m \/ exists b, buckets_for m b /\ dv_slim v < b).
Proof.
  intros v s t c r m W Hv Hc Hlo Hl Hm0 Hm H.
  assert (Hgen : forall P : Prop, (r = QThrow -> P) -> grown m v s t P -> loaded t /\ d_cap t <= Z.max (d_cap s) (nodes_for m) /\ (buckets_for m (d_bc s) -> buckets_for m (d_bc t)) /\
    (r = QThrow -> dv_dlim v < nodes_for m \/ exists b, buckets_for m b /\ dv_slim v < b)).
  { intros P Hr (H1 & H2 & H3 & H4). split; [unfold loaded; rewrite H1; exact Hl|]. split; [exact H2|]. split; [exact H3|auto]. }
  destruct c as [e|e|e|j k|i|i1 i2|j k|j k| |n|n|p q| |]; cbn [dexec ddemand dcall_ok load_ok] in *.
  - bstep H. destruct a as [s1 o]. cbn [give_inserted] in H. destruct o as [[p b]|]; [bstep H|]; injection H as <- <-; eapply Hgen; [|exact (do_insert_grown m v s s1 e _ W Hv Hl Hm Eb)| |exact (do_insert_grown m v s s1 e _ W Hv Hl Hm Eb)]; [discriminate|reflexivity].
  - bstep H. destruct a as [s1 o]. cbn [give_inserted] in H. destruct o as [[p b]|]; [bstep H|]; injection H as <- <-; eapply Hgen; [|exact (do_emplace_grown m v s s1 e _ W Hv Hl Hm Eb)| |exact (do_emplace_grown m v s s1 e _ W Hv Hl Hm Eb)]; [discriminate|reflexivity].
  - bstep H. destruct a as [s1 o]. cbn [give_inserted] in H. destruct o as [[p b]|]; [bstep H|]; injection H as <- <-; eapply Hgen; [|exact (do_assign_grown m v s s1 e _ W Hv Hl Hm Eb)| |exact (do_assign_grown m v s s1 e _ W Hv Hl Hm Eb)]; [discriminate|reflexivity].
  - bstep H. destruct a as [s1 o]. unfold erase_key in Eb. bstep Eb. apply erase_loop_dims in Eb. cbn [give_next] in H. bstep H. injection H as <- <-. apply (Hgen False); [discriminate|apply grown_same; exact Eb].
  - bstep H. destruct a as [s1 o]. apply erase_at_dims in Eb. cbn [give_next] in H. bstep H. injection H as <- <-. apply (Hgen False); [discriminate|apply grown_same; exact Eb].
  - bstep H. destruct a as [s1 o]. unfold erase_range in Eb. apply erase_range_dims in Eb. cbn [give_next] in H. bstep H. injection H as <- <-. apply (Hgen False); [discriminate|apply grown_same; exact Eb].
  - bstep H. injection H as <- <-. apply (Hgen False); [discriminate|apply grown_same; reflexivity].
  - bstep H. injection H as <- <-. apply (Hgen False); [discriminate|apply grown_same; reflexivity].
  - bstep H. injection H as <- <-. apply clear_dims in Eb. apply (Hgen False); [discriminate|apply grown_same; exact Eb].
  - bstep H. destruct a as [s1 o]. cbn [give_unit] in H. injection H as <- <-.
    destruct (reserve_caps _ _ _ _ _ _ m W (proj1 Hv) Hl (proj1 Hc) ltac:(lia) ltac:(lia) Eb) as (H1 & H2 & H3 & H4).
    apply (Hgen (o = None)); [destruct o; [discriminate|reflexivity]|]. unfold grown, nodes_for. split; [exact H1|]. split; [lia|]. split; [exact H3|].
    intros Ho. destruct (H4 Ho) as [Hx|Hx]; [left; lia|right; exact Hx].
  - bstep H. destruct a as [s1 o]. cbn [give_unit] in H. injection H as <- <-.
    assert (Hn : buckets_for m n) by (right; nia).
    destruct (rehash_caps _ _ _ _ m _ W Hl ltac:(lia) ltac:(lia) Hn Eb) as (H1 & H2 & H3 & H4).
    apply (Hgen (o = None)); [destruct o; [discriminate|reflexivity]|]. unfold grown. split; [exact H2|]. split; [lia|]. split; [exact H3|auto].
  - injection H as <- <-. cbn [set_mlf d_cap d_bc]. split; [exact Hlo|]. split; [lia|]. split; [auto|discriminate].
  - injection H as <- <-. apply (Hgen False); [discriminate|apply grown_same; reflexivity].
  - bstep H. injection H as <- <-. apply (Hgen False); [discriminate|apply grown_same; reflexivity].
Qed.

Lemma throws_call : forall v (s t : dense) c, dwf s -> denv_ok v -> dcall_ok nk c -> loaded s ->
  dexec nk key_of hash keq rep v s c = Ok (t, QThrow) ->
  dv_dlim v < nodes_for (ddemand (size s) c) \/ exists b, buckets_for (ddemand (size s) c) b /\ dv_slim v < b.
Proof.
  intros v s t c W Hv Hc Hl H. pose proof (w_size _ _ _ _ _ W) as Hsz. unfold size.
  destruct c as [e|e|e|j k|i|i1 i2|j k|j k| |n|n|p q| |] eqn:Ec; try (cbn [dexec] in H; repeat bstep H; cbn [give_next] in H; repeat bstep H; discriminate);
    rewrite <- Ec in *; (apply (dexec_grown v s t c QThrow (ddemand (d_size s) c) W Hv Hc); [rewrite Ec; exact I|exact Hl|rewrite Ec; cbn [ddemand]; lia|lia|exact H|reflexivity]).
Qed.

(** ** Histories. *)
Hypothesis KL : key_laws hash keq.
Hypothesis rep_key : forall x e, key_of 0 (rep x e) = key_of 0 x.
Notation drun := (drun nk key_of hash keq rep).
Notation dexec := (dexec nk key_of hash keq rep).

Notation dwithin := (dwithin nk key_of hash keq rep).

Lemma dwithin_cons : forall m s v c h s1 r, dwithin m s ((v, c) :: h) -> dexec v s c = Ok (s1, r) -> dwithin m s1 h.
Proof.
  intros m s v c h s1 r [Ha Hb] E0. split.
  - intros h1 h2 t rs -> E1. apply (Ha ((v, c) :: h1) h2 t (r :: rs)); [reflexivity|].
    cbn [DenseRun.drun]. rewrite E0. cbn [bind]. rewrite E1. reflexivity.
  - intros v' n Hin. apply (Hb v' n). destruct Hin; [left|right]; right; assumption.
Qed.
Lemma dwithin_demand : forall m s v c h, 0 <= m -> dwithin m s ((v, c) :: h) -> ddemand (d_size s) c <= m.
Proof.
  intros m s v c h Hm [Ha Hb]. pose proof (Ha [] ((v, c) :: h) s [] eq_refl eq_refl) as Hs. unfold size in Hs.
  destruct c; cbn [ddemand]; try lia.
  - specialize (Hb v n (or_introl (or_introl eq_refl))). lia.
  - specialize (Hb v n (or_intror (or_introl eq_refl))). lia.
Qed.

Lemma drun_caps : forall m h (s s' : dense) rs, 0 <= m -> dwf s -> dhistory_ok nk h -> Forall (fun vc => load_ok (snd vc)) h -> loaded s -> dwithin m s h ->
  (forall h1 v c h2 s1 rs1, h = h1 ++ (v, c) :: h2 -> drun s h1 = Ok (s1, rs1) -> ~ blocked nk key_of hash keq rep v s1 c) ->
  drun s h = Ok (s', rs) ->
  d_cap s' <= Z.max (d_cap s) (nodes_for m) /\ (buckets_for m (d_bc s) -> buckets_for m (d_bc s')).
Proof.
  intros m h. induction h as [|[v c] h IH]; intros s s' rs Hm W Hh Hlo Hl Hw Hnb E0; cbn [DenseRun.drun] in E0.
  - injection E0 as <- <-. split; [lia|auto].
  - inversion Hh as [|? ? [Hv Hc] Hh']; subst. inversion Hlo as [|? ? Hlc Hlo']; subst. cbn [fst snd] in *.
    destruct (dexec v s c) as [[s1 r]|] eqn:E1; [|discriminate]. cbn [bind] in E0.
    destruct (drun s1 h) as [[s2 rs2]|] eqn:E2; [|discriminate]. cbn [bind] in E0. injection E0 as <- <-.
    destruct (dexec_grown v s s1 c r m W Hv Hc Hlc Hl Hm (dwithin_demand _ _ _ _ _ Hm Hw) E1) as (Hl1 & Hc1 & Hb1 & _).
    destruct (step_ok nk key_of hash keq rep KL rep_key v s c W Hv Hc) as [Hb|(s1' & r' & E1' & W1 & _)].
    + exfalso. exact (Hnb [] v c h s [] eq_refl eq_refl Hb).
    + rewrite E1 in E1'. injection E1' as <- <-.
      destruct (IH s1 s2 rs2 Hm W1 Hh' Hlo' Hl1 (dwithin_cons _ _ _ _ _ _ _ Hw E1)) as (Hc2 & Hb2); [|exact E2|split; [lia|auto]].
      intros h1 v1 c1 h2 t rs1 -> Hr. apply (Hnb ((v, c) :: h1) v1 c1 h2 t (r :: rs1) eq_refl). cbn [DenseRun.drun]. rewrite E1. cbn [bind]. rewrite Hr. reflexivity.
Qed.

Lemma drun_no_throw : forall m h (s : dense), 0 <= m -> dwf s -> dhistory_ok nk h -> Forall (fun vc => load_ok (snd vc)) h -> loaded s -> dwithin m s h ->
  (forall v c, In (v, c) h -> nodes_for m <= dv_dlim v /\ forall b, buckets_for m b -> b <= dv_slim v) ->
  (exists s' rs, drun s h = Ok (s', rs) /\ dwf s' /\ dspec_run nk key_of keq rep (map snd h) (delems s) (delems s') rs /\ ~ In QThrow rs) \/
  (exists h1 v c h2 s1 rs1, h = h1 ++ (v, c) :: h2 /\ drun s h1 = Ok (s1, rs1) /\ misused s1 c).
Proof.
  intros m h. induction h as [|[v c] h IH]; intros s Hm W Hh Hlo Hl Hw Hlim.
  - left. exists s, []. split; [reflexivity|]. split; [exact W|]. split; [constructor|intros []].
  - inversion Hh as [|? ? [Hv Hc] Hh']; subst. inversion Hlo as [|? ? Hlc Hlo']; subst. cbn [fst snd] in *.
    pose proof (dwithin_demand _ _ _ _ _ Hm Hw) as Hdm. destruct (Hlim v c (or_introl eq_refl)) as [Hl1 Hl2].
    assert (Hnt : forall t, dexec v s c = Ok (t, QThrow) -> False).
    { intros t Ht. destruct (dexec_grown v s t c QThrow m W Hv Hc Hlc Hl Hm Hdm Ht) as (_ & _ & _ & Hx). destruct (Hx eq_refl) as [Hy|(b & Hy & Hz)]; [lia|]. specialize (Hl2 b Hy). lia. }
    destruct (step_ok nk key_of hash keq rep KL rep_key v s c W Hv Hc) as [Hb|(s1 & r & E1 & W1 & Hs)].
    + right. exists [], v, c, h, s, []. split; [reflexivity|]. split; [reflexivity|]. destruct Hb as [Hb|[Hb|(_ & t & Ht & _)]]; [left; exact Hb|right; exact Hb|]. destruct (Hnt t Ht).
    + destruct (dexec_grown v s s1 c r m W Hv Hc Hlc Hl Hm Hdm E1) as (Hl1' & _).
      destruct (IH s1 Hm W1 Hh' Hlo' Hl1' (dwithin_cons _ _ _ _ _ _ _ Hw E1)) as [(s' & rs & Hr & W' & Hsr & Hnin)|(h1 & v1 & c1 & h2 & s2 & rs & -> & Hr & Hb)].
      * intros v' c' Hin. apply (Hlim v' c'). right. exact Hin.
      * left. exists s', (r :: rs). cbn [DenseRun.drun map snd]. rewrite E1. cbn [bind]. rewrite Hr. cbn [bind]. split; [reflexivity|]. split; [exact W'|]. split; [econstructor; eassumption|].
        intros [->|Hin]; [exact (Hnt s1 E1)|exact (Hnin Hin)].
      * right. exists ((v, c) :: h1), v1, c1, h2, s2, (r :: rs). cbn [DenseRun.drun]. rewrite E1. cbn [bind]. rewrite Hr. cbn [bind]. split; [reflexivity|]. split; [reflexivity|exact Hb].
Qed.

Lemma empty_loaded : 8 * lp <= 7 * lq -> loaded empty_dense.
Proof. intros H. unfold loaded. cbn [empty_dense d_mlf fst snd]. lia. Qed.
Lemma history_caps : forall m h (s : dense) rs, 8 * lp <= 7 * lq -> 0 <= m -> dhistory_ok nk h -> Forall (fun vc => load_ok (snd vc)) h -> dwithin m empty_dense h ->
  (forall h1 v c h2 s1 rs1, h = h1 ++ (v, c) :: h2 -> drun empty_dense h1 = Ok (s1, rs1) -> ~ blocked nk key_of hash keq rep v s1 c) ->
  drun empty_dense h = Ok (s, rs) -> d_cap s <= nodes_for m /\ buckets_for m (d_bc s).
Proof.
  intros m h s rs Hl Hm Hh Hlo Hw Hnb Hr.
  destruct (drun_caps m h empty_dense s rs Hm (empty_wf nk key_of hash keq) Hh Hlo (empty_loaded Hl) Hw Hnb Hr) as [H1 H2].
  cbn [empty_dense d_cap d_bc] in *. unfold nodes_for in *. split; [lia|]. apply H2. left. lia.
Qed.
Lemma history_call : forall m h, 8 * lp <= 7 * lq -> 0 <= m -> dhistory_ok nk h -> Forall (fun vc => load_ok (snd vc)) h -> dwithin m empty_dense h ->
  (forall v c, In (v, c) h -> nodes_for m <= dv_dlim v /\ forall b, buckets_for m b -> b <= dv_slim v) ->
  (exists s rs, drun empty_dense h = Ok (s, rs) /\ dspec_run nk key_of keq rep (map snd h) [] (delems s) rs /\ ~ In QThrow rs) \/
  (exists h1 v c h2 s1 rs1, h = h1 ++ (v, c) :: h2 /\ drun empty_dense h1 = Ok (s1, rs1) /\ misused s1 c).
Proof.
  intros m h Hl Hm Hh Hlo Hw Hlim.
  destruct (drun_no_throw m h empty_dense Hm (empty_wf nk key_of hash keq) Hh Hlo (empty_loaded Hl) Hw Hlim) as [(s & rs & H1 & _ & H2 & H3)|H]; [|right; exact H].
  left. exists s, rs. auto.
Qed.
End Bounds.
Lemma below_three : forall lp lq, 0 < lp -> 0 < lq -> 8 * lp <= 7 * lq -> lp <= 3 * lq.
Proof. intros. lia. Qed.
