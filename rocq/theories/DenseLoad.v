(** The load factor of dense tables. *)
From Coq Require Import ZArith List Bool Lia.
From Verif Require Import Base BaseLemmas MapSpec Float32 Float32Facts DenseSpec DenseModel DenseRun DenseChain DenseInv DenseOps DenseEdit DenseErase DenseRefine DenseMono BoundsSpec DenseBounds LoadSpec.
Import ListNotations.
Open Scope Z_scope.

(** ** Rounding. *)
(** A load factor below p/q in single precision is below p/q but for the rounding error. *)
Lemma below_load : forall n b p q, 0 <= n -> 0 < b -> 0 < p -> 0 < q ->
  rle (p, q) (f32_div (f32_of n) (f32_of b)) = false -> n * q * 2 ^ 21 <= p * b * (2 ^ 21 + 1).
Proof.
  intros n b p q Hn Hb Hp Hq E0. unfold rle, f32_div, f32_of in E0. cbn [fst snd] in E0. apply Z.leb_gt in E0.
  pose proof (f32_pos n 1 Hn ltac:(lia)) as [Ha1 Ha2]. pose proof (f32_rel_lo n 1 Hn ltac:(lia)) as Hr.
  pose proof (f32_pos b 1 ltac:(lia) ltac:(lia)) as [Hb1 Hb2]. pose proof (f32_rel b 1 ltac:(lia) ltac:(lia)) as Hl. pose proof (f32_rel_lo b 1 ltac:(lia) ltac:(lia)) as Hl'.
  set (x := f32 (n, 1)) in *. set (a1 := fst x) in *. set (a2 := snd x) in *. clearbody a1 a2.
  set (y := f32 (b, 1)) in *. set (b1 := fst y) in *. set (b2 := snd y) in *. clearbody b1 b2.
  change (2 ^ 23) with 8388608 in *. change (2 ^ 21) with 2097152.
  assert (Hbp : 0 < b1) by nia.
  pose proof (f32_pos (a1 * b2) (a2 * b1) ltac:(nia) ltac:(nia)) as [Hc Hd]. pose proof (f32_rel_lo (a1 * b2) (a2 * b1) ltac:(nia) ltac:(nia)) as Hr2.
  set (z := f32 (a1 * b2, a2 * b1)) in *. set (c := fst z) in *. set (d := snd z) in *. clearbody c d. change (2 ^ 23) with 8388608 in *.
  assert (H1 : q * (a1 * b2) * 8388607 <= p * (a2 * b1) * 8388608).
  { apply (Z.mul_le_mono_pos_r _ _ d); [lia|].
    assert (h1 : c * q * (a2 * b1 * 8388608) <= p * d * (a2 * b1 * 8388608)) by (apply Z.mul_le_mono_nonneg_r; nia).
    assert (h2 : q * (a1 * b2 * d * 8388607) <= q * (c * (a2 * b1) * 8388608)) by (apply Z.mul_le_mono_nonneg_l; lia). lia. }
  assert (H2 : q * b2 * 8388607 * (n * a2 * 8388607) <= q * b2 * 8388607 * (a1 * 8388608)) by (apply Z.mul_le_mono_nonneg_l; [nia|lia]).
  assert (H3 : p * (a2 * (b1 * 8388608)) <= p * (a2 * (b * b2 * 8388609))) by (apply Z.mul_le_mono_nonneg_l; [lia|]; apply Z.mul_le_mono_nonneg_l; lia).
  assert (H4 : n * q * (8388607 * 8388607) <= p * b * (8388608 * 8388609)).
  { apply (Z.mul_le_mono_pos_r _ _ (a2 * b2)); [nia|]. lia. }
  assert (0 <= p * b) by nia. nia.
Qed.
(** More buckets than trunc(float(n) / (p/q)) suffice for n elements, but for the error. *)
Lemma trunc_load : forall n p q m, 0 <= n -> 0 < p -> 0 < q -> f32_trunc (f32_div (f32_of n) (p, q)) = Ok m -> n * q * 2 ^ 21 <= p * (m + 1) * (2 ^ 21 + 1).
Proof.
  intros n p q m Hn Hp Hq E0. unfold f32_trunc, f32_div, f32_of in E0. cbn [fst snd] in E0.
  pose proof (f32_pos n 1 Hn ltac:(lia)) as [Ha Hb]. pose proof (f32_rel_lo n 1 Hn ltac:(lia)) as Hr.
  set (x := f32 (n, 1)) in *. set (a := fst x) in *. set (b := snd x) in *. clearbody a b.
  pose proof (f32_pos (a * q) (b * p) ltac:(nia) ltac:(nia)) as [Hc Hd]. pose proof (f32_rel_lo (a * q) (b * p) ltac:(nia) ltac:(nia)) as Hr2.
  set (y := f32 (a * q, b * p)) in *. set (c := fst y) in *. set (d := snd y) in *. clearbody c d.
  destruct (c / d <? two64); [|discriminate]. injection E0 as <-.
  pose proof (Z.mul_succ_div_gt c d Hd) as Hm. assert (Hm0 : 0 <= c / d) by (apply Z.div_pos; lia). set (m := c / d) in *. clearbody m.
  change (2 ^ 23) with 8388608 in *. change (2 ^ 21) with 2097152.
  assert (H1 : a * q * 8388607 <= p * (m + 1) * b * 8388608).
  { apply (Z.mul_le_mono_pos_r _ _ d); [lia|]. assert (h : c * (b * p * 8388608) <= d * (m + 1) * (b * p * 8388608)) by (apply Z.mul_le_mono_nonneg_r; nia). lia. }
  assert (H2 : n * b * 8388607 * (q * 8388607) <= a * 8388608 * (q * 8388607)) by (apply Z.mul_le_mono_nonneg_r; nia).
  assert (H3 : n * q * (8388607 * 8388607) <= p * (m + 1) * (8388608 * 8388608)).
  { apply (Z.mul_le_mono_pos_r _ _ b); [lia|]. lia. }
  assert (0 <= p * (m + 1)) by nia. nia.
Qed.

(** With 8 * 2^k buckets and the max load factor 7/8 nothing is lost. *)
Lemma trunc_default : forall n b m, 0 <= n -> doubled b -> 8 * n <= 7 * b -> f32_trunc (f32_div (f32_of n) (7, 8)) = Ok m -> m <= b.
Proof.
  intros n b m Hn Hb Hl E0. unfold f32_trunc, f32_div, f32_of in E0. cbn [fst snd] in E0.
  destruct Hb as [->|(k & Hk & ->)]; [replace n with 0 in E0 by lia; vm_compute in E0; injection E0 as <-; lia|].
  pose proof (f32_le n 1 7 k Hn ltac:(lia) ltac:(lia)) as H1. replace (Z.max 0 (- k)) with 0 in H1 by lia. replace (Z.max 0 k) with k in H1 by lia.
  rewrite Z.pow_0_r in H1. specialize (H1 ltac:(lia)). pose proof (f32_pos n 1 Hn ltac:(lia)) as [Ha Hb].
  set (x := f32 (n, 1)) in *. set (a := fst x) in *. set (c := snd x) in *. clearbody a c.
  pose proof (f32_le (a * 8) (c * 7) 8 k ltac:(lia) ltac:(lia) ltac:(lia)) as H2. replace (Z.max 0 (- k)) with 0 in H2 by lia. replace (Z.max 0 k) with k in H2 by lia.
  rewrite Z.pow_0_r in H2. specialize (H2 ltac:(lia)). pose proof (f32_pos (a * 8) (c * 7) ltac:(lia) ltac:(lia)) as [Hc Hd].
  destruct (_ <? two64); [|discriminate]. injection E0 as <-. apply Z.div_le_upper_bound; [exact Hd|]. rewrite Z.mul_1_r in H2. rewrite (Z.mul_comm (snd _)). exact H2.
Qed.
Lemma overload_default : forall n k, 0 <= k -> 7 * 2 ^ k <= n -> rle (7, 8) (f32_div (f32_of n) (f32_of (8 * 2 ^ k))) = true.
Proof.
  intros n k Hk Hn. assert (Hp : 0 < 2 ^ k) by (apply Z.pow_pos_nonneg; lia). unfold rle, f32_div, f32_of. cbn [fst snd]. apply Z.leb_le.
  pose proof (f32_ge n 1 7 k ltac:(lia) ltac:(lia) ltac:(lia)) as H1. pose proof (f32_le (8 * 2 ^ k) 1 8 k ltac:(lia) ltac:(lia) ltac:(lia)) as H2.
  pose proof (f32_ge (8 * 2 ^ k) 1 8 k ltac:(lia) ltac:(lia) ltac:(lia)) as H4.
  replace (Z.max 0 (- k)) with 0 in * by lia. replace (Z.max 0 k) with k in * by lia. rewrite Z.pow_0_r in *. specialize (H1 ltac:(lia)). specialize (H2 ltac:(lia)). specialize (H4 ltac:(lia)).
  pose proof (f32_pos n 1 ltac:(lia) ltac:(lia)) as [Ha1 Ha2]. pose proof (f32_pos (8 * 2 ^ k) 1 ltac:(lia) ltac:(lia)) as [Hb1 Hb2].
  set (x := f32 (n, 1)) in *. set (a1 := fst x) in *. set (a2 := snd x) in *. clearbody a1 a2.
  set (y := f32 (8 * 2 ^ k, 1)) in *. set (b1 := fst y) in *. set (b2 := snd y) in *. clearbody b1 b2. set (u := 2 ^ k) in *. clearbody u.
  assert (h1 : 0 < b1) by nia. assert (h2 : 0 < a1) by nia.
  pose proof (f32_ge (a1 * b2) (a2 * b1) 7 (-3) ltac:(nia) ltac:(nia) ltac:(lia)) as H3. change (2 ^ Z.max 0 (-3)) with 1 in H3. change (2 ^ Z.max 0 (- -3)) with 8 in H3.
  assert (h3 : 7 * a2 * b1 <= 7 * a2 * (8 * u * b2)) by (apply Z.mul_le_mono_nonneg_l; lia).
  assert (h4 : 8 * b2 * (7 * u * a2) <= 8 * b2 * a1) by (apply Z.mul_le_mono_nonneg_l; lia).
  specialize (H3 ltac:(lia)). lia.
Qed.
Lemma load_default : forall n b, 0 <= n -> doubled b -> 0 < b -> 8 * n <= 7 * b -> rle (f32_div (f32_of n) (f32_of b)) (7, 8) = true.
Proof.
  intros n b Hn [->|(k & Hk & ->)] Hb Hl; [lia|]. assert (Hp : 0 < 2 ^ k) by (apply Z.pow_pos_nonneg; lia). unfold rle, f32_div, f32_of. cbn [fst snd]. apply Z.leb_le.
  pose proof (f32_le n 1 7 k ltac:(lia) ltac:(lia) ltac:(lia)) as H1. pose proof (f32_ge (8 * 2 ^ k) 1 8 k ltac:(lia) ltac:(lia) ltac:(lia)) as H2.
  replace (Z.max 0 (- k)) with 0 in * by lia. replace (Z.max 0 k) with k in * by lia. rewrite Z.pow_0_r in *. specialize (H1 ltac:(lia)). specialize (H2 ltac:(lia)).
  pose proof (f32_pos n 1 ltac:(lia) ltac:(lia)) as [Ha1 Ha2]. pose proof (f32_pos (8 * 2 ^ k) 1 ltac:(lia) ltac:(lia)) as [Hb1 Hb2].
  set (x := f32 (n, 1)) in *. set (a1 := fst x) in *. set (a2 := snd x) in *. clearbody a1 a2.
  set (y := f32 (8 * 2 ^ k, 1)) in *. set (b1 := fst y) in *. set (b2 := snd y) in *. clearbody b1 b2. set (u := 2 ^ k) in *. clearbody u.
  assert (h1 : 0 < b1) by nia.
  pose proof (f32_le (a1 * b2) (a2 * b1) 7 (-3) ltac:(nia) ltac:(nia) ltac:(lia)) as H3. change (2 ^ Z.max 0 (-3)) with 1 in H3. change (2 ^ Z.max 0 (- -3)) with 8 in H3.
  assert (h3 : 7 * a2 * (8 * u * b2) <= 7 * a2 * b1) by (apply Z.mul_le_mono_nonneg_l; lia).
  assert (h4 : 8 * b2 * a1 <= 8 * b2 * (7 * u * a2)) by (apply Z.mul_le_mono_nonneg_l; lia).
  specialize (H3 ltac:(lia)). lia.
Qed.

Lemma doubled_max : forall b c, doubled b -> doubled c -> doubled (Z.max b c).
Proof. intros b c Hb Hc. destruct (Z.max_spec b c) as [[_ ->]|[_ ->]]; assumption. Qed.
Lemma doubled_twice : forall b, doubled b -> doubled (2 * b).
Proof. intros b [->|(k & Hk & ->)]; [left; reflexivity|right]. exists (k + 1). split; [lia|]. rewrite Z.pow_add_r by lia. lia. Qed.
Lemma doubled_8 : doubled 8. Proof. right. exists 0. split; [lia|reflexivity]. Qed.

Section Load.
Context {E K : Type}.
Variable nk : nat.
Variable key_of : nat -> E -> K.
Variable hash : K -> Z.
Variable keq : K -> K -> bool.
Variable rep : E -> E -> E.
Notation dense := (dense E).
Notation dwf := (dwf nk key_of hash keq).
Notation dexec := (dexec nk key_of hash keq rep).
Notation drun := (drun nk key_of hash keq rep).

Definition default (s : dense) : Prop := d_mlf s = (7, 8) /\ doubled (d_bc s) /\ 8 * d_size s <= 7 * d_bc s.

(** ** Growth. *)
Lemma do_rehash_exact : forall lim (s t : dense) n o, do_rehash nk lim s n = Ok (t, o) ->
  d_mlf t = d_mlf s /\ (o = None -> d_bc t = d_bc s) /\ (o <> None -> d_bc t = Z.max (d_bc s) n).
Proof.
  intros lim s t n o H. unfold do_rehash in H. destruct (realloc_sparse lim s n) as [s1 b] eqn:Er.
  assert (H1 : d_mlf s1 = d_mlf s /\ (b = false -> d_bc s1 = d_bc s) /\ (b = true -> d_bc s1 = Z.max (d_bc s) n)).
  { unfold realloc_sparse in Er; destruct (Z.ltb_spec (d_bc s) n); [destruct (Z.ltb_spec lim n)|]; injection Er as <- <-; cbn [d_bc d_mlf];
      (split; [reflexivity|]; split; intros; try discriminate; lia). }
  destruct H1 as (Hm & H1 & H2). destruct b; [|injection H as <- <-; split; [exact Hm|]; split; [auto|congruence]]. bstep H. bstep H. injection H as <- <-.
  assert (H3 : dims a = dims s1) by (unfold fill_sparse in Eb; binv Eb; reflexivity).
  assert (H4 : dims a0 = dims a).
  { revert Eb0. apply fold_dims. intros i x y. unfold insert_step. apply fold_dims. intros j u w. apply insert_node_dims. }
  rewrite H3 in H4. injection H4 as Hx Hy Hz. split; [congruence|]. split; [discriminate|]. intros _. rewrite Hx. auto.
Qed.
Lemma rehash_exact : forall lim (s t : dense) n o, rehash nk lim s n = Ok (t, o) -> n <> 0 ->
  exists m, f32_trunc (f32_div (f32_of (d_size s)) (d_mlf s)) = Ok m /\
  d_mlf t = d_mlf s /\ (o = None -> d_bc t = d_bc s) /\ (o <> None -> d_bc t = Z.max (d_bc s) (Z.max m n)).
Proof.
  intros lim s t n o H Hn. unfold rehash in H. destruct (Z.eqb_spec n 0) as [|_]; [lia|]. cbn [andb orb] in H. bstep H. exists a. split; [reflexivity|].
  destruct (Z.eqb_spec (Z.max a n) (d_bc s)) as [He|He]; cbn [negb] in H; [injection H as <- <-; split; [reflexivity|]; split; [reflexivity|]; lia|].
  exact (do_rehash_exact _ _ _ _ _ H).
Qed.
Lemma rehash_mlf : forall lim (s t : dense) n o, rehash nk lim s n = Ok (t, o) -> d_mlf t = d_mlf s.
Proof.
  intros lim s t n o H. unfold rehash in H. destruct ((n =? 0) && (d_size s =? 0)); [injection H as <- <-; reflexivity|]. bstep H.
  destruct ((n =? 0) || negb (Z.max a n =? d_bc s)); [exact (proj1 (do_rehash_exact _ _ _ _ _ H))|injection H as <- <-; reflexivity].
Qed.
Lemma rehash_default : forall lim (s t : dense) n o, dwf s -> default s -> doubled n -> rehash nk lim s n = Ok (t, o) -> doubled (d_bc t).
Proof.
  intros lim s t n o W (Hm & Hd & Hl) Hn H. pose proof (w_size _ _ _ _ _ W) as Hsz. unfold rehash in H. destruct ((n =? 0) && (d_size s =? 0)); [injection H as <- <-; exact Hd|]. bstep H.
  rewrite Hm in Eb. pose proof (trunc_default _ _ _ (proj1 Hsz) Hd Hl Eb) as Ha.
  destruct ((n =? 0) || negb (Z.max a n =? d_bc s)); [|injection H as <- <-; exact Hd].
  destruct (do_rehash_exact _ _ _ _ _ H) as (_ & H1 & H2). destruct o as [u|]; [|rewrite H1 by reflexivity; exact Hd].
  rewrite H2 by discriminate. replace (Z.max (d_bc s) (Z.max a n)) with (Z.max (d_bc s) n) by lia. apply doubled_max; assumption.
Qed.

Lemma resize_dims : forall lim (s t : dense) o, maybe_resize lim s = Ok (t, o) -> d_bc t = d_bc s /\ d_mlf t = d_mlf s /\ d_size t = d_size s.
Proof.
  intros lim s t o H. unfold maybe_resize in H. destruct (d_cap s =? d_size s); [|injection H as <- <-; auto].
  unfold resize_data in H. binv H; auto.
Qed.

(** Room made for an element: there is room for one more than are present, but for the error;
    exactly so with the default growth. *)
Lemma room_load : forall dlim slim (s t : dense) o, dwf s -> make_room nk dlim slim s = Ok (t, o) ->
  d_mlf t = d_mlf s /\ (o <> None -> d_size s * snd (d_mlf s) * 2 ^ 21 <= fst (d_mlf s) * (d_bc t + 1) * (2 ^ 21 + 1)) /\
  (default s -> doubled (d_bc t) /\ (o <> None -> 8 * (d_size s + 1) <= 7 * d_bc t)).
Proof.
  intros dlim slim s t o W H. pose proof (w_size _ _ _ _ _ W) as Hsz. pose proof (w_bc _ _ _ _ _ W) as Hbc. destruct (w_mlf _ _ _ _ _ W) as (Hp & Hq & _).
  unfold make_room in H. bstep H. destruct a as [s1 o1]. destruct (resize_dims _ _ _ _ Eb) as (Hb & Hm & Hz).
  destruct o1 as [u|]; [|injection H as <- <-; split; [exact Hm|]; split; [congruence|]; intros (_ & Hd & _); rewrite Hb; split; [exact Hd|congruence]].
  unfold maybe_rehash in H.
  assert (Hgen : forall n, 0 < n -> (default s -> doubled n /\ 8 * (d_size s + 1) <= 7 * n) -> rehash nk slim s1 n = Ok (t, o) ->
    d_mlf t = d_mlf s /\ (o <> None -> d_size s * snd (d_mlf s) * 2 ^ 21 <= fst (d_mlf s) * (d_bc t + 1) * (2 ^ 21 + 1)) /\
    (default s -> doubled (d_bc t) /\ (o <> None -> 8 * (d_size s + 1) <= 7 * d_bc t))).
  { intros n Hn Hdn Hr. destruct (rehash_exact _ _ _ _ _ Hr ltac:(lia)) as (m & Ht & H1 & H2 & H3). rewrite Hm, Hz in *. rewrite Hb in *.
    split; [exact H1|]. split.
    - intros Ho. rewrite (H3 Ho). rewrite (surjective_pairing (d_mlf s)) in Ht.
      pose proof (trunc_load _ _ _ _ (proj1 Hsz) Hp Hq Ht) as Hx.
      assert (fst (d_mlf s) * (m + 1) * (2 ^ 21 + 1) <= fst (d_mlf s) * (Z.max (d_bc s) (Z.max m n) + 1) * (2 ^ 21 + 1)); [|lia].
      apply Z.mul_le_mono_nonneg_r; [lia|]. apply Z.mul_le_mono_nonneg_l; lia.
    - intros Hdf. destruct (Hdn Hdf) as [Hx Hy]. destruct Hdf as (Hf & Hd & Hl). rewrite Hf in Ht. pose proof (trunc_default _ _ _ (proj1 Hsz) Hd Hl Ht) as Hle. split.
      + destruct o as [w|]; [|rewrite H2 by reflexivity; exact Hd]. rewrite H3 by discriminate.
        replace (Z.max (d_bc s) (Z.max m n)) with (Z.max (d_bc s) n) by lia. apply doubled_max; assumption.
      + intros Ho. rewrite (H3 Ho). lia. }
  destruct (Z.eqb_spec (d_bc s1) 0) as [H0|H0].
  - apply (Hgen 8); [lia| |exact H]. intros (_ & _ & Hl). split; [exact doubled_8|]. lia.
  - destruct (overloaded s1) eqn:Eo.
    + apply (Hgen (d_bc s1 * 2 mod two64)); [| |exact H]; rewrite Hb in *; (rewrite Z.mod_small by (change two64 with (2 ^ 64); lia)); [lia|].
      intros (_ & Hd & Hl). split; [rewrite Z.mul_comm; apply doubled_twice; exact Hd|].
      destruct Hd as [Hd|(k & Hk & Hd)]; [lia|]. assert (0 < 2 ^ k) by (apply Z.pow_pos_nonneg; lia). lia.
    + injection H as <- <-. split; [exact Hm|]. unfold overloaded in Eo. rewrite Hm, Hz, Hb in *. split.
      * intros _. rewrite (surjective_pairing (d_mlf s)) in Eo. pose proof (below_load (d_size s) (d_bc s) _ _ (proj1 Hsz) ltac:(lia) Hp Hq Eo) as Hx.
        assert (fst (d_mlf s) * d_bc s * (2 ^ 21 + 1) <= fst (d_mlf s) * (d_bc s + 1) * (2 ^ 21 + 1)); [|lia].
        apply Z.mul_le_mono_nonneg_r; [lia|]. apply Z.mul_le_mono_nonneg_l; lia.
      * intros (Hf & Hd & Hl). split; [exact Hd|]. intros _. rewrite Hf in Eo. destruct Hd as [Hd|(k & Hk & Hd)]; [lia|].
        destruct (Z_lt_dec (d_size s) (7 * 2 ^ k)) as [Hlt|Hge]; [lia|]. rewrite Hd, (overload_default (d_size s) k Hk ltac:(lia)) in Eo. discriminate.
Qed.

(** ** Calls. *)
(** The state after an inserting call has the arrays make_room left. *)
Lemma emplace_node_some : forall (s t : dense) sl hs e o, emplace_node true s sl hs e = Ok (t, o) -> exists p, o = Some p.
Proof.
  intros s t sl hs e o H. unfold emplace_node in H. bstep H. destruct a as [s1 o1]. unfold push_node in Eb. bstep Eb. injection Eb as <- <-. bstep H. injection H as <- <-. eexists; reflexivity.
Qed.
Lemma insert_room : forall v (s t : dense) c r, inserting c -> dexec v s c = Ok (t, r) ->
  exists s1 o, make_room nk (dv_dlim v) (dv_slim v) s = Ok (s1, o) /\ dims t = dims s1 /\ (o = None -> r = QThrow) /\ (r = QThrow -> o = None).
Proof.
  intros v s t c r Hc H. destruct c as [e|e|e|j k|i|i1 i2|j k|j k| |n|n|p q| |]; try contradiction; cbn [DenseRun.dexec] in H.
  - destruct (do_insert _ _ _ _ _ _ _ _ _) as [[s1 o]|] eqn:Ed; cbn [bind give_inserted] in H; [|discriminate].
    unfold do_insert in Ed. destruct (make_room _ _ _ _) as [[s2 o2]|]; cbn [bind] in Ed; [|discriminate]. exists s2, o2. split; [reflexivity|]. destruct o2 as [u|].
    + do 2 bstep Ed. destruct a0 as [i|].
      * injection Ed as <- <-. bstep H. injection H as <- <-. split; [reflexivity|]. split; discriminate.
      * bstep Ed. destruct (emplace_node _ _ _ _ _) as [[s3 o3]|] eqn:E3; cbn [bind] in Ed; [|discriminate]. injection Ed as <- <-.
        destruct (emplace_node_some _ _ _ _ _ _ E3) as [p ->]. bstep H. injection H as <- <-. split; [exact (emplace_node_dims _ _ _ _ _ _ _ E3)|]. split; discriminate.
    + injection Ed as <- <-. injection H as <- <-. split; [reflexivity|]. split; reflexivity.
  - destruct (do_emplace _ _ _ _ _ _ _ _ _) as [[s1 o]|] eqn:Ed; cbn [bind give_inserted] in H; [|discriminate].
    unfold do_emplace in Ed. destruct (make_room _ _ _ _) as [[s2 o2]|]; cbn [bind] in Ed; [|discriminate]. exists s2, o2. split; [reflexivity|]. destruct o2 as [u|].
    + destruct (push_node _ _ _) as [[s3 o3]|] eqn:E3; cbn [bind] in Ed; [|discriminate]. pose proof (push_dims _ _ _ _ _ E3) as Hd. unfold push_node in E3. bstep E3. injection E3 as -> <-.
      do 3 bstep Ed. destruct a1 as [i|].
      * destruct (pop_node s3) as [s4|] eqn:E4; cbn [bind] in Ed; [|discriminate]. injection Ed as <- <-. apply pop_dims in E4. bstep H. injection H as <- <-.
        split; [congruence|]. split; discriminate.
      * bstep Ed. destruct (commit_node s3 _ _ _) as [s4|] eqn:E4; cbn [bind] in Ed; [|discriminate]. injection Ed as <- <-. apply commit_dims in E4. bstep H. injection H as <- <-.
        split; [congruence|]. split; discriminate.
    + injection Ed as <- <-. injection H as <- <-. split; [reflexivity|]. split; reflexivity.
  - destruct (do_insert_or_assign _ _ _ _ _ _ _ _ _ _) as [[s1 o]|] eqn:Ed; cbn [bind give_inserted] in H; [|discriminate].
    unfold do_insert_or_assign in Ed. destruct (make_room _ _ _ _) as [[s2 o2]|]; cbn [bind] in Ed; [|discriminate]. exists s2, o2. split; [reflexivity|]. destruct o2 as [u|].
    + bstep Ed. destruct a as [i op]. bstep Ed. destruct a.
      * bstep Ed. destruct (emplace_node _ _ _ _ _) as [[s3 o3]|] eqn:E3; cbn [bind] in Ed; [|discriminate]. injection Ed as <- <-.
        destruct (emplace_node_some _ _ _ _ _ _ E3) as [p ->]. bstep H. injection H as <- <-. split; [exact (emplace_node_dims _ _ _ _ _ _ _ E3)|]. split; discriminate.
      * bstep Ed. destruct (put_node _ _ _) as [s3|] eqn:E3; cbn [bind] in Ed; [|discriminate]. injection Ed as <- <-. apply put_dims in E3. bstep H. injection H as <- <-. split; [exact E3|]. split; discriminate.
    + injection Ed as <- <-. injection H as <- <-. split; [reflexivity|]. split; reflexivity.
Qed.

Lemma keeps_mlf : forall v (s t : dense) c r, dwf s -> keeps_max c -> dexec v s c = Ok (t, r) -> d_mlf t = d_mlf s.
Proof.
  intros v s t c r W Hc H. destruct c as [e|e|e|j k|i|i1 i2|j k|j k| |n|n|p q| |]; try contradiction.
  1-3: match type of H with DenseRun.dexec _ _ _ _ _ _ _ ?c = _ => destruct (insert_room v s t c r I H) as (s1 & o & Hr & Hd & _) end; injection Hd as _ _ ->; exact (proj1 (room_load _ _ _ _ _ W Hr)).
  all: cbn [DenseRun.dexec] in H; bstep H.
  - destruct a as [s1 o]. unfold erase_key in Eb. bstep Eb. apply erase_loop_dims in Eb. cbn [give_next] in H. bstep H. injection H as <- <-. injection Eb as _ _ ->. reflexivity.
  - destruct a as [s1 o]. apply erase_at_dims in Eb. cbn [give_next] in H. bstep H. injection H as <- <-. injection Eb as _ _ ->. reflexivity.
  - destruct a as [s1 o]. unfold erase_range in Eb. apply erase_range_dims in Eb. cbn [give_next] in H. bstep H. injection H as <- <-. injection Eb as _ _ ->. reflexivity.
  - injection H as <- <-. reflexivity.
  - injection H as <- <-. reflexivity.
  - injection H as <- <-. apply clear_dims in Eb. injection Eb as _ _ ->. reflexivity.
  - destruct a as [s1 o]. cbn [give_unit] in H. injection H as <- <-. unfold reserve in Eb. bstep Eb. destruct a as [s2 o2].
    assert (H1 : d_mlf s2 = d_mlf s) by (destruct (d_cap s <? n); [unfold resize_data in Eb0; binv Eb0; reflexivity|injection Eb0 as <- _; reflexivity]).
    destruct o2; [|injection Eb as <- _; exact H1]. bstep Eb. rewrite (rehash_mlf _ _ _ _ _ Eb). exact H1.
  - destruct a as [s1 o]. cbn [give_unit] in H. injection H as <- <-. exact (rehash_mlf _ _ _ _ _ Eb).
  - reflexivity.
  - injection H as <- <-. reflexivity.
Qed.

(** ** Number of elements. *)
Lemma swap_remove_len : forall (a b : list E) x, length (swap_remove a b) = (length (a ++ x :: b) - 1)%nat.
Proof.
  intros a b x. unfold swap_remove. destruct (rev b) as [|y r] eqn:Er.
  - assert (b = []) by (rewrite <- (rev_involutive b), Er; reflexivity). subst b. rewrite app_length. cbn [length]. lia.
  - assert (Hl : length b = S (length r)) by (rewrite <- rev_length, Er; reflexivity). rewrite !app_length. cbn [length]. rewrite rev_length. lia.
Qed.
Lemma remove_range_len : forall n a (l : list E), (a + n <= length l)%nat -> (length (remove_range a n l) <= length l)%nat.
Proof.
  induction n as [|n IH]; intros a l H; cbn [remove_range]; [lia|].
  assert (Hs : length (swap_remove (firstn (a + n) l) (skipn (S (a + n)) l)) = (length l - 1)%nat).
  { destruct (nth_error l (a + n)) as [x|] eqn:En; [|apply nth_error_None in En; lia].
    rewrite (swap_remove_len _ _ x). f_equal. rewrite app_length. cbn [length]. rewrite firstn_length, skipn_length. lia. }
  specialize (IH a _ ltac:(rewrite Hs; lia)). lia.
Qed.
Lemma spec_len : forall c l l' r, dspec nk key_of keq rep c l l' r ->
  (length l' <= length l)%nat \/ (inserting c /\ r <> QThrow /\ length l' = S (length l)).
Proof.
  intros c l l' r H. destruct H; try (left; lia); try (right; split; [exact I|]; split; [discriminate|]; rewrite app_length; cbn [length]; lia).
  - left. destruct H as [-> _]. rewrite !app_length. cbn [length]. lia.
  - left. destruct H as [-> _]. rewrite (swap_remove_len a b x). lia.
  - left. rewrite (swap_remove_len a b x). lia.
  - left. apply remove_range_len. exact H.
  - left. cbn [length]. lia.
Qed.

Definition nearly (s : dense) : Prop := near_load (fst (d_mlf s)) (snd (d_mlf s)) (size s) (d_bc s).

Section Steps.
Hypothesis KL : key_laws hash keq.
Hypothesis rep_key : forall x e, key_of 0%nat (rep x e) = key_of 0%nat x.

Lemma step_size : forall v (s t : dense) c r, dwf s -> denv_ok v -> dcall_ok nk c -> ~ blocked nk key_of hash keq rep v s c -> dexec v s c = Ok (t, r) ->
  dwf t /\ (d_size t <= d_size s \/ (inserting c /\ r <> QThrow /\ d_size t = d_size s + 1)).
Proof.
  intros v s t c r W Hv Hc Hnb H. destruct (step_ok nk key_of hash keq rep KL rep_key v s c W Hv Hc) as [Hb|(t' & r' & H' & W' & Hs)]; [contradiction|].
  rewrite H in H'. injection H' as <- <-. split; [exact W'|].
  pose proof (delems_len nk key_of hash keq s W) as L1. pose proof (delems_len nk key_of hash keq t W') as L2.
  pose proof (w_size _ _ _ _ _ W). pose proof (w_size _ _ _ _ _ W').
  destruct (spec_len _ _ _ _ Hs) as [Hl|(Hi & Hr & Hl)]; [left; lia|right; split; [exact Hi|]; split; [exact Hr|lia]].
Qed.

(** An inserting call that does not throw. *)
Lemma insert_nearly : forall v (s t : dense) c r, dwf s -> denv_ok v -> dcall_ok nk c -> ~ blocked nk key_of hash keq rep v s c -> inserting c -> dexec v s c = Ok (t, r) -> r <> QThrow -> nearly t.
Proof.
  intros v s t c r W Hv Hc Hnb Hi H Hr. destruct (step_size v s t c r W Hv Hc Hnb H) as [W' Hs].
  destruct (insert_room _ _ _ _ _ Hi H) as (s1 & o & Hro & Hd & H1 & H2). destruct (room_load _ _ _ _ _ W Hro) as (Hm & Hl & _).
  specialize (Hl ltac:(intros Ho; apply Hr; apply H1; exact Ho)). injection Hd as Hb _ Hm'. unfold nearly, near_load, size. rewrite Hm', Hm, Hb.
  assert (d_size t - 1 <= d_size s) by lia. destruct (w_mlf _ _ _ _ _ W) as (Hp & Hq & _).
  assert ((d_size t - 1) * snd (d_mlf s) * 2 ^ 21 <= d_size s * snd (d_mlf s) * 2 ^ 21); [|lia].
  apply Z.mul_le_mono_nonneg_r; [lia|]. apply Z.mul_le_mono_nonneg_r; lia.
Qed.
Lemma step_nearly : forall v (s t : dense) c r, dwf s -> denv_ok v -> dcall_ok nk c -> ~ blocked nk key_of hash keq rep v s c -> keeps_max c -> nearly s -> dexec v s c = Ok (t, r) -> nearly t.
Proof.
  intros v s t c r W Hv Hc Hnb Hk Hn H. destruct (step_size v s t c r W Hv Hc Hnb H) as [W' [Hs|(Hi & Hr & _)]]; [|exact (insert_nearly v s t c r W Hv Hc Hnb Hi H Hr)].
  pose proof (dexec_bc _ _ _ _ _ _ _ _ _ _ H) as Hb. unfold nearly, near_load, size in *. rewrite (keeps_mlf v s t c r W Hk H).
  destruct (w_mlf _ _ _ _ _ W) as (Hp & Hq & _). set (p := fst (d_mlf s)) in *. set (q := snd (d_mlf s)) in *.
  assert ((d_size t - 1) * q * 2 ^ 21 <= (d_size s - 1) * q * 2 ^ 21) by (apply Z.mul_le_mono_nonneg_r; [lia|]; apply Z.mul_le_mono_nonneg_r; lia).
  assert (p * (d_bc s + 1) * (2 ^ 21 + 1) <= p * (d_bc t + 1) * (2 ^ 21 + 1)); [|lia].
  apply Z.mul_le_mono_nonneg_r; [lia|]. apply Z.mul_le_mono_nonneg_l; lia.
Qed.
Lemma step_default : forall v (s t : dense) c r, dwf s -> denv_ok v -> dcall_ok nk c -> ~ blocked nk key_of hash keq rep v s c -> keeps_policy c -> default s -> dexec v s c = Ok (t, r) -> default t.
Proof.
  intros v s t c r W Hv Hc Hnb Hk Hdf H. destruct (step_size v s t c r W Hv Hc Hnb H) as [W' Hs]. pose proof (dexec_bc _ _ _ _ _ _ _ _ _ _ H) as Hb.
  assert (Hkm : keeps_max c) by (destruct c; try exact I; exact Hk).
  destruct Hdf as (Hf & Hd & Hl). assert (Hdf : default s) by (split; [exact Hf|]; split; [exact Hd|exact Hl]).
  split; [rewrite (keeps_mlf v s t c r W Hkm H); exact Hf|].
  assert (Hin : inserting c -> doubled (d_bc t) /\ (r <> QThrow -> 8 * (d_size s + 1) <= 7 * d_bc t)).
  { intros Hi. destruct (insert_room _ _ _ _ _ Hi H) as (s1 & o & Hro & Hdm & H1 & H2). destruct (room_load _ _ _ _ _ W Hro) as (_ & _ & Hx). destruct (Hx Hdf) as [Hy Hz].
    injection Hdm as -> _ _. split; [exact Hy|]. intros Hr. apply Hz. intros Ho. apply Hr. apply H1. exact Ho. }
  split.
  - destruct c as [e|e|e|j k|i|i1 i2|j k|j k| |n|n|p q| |]; try contradiction; try exact (proj1 (Hin I)).
    all: cbn [DenseRun.dexec] in H; bstep H.
    + destruct a as [s1 o]. unfold erase_key in Eb. bstep Eb. apply erase_loop_dims in Eb. cbn [give_next] in H. bstep H. injection H as <- <-. injection Eb as -> _ _. exact Hd.
    + destruct a as [s1 o]. apply erase_at_dims in Eb. cbn [give_next] in H. bstep H. injection H as <- <-. injection Eb as -> _ _. exact Hd.
    + destruct a as [s1 o]. unfold erase_range in Eb. apply erase_range_dims in Eb. cbn [give_next] in H. bstep H. injection H as <- <-. injection Eb as -> _ _. exact Hd.
    + injection H as <- <-. exact Hd.
    + injection H as <- <-. exact Hd.
    + injection H as <- <-. apply clear_dims in Eb. injection Eb as -> _ _. exact Hd.
    + destruct a as [s1 o]. cbn [give_unit] in H. injection H as <- <-. exact (rehash_default _ _ _ _ _ W Hdf Hk Eb).
    + exact Hd.
    + injection H as <- <-. exact Hd.
  - destruct Hs as [Hs|(Hi & Hr & Hs)]; [lia|]. destruct (Hin Hi) as [_ Hx]. specialize (Hx Hr). lia.
Qed.

(** ** Histories. *)
Lemma run_keeps : forall (I : dense -> Prop) (P : dcall E K -> Prop),
  (forall v s t c r, dwf s -> denv_ok v -> dcall_ok nk c -> ~ blocked nk key_of hash keq rep v s c -> P c -> I s -> dexec v s c = Ok (t, r) -> I t) ->
  forall h (s t : dense) rs, dwf s -> dhistory_ok nk h -> Forall (fun vc => P (snd vc)) h ->
  (forall h1 v c h2 s1 rs1, h = h1 ++ (v, c) :: h2 -> drun s h1 = Ok (s1, rs1) -> ~ blocked nk key_of hash keq rep v s1 c) ->
  I s -> drun s h = Ok (t, rs) -> I t /\ dwf t.
Proof.
  intros I P Hst h. induction h as [|[v c] h IH]; intros s t rs W Hh HP Hnb Hi E0; cbn [DenseRun.drun] in E0.
  - injection E0 as <- <-. auto.
  - inversion Hh as [|? ? [Hv Hc] Hh']; subst. inversion HP as [|? ? Hp HP']; subst. cbn [fst snd] in *.
    destruct (dexec v s c) as [[s1 r]|] eqn:E1; [|discriminate]. cbn [bind] in E0.
    destruct (drun s1 h) as [[s2 rs2]|] eqn:E2; [|discriminate]. cbn [bind] in E0. injection E0 as <- <-.
    pose proof (Hnb [] v c h s [] eq_refl eq_refl) as Hb.
    destruct (step_size v s s1 c r W Hv Hc Hb E1) as [W1 _].
    apply (IH s1 s2 rs2 W1 Hh' HP'); [|exact (Hst v s s1 c r W Hv Hc Hb Hp Hi E1)|exact E2].
    intros h1 v1 c1 h2 u rs1 -> Hr. apply (Hnb ((v, c) :: h1) v1 c1 h2 u (r :: rs1) eq_refl). cbn [DenseRun.drun]. rewrite E1. cbn [bind]. rewrite Hr. reflexivity.
Qed.

Lemma empty_default : default empty_dense.
Proof. split; [reflexivity|]. split; [left; reflexivity|cbn; lia]. Qed.
Lemma history_default : forall h (s : dense) rs, dhistory_ok nk h -> Forall (fun vc => keeps_policy (snd vc)) h ->
  (forall h1 v c h2 s1 rs1, h = h1 ++ (v, c) :: h2 -> drun empty_dense h1 = Ok (s1, rs1) -> ~ blocked nk key_of hash keq rep v s1 c) ->
  drun empty_dense h = Ok (s, rs) ->
  d_mlf s = (7, 8) /\ doubled (d_bc s) /\ within_load 7 8 (size s) (d_bc s) /\ (0 < d_bc s -> rle (f32_div (f32_of (size s)) (f32_of (d_bc s))) (d_mlf s) = true).
Proof.
  intros h s rs Hh Hp Hnb Hr.
  destruct (run_keeps default keeps_policy step_default h empty_dense s rs (empty_wf nk key_of hash keq) Hh Hp Hnb empty_default Hr) as ((Hf & Hd & Hl) & W).
  split; [exact Hf|]. split; [exact Hd|]. unfold within_load, size. split; [lia|]. intros Hb. rewrite Hf. apply load_default; [apply (w_size _ _ _ _ _ W)|exact Hd|exact Hb|exact Hl].
Qed.

Lemma history_near : forall h1 v c h2 (s0 s1 s : dense) r rs1 rs, dhistory_ok nk (h1 ++ (v, c) :: h2) ->
  inserting c -> r <> QThrow -> Forall (fun vc => keeps_max (snd vc)) h2 ->
  (forall h1' v' c' h2' s' rs', h1 ++ (v, c) :: h2 = h1' ++ (v', c') :: h2' -> drun empty_dense h1' = Ok (s', rs') -> ~ blocked nk key_of hash keq rep v' s' c') ->
  drun empty_dense h1 = Ok (s0, rs1) -> dexec v s0 c = Ok (s1, r) -> drun s1 h2 = Ok (s, rs) -> nearly s.
Proof.
  intros h1 v c h2 s0 s1 s r rs1 rs Hh Hi Hr Hk Hnb E0 E1 E2. unfold dhistory_ok in Hh. apply Forall_app in Hh. destruct Hh as [Hh1 Hh2]. inversion Hh2 as [|? ? [Hv Hc] Hh2']; subst. cbn [fst snd] in *.
  destruct (run_keeps (fun _ => True) (fun _ => True) (fun v s t c r _ _ _ _ _ _ _ => I) h1 empty_dense s0 rs1 (empty_wf nk key_of hash keq) Hh1) as [_ W0].
  { apply Forall_forall. auto. }
  { intros a v' c' b s' rs' -> Hx. apply (Hnb a v' c' (b ++ (v, c) :: h2) s' rs'); [rewrite <- app_assoc; reflexivity|exact Hx]. }
  { exact I. } { exact E0. }
  pose proof (Hnb h1 v c h2 s0 rs1 eq_refl E0) as Hb. pose proof (insert_nearly v s0 s1 c r W0 Hv Hc Hb Hi E1 Hr) as Hn.
  destruct (step_size v s0 s1 c r W0 Hv Hc Hb E1) as [W1 _].
  assert (Happ : forall a x y rx ry u, drun u a = Ok (x, rx) -> forall b, drun x b = Ok (y, ry) -> drun u (a ++ b) = Ok (y, rx ++ ry)).
  { induction a as [|[va ca] a IH]; intros x y rx ry u Ha b Hbb; cbn [DenseRun.drun app] in *; [injection Ha as <- <-; exact Hbb|].
    destruct (dexec va u ca) as [[u1 r1]|]; [|discriminate]. cbn [bind] in *. destruct (drun u1 a) as [[u2 r2]|] eqn:Ea; [|discriminate]. cbn [bind] in Ha. injection Ha as <- <-.
    rewrite (IH _ _ _ _ _ Ea _ Hbb). reflexivity. }
  destruct (run_keeps nearly keeps_max step_nearly h2 s1 s rs W1 Hh2' Hk) as [H _]; [|exact Hn|exact E2|exact H].
  intros a v' c' b s' rs' -> Hx. apply (Hnb (h1 ++ (v, c) :: a) v' c' b s' (rs1 ++ r :: rs')); [rewrite <- app_assoc; reflexivity|].
  apply (Happ h1 s0 s' rs1 (r :: rs') empty_dense E0). cbn [DenseRun.drun]. rewrite E1. cbn [bind]. rewrite Hx. reflexivity.
Qed.
End Steps.
End Load.
