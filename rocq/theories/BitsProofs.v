(** Proofs about Bits.v: every group operation against a byte-wise description. *)
From Coq Require Import ZArith List Bool Lia.
From Coq Require Import ZifyBool ZifyNat.
From Verif Require Import Base BaseLemmas Bits.
Import ListNotations.
Open Scope Z_scope.

(** Bytes that occur in metadata. *)
Definition valid_byte (v : Z) : Prop :=
  v = m_empty \/ v = m_deleted \/ v = m_sentinel \/ 0 <= v <= 127.
Definition valid_block (f : simd) (blk : list Z) : Prop :=
  Z.of_nat (length blk) = width f /\ Forall valid_byte blk.

(** ** Bit scans. *)
Lemma pos_ctz_nonneg : forall p, 0 <= pos_ctz p.
Proof. induction p; cbn [pos_ctz]; lia. Qed.

Lemma pos_ctz_decomp : forall p, exists q, 0 <= q /\ Zpos p = 2 ^ pos_ctz p * (2 * q + 1).
Proof.
  induction p as [p IH|p IH|].
  - exists (Zpos p). cbn [pos_ctz]. rewrite Z.pow_0_r. lia.
  - destruct IH as (q & Hq & E). exists q. split; [lia|]. cbn [pos_ctz].
    rewrite Z.pow_add_r by (pose proof (pos_ctz_nonneg p); lia).
    rewrite Pos2Z.inj_xO, E. rewrite Z.pow_1_r. ring.
  - exists 0. cbn. lia.
Qed.

Lemma testbit_mul_pow2 : forall c a j, 0 <= c -> 0 <= j ->
  Z.testbit (2 ^ c * a) j = (c <=? j) && Z.testbit a (j - c).
Proof.
  intros. rewrite Z.mul_comm, Z.mul_pow2_bits by lia.
  destruct (Z.leb_spec c j); cbn; [reflexivity|]. apply Z.testbit_neg_r. lia.
Qed.

Lemma pos_ctz_bits : forall p,
  Z.testbit (Zpos p) (pos_ctz p) = true /\
  (forall j, j < pos_ctz p -> Z.testbit (Zpos p) j = false).
Proof.
  intros p. pose proof (pos_ctz_nonneg p). destruct (pos_ctz_decomp p) as (q & Hq & E).
  rewrite E. split.
  - rewrite testbit_mul_pow2 by lia. rewrite Z.leb_refl, Z.sub_diag. cbn [andb].
    rewrite Z.testbit_odd_0. reflexivity.
  - intros j Hj. destruct (Z_lt_dec j 0); [apply Z.testbit_neg_r; lia|].
    rewrite testbit_mul_pow2 by lia. destruct (Z.leb_spec (pos_ctz p) j); [lia|reflexivity].
Qed.

Lemma pos_ctz_clear : forall p j, 0 <= j ->
  Z.testbit (Z.land (Zpos p) (Zpos p - 1)) j
  = Z.testbit (Zpos p) j && negb (j =? pos_ctz p).
Proof.
  intros p j Hj. pose proof (pos_ctz_nonneg p) as Hc.
  destruct (pos_ctz_bits p) as [_ Hlow].
  destruct (pos_ctz_decomp p) as (q & Hq & E).
  rewrite Z.land_spec. set (c := pos_ctz p) in *.
  destruct (Z.eqb_spec j c) as [->|Hne]; cbn [negb]; rewrite ?andb_false_r, ?andb_true_r.
  - assert (Zpos p - 1 = 2 ^ (c + 1) * q + (2 ^ c - 1)) as ->.
    { rewrite E, Z.pow_add_r by lia. ring. }
    replace (Z.testbit (2 ^ (c + 1) * q + (2 ^ c - 1)) c) with false; [apply andb_false_r|].
    symmetry. rewrite Z.testbit_odd, Z.shiftr_div_pow2 by lia.
    rewrite Z.pow_add_r, Z.pow_1_r by lia.
    replace (2 ^ c * 2 * q + (2 ^ c - 1)) with ((2 ^ c - 1) + (2 * q) * 2 ^ c) by ring.
    assert (0 < 2 ^ c) by (apply Z.pow_pos_nonneg; lia).
    rewrite Z.div_add by lia. rewrite Z.div_small by lia.
    rewrite Z.add_0_l. rewrite Z.odd_mul. reflexivity.
  - destruct (Z_lt_dec j c) as [Hlt|Hge].
    + rewrite Hlow by lia. reflexivity.
    + assert (Hgt : c < j) by lia.
      assert (Hsame : Z.testbit (Zpos p - 1) j = Z.testbit (Zpos p) j).
      { assert (0 < 2 ^ c) by (apply Z.pow_pos_nonneg; lia).
        assert (Hdiv : (Zpos p - 1) / 2 ^ (c + 1) = Zpos p / 2 ^ (c + 1)).
        { rewrite Z.pow_add_r, Z.pow_1_r by lia. rewrite E.
          replace (2 ^ c * (2 * q + 1) - 1) with ((2 ^ c - 1) + q * (2 ^ c * 2)) by ring.
          replace (2 ^ c * (2 * q + 1)) with (2 ^ c + q * (2 ^ c * 2)) by ring.
          rewrite !Z.div_add by lia. rewrite !Z.div_small by lia. reflexivity. }
        replace j with ((j - (c + 1)) + (c + 1)) by lia.
        rewrite <- !Z.div_pow2_bits by lia. rewrite Hdiv. reflexivity. }
      rewrite Hsame. apply andb_diag.
Qed.

Lemma scan_forward_spec : forall x, 0 < x ->
  exists i, scan_forward x = Ok i /\ 0 <= i /\ Z.testbit x i = true /\
            (forall j, j < i -> Z.testbit x j = false).
Proof.
  intros [|p|p] H; try lia. exists (pos_ctz p). cbn [scan_forward].
  destruct (pos_ctz_bits p). repeat split; auto. apply pos_ctz_nonneg.
Qed.

Lemma scan_reverse_spec : forall x, 0 < x ->
  exists i, scan_reverse x = Ok i /\ 0 <= i /\ Z.testbit x i = true /\
            (forall j, i < j -> Z.testbit x j = false).
Proof.
  intros [|p|p] H; try lia. exists (Z.log2 (Zpos p)). cbn [scan_reverse].
  split; [reflexivity|]. split; [apply Z.log2_nonneg|]. split.
  - apply Z.bit_log2. lia.
  - intros. apply Z.bits_above_log2; lia.
Qed.

Lemma testbit_lt_64 : forall x i, 0 <= x < two64 -> Z.testbit x i = true -> 0 <= i < 64.
Proof.
  intros x i Hx Hb. destruct (Z_lt_dec i 0); [rewrite Z.testbit_neg_r in Hb by lia; discriminate|].
  destruct (Z_lt_dec i 64); [lia|].
  destruct (Z.eq_dec x 0) as [->|]; [rewrite Z.bits_0 in Hb; discriminate|].
  rewrite Z.bits_above_log2 in Hb; [discriminate|lia|].
  apply Z.log2_lt_pow2; [lia|]. apply Z.lt_le_trans with (2 ^ 64); [apply Hx|].
  apply Z.pow_le_mono_r; lia.
Qed.

(** ** Index masks.  [bits_of m] lists the set bits, lowest first. *)
Definition bits_of (m : Z) : list Z := filter (Z.testbit m) (zrange 64).

Lemma bits_of_In : forall m i, 0 <= m < two64 -> In i (bits_of m) <-> Z.testbit m i = true.
Proof.
  intros. unfold bits_of. rewrite filter_In, zrange_In. split; [tauto|].
  intros Hb. split; auto. eapply testbit_lt_64; eauto.
Qed.

Lemma land_lt : forall a b, 0 <= a < two64 -> 0 <= b -> 0 <= Z.land a b < two64.
Proof.
  intros a b Ha Hb.
  assert (0 <= Z.land a b) by (apply Z.land_nonneg; lia).
  split; [assumption|].
  destruct (Z.eq_dec (Z.land a b) 0) as [E|E]; [rewrite E; reflexivity|].
  destruct (Z.eq_dec a 0) as [->|]; [rewrite Z.land_0_l in E; congruence|].
  apply Z.log2_lt_pow2; [lia|].
  pose proof (Z.log2_land a b ltac:(lia) Hb).
  assert (Z.log2 a < 64) by (apply Z.log2_lt_pow2; unfold two64 in *; lia). lia.
Qed.

Lemma filter_sorted_hd : forall (p : Z -> bool) n k, (k < n)%nat -> p (Z.of_nat k) = true ->
  (forall j, (j < k)%nat -> p (Z.of_nat j) = false) ->
  filter p (map Z.of_nat (seq 0 n)) =
  Z.of_nat k :: filter (fun j => p j && negb (j =? Z.of_nat k)) (map Z.of_nat (seq 0 n)).
Proof.
  intros p n k Hk Hp Hlow.
  replace n with (k + S (n - k - 1))%nat by lia.
  rewrite seq_app, map_app, !filter_app. cbn [seq map filter]. rewrite !Nat.add_0_l.
  assert (forall q, (forall j, (j < k)%nat -> q (Z.of_nat j) = false) ->
           filter q (map Z.of_nat (seq 0 k)) = []) as Hnil.
  { intros q Hq. destruct (filter q _) as [|y ys] eqn:E; [reflexivity|].
    assert (In y (y :: ys)) as Hy by (left; reflexivity). rewrite <- E in Hy.
    apply filter_In in Hy. destruct Hy as [Hy1 Hy2]. apply in_map_iff in Hy1.
    destruct Hy1 as (j & <- & Hj). apply in_seq in Hj. rewrite Hq in Hy2 by lia. discriminate. }
  rewrite (Hnil p) by assumption. rewrite Hnil.
  2:{ intros j Hj. rewrite Hlow by lia. reflexivity. }
  rewrite Hp. rewrite Z.eqb_refl. cbn. f_equal.
  apply filter_ext_in. intros a Ha. apply in_map_iff in Ha. destruct Ha as (j & <- & Hj).
  apply in_seq in Hj. destruct (Z.eqb_spec (Z.of_nat j) (Z.of_nat k)); [lia|].
  rewrite andb_true_r. reflexivity.
Qed.

Lemma mask_next_spec : forall m, 0 < m < two64 ->
  exists i, scan_forward m = Ok i /\ 0 <= mask_next m < two64 /\
            bits_of m = i :: bits_of (mask_next m).
Proof.
  intros [|p|p] Hm; try lia. exists (pos_ctz p).
  assert (E : mask_next (Zpos p) = Z.land (Zpos p) (Zpos p - 1)).
  { unfold mask_next, sub64. rewrite Z.mod_small by lia. reflexivity. }
  rewrite E. split; [reflexivity|]. split; [apply land_lt; lia|].
  destruct (pos_ctz_bits p) as [Hb Hlow]. pose proof (pos_ctz_nonneg p).
  assert (pos_ctz p < 64) by (eapply testbit_lt_64; eauto; lia).
  unfold bits_of, zrange.
  rewrite (filter_sorted_hd _ _ (Z.to_nat (pos_ctz p))).
  - rewrite Z2Nat.id by lia. f_equal. apply filter_ext_in. intros a Ha.
    apply in_map_iff in Ha. destruct Ha as (j & <- & Hj).
    rewrite pos_ctz_clear by lia. reflexivity.
  - lia.
  - rewrite Z2Nat.id by lia. assumption.
  - intros j Hj. apply Hlow. lia.
Qed.

Lemma mask_lanes_spec : forall fuel P m, 0 <= m < two64 -> (length (bits_of m) < fuel)%nat ->
  mask_lanes fuel P m = Ok (map (fun b => Z.shiftr b P) (bits_of m)).
Proof.
  induction fuel as [|fuel IH]; intros P m Hm Hf; [lia|].
  cbn [mask_lanes]. unfold mask_is_empty. destruct (Z.eqb_spec m 0) as [->|Hne].
  - replace (bits_of 0) with (@nil Z); [reflexivity|]. unfold bits_of.
    rewrite (filter_ext _ (fun _ => false)) by (intros; apply Z.bits_0).
    induction (zrange 64); auto.
  - destruct (mask_next_spec m) as (i & E1 & E2 & E3); [lia|].
    unfold mask_lsb. rewrite E1. cbn [bind].
    rewrite E3 in Hf. cbn [length] in Hf.
    rewrite IH by (auto; lia). cbn [bind]. rewrite E3. reflexivity.
Qed.

Lemma bits_of_length : forall m, (length (bits_of m) <= 64)%nat.
Proof.
  intros. unfold bits_of.
  assert (forall (p : Z -> bool) l, (length (filter p l) <= length l)%nat) as H.
  { induction l; cbn; [lia|]. destruct (p a); cbn; lia. }
  specialize (H (Z.testbit m) (zrange 64)). rewrite zrange_length in H. exact H.
Qed.

(** ** Bits of loaded words and of movemask. *)
Lemma movemask_bound : forall l, 0 <= movemask l < 2 ^ Z.of_nat (length l).
Proof.
  induction l as [|x l IH]; cbn [movemask length]; [cbn; lia|].
  rewrite Nat2Z.inj_succ, Z.pow_succ_r by lia. destruct (x <? 0); lia.
Qed.

Lemma movemask_bit : forall l i, (i < length l)%nat ->
  Z.testbit (movemask l) (Z.of_nat i) = (nth i l 0 <? 0).
Proof.
  induction l as [|x l IH]; intros i Hi; cbn [length] in Hi; [lia|].
  cbn [movemask]. destruct i as [|i]; cbn [nth].
  - change (Z.of_nat 0) with 0. rewrite Z.bit0_odd, Z.odd_add, Z.odd_mul.
    destruct (x <? 0); reflexivity.
  - rewrite Nat2Z.inj_succ.
    assert (movemask (x :: l) / 2 = movemask l) as E.
    { cbn [movemask]. destruct (x <? 0); [|rewrite Z.add_0_l, Z.mul_comm; apply Z.div_mul; lia].
      rewrite Z.mul_comm, Z.div_add by lia. reflexivity. }
    rewrite <- Z.add_1_r. change 1 with 1 at 2.
    rewrite <- (Z.div_pow2_bits _ 1) by lia. change (2 ^ 1) with 2.
    cbn [movemask] in E. rewrite E. apply IH. lia.
Qed.

Lemma movemask_high : forall l i, Z.of_nat (length l) <= i -> Z.testbit (movemask l) i = false.
Proof.
  intros. pose proof (movemask_bound l).
  destruct (Z.eq_dec (movemask l) 0) as [->|]; [apply Z.bits_0|].
  apply Z.bits_above_log2; [lia|]. eapply Z.lt_le_trans; [|eassumption].
  apply Z.log2_lt_pow2; lia.
Qed.

Lemma word_bound : forall l, 0 <= word_of_bytes l < 2 ^ (8 * Z.of_nat (length l)).
Proof.
  induction l as [|x l IH]; cbn [word_of_bytes length]; [cbn; lia|].
  replace (8 * Z.of_nat (S (length l))) with (8 * Z.of_nat (length l) + 8) by lia.
  rewrite Z.pow_add_r by lia. change (2 ^ 8) with 256.
  pose proof (Z.mod_pos_bound x 256). lia.
Qed.

Lemma mod256_bit : forall x j, 0 <= j < 8 -> Z.testbit (x mod 256) j = Z.testbit x j.
Proof. intros. change 256 with (2 ^ 8). apply Z.mod_pow2_bits_low. lia. Qed.

Lemma word_bit : forall l i j, (i < length l)%nat -> 0 <= j < 8 ->
  Z.testbit (word_of_bytes l) (8 * Z.of_nat i + j) = Z.testbit (nth i l 0) j.
Proof.
  induction l as [|x l IH]; intros i j Hi Hj; cbn [length] in Hi; [lia|].
  cbn [word_of_bytes]. destruct i as [|i]; cbn [nth].
  - change (8 * Z.of_nat 0 + j) with j. rewrite <- (mod256_bit x j Hj).
    rewrite <- (mod256_bit (_ + _) j Hj). f_equal.
    rewrite Z.mul_comm, Z.mod_add by lia. apply Z.mod_small, Z.mod_pos_bound. lia.
  - replace (8 * Z.of_nat (S i) + j) with ((8 * Z.of_nat i + j) + 8) by lia.
    rewrite <- Z.div_pow2_bits by lia. change (2 ^ 8) with 256.
    rewrite Z.mul_comm, Z.div_add by lia.
    rewrite (Z.div_small (x mod 256)) by (apply Z.mod_pos_bound; lia). rewrite Z.add_0_l.
    apply IH; lia.
Qed.

Lemma word_high : forall l i, 8 * Z.of_nat (length l) <= i -> Z.testbit (word_of_bytes l) i = false.
Proof.
  intros. pose proof (word_bound l).
  destruct (Z.eq_dec (word_of_bytes l) 0) as [->|]; [apply Z.bits_0|].
  apply Z.bits_above_log2; [lia|]. eapply Z.lt_le_trans; [|eassumption].
  apply Z.log2_lt_pow2; lia.
Qed.

Lemma split_index : forall b n, 0 <= b < 8 * Z.of_nat n ->
  exists i j, b = 8 * Z.of_nat i + j /\ (i < n)%nat /\ 0 <= j < 8.
Proof.
  intros b n H. exists (Z.to_nat (b / 8)), (b mod 8).
  pose proof (Z.div_mod b 8 ltac:(lia)). pose proof (Z.mod_pos_bound b 8 ltac:(lia)).
  assert (0 <= b / 8) by (apply Z.div_pos; lia). rewrite Z2Nat.id by lia.
  split; [lia|]. split; [|lia]. assert (b / 8 < Z.of_nat n) by (apply Z.div_lt_upper_bound; lia). lia.
Qed.

Lemma shiftr_lane : forall i j, 0 <= j < 8 -> Z.shiftr (8 * i + j) 3 = i.
Proof.
  intros. rewrite Z.shiftr_div_pow2 by lia. change (2 ^ 3) with 8.
  rewrite Z.mul_comm, Z.add_comm, Z.div_add by lia. rewrite Z.div_small by lia. lia.
Qed.

Lemma word_repeat_msb : msb_mask = word_of_bytes (repeat (-128) 8).
Proof. reflexivity. Qed.
Lemma word_repeat_lsb : lsb_mask = word_of_bytes (repeat 1 8).
Proof. reflexivity. Qed.

Lemma nth_repeat_lt : forall (x d : Z) n i, (i < n)%nat -> nth i (repeat x n) d = x.
Proof. induction n; intros [|i] H; cbn; try lia; auto. apply IHn. lia. Qed.

Lemma nth_map_lt : forall (f : Z -> Z) l i d d', (i < length l)%nat ->
  nth i (map f l) d = f (nth i l d').
Proof.
  intros. rewrite (nth_indep (map f l) d (f d')) by (rewrite map_length; lia). apply map_nth.
Qed.

Lemma msb_bit : forall i j, (i < 8)%nat -> 0 <= j < 8 ->
  Z.testbit msb_mask (8 * Z.of_nat i + j) = (j =? 7).
Proof.
  intros. rewrite word_repeat_msb, word_bit by (cbn; lia). rewrite nth_repeat_lt by lia.
  assert (Hj : In j (zrange 8)) by (apply zrange_In; lia).
  assert (C : forallb (fun j => eqb (Z.testbit (-128) j) (j =? 7)) (zrange 8) = true) by reflexivity.
  rewrite forallb_forall in C. apply eqb_prop. apply (C j Hj).
Qed.
Lemma lsb_bit : forall i j, (i < 8)%nat -> 0 <= j < 8 ->
  Z.testbit lsb_mask (8 * Z.of_nat i + j) = (j =? 0).
Proof.
  intros. rewrite word_repeat_lsb, word_bit by (cbn; lia). rewrite nth_repeat_lt by lia.
  assert (Hj : In j (zrange 8)) by (apply zrange_In; lia).
  assert (C : forallb (fun j => eqb (Z.testbit 1 j) (j =? 0)) (zrange 8) = true) by reflexivity.
  rewrite forallb_forall in C. apply eqb_prop. apply (C j Hj).
Qed.

Lemma not64_bit : forall x b, 0 <= x < two64 -> 0 <= b < 64 ->
  Z.testbit (not64 x) b = negb (Z.testbit x b).
Proof.
  intros x b Hx Hb. unfold not64.
  replace (two64 - 1 - x) with ((Z.lnot x) mod 2 ^ 64).
  - rewrite Z.mod_pow2_bits_low by lia. apply Z.lnot_spec. lia.
  - unfold Z.lnot. change (2 ^ 64) with two64.
    replace (Z.pred (- x)) with ((two64 - 1 - x) + (-1) * two64) by lia.
    rewrite Z.mod_add by (cbn; lia). apply Z.mod_small. lia.
Qed.
Lemma not64_range : forall x, 0 <= x < two64 -> 0 <= not64 x < two64.
Proof. unfold not64. intros. lia. Qed.

Lemma shl64_bit : forall x n b, 0 <= n -> 0 <= b < 64 ->
  Z.testbit (shl64 x n) b = (n <=? b) && Z.testbit x (b - n).
Proof.
  intros. unfold shl64, two64. rewrite Z.mod_pow2_bits_low by lia.
  rewrite Z.mul_comm. apply testbit_mul_pow2; lia.
Qed.

(** ** Byte enumeration: properties decidable on all valid bytes. *)
Definition all_valid_bytes : list Z := m_empty :: m_deleted :: m_sentinel :: zrange 128.
Lemma valid_byte_In : forall v, valid_byte v -> In v all_valid_bytes.
Proof.
  unfold valid_byte, all_valid_bytes. intros v [->|[->|[->|H]]]; cbn [In]; auto.
  right; right; right. apply zrange_In. lia.
Qed.
Lemma valid_byte_check : forall (p : Z -> bool), forallb p all_valid_bytes = true ->
  forall v, valid_byte v -> p v = true.
Proof. intros p H v Hv. rewrite forallb_forall in H. apply H, valid_byte_In, Hv. Qed.

Lemma valid_byte_range : forall v, valid_byte v -> -128 <= v <= 127.
Proof. unfold valid_byte, m_empty, m_deleted, m_sentinel. intros. lia. Qed.

Lemma valid_nth : forall l i d, Forall valid_byte l -> (i < length l)%nat -> valid_byte (nth i l d).
Proof. intros l i d H Hi. rewrite Forall_forall in H. apply H, nth_In, Hi. Qed.

(** ** WORD group: which bits are set. *)
Lemma word_range8 : forall l, length l = 8%nat -> 0 <= word_of_bytes l < two64.
Proof. intros l H. pose proof (word_bound l) as B. rewrite H in B. exact B. Qed.

Lemma word_empty_bit : forall blk i j, length blk = 8%nat -> Forall valid_byte blk ->
  (i < 8)%nat -> 0 <= j < 8 ->
  Z.testbit (match_empty WORD blk) (8 * Z.of_nat i + j)
  = (j =? 7) && (nth i blk 0 =? m_empty).
Proof.
  intros blk i j L V Hi Hj. unfold match_empty.
  pose proof (word_range8 blk L).
  rewrite !Z.land_spec, msb_bit by assumption.
  destruct (Z.eqb_spec j 7) as [->|]; [|rewrite andb_false_r; reflexivity].
  rewrite andb_true_r, andb_true_l.
  rewrite shl64_bit by lia. destruct (Z.leb_spec 6 (8 * Z.of_nat i + 7)); [|lia].
  rewrite andb_true_l. replace (8 * Z.of_nat i + 7 - 6) with (8 * Z.of_nat i + 1) by lia.
  rewrite not64_bit by lia. rewrite !word_bit by lia.
  pose proof (valid_nth blk i 0 V ltac:(lia)) as Hv.
  apply eqb_prop. revert Hv. generalize (nth i blk 0).
  apply valid_byte_check. vm_compute. reflexivity.
Qed.

Lemma word_available_bit : forall blk i j, length blk = 8%nat -> Forall valid_byte blk ->
  (i < 8)%nat -> 0 <= j < 8 ->
  Z.testbit (match_available WORD blk) (8 * Z.of_nat i + j)
  = (j =? 7) && (is_available (nth i blk 0)).
Proof.
  intros blk i j L V Hi Hj. unfold match_available.
  pose proof (word_range8 blk L).
  rewrite !Z.land_spec, msb_bit by assumption.
  destruct (Z.eqb_spec j 7) as [->|]; [|rewrite andb_false_r; reflexivity].
  rewrite andb_true_r, andb_true_l.
  rewrite shl64_bit by lia. destruct (Z.leb_spec 7 (8 * Z.of_nat i + 7)); [|lia].
  rewrite andb_true_l. replace (8 * Z.of_nat i + 7 - 7) with (8 * Z.of_nat i + 0) by lia.
  rewrite not64_bit by lia. rewrite !word_bit by lia.
  pose proof (valid_nth blk i 0 V ltac:(lia)) as Hv.
  apply eqb_prop. revert Hv. generalize (nth i blk 0).
  apply valid_byte_check. vm_compute. reflexivity.
Qed.

(** Subtraction of 1 from every byte with borrow from the lanes below. *)
Lemma sub_ones_bit : forall l c i, (c = 0 \/ c = 1) -> (i < length l)%nat ->
  exists c', (c' = 0 \/ c' = 1) /\
    Z.testbit (word_of_bytes l - word_of_bytes (repeat 1 (length l)) - c) (8 * Z.of_nat i + 7)
    = Z.testbit (nth i l 0 mod 256 - 1 - c') 7.
Proof.
  induction l as [|x l IH]; intros c i Hc Hi; cbn [length] in Hi; [lia|].
  cbn [word_of_bytes length repeat]. change (1 mod 256) with 1.
  set (r := word_of_bytes l) in *. set (o := word_of_bytes (repeat 1 (length l))) in *.
  pose proof (Z.mod_pos_bound x 256 ltac:(lia)) as Hx.
  destruct i as [|i]; cbn [nth].
  - exists c. split; [assumption|]. change (8 * Z.of_nat 0 + 7) with 7.
    replace (x mod 256 + 256 * r - (1 + 256 * o) - c) with ((x mod 256 - 1 - c) + (r - o) * 256) by ring.
    rewrite <- (mod256_bit _ 7) by lia. rewrite Z.mod_add by lia. apply mod256_bit. lia.
  - replace (8 * Z.of_nat (S i) + 7) with ((8 * Z.of_nat i + 7) + 8) by lia.
    rewrite <- Z.div_pow2_bits by lia. change (2 ^ 8) with 256.
    replace (x mod 256 + 256 * r - (1 + 256 * o) - c) with ((x mod 256 - 1 - c) + (r - o) * 256) by ring.
    rewrite Z.div_add by lia.
    destruct (Z_lt_dec (x mod 256 - 1 - c) 0).
    + replace ((x mod 256 - 1 - c) / 256) with (-1)
        by (apply Z.div_unique with (x mod 256 - 1 - c + 256); lia).
      replace (-1 + (r - o)) with (r - o - 1) by ring. apply IH; [right; reflexivity|lia].
    + rewrite (Z.div_small (x mod 256 - 1 - c)) by lia.
      replace (0 + (r - o)) with (r - o - 0) by ring. apply IH; [left; reflexivity|lia].
Qed.

Lemma word_lxor : forall l h, 0 <= h < 256 ->
  Z.lxor (word_of_bytes l) (word_of_bytes (repeat h (length l)))
  = word_of_bytes (map (fun b => Z.lxor (b mod 256) h) l).
Proof.
  intros l h Hh. apply Z.bits_inj'. intros n Hn. rewrite Z.lxor_spec.
  destruct (Z_lt_dec n (8 * Z.of_nat (length l))).
  - destruct (split_index n (length l)) as (i & j & -> & Hi & Hj); [lia|].
    rewrite !word_bit by (rewrite ?repeat_length, ?map_length; lia).
    rewrite nth_repeat_lt by lia.
    rewrite (nth_map_lt _ _ _ _ 0) by lia. rewrite Z.lxor_spec.
    rewrite mod256_bit by lia. reflexivity.
  - rewrite !word_high by (rewrite ?repeat_length, ?map_length; lia). reflexivity.
Qed.

Lemma word_spread : forall h, 0 <= h < 256 ->
  mul64 lsb_mask (h mod 256) = word_of_bytes (repeat h 8).
Proof.
  intros h Hh. unfold mul64. rewrite Z.mod_small.
  - cbn [repeat word_of_bytes]. rewrite (Z.mod_small h) by lia. unfold lsb_mask. lia.
  - rewrite (Z.mod_small h) by lia. unfold lsb_mask, two64. lia.
Qed.

(** Candidates of the portable tag match: an equal byte is always reported, a
    reported lane holds the tag or the tag with its lowest bit flipped. *)
Lemma word_eq_bit : forall blk h i j, length blk = 8%nat -> Forall valid_byte blk ->
  0 <= h < 128 -> (i < 8)%nat -> 0 <= j < 8 ->
  (Z.testbit (match_eq WORD blk h) (8 * Z.of_nat i + j) = true ->
     j = 7 /\ (nth i blk 0 = h \/ nth i blk 0 = Z.lxor h 1)) /\
  (j = 7 -> nth i blk 0 = h -> Z.testbit (match_eq WORD blk h) (8 * Z.of_nat i + j) = true).
Proof.
  intros blk h i j L V Hh Hi Hj. unfold match_eq.
  cbv zeta. rewrite word_spread by lia.
  replace (repeat h 8) with (repeat h (length blk)) by (rewrite L; reflexivity).
  rewrite word_lxor by lia.
  set (xs := map (fun b => Z.lxor (b mod 256) h) blk).
  assert (Lx : length xs = 8%nat) by (unfold xs; rewrite map_length; exact L).
  pose proof (word_range8 xs Lx) as Rx.
  rewrite !Z.land_spec, msb_bit by assumption.
  assert (Hn : nth i xs 0 = Z.lxor (nth i blk 0 mod 256) h).
  { unfold xs. rewrite (nth_map_lt _ _ _ _ 0) by lia. reflexivity. }
  pose proof (valid_nth blk i 0 V ltac:(lia)) as Hv.
  destruct (Z.eqb_spec j 7) as [->|Hj7].
  2:{ rewrite andb_false_r. split; [discriminate|congruence]. }
  rewrite andb_true_r. rewrite not64_bit by lia. rewrite word_bit by lia.
  unfold sub64, two64. rewrite Z.mod_pow2_bits_low by lia.
  rewrite word_repeat_lsb. rewrite <- Lx. rewrite <- (Z.sub_0_r (_ - _)).
  destruct (sub_ones_bit xs 0 i) as (c' & Hc' & E); [auto|lia|]. rewrite E, Hn. clear E.
  assert (Hx : 0 <= Z.lxor (nth i blk 0 mod 256) h < 256).
  { split; [apply Z.lxor_nonneg; pose proof (Z.mod_pos_bound (nth i blk 0) 256); lia|].
    destruct (Z.eq_dec (Z.lxor (nth i blk 0 mod 256) h) 0) as [->|]; [lia|].
    apply Z.log2_lt_pow2 with (b := 8); [pose proof (Z.lxor_nonneg (nth i blk 0 mod 256) h);
      pose proof (Z.mod_pos_bound (nth i blk 0) 256); lia|].
    pose proof (Z.log2_lxor (nth i blk 0 mod 256) h) as Hl.
    pose proof (Z.mod_pos_bound (nth i blk 0) 256 ltac:(lia)).
    specialize (Hl ltac:(lia) ltac:(lia)).
    assert (forall v, 0 <= v < 256 -> Z.log2 v < 8) as Hlog.
    { intros v Hvv. destruct (Z.eq_dec v 0) as [->|]; [reflexivity|]. apply Z.log2_lt_pow2; lia. }
    pose proof (Hlog (nth i blk 0 mod 256)). pose proof (Hlog h). lia. }
  revert Hv Hx. generalize (nth i blk 0). clear -Hh Hc'. intros v Hv Hx.
  rewrite (Z.mod_small (Z.lxor _ _)) by exact Hx.
  assert (Hcase : forall y, 0 <= y < 256 ->
     (Z.testbit (y - 1 - c') 7 && negb (Z.testbit y 7) = true -> y = 0 \/ y = 1) /\
     (y = 0 -> Z.testbit (y - 1 - c') 7 && negb (Z.testbit y 7) = true)).
  { intros y Hy. apply zrange_In in Hy.
    assert (C : forallb (fun y => (implb (Z.testbit (y - 1 - 0) 7 && negb (Z.testbit y 7)) ((y =? 0) || (y =? 1))
             && implb (y =? 0) (Z.testbit (y - 1 - 0) 7 && negb (Z.testbit y 7)))
             && (implb (Z.testbit (y - 1 - 1) 7 && negb (Z.testbit y 7)) ((y =? 0) || (y =? 1))
             && implb (y =? 0) (Z.testbit (y - 1 - 1) 7 && negb (Z.testbit y 7)))) (zrange 256) = true)
      by (vm_compute; reflexivity).
    rewrite forallb_forall in C. specialize (C y Hy). clear Hy.
    rewrite !andb_true_iff in C. destruct C as [[C1 C2] [C3 C4]].
    destruct Hc' as [-> | ->].
    - split; intros H.
      + rewrite H in C1. cbn [implb] in C1. apply orb_true_iff in C1. rewrite !Z.eqb_eq in C1. exact C1.
      + subst y. cbn [implb Z.eqb] in C2. exact C2.
    - split; intros H.
      + rewrite H in C3. cbn [implb] in C3. apply orb_true_iff in C3. rewrite !Z.eqb_eq in C3. exact C3.
      + subst y. cbn [implb Z.eqb] in C4. exact C4. }
  assert (Hxor : (Z.lxor (v mod 256) h = 0 -> v = h) /\ (Z.lxor (v mod 256) h = 1 -> v = Z.lxor h 1)
                 /\ (v = h -> Z.lxor (v mod 256) h = 0)).
  { assert (Hmod : v mod 256 < 128 -> v mod 256 = v).
    { clear -Hv. intros H. pose proof (valid_byte_range v Hv).
      destruct (Z_lt_dec v 0); [|apply Z.mod_small; lia].
      exfalso. assert (v mod 256 = v + 256); [|lia].
      symmetry. apply Z.mod_unique with (-1); lia. }
    assert (Hlt1 : Z.lxor h 1 < 128).
    { assert (C : forallb (fun h => Z.lxor h 1 <? 128) (zrange 128) = true) by (vm_compute; reflexivity).
      rewrite forallb_forall in C. apply Z.ltb_lt. apply C, zrange_In. lia. }
    repeat split; intros H.
    - assert (v mod 256 = h) by (apply Z.lxor_eq; exact H). lia.
    - assert (v mod 256 = Z.lxor h 1) as E.
      { replace (v mod 256) with (Z.lxor (Z.lxor (v mod 256) h) h)
          by (rewrite Z.lxor_assoc, Z.lxor_nilpotent, Z.lxor_0_r; reflexivity).
        rewrite H. apply Z.lxor_comm. }
      lia.
    - subst v. rewrite Z.mod_small by lia. apply Z.lxor_nilpotent. }
  destruct (Hcase _ Hx) as [H1 H2]. destruct Hxor as (X0 & X1 & X2). split.
  - intros H. split; [reflexivity|]. destruct (H1 H); auto.
  - intros _ ->. apply H2, X2. reflexivity.
Qed.

(** ** Uniform description of index masks.  [mask_between f m lo hi]: every lane
    satisfying [lo] is reported by mask [m], every reported lane satisfies [hi]. *)
Definition mask_between (f : simd) (m : Z) (lo hi : nat -> bool) : Prop :=
  0 <= m < two64 /\
  (forall b, Z.testbit m b = true ->
     exists i, Z.shiftr b (mask_shift f) = Z.of_nat i /\ Z.of_nat i < width f /\ hi i = true) /\
  (forall i, Z.of_nat i < width f -> lo i = true ->
     exists b, Z.testbit m b = true /\ Z.shiftr b (mask_shift f) = Z.of_nat i).

Lemma mask_between_ext : forall f m lo hi lo' hi',
  (forall i, Z.of_nat i < width f -> lo' i = true -> lo i = true) ->
  (forall i, Z.of_nat i < width f -> hi i = true -> hi' i = true) ->
  mask_between f m lo hi -> mask_between f m lo' hi'.
Proof.
  intros f m lo hi lo' hi' Hlo Hhi (R & B & L). split; [exact R|]. split.
  - intros b Hb. destruct (B b Hb) as (i & E & Hi & Hp). exists i. auto.
  - intros i Hi Hp. apply L; auto.
Qed.

Lemma movemask_between : forall f l, (f = SSE2 \/ f = SSSE3) -> length l = 16%nat ->
  mask_between f (movemask l) (fun i => nth i l 0 <? 0) (fun i => nth i l 0 <? 0).
Proof.
  intros f l Hf Hl.
  assert (Hs : mask_shift f = 0) by (destruct Hf as [-> | ->]; reflexivity).
  assert (Hw : width f = 16) by (destruct Hf as [-> | ->]; reflexivity).
  pose proof (movemask_bound l) as Hb. rewrite Hl in Hb.
  assert (R : 0 <= movemask l < two64).
  { split; [lia|]. apply Z.lt_trans with (2 ^ Z.of_nat 16); [lia|reflexivity]. }
  split; [exact R|]. rewrite Hs, Hw. split.
  - intros b Hbit. destruct (testbit_lt_64 _ _ R Hbit) as [H0 _].
    destruct (Z_lt_dec b 16).
    + exists (Z.to_nat b). rewrite Z.shiftr_0_r. repeat split; try lia.
      rewrite <- movemask_bit by lia. rewrite Z2Nat.id by lia. exact Hbit.
    + rewrite movemask_high in Hbit by lia. discriminate.
  - intros i Hi Hp. exists (Z.of_nat i). rewrite movemask_bit by lia.
    rewrite Z.shiftr_0_r. auto.
Qed.

Lemma word_mask_between : forall f m lo hi, (f = NEON \/ f = WORD) -> 0 <= m < two64 ->
  (forall i j, (i < 8)%nat -> 0 <= j < 8 -> Z.testbit m (8 * Z.of_nat i + j) = true -> hi i = true) ->
  (forall i, (i < 8)%nat -> lo i = true -> Z.testbit m (8 * Z.of_nat i + 7) = true) ->
  mask_between f m lo hi.
Proof.
  intros f m lo hi Hf R H1 H2.
  assert (Hs : mask_shift f = 3) by (destruct Hf as [-> | ->]; reflexivity).
  assert (Hw : width f = 8) by (destruct Hf as [-> | ->]; reflexivity).
  split; [exact R|]. rewrite Hs, Hw. split.
  - intros b Hbit. pose proof (testbit_lt_64 _ _ R Hbit).
    destruct (split_index b 8) as (i & j & -> & Hi & Hj); [lia|].
    exists i. rewrite shiftr_lane by lia. repeat split; [lia|]. eapply H1; eauto.
  - intros i Hi Hp. exists (8 * Z.of_nat i + 7). rewrite shiftr_lane by lia. split; [|reflexivity].
    apply H2; [lia|exact Hp].
Qed.

Lemma lane_word_bit : forall (g : Z -> bool) l i j, (i < length l)%nat -> 0 <= j < 8 ->
  Z.testbit (word_of_bytes (map (fun v => if g v then -1 else 0) l)) (8 * Z.of_nat i + j)
  = g (nth i l 0).
Proof.
  intros. rewrite word_bit by (rewrite ?map_length; lia).
  rewrite (nth_map_lt _ _ _ _ 0) by lia.
  destruct (g (nth i l 0)); [apply Z.bits_m1; lia|apply Z.bits_0].
Qed.

Lemma valid_block_length : forall f blk, valid_block f blk ->
  length blk = Z.to_nat (width f).
Proof. intros f blk [L _]. lia. Qed.

Lemma match_available_between : forall f blk, valid_block f blk ->
  mask_between f (match_available f blk)
    (fun i => is_available (nth i blk 0)) (fun i => is_available (nth i blk 0)).
Proof.
  intros f blk HV. pose proof (valid_block_length f blk HV) as L. destruct HV as [_ V].
  destruct f; cbn [width] in L.
  1,2: cbn [match_available]; eapply mask_between_ext;
       [| | apply movemask_between; [auto|rewrite map_length; exact L]];
       intros i Hi; cbv beta; cbn [width] in Hi; rewrite (nth_map_lt _ _ _ _ 0) by lia;
       unfold lane_gt, is_available; destruct (nth i blk 0 <? m_sentinel); cbn; congruence.
  - cbn [match_available]. apply word_mask_between; [auto| | |].
    + apply word_range8. rewrite map_length. exact L.
    + intros i j Hi Hj. unfold lane_gt.
      rewrite (lane_word_bit (fun v => v <? m_sentinel)) by lia. auto.
    + intros i Hi Hp. unfold lane_gt.
      rewrite (lane_word_bit (fun v => v <? m_sentinel)) by lia. exact Hp.
  - apply word_mask_between; [auto| | |].
    + unfold match_available. apply land_lt; [|unfold msb_mask; lia].
      apply land_lt; [apply word_range8; exact L|]. unfold shl64. apply Z.mod_pos_bound. reflexivity.
    + intros i j Hi Hj. rewrite word_available_bit by auto. intros H.
      apply andb_prop in H. tauto.
    + intros i Hi Hp. rewrite word_available_bit by (auto; lia). rewrite Hp. reflexivity.
Qed.

Lemma match_empty_between : forall f blk, valid_block f blk ->
  mask_between f (match_empty f blk)
    (fun i => nth i blk 0 =? m_empty) (fun i => nth i blk 0 =? m_empty).
Proof.
  intros f blk HV. pose proof (valid_block_length f blk HV) as L. destruct HV as [_ V].
  destruct f; cbn [width] in L.
  - cbn [match_empty match_eq]; eapply mask_between_ext;
       [| | apply movemask_between; [auto|rewrite map_length; exact L]];
       intros i Hi; cbv beta; cbn [width] in Hi; rewrite (nth_map_lt _ _ _ _ 0) by lia;
       unfold lane_eq; rewrite (Z.eqb_sym m_empty); destruct (nth i blk 0 =? m_empty); cbn; congruence.
  - cbn [match_empty].
    assert (C : forall v, valid_byte v -> (lane_sign v v <? 0) = (v =? m_empty)).
    { intros v Hv. apply eqb_prop. revert v Hv. apply valid_byte_check. vm_compute. reflexivity. }
    eapply mask_between_ext;
       [| | apply movemask_between; [auto|rewrite map_length; exact L]];
       intros i Hi; cbv beta; cbn [width] in Hi; rewrite (nth_map_lt _ _ _ _ 0) by lia;
       rewrite C by (apply valid_nth; [exact V|lia]); auto.
  - cbn [match_empty]. apply word_mask_between; [auto| | |].
    + apply word_range8. rewrite map_length. exact L.
    + intros i j Hi Hj. unfold lane_eq.
      rewrite (lane_word_bit (fun v => m_empty =? v)) by lia. rewrite Z.eqb_sym. auto.
    + intros i Hi Hp. unfold lane_eq.
      rewrite (lane_word_bit (fun v => m_empty =? v)) by lia. rewrite Z.eqb_sym. exact Hp.
  - apply word_mask_between; [auto| | |].
    + unfold match_empty. apply land_lt; [|unfold msb_mask; lia].
      apply land_lt; [apply word_range8; exact L|]. unfold shl64. apply Z.mod_pos_bound. reflexivity.
    + intros i j Hi Hj. rewrite word_empty_bit by auto. intros H.
      apply andb_prop in H. tauto.
    + intros i Hi Hp. rewrite word_empty_bit by (auto; lia). rewrite Hp. reflexivity.
Qed.

(** On SSE2/SSSE3/NEON the tag match is exact. *)
Lemma match_eq_exact : forall f blk h, f <> WORD -> valid_block f blk -> 0 <= h < 128 ->
  mask_between f (match_eq f blk h) (fun i => nth i blk 0 =? h) (fun i => nth i blk 0 =? h).
Proof.
  intros f blk h Hf HV Hh. pose proof (valid_block_length f blk HV) as L. destruct HV as [_ V].
  destruct f; cbn [width] in L; [| | |congruence].
  1,2: cbn [match_eq]; eapply mask_between_ext;
       [| | apply movemask_between; [auto|rewrite map_length; exact L]];
       intros i Hi; cbv beta; cbn [width] in Hi; rewrite (nth_map_lt _ _ _ _ 0) by lia;
       unfold lane_eq; rewrite (Z.eqb_sym h); destruct (nth i blk 0 =? h); cbn; congruence.
  cbn [match_eq]. apply word_mask_between; [auto| | |].
  - apply land_lt; [|unfold msb_mask; lia]. apply word_range8. rewrite map_length. exact L.
  - intros i j Hi Hj. rewrite Z.land_spec. intros H. apply andb_prop in H. destruct H as [H _].
    unfold lane_eq in H. rewrite (lane_word_bit (fun v => h =? v)) in H by lia.
    rewrite Z.eqb_sym. exact H.
  - intros i Hi Hp. rewrite Z.land_spec, msb_bit by lia. unfold lane_eq.
    rewrite (lane_word_bit (fun v => h =? v)) by lia. rewrite Z.eqb_sym, Hp. reflexivity.
Qed.

(** On the portable build it may report lanes whose byte is the tag with bit 0 flipped. *)
Lemma match_eq_word : forall blk h, valid_block WORD blk -> 0 <= h < 128 ->
  mask_between WORD (match_eq WORD blk h) (fun i => nth i blk 0 =? h)
    (fun i => (nth i blk 0 =? h) || (nth i blk 0 =? Z.lxor h 1)).
Proof.
  intros blk h HV Hh. pose proof (valid_block_length _ blk HV) as L. destruct HV as [_ V].
  cbn [width] in L. apply word_mask_between; [auto| | |].
  - unfold match_eq. apply land_lt; [|unfold msb_mask; lia].
    unfold sub64. apply land_lt; [apply Z.mod_pos_bound; reflexivity|].
    cbv zeta. rewrite word_spread by lia.
    replace (repeat h 8) with (repeat h (length blk)) by (rewrite L; reflexivity).
    rewrite word_lxor by lia. apply not64_range, word_range8. rewrite map_length. exact L.
  - intros i j Hi Hj Hb. destruct (word_eq_bit blk h i j L V Hh Hi Hj) as [H _].
    destruct (H Hb) as [_ [E|E]]; rewrite E, Z.eqb_refl; [reflexivity|apply orb_true_r].
  - intros i Hi Hp. destruct (word_eq_bit blk h i 7 L V Hh Hi ltac:(lia)) as [_ H].
    apply H; [reflexivity|lia].
Qed.

(** Either way: equal bytes are reported and reported lanes are occupied. *)
Lemma match_eq_between : forall f blk h, valid_block f blk -> 0 <= h < 128 ->
  mask_between f (match_eq f blk h) (fun i => nth i blk 0 =? h)
    (fun i => is_occupied (nth i blk 0)).
Proof.
  intros f blk h HV Hh.
  assert (Hlt1 : 0 <= Z.lxor h 1).
  { apply Z.lxor_nonneg; lia. }
  assert (D : f = WORD \/ f <> WORD) by (destruct f; auto; right; discriminate).
  destruct D as [-> | Hf].
  - eapply mask_between_ext; [| |apply match_eq_word; assumption]; [auto|].
    cbv beta. unfold is_occupied, m_sentinel. intros i _ H. apply orb_true_iff in H. lia.
  - eapply mask_between_ext; [| |apply match_eq_exact; assumption]; [auto|].
    cbv beta. unfold is_occupied, m_sentinel. intros i _ H. lia.
Qed.

Lemma mask_is_empty_spec : forall f m lo hi, mask_between f m lo hi ->
  (mask_is_empty m = true -> forall i, Z.of_nat i < width f -> lo i = false) /\
  (mask_is_empty m = false -> exists i, Z.of_nat i < width f /\ hi i = true).
Proof.
  intros f m lo hi (R & B & Lo). unfold mask_is_empty. split.
  - intros E i Hi. apply Z.eqb_eq in E. subst m.
    destruct (lo i) eqn:Ep; [|reflexivity]. destruct (Lo i Hi Ep) as (b & Hb & _).
    rewrite Z.bits_0 in Hb. discriminate.
  - intros E. apply Z.eqb_neq in E.
    destruct (scan_forward_spec m) as (b & _ & _ & Hb & _); [lia|].
    destruct (B b Hb) as (i & _ & Hi & Hp). exists i. auto.
Qed.

Lemma mask_lsb_spec : forall f m lo hi, mask_between f m lo hi -> mask_is_empty m = false ->
  exists i, mask_lsb (mask_shift f) m = Ok (Z.of_nat i) /\ Z.of_nat i < width f /\ hi i = true /\
            (forall j, (j < i)%nat -> lo j = false).
Proof.
  intros f m lo hi (R & B & Lo) E. unfold mask_is_empty in E. apply Z.eqb_neq in E.
  destruct (scan_forward_spec m) as (b & Es & Hb0 & Hb & Hlow); [lia|].
  destruct (B b Hb) as (i & Ei & Hi & Hp). exists i. unfold mask_lsb. rewrite Es. cbn [bind].
  rewrite Ei. repeat split; auto. intros j Hj. destruct (lo j) eqn:Ep; [|reflexivity].
  exfalso. destruct (Lo j ltac:(lia) Ep) as (b' & Hb' & Ej).
  assert (b <= b'). { destruct (Z_lt_dec b' b); [|lia]. rewrite Hlow in Hb' by lia. discriminate. }
  assert (0 <= mask_shift f) by (destruct f; cbn; lia).
  rewrite Z.shiftr_div_pow2 in Ei, Ej by lia.
  assert (b / 2 ^ mask_shift f <= b' / 2 ^ mask_shift f)
    by (apply Z.div_le_mono; [apply Z.pow_pos_nonneg; lia|lia]).
  lia.
Qed.

Lemma eq_lanes_spec : forall f blk h, valid_block f blk -> 0 <= h < 128 ->
  exists ls, eq_lanes f blk h = Ok ls /\
    (forall i, In i ls -> 0 <= i < width f /\ is_occupied (nth (Z.to_nat i) blk 0) = true) /\
    (forall i, 0 <= i < width f -> nth (Z.to_nat i) blk 0 = h -> In i ls).
Proof.
  intros f blk h HV Hh. pose proof (match_eq_between f blk h HV Hh) as (R & B & Lo).
  unfold eq_lanes. rewrite mask_lanes_spec by (auto; pose proof (bits_of_length (match_eq f blk h)); lia).
  eexists. split; [reflexivity|]. split.
  - intros i Hi. apply in_map_iff in Hi. destruct Hi as (b & Eb & Hb).
    apply bits_of_In in Hb; [|exact R]. destruct (B b Hb) as (k & Ek & Hk & Hp).
    rewrite Ek in Eb. subst i. rewrite Nat2Z.id. split; [lia|exact Hp].
  - intros i Hi Hn. destruct (Lo (Z.to_nat i)) as (b & Hb & Eb); [lia|lia|].
    apply in_map_iff. exists b. split; [lia|]. apply bits_of_In; auto.
Qed.

Lemma eq_lanes_exact : forall f blk h, f <> WORD -> valid_block f blk -> 0 <= h < 128 ->
  exists ls, eq_lanes f blk h = Ok ls /\
    (forall i, In i ls <-> 0 <= i < width f /\ nth (Z.to_nat i) blk 0 = h).
Proof.
  intros f blk h Hf HV Hh. pose proof (match_eq_exact f blk h Hf HV Hh) as (R & B & Lo).
  unfold eq_lanes. rewrite mask_lanes_spec by (auto; pose proof (bits_of_length (match_eq f blk h)); lia).
  eexists. split; [reflexivity|]. intros i. split.
  - intros Hi. apply in_map_iff in Hi. destruct Hi as (b & Eb & Hb).
    apply bits_of_In in Hb; [|exact R]. destruct (B b Hb) as (k & Ek & Hk & Hp).
    rewrite Ek in Eb. subst i. rewrite Nat2Z.id. split; lia.
  - intros [Hi Hn]. destruct (Lo (Z.to_nat i)) as (b & Hb & Eb); [lia|lia|].
    apply in_map_iff. exists b. split; [lia|]. apply bits_of_In; auto.
Qed.

Lemma eq_lanes_word : forall blk h, valid_block WORD blk -> 0 <= h < 128 ->
  exists ls, eq_lanes WORD blk h = Ok ls /\
    (forall i, In i ls -> 0 <= i < 8 /\
       (nth (Z.to_nat i) blk 0 = h \/ nth (Z.to_nat i) blk 0 = Z.lxor h 1)) /\
    (forall i, 0 <= i < 8 -> nth (Z.to_nat i) blk 0 = h -> In i ls).
Proof.
  intros blk h HV Hh. pose proof (match_eq_word blk h HV Hh) as (R & B & Lo).
  cbn [mask_shift width] in *.
  unfold eq_lanes. rewrite mask_lanes_spec by (auto; pose proof (bits_of_length (match_eq WORD blk h)); lia).
  eexists. split; [reflexivity|]. split.
  - intros i Hi. apply in_map_iff in Hi. destruct Hi as (b & Eb & Hb).
    apply bits_of_In in Hb; [|exact R]. destruct (B b Hb) as (k & Ek & Hk & Hp).
    cbn [mask_shift] in Eb. rewrite Ek in Eb. subst i. rewrite Nat2Z.id. split; [lia|].
    apply orb_true_iff in Hp. rewrite !Z.eqb_eq in Hp. exact Hp.
  - intros i Hi Hn. destruct (Lo (Z.to_nat i)) as (b & Hb & Eb); [lia|lia|].
    apply in_map_iff. exists b. cbn [mask_shift]. split; [lia|]. apply bits_of_In; auto.
Qed.

(** ** count_available. *)
Lemma scan_forward_succ : forall m, 0 <= m ->
  exists i, scan_forward (m + 1) = Ok i /\ 0 <= i /\ Z.testbit m i = false /\
            (forall j, 0 <= j < i -> Z.testbit m j = true).
Proof.
  intros m Hm. destruct (m + 1) as [|p|p] eqn:E; try lia.
  exists (pos_ctz p). pose proof (pos_ctz_nonneg p). destruct (pos_ctz_decomp p) as (q & Hq & Ep).
  set (c := pos_ctz p) in *. split; [reflexivity|]. split; [assumption|].
  assert (0 < 2 ^ c) by (apply Z.pow_pos_nonneg; lia).
  assert (Em : m = (2 ^ c - 1) + (2 * q) * 2 ^ c) by lia.
  split.
  - rewrite Z.testbit_odd, Z.shiftr_div_pow2 by lia. rewrite Em.
    rewrite Z.div_add by lia. rewrite Z.div_small by lia.
    rewrite Z.add_0_l. rewrite Z.odd_mul. reflexivity.
  - intros j Hj. rewrite <- (Z.mod_pow2_bits_low m c) by lia.
    rewrite Em, Z.mod_add by lia. rewrite Z.mod_small by lia.
    replace (2 ^ c - 1) with (Z.pred (2 ^ c)) by lia.
    rewrite <- Z.ones_equiv. apply Z.ones_spec_low. lia.
Qed.

(** Number of available bytes before the first unavailable one. *)
Fixpoint leading (l : list Z) : Z :=
  match l with
  | [] => 0
  | v :: r => if is_available v then 1 + leading r else 0
  end.

Lemma leading_unique : forall l n, (n <= length l)%nat ->
  (forall j, (j < n)%nat -> is_available (nth j l 0) = true) ->
  ((n < length l)%nat -> is_available (nth n l 0) = false) ->
  leading l = Z.of_nat n.
Proof.
  induction l as [|v l IH]; intros n Hn Ha Hb; cbn [length] in *.
  - assert (n = O) by lia. subst. reflexivity.
  - cbn [leading]. destruct n as [|n].
    + specialize (Hb ltac:(lia)). cbn [nth] in Hb. rewrite Hb. reflexivity.
    + pose proof (Ha 0%nat ltac:(lia)) as H0. cbn [nth] in H0. rewrite H0.
      rewrite (IH n); [lia|lia| |].
      * intros j Hj. apply (Ha (S j)). lia.
      * intros Hlt. apply (Hb ltac:(lia)).
Qed.

Lemma leading_bound : forall l, 0 <= leading l <= Z.of_nat (length l).
Proof. induction l; cbn [leading length]; [lia|]. destruct (is_available a); lia. Qed.

Lemma leading_spec : forall l i, 0 <= i < Z.of_nat (length l) ->
  (i < leading l -> is_available (nth (Z.to_nat i) l 0) = true) /\
  (i = leading l -> is_available (nth (Z.to_nat i) l 0) = false).
Proof.
  induction l as [|v l IH]; intros i Hi; cbn [length] in Hi; [lia|].
  cbn [leading]. destruct (is_available v) eqn:E.
  - destruct (Z.eq_dec i 0) as [->|].
    + cbn [Z.to_nat nth]. split; [auto|]. pose proof (leading_bound l). lia.
    + replace (Z.to_nat i) with (S (Z.to_nat (i - 1))) by lia. cbn [nth].
      specialize (IH (i - 1) ltac:(lia)). split; intros; apply IH; lia.
  - split; [lia|]. intros ->. exact E.
Qed.

Lemma count_available_sse : forall f blk, (f = SSE2 \/ f = SSSE3) -> valid_block f blk ->
  count_available f blk = Ok (leading blk).
Proof.
  intros f blk Hf HV. pose proof (valid_block_length f blk HV) as L. destruct HV as [_ V].
  assert (L16 : length blk = 16%nat) by (destruct Hf as [-> | ->]; exact L). clear L.
  assert (E : count_available f blk = scan_forward (movemask (map (lane_gt m_sentinel) blk) + 1))
    by (destruct Hf as [-> | ->]; reflexivity).
  rewrite E. clear E. set (mm := map (lane_gt m_sentinel) blk).
  assert (Lm : length mm = 16%nat) by (unfold mm; rewrite map_length; exact L16).
  pose proof (movemask_bound mm) as Hb. rewrite Lm in Hb.
  destruct (scan_forward_succ (movemask mm)) as (i & Ei & Hi0 & Hif & Hit); [lia|].
  rewrite Ei. f_equal.
  assert (Hbit : forall k, (k < 16)%nat -> Z.testbit (movemask mm) (Z.of_nat k) = is_available (nth k blk 0)).
  { intros k Hk. rewrite movemask_bit by lia. unfold mm. rewrite (nth_map_lt _ _ _ _ 0) by lia.
    unfold lane_gt, is_available. destruct (nth k blk 0 <? m_sentinel); reflexivity. }
  assert (Hi16 : i <= 16).
  { destruct (Z_le_dec i 16); [assumption|]. exfalso.
    pose proof (Hit 16 ltac:(lia)) as Hc. rewrite movemask_high in Hc by lia. discriminate. }
  rewrite (leading_unique blk (Z.to_nat i)); [lia|lia| |].
  - intros j Hj. rewrite <- Hbit by lia. apply Hit. lia.
  - intros Hlt. rewrite <- Hbit by lia. rewrite Z2Nat.id by lia. exact Hif.
Qed.

(** On NEON and portable builds the scan is defined only if some byte of the group is not available. *)
Lemma count_available_word : forall f blk, (f = NEON \/ f = WORD) -> valid_block f blk ->
  count_available f blk = if forallb is_available blk then Err BitScanZero else Ok (leading blk).
Proof.
  intros f blk Hf HV. pose proof (valid_block_length f blk HV) as L. destruct HV as [_ V].
  assert (L8 : length blk = 8%nat) by (destruct Hf as [-> | ->]; exact L). clear L.
  assert (Hm : exists m, count_available f blk = (let* c := scan_forward m in Ok (shr64 c 3)) /\
     0 <= m < two64 /\
     (forall i j, (i < 8)%nat -> 0 <= j < 8 -> Z.testbit m (8 * Z.of_nat i + j) = true ->
        is_available (nth i blk 0) = false) /\
     (forall i, (i < 8)%nat -> is_available (nth i blk 0) = false ->
        Z.testbit m (8 * Z.of_nat i + 0) = true)).
  { destruct Hf as [-> | ->].
    - exists (word_of_bytes (map (lane_le m_sentinel) blk)). split; [reflexivity|].
      split; [apply word_range8; rewrite map_length; exact L8|].
      unfold lane_le. split; intros i; [intros j Hi Hj|intros Hi];
        rewrite (lane_word_bit (fun v => m_sentinel <=? v)) by lia;
        unfold is_available; lia.
    - pose proof (word_range8 blk L8) as Rw.
      set (w := word_of_bytes blk) in *.
      assert (Rs : 0 <= shr64 w 7 < two64).
      { unfold shr64. rewrite Z.shiftr_div_pow2 by lia. split; [apply Z.div_pos; lia|].
        apply Z.le_lt_trans with w; [|lia]. apply Z.div_le_upper_bound; lia. }
      exists (Z.land (Z.lor w (not64 (shr64 w 7))) lsb_mask). split; [reflexivity|].
      split.
      { rewrite Z.land_comm. apply land_lt; [unfold lsb_mask, two64; lia|].
        apply Z.lor_nonneg. split; [lia|]. apply not64_range in Rs. lia. }
      assert (Hbit : forall i j, (i < 8)%nat -> 0 <= j < 8 ->
        Z.testbit (Z.land (Z.lor w (not64 (shr64 w 7))) lsb_mask) (8 * Z.of_nat i + j)
        = (j =? 0) && negb (is_available (nth i blk 0))).
      { intros i j Hi Hj. rewrite Z.land_spec, lsb_bit by lia.
        destruct (Z.eqb_spec j 0) as [->|]; [|apply andb_false_r].
        rewrite andb_true_r, andb_true_l. rewrite Z.lor_spec, not64_bit by lia.
        unfold shr64. rewrite Z.shiftr_spec by lia.
        replace (8 * Z.of_nat i + 0 + 7) with (8 * Z.of_nat i + 7) by lia.
        unfold w. rewrite !word_bit by lia.
        pose proof (valid_nth blk i 0 V ltac:(lia)) as Hv.
        apply eqb_prop. revert Hv. generalize (nth i blk 0).
        apply valid_byte_check. vm_compute. reflexivity. }
      split; intros i; [intros j Hi Hj|intros Hi]; rewrite Hbit by lia.
      + intros H. apply andb_prop in H. destruct H as [_ H]. apply negb_true_iff in H. exact H.
      + intros ->. reflexivity. }
  destruct Hm as (m & -> & R & Hb & Hl).
  destruct (forallb is_available blk) eqn:Eall.
  - assert (m = 0) as ->; [|reflexivity].
    destruct (Z.eq_dec m 0); [assumption|]. exfalso.
    destruct (scan_forward_spec m) as (b & _ & _ & Hbb & _); [lia|].
    pose proof (testbit_lt_64 _ _ R Hbb).
    destruct (split_index b 8) as (i & j & -> & Hi & Hj); [lia|].
    pose proof (Hb i j Hi Hj Hbb) as Hc. rewrite forallb_forall in Eall.
    rewrite Eall in Hc; [discriminate|]. apply nth_In. lia.
  - assert (Hex : exists i, (i < 8)%nat /\ is_available (nth i blk 0) = false).
    { assert (Hn : ~ Forall (fun v => is_available v = true) blk).
      { intros HF. rewrite <- not_true_iff_false, forallb_forall in Eall. apply Eall.
        rewrite Forall_forall in HF. exact HF. }
      rewrite <- Exists_Forall_neg in Hn by (intros; destruct (is_available x); auto).
      apply Exists_exists in Hn. destruct Hn as (x & Hx & Hnx).
      apply (In_nth _ _ 0) in Hx. destruct Hx as (i & Hi & <-). exists i.
      split; [lia|]. destruct (is_available (nth i blk 0)); congruence. }
    destruct Hex as (i0 & Hi0 & Ei0). pose proof (Hl i0 Hi0 Ei0) as Hbit0.
    assert (m <> 0) by (intros ->; rewrite Z.bits_0 in Hbit0; discriminate).
    destruct (scan_forward_spec m) as (b & Es & Hb0 & Hbb & Hlow); [lia|].
    rewrite Es. cbn [bind]. f_equal. pose proof (testbit_lt_64 _ _ R Hbb).
    destruct (split_index b 8) as (i & j & -> & Hi & Hj); [lia|].
    unfold shr64. rewrite shiftr_lane by lia. symmetry. apply leading_unique; [lia| |].
    + intros k Hk. destruct (is_available (nth k blk 0)) eqn:Ek; [reflexivity|].
      pose proof (Hl k ltac:(lia) Ek) as Hk2. rewrite Hlow in Hk2 by lia. discriminate.
    + intros _. eapply Hb; eauto.
Qed.

(** ** reset_occupied. *)
Lemma bytes_of_word_of_bytes : forall l n, length l = n ->
  bytes_of_word n (word_of_bytes l) = map (fun b => sign8 (b mod 256)) l.
Proof.
  induction l as [|x l IH]; intros n <-; cbn [length bytes_of_word word_of_bytes map]; [reflexivity|].
  pose proof (Z.mod_pos_bound x 256 ltac:(lia)).
  f_equal.
  - f_equal. rewrite Z.mul_comm, Z.mod_add by lia. apply Z.mod_small. lia.
  - replace ((x mod 256 + 256 * word_of_bytes l) / 256) with (word_of_bytes l); [apply IH; reflexivity|].
    rewrite Z.mul_comm, Z.div_add by lia. rewrite (Z.div_small (x mod 256)) by lia. lia.
Qed.

Lemma word_linear : forall (f g h : Z -> Z) l a b c,
  (forall v, In v l -> 0 <= f v < 256) -> (forall v, In v l -> 0 <= g v < 256) ->
  (forall v, In v l -> 0 <= h v < 256) ->
  (forall v, In v l -> a * f v + b * g v = c * h v) ->
  a * word_of_bytes (map f l) + b * word_of_bytes (map g l) = c * word_of_bytes (map h l).
Proof.
  induction l as [|x l IH]; intros a b c Hf Hg Hh H; cbn [map word_of_bytes]; [lia|].
  rewrite !Z.mod_small by (auto using in_eq).
  pose proof (H x (in_eq _ _)).
  assert (IH' : a * word_of_bytes (map f l) + b * word_of_bytes (map g l) = c * word_of_bytes (map h l))
    by (apply IH; auto using in_cons). lia.
Qed.

Lemma word_land_map : forall (f g h : Z -> Z) l,
  (forall v j, In v l -> 0 <= j < 8 -> Z.testbit (h v) j = Z.testbit (f v) j && Z.testbit (g v) j) ->
  Z.land (word_of_bytes (map f l)) (word_of_bytes (map g l)) = word_of_bytes (map h l).
Proof.
  intros f g h l H. apply Z.bits_inj'. intros n Hn. rewrite Z.land_spec.
  destruct (Z_lt_dec n (8 * Z.of_nat (length l))).
  - destruct (split_index n (length l)) as (i & j & -> & Hi & Hj); [lia|].
    rewrite !word_bit by (rewrite ?map_length; lia).
    rewrite !(nth_map_lt _ _ _ _ 0) by lia. symmetry. apply H; [apply nth_In; lia|lia].
  - rewrite !word_high by (rewrite ?map_length; lia). reflexivity.
Qed.

Lemma map_const_repeat : forall (c : Z) (l : list Z), map (fun _ => c) l = repeat c (length l).
Proof. induction l; cbn; congruence. Qed.

Lemma reset_occupied_spec : forall f blk, valid_block f blk ->
  reset_occupied f blk = map (fun v => if is_occupied v then m_deleted else m_empty) blk.
Proof.
  intros f blk HV. pose proof (valid_block_length f blk HV) as L. destruct HV as [_ V].
  rewrite Forall_forall in V.
  destruct f; cbn [width] in L; unfold reset_occupied.
  1,2,3: apply map_ext; intros v; unfold lane_gt, is_occupied; destruct (m_sentinel <? v); reflexivity.
  assert (Hx : Z.land (word_of_bytes blk) msb_mask = word_of_bytes (map (fun v => if v <? 0 then 128 else 0) blk)).
  { rewrite <- (map_id blk) at 1.
    replace msb_mask with (word_of_bytes (map (fun _ => 128) blk))
      by (rewrite map_const_repeat, L; reflexivity).
    apply word_land_map. intros v j Hv Hj. specialize (V v Hv).
    assert (Hj' : In j (zrange 8)) by (apply zrange_In; lia).
    apply eqb_prop. revert v V Hv.
    assert (C : forallb (fun v => forallb (fun j => eqb (Z.testbit (if v <? 0 then 128 else 0) j)
       (Z.testbit v j && Z.testbit 128 j)) (zrange 8)) all_valid_bytes = true) by (vm_compute; reflexivity).
    intros v V _. apply (valid_byte_check _ C) in V. rewrite forallb_forall in V. apply (V j Hj'). }
  cbv zeta. rewrite Hx.
  set (F := fun v : Z => if v <? 0 then 128 else 0).
  set (G := fun v : Z => if v <? 0 then 1 else 0).
  assert (Hshr : shr64 (word_of_bytes (map F blk)) 7 = word_of_bytes (map G blk)).
  { unfold shr64. rewrite Z.shiftr_div_pow2 by lia. change (2 ^ 7) with 128.
    assert (E : 1 * word_of_bytes (map F blk) + 0 * word_of_bytes (map G blk) = 128 * word_of_bytes (map G blk)).
    { apply word_linear; unfold F, G; intros v _; cbv beta; destruct (v <? 0); lia. }
    replace (word_of_bytes (map F blk)) with (word_of_bytes (map G blk) * 128) by lia.
    apply Z.div_mul. lia. }
  assert (Hnot : not64 (word_of_bytes (map F blk)) = word_of_bytes (map (fun v => 255 - F v) blk)).
  { assert (E : 1 * word_of_bytes (map F blk) + 1 * word_of_bytes (map (fun v => 255 - F v) blk)
                = 1 * word_of_bytes (map (fun _ => 255) blk)).
    { apply word_linear; unfold F; intros v _; cbv beta; destruct (v <? 0); lia. }
    rewrite map_const_repeat, L in E.
    change (word_of_bytes (repeat 255 (Z.to_nat 8))) with (two64 - 1) in E. unfold not64. lia. }
  set (H := fun v : Z => if v <? 0 then 128 else 255).
  assert (Hadd : add64 (not64 (word_of_bytes (map F blk))) (shr64 (word_of_bytes (map F blk)) 7)
                 = word_of_bytes (map H blk)).
  { rewrite Hnot, Hshr. unfold add64.
    assert (E : 1 * word_of_bytes (map (fun v => 255 - F v) blk) + 1 * word_of_bytes (map G blk)
                = 1 * word_of_bytes (map H blk)).
    { apply word_linear; unfold F, G, H; intros v _; cbv beta; destruct (v <? 0); lia. }
    replace (word_of_bytes (map (fun v : Z => 255 - F v) blk) + word_of_bytes (map G blk))
      with (word_of_bytes (map H blk)) by lia.
    apply Z.mod_small. apply word_range8. rewrite map_length. exact L. }
  rewrite Hadd.
  replace (not64 lsb_mask) with (word_of_bytes (map (fun _ => 254) blk))
      by (rewrite map_const_repeat, L; reflexivity).
  rewrite (word_land_map H _ (fun v => if v <? 0 then 128 else 254)).
  2:{ intros v j _ Hj. unfold H.
      assert (Hj' : In j (zrange 8)) by (apply zrange_In; lia).
      assert (C : forallb (fun j => eqb (Z.testbit 128 j) (Z.testbit 128 j && Z.testbit 254 j) &&
                    eqb (Z.testbit 254 j) (Z.testbit 255 j && Z.testbit 254 j)) (zrange 8) = true)
        by (vm_compute; reflexivity).
      rewrite forallb_forall in C. specialize (C j Hj'). apply andb_prop in C. destruct C as [C1 C2].
      apply eqb_prop in C1. apply eqb_prop in C2. destruct (v <? 0); assumption. }
  rewrite bytes_of_word_of_bytes by (rewrite map_length; exact L).
  rewrite map_map. apply map_ext_in. intros v Hv. specialize (V v Hv).
  apply Z.eqb_eq. revert v V Hv.
  assert (C : forallb (fun v => sign8 ((if v <? 0 then 128 else 254) mod 256) =?
      (if is_occupied v then m_deleted else m_empty)) all_valid_bytes = true) by (vm_compute; reflexivity).
  intros v V _. apply (valid_byte_check _ C v V).
Qed.
