(** Lemmas connecting the group operations of the model to the byte-wise specification. *)
From Coq Require Import ZArith List Bool Lia.
From Coq Require Import ZifyBool ZifyNat.
From Verif Require Import Base BaseLemmas BitsSpec Bits BitsProofs.
Import ListNotations.
Open Scope Z_scope.

Lemma group_ok_valid : forall f g, group_ok (width f) g -> valid_block f g.
Proof. intros f g [H1 H2]. split; assumption. Qed.

Lemma between_lanes : forall f m p, mask_between f m p p ->
  exists ls, mask_lanes 65 (mask_shift f) m = Ok ls /\
    (forall i, In i ls <-> 0 <= i < width f /\ p (Z.to_nat i) = true).
Proof.
  intros f m p (R & B & Lo).
  rewrite mask_lanes_spec by (auto; pose proof (bits_of_length m); lia).
  eexists. split; [reflexivity|]. intros i. split.
  - intros Hi. apply in_map_iff in Hi. destruct Hi as (b & Eb & Hb).
    apply bits_of_In in Hb; [|exact R]. destruct (B b Hb) as (k & Ek & Hk & Hp).
    rewrite Ek in Eb. subst i. rewrite Nat2Z.id. split; [lia|exact Hp].
  - intros [Hi Hp]. destruct (Lo (Z.to_nat i)) as (b & Hb & Eb); [lia|exact Hp|].
    apply in_map_iff. exists b. split; [lia|]. apply bits_of_In; auto.
Qed.

Lemma free_available : forall v, byte_ok v -> (is_available v = true <-> free v).
Proof. unfold byte_ok, is_available, free, m_sentinel. intros v H. lia. Qed.
Lemma byte_at_ok : forall w g i, group_ok w g -> 0 <= i < w -> byte_ok (byte_at g i).
Proof.
  intros w g i [HL HF] Hi. rewrite Forall_forall in HF. apply HF. unfold byte_at. apply nth_In. lia.
Qed.

Lemma match_available_lanes : forall f g, group_ok (width f) g ->
  exists ls, mask_lanes 65 (mask_shift f) (match_available f g) = Ok ls /\
    (forall i, In i ls <-> 0 <= i < width f /\ free (byte_at g i)).
Proof.
  intros f g H. destruct (between_lanes f _ _ (match_available_between f g (group_ok_valid f g H))) as (ls & E & HI).
  exists ls. split; [exact E|]. intros i. rewrite HI. cbv beta. fold (byte_at g i).
  split; intros [Hi Hp]; (split; [exact Hi|]); apply (free_available _ (byte_at_ok _ g i H Hi)); exact Hp.
Qed.

Lemma match_empty_lanes : forall f g, group_ok (width f) g ->
  exists ls, mask_lanes 65 (mask_shift f) (match_empty f g) = Ok ls /\
    (forall i, In i ls <-> 0 <= i < width f /\ byte_at g i = -128).
Proof.
  intros f g H. destruct (between_lanes f _ _ (match_empty_between f g (group_ok_valid f g H))) as (ls & E & HI).
  exists ls. split; [exact E|]. intros i. rewrite HI. cbv beta. fold (byte_at g i). unfold m_empty. lia.
Qed.

Lemma match_eq_lanes : forall f g h, group_ok (width f) g -> 0 <= h < 128 ->
  exists ls, mask_lanes 65 (mask_shift f) (match_eq f g h) = Ok ls /\
    (forall i, In i ls -> 0 <= i < width f /\ tagged (byte_at g i)) /\
    (forall i, 0 <= i < width f -> byte_at g i = h -> In i ls) /\
    (f <> WORD -> forall i, In i ls -> byte_at g i = h).
Proof.
  intros f g h H Hh. apply group_ok_valid in H as HV.
  destruct (eq_lanes_spec f g h HV Hh) as (ls & E & H1 & H2). exists ls.
  split; [exact E|]. split; [|split; [exact H2|]].
  - intros i Hi. destruct (H1 i Hi) as [Hr Ho]. split; [exact Hr|]. fold (byte_at g i) in Ho.
    pose proof (byte_at_ok _ g i H Hr) as Hb. unfold is_occupied, m_sentinel in Ho.
    unfold byte_ok in Hb. unfold tagged. lia.
  - intros Hf i Hi. destruct (eq_lanes_exact f g h Hf HV Hh) as (ls' & E' & HI). unfold eq_lanes in *.
    rewrite E in E'. injection E' as <-. apply HI in Hi. tauto.
Qed.

Lemma reset_occupied_bytes : forall f g, group_ok (width f) g ->
  length (reset_occupied f g) = length g /\
  forall i, 0 <= i < width f ->
    (tagged (byte_at g i) -> byte_at (reset_occupied f g) i = -2) /\
    (~ tagged (byte_at g i) -> byte_at (reset_occupied f g) i = -128).
Proof.
  intros f g H. rewrite reset_occupied_spec by (apply group_ok_valid; exact H).
  split; [apply map_length|]. intros i Hi. pose proof (byte_at_ok _ g i H Hi) as Hb.
  destruct H as [HL _]. unfold byte_at at 2 4. rewrite (nth_map_lt _ _ _ _ 0) by lia. fold (byte_at g i).
  unfold byte_ok, tagged, is_occupied, m_sentinel, m_deleted, m_empty in *.
  destruct (Z.ltb_spec (-1) (byte_at g i)); lia.
Qed.

Lemma mask_first : forall f g, group_ok (width f) g ->
  (mask_is_empty (match_available f g) = true <-> forall i, 0 <= i < width f -> ~ free (byte_at g i)) /\
  (mask_is_empty (match_empty f g) = true <-> forall i, 0 <= i < width f -> byte_at g i <> -128) /\
  (mask_is_empty (match_available f g) = false ->
     exists i, mask_lsb (mask_shift f) (match_available f g) = Ok i /\ 0 <= i < width f /\
       free (byte_at g i) /\ forall j, 0 <= j < i -> ~ free (byte_at g j)).
Proof.
  intros f g H. apply group_ok_valid in H as HV.
  pose proof (match_available_between f g HV) as HA. pose proof (match_empty_between f g HV) as HE.
  assert (Hfa : forall i, 0 <= i < width f -> is_available (nth (Z.to_nat i) g 0) = true <-> free (byte_at g i)).
  { intros i Hi. apply (free_available _ (byte_at_ok _ g i H Hi)). }
  split; [|split].
  - destruct (mask_is_empty_spec _ _ _ _ HA) as [H1 H2]. split.
    + intros E i Hi Hf. apply Hfa in Hf; [|exact Hi]. rewrite H1 in Hf; [discriminate|exact E|lia].
    + intros Hn. destruct (mask_is_empty (match_available f g)) eqn:E; [reflexivity|].
      destruct (H2 eq_refl) as (i & Hi & Hp). cbv beta in Hp. exfalso. apply (Hn (Z.of_nat i)); [lia|].
      apply Hfa; [lia|]. rewrite Nat2Z.id. exact Hp.
  - destruct (mask_is_empty_spec _ _ _ _ HE) as [H1 H2]. split.
    + intros E i Hi Hf. specialize (H1 E (Z.to_nat i) ltac:(lia)). cbv beta in H1. unfold byte_at in Hf.
      unfold m_empty in H1. lia.
    + intros Hn. destruct (mask_is_empty (match_empty f g)) eqn:E; [reflexivity|].
      destruct (H2 eq_refl) as (i & Hi & Hp). cbv beta in Hp. exfalso. apply (Hn (Z.of_nat i)); [lia|].
      unfold byte_at. rewrite Nat2Z.id. unfold m_empty in Hp. lia.
  - intros E. destruct (mask_lsb_spec _ _ _ _ HA E) as (i & El & Hi & Hp & Hb). cbv beta in Hp, Hb.
    exists (Z.of_nat i). split; [exact El|]. split; [lia|]. split.
    + apply Hfa; [lia|]. rewrite Nat2Z.id. exact Hp.
    + intros j Hj Hf. apply Hfa in Hf; [|lia]. rewrite Hb in Hf; [discriminate|lia].
Qed.

(** ** Leading free bytes. *)
Lemma leading_leading_free : forall w g, group_ok w g -> leading_free g (leading g).
Proof.
  intros w g H. pose proof (leading_bound g) as Hb. split; [exact Hb|].
  destruct H as [HL HF]. assert (H' : group_ok (Z.of_nat (length g)) g) by (split; auto). split.
  - intros i Hi. apply (free_available _ (byte_at_ok (Z.of_nat (length g)) g i H' ltac:(lia))).
    apply (leading_spec g i); lia.
  - intros Hlt Hf. apply (free_available _ (byte_at_ok (Z.of_nat (length g)) g (leading g) H' ltac:(lia))) in Hf.
    destruct (leading_spec g (leading g) ltac:(lia)) as [_ Hn]. unfold byte_at in Hf. rewrite Hn in Hf by reflexivity. discriminate.
Qed.

Lemma count_available_wide : forall f g, (f = SSE2 \/ f = SSSE3) -> group_ok (width f) g ->
  exists n, count_available f g = Ok n /\ leading_free g n.
Proof.
  intros f g Hf H. exists (leading g). split; [|eapply leading_leading_free; exact H].
  apply count_available_sse; [exact Hf|apply group_ok_valid; exact H].
Qed.

Lemma count_available_narrow : forall f g, group_ok (width f) g ->
  (exists i, 0 <= i < width f /\ ~ free (byte_at g i)) ->
  exists n, count_available f g = Ok n /\ leading_free g n.
Proof.
  intros f g H (i & Hi & Hn).
  assert (Hf : f = SSE2 \/ f = SSSE3 \/ f = NEON \/ f = WORD) by (destruct f; auto).
  destruct Hf as [Hf|[Hf|Hf]]; [apply count_available_wide; auto|apply count_available_wide; auto|].
  exists (leading g). split; [|eapply leading_leading_free; exact H].
  rewrite count_available_word by (try exact Hf; apply group_ok_valid; exact H).
  destruct (forallb is_available g) eqn:E; [|reflexivity]. exfalso. apply Hn.
  rewrite forallb_forall in E. apply (free_available _ (byte_at_ok _ g i H Hi)). apply E.
  destruct H as [HL _]. unfold byte_at. apply nth_In. lia.
Qed.

Lemma count_available_undefined : forall f g, (f = NEON \/ f = WORD) -> group_ok (width f) g ->
  (forall i, 0 <= i < width f -> free (byte_at g i)) -> count_available f g = Err BitScanZero.
Proof.
  intros f g Hf H Ha. rewrite count_available_word by (try exact Hf; apply group_ok_valid; exact H).
  replace (forallb is_available g) with true; [reflexivity|]. symmetry. apply forallb_forall.
  intros v Hv. destruct (In_nth g v 0 Hv) as (n & Hn & En). destruct H as [HL HF].
  rewrite Forall_forall in HF. apply (free_available v (HF v Hv)). rewrite <- En.
  rewrite <- (Nat2Z.id n). apply Ha. lia.
Qed.

(** ** Bit counts. *)
Lemma scan_forward_tz : forall x, 0 < x -> exists c, scan_forward x = Ok c /\ trailing_zeros x c.
Proof.
  intros x Hx. destruct x as [|p|p]; try lia. exists (pos_ctz p). split; [reflexivity|].
  destruct (pos_ctz_decomp p) as (q & Hq & E). pose proof (pos_ctz_nonneg p).
  assert (0 < 2 ^ pos_ctz p) by (apply Z.pow_pos_nonneg; lia).
  split; [assumption|]. split.
  - exists (2 * q + 1). lia.
  - rewrite Z.pow_add_r by lia. intros (z & Ez). rewrite Ez in E. change (2 ^ 1) with 2 in E.
    assert (2 * z = 2 * q + 1); [|lia]. apply Z.mul_reg_l with (2 ^ pos_ctz p); [lia|]. lia.
Qed.

Lemma tz_unique : forall x c c', trailing_zeros x c -> trailing_zeros x c' -> c = c'.
Proof.
  assert (H : forall x c c', trailing_zeros x c -> trailing_zeros x c' -> c <= c').
  { intros x c c' (H0 & H1 & _) (H0' & _ & H2). destruct (Z_le_dec c c'); [assumption|]. exfalso. apply H2.
    eapply Z.divide_trans; [|exact H1]. exists (2 ^ (c - (c' + 1))).
    rewrite <- Z.pow_add_r by lia. f_equal. lia. }
  intros. apply Z.le_antisymm; eapply H; eassumption.
Qed.

Lemma gnu_clz_lz : forall x, 0 < x < 2 ^ 64 -> exists c, clz GNU x = Ok c /\ leading_zeros x c.
Proof.
  intros x Hx. destruct x as [|p|p]; try lia. cbn [clz]. unfold scan_reverse. cbn [bind].
  exists (63 - Z.log2 (Z.pos p)). split; [reflexivity|].
  pose proof (Z.log2_spec (Z.pos p) ltac:(lia)) as Hl.
  pose proof (Z.log2_nonneg (Z.pos p)).
  assert (Z.log2 (Z.pos p) < 64) by (apply Z.log2_lt_pow2; lia).
  split; [lia|]. replace (63 - (63 - Z.log2 (Z.pos p))) with (Z.log2 (Z.pos p)) by lia.
  replace (64 - (63 - Z.log2 (Z.pos p))) with (Z.succ (Z.log2 (Z.pos p))) by lia. exact Hl.
Qed.

Lemma msvc_clz_lz : forall x, 0 < x < 2 ^ 64 -> exists c, clz MSVC x = Ok (c + 1) /\ leading_zeros x c.
Proof.
  intros x Hx. destruct (gnu_clz_lz x Hx) as (c & E & H). exists c. split; [|exact H].
  cbn [clz] in *. destruct (scan_reverse x) as [a|]; cbn [bind] in *; [|discriminate].
  assert (Ec : c = 63 - a) by congruence. apply (f_equal (@Ok Z)). lia.
Qed.

Lemma generic_ctz_loop_spec : forall fuel x c r, 0 < x < 2 ^ 64 ->
  0 <= c < 64 -> Z.testbit x c = true -> (forall j, j < c -> Z.testbit x j = false) ->
  0 <= r <= c -> (Z.to_nat (c - r) < fuel)%nat -> generic_ctz_loop fuel 64 x r = Ok (c + 1).
Proof.
  induction fuel as [|fuel IH]; intros x c r Hx Hc Hb Hlow Hr Hf; [lia|].
  cbn [generic_ctz_loop]. destruct (Z.leb_spec 64 r); [lia|].
  destruct (Z.eq_dec r c) as [->|Hne].
  - destruct (Z.eqb_spec (Z.land x (Z.shiftl 1 c)) 0) as [E0|]; [|reflexivity].
    assert (Z.testbit (Z.land x (Z.shiftl 1 c)) c = true).
    { rewrite Z.land_spec, Z.shiftl_spec by lia. replace (c - c) with 0 by lia. rewrite Hb. reflexivity. }
    rewrite E0, Z.bits_0 in H0. discriminate.
  - destruct (Z.eqb_spec (Z.land x (Z.shiftl 1 r)) 0) as [E0|Hn]; [apply IH; auto; lia|].
    exfalso. apply Hn. apply Z.bits_inj'. intros n Hn0. rewrite Z.land_spec, Z.shiftl_spec, Z.bits_0 by lia.
    destruct (Z.eq_dec n r) as [->|]; [rewrite Hlow by lia; reflexivity|].
    replace (Z.testbit 1 (n - r)) with false; [apply andb_false_r|].
    symmetry. destruct (Z_lt_dec (n - r) 0); [apply Z.testbit_neg_r; lia|].
    change 1 with (2 ^ 0). apply Z.pow2_bits_false. lia.
Qed.

Lemma generic_clz_loop_spec : forall fuel x b r, 0 < x < 2 ^ 64 ->
  0 <= b < 64 -> Z.testbit x b = true -> (forall j, b < j -> Z.testbit x j = false) ->
  0 <= r <= 63 - b -> (Z.to_nat (63 - b - r) < fuel)%nat -> generic_clz_loop fuel 64 x r = Ok (63 - b + 1).
Proof.
  induction fuel as [|fuel IH]; intros x b r Hx Hb Hbit Hhi Hr Hf; [lia|].
  cbn [generic_clz_loop]. destruct (Z.leb_spec 64 r); [lia|].
  assert (Em : Z.shiftr (Z.shiftl 1 (64 - 1)) r = 2 ^ (63 - r)).
  { change (Z.shiftl 1 (64 - 1)) with (2 ^ 63). rewrite Z.shiftr_div_pow2 by lia.
    replace 63 with ((63 - r) + r) at 1 by lia. rewrite Z.pow_add_r by lia. apply Z.div_mul.
    pose proof (Z.pow_pos_nonneg 2 r). lia. }
  rewrite Em. destruct (Z.eq_dec r (63 - b)) as [->|Hne].
  - replace (63 - (63 - b)) with b by lia.
    destruct (Z.eqb_spec (Z.land x (2 ^ b)) 0) as [E0|]; [|reflexivity].
    assert (Ht : Z.testbit (Z.land x (2 ^ b)) b = true).
    { rewrite Z.land_spec, Z.pow2_bits_true, Hbit by lia. reflexivity. }
    rewrite E0, Z.bits_0 in Ht. discriminate.
  - destruct (Z.eqb_spec (Z.land x (2 ^ (63 - r))) 0) as [E0|Hn]; [apply IH; auto; lia|].
    exfalso. apply Hn. apply Z.bits_inj'. intros n Hn0. rewrite Z.land_spec, Z.bits_0.
    destruct (Z.eq_dec n (63 - r)) as [->|]; [rewrite Hhi by lia; reflexivity|].
    rewrite Z.pow2_bits_false by lia. apply andb_false_r.
Qed.

Lemma other_ctz_tz : forall x, 0 < x < 2 ^ 64 -> exists c, ctz Other x = Ok (c + 1) /\ trailing_zeros x c.
Proof.
  intros x Hx. destruct (scan_forward_tz x ltac:(lia)) as (c & E & H). exists c. split; [|exact H].
  destruct (scan_forward_spec x ltac:(lia)) as (c' & E' & H0 & Hb & Hl). rewrite E in E'. injection E' as <-.
  assert (c < 64) by (apply (testbit_lt_64 x c); [change two64 with (2 ^ 64); lia|exact Hb]).
  cbn [ctz]. unfold generic_ctz. apply generic_ctz_loop_spec; auto; lia.
Qed.
Lemma other_clz_lz : forall x, 0 < x < 2 ^ 64 -> exists c, clz Other x = Ok (c + 1) /\ leading_zeros x c.
Proof.
  intros x Hx. destruct (gnu_clz_lz x Hx) as (c & E & H). exists c. split; [|exact H].
  destruct (scan_reverse_spec x ltac:(lia)) as (b & E' & H0 & Hb & Hl).
  cbn [clz] in E |- *. rewrite E' in E. cbn [bind] in E. assert (Ec : c = 63 - b) by congruence. rewrite Ec.
  assert (b < 64) by (apply (testbit_lt_64 x b); [change two64 with (2 ^ 64); lia|exact Hb]).
  unfold generic_clz. apply generic_clz_loop_spec; auto; lia.
Qed.

(** Decision procedure used by the concrete cases. *)
Definition byte_okb (v : Z) : bool := (v =? -128) || (v =? -2) || ((-1 <=? v) && (v <=? 127)).
Lemma group_check : forall w g, (Z.of_nat (length g) =? w) && forallb byte_okb g = true -> group_ok w g.
Proof.
  intros w g H. apply andb_prop in H. destruct H as [H1 H2]. split; [lia|].
  apply Forall_forall. intros v Hv. rewrite forallb_forall in H2. specialize (H2 v Hv).
  unfold byte_okb, byte_ok in *. lia.
Qed.
