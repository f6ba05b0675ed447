(** Capacity arithmetic of the open-addressing table. *)
From Coq Require Import ZArith List Bool Lia.
From Coq Require Import ZifyBool ZifyNat.
From Verif Require Import Base BaseLemmas Bits BitsProofs SwissModel SwissArith.
Import ListNotations.
Open Scope Z_scope.

Section Cap.
Variable f : simd.
Local Notation W := (W f).

Lemma two64_val : two64 = 2 ^ 64. Proof. reflexivity. Qed.

Lemma add64_small : forall a b, 0 <= a + b < two64 -> add64 a b = a + b.
Proof. intros. unfold add64. apply Z.mod_small. assumption. Qed.
Lemma sub64_small : forall a b, 0 <= a - b < two64 -> sub64 a b = a - b.
Proof. intros. unfold sub64. apply Z.mod_small. assumption. Qed.
Lemma mul64_small : forall a b, 0 <= a * b < two64 -> mul64 a b = a * b.
Proof. intros. unfold mul64. apply Z.mod_small. assumption. Qed.

(** Mathematical content of size_to_min_capacity. *)
Lemma size_to_min_capacity_pos : forall n, 1 <= n < 2 ^ 62 ->
  size_to_min_capacity f n = if (W =? 8) && (n =? 7) then 8 else n + (n - 1) / 7.
Proof.
  intros n Hn. unfold size_to_min_capacity, to_s64. rewrite two64_val.
  destruct (Z.ltb_spec n (2 ^ 63)); [|lia].
  rewrite Z.quot_div_nonneg by lia.
  assert (0 <= (n - 1) / 7 <= n - 1).
  { split; [apply Z.div_pos; lia|]. apply Z.div_le_upper_bound; lia. }
  rewrite (Z.mod_small ((n - 1) / 7)) by lia.
  rewrite add64_small by (rewrite two64_val; lia).
  destruct (W =? 8), (n =? 7); reflexivity.
Qed.
Lemma size_to_min_capacity_0 : size_to_min_capacity f 0 = 0.
Proof. unfold size_to_min_capacity. destruct f; reflexivity. Qed.

Lemma align_capacity_spec : forall m, 0 <= m < 2 ^ 63 ->
  exists k, align_capacity m = Ok (2 ^ k - 1) /\ 1 <= k <= 63 /\ m <= 2 ^ k - 1 /\
    (forall j, 1 <= j -> m <= 2 ^ j - 1 -> k <= j).
Proof.
  intros m Hm. unfold align_capacity. destruct (Z.eqb_spec m 0) as [->|Hne].
  - exists 1. repeat split; cbn; try lia.
  - destruct m as [|p|p]; try lia. cbn [clz]. unfold scan_reverse. cbn [bind].
    set (l := Z.log2 (Z.pos p)).
    pose proof (Z.log2_spec (Z.pos p) ltac:(lia)) as Hl. fold l in Hl.
    assert (0 <= l) by apply Z.log2_nonneg.
    assert (l < 63) by (apply Z.log2_lt_pow2; lia).
    exists (l + 1). split; [apply (f_equal (@Ok Z))|].
    + rewrite two64_val. unfold shr64. rewrite Z.shiftr_div_pow2 by lia.
      replace (2 ^ 64) with (2 ^ (l + 1) * 2 ^ (63 - l)) by (rewrite <- Z.pow_add_r by lia; f_equal; lia).
      assert (0 < 2 ^ (63 - l)) by (apply Z.pow_pos_nonneg; lia).
      symmetry. apply Z.div_unique with (2 ^ (63 - l) - 1); lia.
    + rewrite <- Z.add_1_r in Hl. split; [lia|]. split; [lia|].
      intros j Hj Hmj. destruct (Z_le_dec (l + 1) j); [assumption|].
      assert (2 ^ j <= 2 ^ l) by (apply Z.pow_le_mono_r; lia). lia.
Qed.

Lemma max_size_mono_core : forall c, 0 <= c -> 0 <= c - c / 8 <= c.
Proof.
  intros c Hc. pose proof (Z.div_pos c 8 ltac:(lia) ltac:(lia)).
  assert (c / 8 <= c) by (apply Z.div_le_upper_bound; lia). lia.
Qed.

Lemma max_size_bounds : forall c, 0 <= c -> 0 <= capacity_to_max_size f c <= c.
Proof.
  intros c Hc. pose proof (max_size_mono_core c Hc). unfold capacity_to_max_size.
  destruct (W =? 8); [destruct (Z.eqb_spec c 7)|]; lia.
Qed.

(** The capacity chosen for n elements has room for n elements. *)
Lemma max_size_sufficient : forall n c, 1 <= n < 2 ^ 62 -> size_to_min_capacity f n <= c ->
  n <= capacity_to_max_size f c.
Proof.
  intros n c Hn Hc. rewrite size_to_min_capacity_pos in Hc by assumption.
  assert (Hd : n - 1 = 7 * ((n - 1) / 7) + (n - 1) mod 7 /\ 0 <= (n - 1) mod 7 < 7).
  { split; [apply Z.div_mod; lia|apply Z.mod_pos_bound; lia]. }
  assert (Hc8 : c = 8 * (c / 8) + c mod 8 /\ 0 <= c mod 8 < 8).
  { split; [apply Z.div_mod; lia|apply Z.mod_pos_bound; lia]. }
  unfold capacity_to_max_size.
  destruct (W =? 8); cbn [andb] in Hc; [destruct (Z.eqb_spec c 7), (Z.eqb_spec n 7)|]; lia.
Qed.

(** Spare slots: tables of at least one group keep one slot free of elements. *)
Lemma max_size_spare : forall c, good_cap c -> W <= c + 1 -> capacity_to_max_size f c < c.
Proof.
  intros c Hc HW. pose proof (good_cap_bounds c Hc). unfold capacity_to_max_size.
  destruct (W_cases f) as [EW|EW]; rewrite EW in *; cbn [Z.eqb Pos.eqb].
  - destruct (Z.eqb_spec c 7); [lia|].
    assert (8 <= c) by lia. assert (1 <= c / 8) by (apply Z.div_le_lower_bound; lia). lia.
  - assert (1 <= c / 8) by (apply Z.div_le_lower_bound; lia). lia.
Qed.

(** Tables smaller than a group may be filled completely. *)
Lemma max_size_small : forall c, good_cap c -> c + 1 < W -> capacity_to_max_size f c = c.
Proof.
  intros c Hc HW. pose proof (good_cap_bounds c Hc). unfold capacity_to_max_size.
  destruct (W_cases f) as [EW|EW]; rewrite EW in *; cbn [Z.eqb Pos.eqb].
  - destruct (Z.eqb_spec c 7); [lia|]. rewrite Z.div_small by lia. lia.
  - destruct Hc as (k & Hk & ->).
    destruct (Z.eq_dec k 1) as [->|]; [reflexivity|]. destruct (Z.eq_dec k 2) as [->|]; [reflexivity|].
    destruct (Z.eq_dec k 3) as [->|]; [reflexivity|].
    assert (2 ^ 4 <= 2 ^ k) by (apply Z.pow_le_mono_r; lia). lia.
Qed.

(** Doubling. *)
Lemma good_cap_double : forall c, good_cap c -> c < 2 ^ 58 ->
  sub64 (mul64 (add64 c 1) 2) 1 = 2 * c + 1 /\ good_cap (2 * c + 1).
Proof.
  intros c Hc Hb. pose proof (good_cap_bounds c Hc). split.
  - rewrite add64_small by (rewrite two64_val; lia). rewrite mul64_small by (rewrite two64_val; lia).
    rewrite sub64_small by (rewrite two64_val; lia). lia.
  - destruct Hc as (k & Hk & ->). exists (k + 1). rewrite Z.pow_add_r by lia. split; [|lia].
    assert (k < 59); [|lia]. destruct (Z_lt_dec k 59); [assumption|].
    assert (k = 59) by lia. subst. lia.
Qed.

Lemma max_size_double : forall c, good_cap c -> capacity_to_max_size f c < capacity_to_max_size f (2 * c + 1).
Proof.
  intros c Hc. pose proof (good_cap_bounds c Hc). unfold capacity_to_max_size.
  assert (Hc8 : c = 8 * (c / 8) + c mod 8 /\ 0 <= c mod 8 < 8).
  { split; [apply Z.div_mod; lia|apply Z.mod_pos_bound; lia]. }
  assert (Hd8 : 2 * c + 1 = 8 * ((2 * c + 1) / 8) + (2 * c + 1) mod 8 /\ 0 <= (2 * c + 1) mod 8 < 8).
  { split; [apply Z.div_mod; lia|apply Z.mod_pos_bound; lia]. }
  destruct (W =? 8); [destruct (Z.eqb_spec c 7), (Z.eqb_spec (2 * c + 1) 7)|]; lia.
Qed.

Lemma good_cap_1 : good_cap 1.
Proof. exists 1. split; [lia|reflexivity]. Qed.

Lemma max_size_pos : forall c, good_cap c -> 1 <= capacity_to_max_size f c.
Proof.
  intros c Hc. pose proof (good_cap_bounds c Hc). unfold capacity_to_max_size.
  assert (Hc8 : c = 8 * (c / 8) + c mod 8 /\ 0 <= c mod 8 < 8).
  { split; [apply Z.div_mod; lia|apply Z.mod_pos_bound; lia]. }
  destruct (W =? 8); [destruct (Z.eqb_spec c 7)|]; lia.
Qed.

(** ** Probe sequence. *)
Lemma probe_iter : forall cap h n, good_cap cap -> Z.of_nat n <= nwin f cap ->
  Nat.iter n (probe_next f cap) (probe_start cap h) = probe_at f cap h (Z.of_nat n).
Proof.
  intros cap h n Hc. induction n as [|n IH]; intros Hn.
  - apply (probe_start_at f). assumption.
  - cbn [Nat.iter]. unfold Nat.iter in IH. cbn. rewrite IH by lia. rewrite probe_next_at by (assumption || lia).
    f_equal. lia.
Qed.

Lemma probe_visits : forall cap h i, good_cap cap -> W <= cap + 1 -> 0 <= i <= cap ->
  exists n l, Z.of_nat n < (cap + 1) / W /\ 0 <= l < W /\
    probe_off cap (Nat.iter n (probe_next f cap) (probe_start cap h)) l = i /\
    (forall n' l', Z.of_nat n' < (cap + 1) / W -> 0 <= l' < W ->
       probe_off cap (Nat.iter n' (probe_next f cap) (probe_start cap h)) l' = i -> n' = n).
Proof.
  intros cap h i Hc HW Hi. assert (HWp : 8 <= W) by (destruct (W_cases f); lia).
  assert (En : nwin f cap = (cap + 1) / W).
  { unfold nwin. assert (1 <= (cap + 1) / W) by (apply Z.div_le_lower_bound; lia). lia. }
  destruct (vis_spec f cap h i Hc) as [Hv _].
  destruct (vis_slot_at f cap h i Hc HW Hi) as (l & Hl & El).
  exists (Z.to_nat (vis f cap h i)), l. rewrite <- En.
  assert (Ev : Z.of_nat (Z.to_nat (vis f cap h i)) = vis f cap h i) by lia.
  split; [lia|]. split; [exact Hl|]. split.
  - rewrite probe_iter by (assumption || lia). rewrite Ev. rewrite probe_off_at by (assumption || lia). exact El.
  - intros n' l' Hn' Hl' E'. rewrite probe_iter in E' by (assumption || lia).
    rewrite probe_off_at in E' by (assumption || lia).
    destruct (slot_at_vis f cap h (Z.of_nat n') l' Hc HW ltac:(lia) Hl') as [_ Hvs].
    rewrite E' in Hvs. lia.
Qed.

End Cap.
