(** Lemmas behind the capacity properties. *)
From Coq Require Import ZArith List Bool Lia.
From Coq Require Import ZifyBool ZifyNat.
From Verif Require Import Base BaseLemmas CapSpec Bits BitsProofs SwissModel SwissArith SwissCap.
Open Scope Z_scope.

Lemma chosen_capacity : forall f n, 0 <= n < 2 ^ 62 ->
  exists c, align_capacity (size_to_min_capacity f n) = Ok c /\
    least_mersenne_above (size_to_min_capacity f n) c /\
    n <= size_to_min_capacity f n /\ n <= capacity_to_max_size f c /\ capacity_to_max_size f c <= c.
Proof.
  intros f n Hn. assert (Hm : n <= size_to_min_capacity f n < 2 ^ 63).
  { destruct (Z.eq_dec n 0) as [->|]; [rewrite size_to_min_capacity_0; lia|].
    rewrite size_to_min_capacity_pos by lia.
    assert (0 <= (n - 1) / 7 <= n - 1).
    { split; [apply Z.div_pos; lia|]. apply Z.div_le_upper_bound; lia. }
    destruct (_ && _)%bool eqn:E; lia. }
  destruct (align_capacity_spec (size_to_min_capacity f n) ltac:(lia)) as (k & E & Hk & Hle & Hleast).
  exists (2 ^ k - 1). split; [exact E|]. split; [split; [exists k; split; [lia|reflexivity]|split; [exact Hle|]]|].
  - intros d (j & Hj & ->) Hd. specialize (Hleast j Hj Hd).
    assert (2 ^ k <= 2 ^ j) by (apply Z.pow_le_mono_r; lia). lia.
  - split; [lia|]. split; [|apply max_size_bounds; lia].
    destruct (Z.eq_dec n 0) as [->|]; [apply max_size_bounds; lia|]. apply max_size_sufficient; lia.
Qed.

Lemma probe_permutation : forall f k h i, 1 <= k <= 59 -> width f <= 2 ^ k -> 0 <= i <= 2 ^ k - 1 ->
  exists n l, Z.of_nat n < 2 ^ k / width f /\ 0 <= l < width f /\
    probe_off (2 ^ k - 1) (Nat.iter n (probe_next f (2 ^ k - 1)) (probe_start (2 ^ k - 1) h)) l = i /\
    (forall n' l', Z.of_nat n' < 2 ^ k / width f -> 0 <= l' < width f ->
       probe_off (2 ^ k - 1) (Nat.iter n' (probe_next f (2 ^ k - 1)) (probe_start (2 ^ k - 1) h)) l' = i -> n' = n).
Proof.
  intros f k h i Hk HW Hi.
  pose proof (probe_visits f (2 ^ k - 1) h i) as H. unfold W in H.
  replace (2 ^ k - 1 + 1) with (2 ^ k) in H by lia.
  apply H; [exists k; auto|lia|lia].
Qed.
