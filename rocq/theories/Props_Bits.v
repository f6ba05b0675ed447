(** Properties C21 to C25: groups, bit counts, capacities, probing. *)
From Coq Require Import ZArith List Bool.
From Verif Require Import Base BitsSpec CapSpec Bits SwissModel BitsFinal CapFinal.
Import ListNotations.
Open Scope Z_scope.

(** C21.  Iterating any of the masks visits exactly the lanes described byte by byte;
    emptiness and the first lane agree with that; the portable tag match may add lanes of
    occupied slots only; reset_occupied maps occupied to erased and the rest to unused. *)
Theorem C21_group_operations : forall f g, group_ok (width f) g ->
  (exists ls, mask_lanes 65 (mask_shift f) (match_available f g) = Ok ls /\
     forall i, In i ls <-> 0 <= i < width f /\ free (byte_at g i)) /\
  (exists ls, mask_lanes 65 (mask_shift f) (match_empty f g) = Ok ls /\
     forall i, In i ls <-> 0 <= i < width f /\ byte_at g i = -128) /\
  (forall h, 0 <= h < 128 ->
     exists ls, mask_lanes 65 (mask_shift f) (match_eq f g h) = Ok ls /\
       (forall i, In i ls -> 0 <= i < width f /\ tagged (byte_at g i)) /\
       (forall i, 0 <= i < width f -> byte_at g i = h -> In i ls) /\
       (f <> WORD -> forall i, In i ls -> byte_at g i = h)) /\
  (length (reset_occupied f g) = length g /\
   forall i, 0 <= i < width f ->
    (tagged (byte_at g i) -> byte_at (reset_occupied f g) i = -2) /\
    (~ tagged (byte_at g i) -> byte_at (reset_occupied f g) i = -128)).
Proof.
  exact (fun f g H => conj (match_available_lanes f g H) (conj (match_empty_lanes f g H)
    (conj (fun h Hh => match_eq_lanes f g h H Hh) (reset_occupied_bytes f g H)))).
Qed.
Print Assumptions C21_group_operations.

Theorem C21_mask_queries : forall f g, group_ok (width f) g ->
  (mask_is_empty (match_available f g) = true <-> forall i, 0 <= i < width f -> ~ free (byte_at g i)) /\
  (mask_is_empty (match_empty f g) = true <-> forall i, 0 <= i < width f -> byte_at g i <> -128) /\
  (mask_is_empty (match_available f g) = false ->
     exists i, mask_lsb (mask_shift f) (match_available f g) = Ok i /\ 0 <= i < width f /\
       free (byte_at g i) /\ forall j, 0 <= j < i -> ~ free (byte_at g j)).
Proof. exact mask_first. Qed.
Print Assumptions C21_mask_queries.

(** A group of the portable build that meets the hypothesis; the tag match of 4 also
    reports lane 2 holding tag 5 (a false positive on an occupied slot). *)
Example C21_case : group_ok (width WORD) [-2; 4; 5; -128; -1; 127; 4; 0] /\
  mask_lanes 65 (mask_shift WORD) (match_eq WORD [-2; 4; 5; -128; -1; 127; 4; 0] 4) = Ok [1; 2; 6] /\
  mask_lanes 65 (mask_shift WORD) (match_available WORD [-2; 4; 5; -128; -1; 127; 4; 0]) = Ok [0; 3].
Proof.
  split; [apply group_check; vm_compute; reflexivity|].
  split; vm_compute; reflexivity.
Qed.

(** C22 on the 16-byte builds; on the 8-byte builds only for groups holding at least one
    byte that is not free.  Missing for the full statement: groups of free bytes only on
    NEON and portable builds, where the function is undefined (see the refutation). *)
Theorem C22_leading_free_partial : forall f g, group_ok (width f) g ->
  (f = SSE2 \/ f = SSSE3) \/ (exists i, 0 <= i < width f /\ ~ free (byte_at g i)) ->
  exists n, count_available f g = Ok n /\ leading_free g n.
Proof.
  exact (fun f g H d => match d with
    | or_introl Hf => count_available_wide f g Hf H
    | or_intror He => count_available_narrow f g H He end).
Qed.
Print Assumptions C22_leading_free_partial.

Example C22_case : group_ok (width NEON) [-128; -2; -128; 17; -2; -1; -128; -128] /\
  count_available NEON [-128; -2; -128; 17; -2; -1; -128; -128] = Ok 3 /\
  count_available SSE2 (repeat (-128) 16) = Ok 16.
Proof.
  split; [apply group_check; vm_compute; reflexivity|].
  split; vm_compute; reflexivity.
Qed.

(** On NEON and portable builds every group of free bytes makes the count undefined. *)
Theorem C22_undefined : forall f g, f = NEON \/ f = WORD -> group_ok (width f) g ->
  (forall i, 0 <= i < width f -> free (byte_at g i)) -> count_available f g = Err BitScanZero.
Proof. exact count_available_undefined. Qed.
Print Assumptions C22_undefined.

Theorem C22_refuted : exists f g, group_ok (width f) g /\ ~ exists n, count_available f g = Ok n.
Proof.
  exists WORD, (repeat (-128) 8). split.
  - apply group_check. vm_compute. reflexivity.
  - intros [n E]. vm_compute in E. discriminate.
Qed.
Print Assumptions C22_refuted.

(** C23, the GNU branch (both scans) and the MSVC forward scan.  Missing: the MSVC clz
    and the generic fallbacks, which are off by one on every input (next theorem). *)
Theorem C23_bit_counts_partial : forall x, 0 < x < 2 ^ 64 ->
  (exists c, ctz GNU x = Ok c /\ trailing_zeros x c) /\
  (exists c, clz GNU x = Ok c /\ leading_zeros x c) /\
  (exists c, ctz MSVC x = Ok c /\ trailing_zeros x c).
Proof.
  exact (fun x H => conj (scan_forward_tz x (proj1 H)) (conj (gnu_clz_lz x H) (scan_forward_tz x (proj1 H)))).
Qed.
Print Assumptions C23_bit_counts_partial.

Theorem C23_off_by_one : forall x, 0 < x < 2 ^ 64 ->
  (exists c, clz MSVC x = Ok (c + 1) /\ leading_zeros x c) /\
  (exists c, ctz Other x = Ok (c + 1) /\ trailing_zeros x c) /\
  (exists c, clz Other x = Ok (c + 1) /\ leading_zeros x c).
Proof.
  exact (fun x H => conj (msvc_clz_lz x H) (conj (other_ctz_tz x H) (other_clz_lz x H))).
Qed.
Print Assumptions C23_off_by_one.

Example C23_case : 0 < 40 < 2 ^ 64 /\ ctz GNU 40 = Ok 3 /\ clz GNU 40 = Ok 58 /\
  trailing_zeros 40 3 /\ leading_zeros 40 58 /\ ctz Other 40 = Ok 4 /\ clz Other 40 = Ok 59 /\ clz MSVC 40 = Ok 59.
Proof.
  repeat split; try (vm_compute; congruence).
  - exists 5. reflexivity.
  - intros [z E]. change (2 ^ (3 + 1)) with 16 in E.
    assert (H : 40 mod 16 = (z * 16) mod 16) by (rewrite <- E; reflexivity).
    rewrite Z.mod_mul in H by discriminate. discriminate.
Qed.

Theorem C23_refuted : exists c x, 0 < x < 2 ^ 64 /\ ~ exists n, ctz c x = Ok n /\ trailing_zeros x n.
Proof.
  exists Other, 1. split; [split; reflexivity|].
  intros (n & E & _ & [z Ez] & _). vm_compute in E. injection E as <-.
  change (2 ^ 1) with 2 in Ez.
  assert (H : 1 mod 2 = (z * 2) mod 2) by (rewrite <- Ez; reflexivity).
  rewrite Z.mod_mul in H by discriminate. discriminate.
Qed.
Print Assumptions C23_refuted.

(** C24. *)
Theorem C24_capacity : forall f n, 0 <= n < 2 ^ 62 ->
  exists c, align_capacity (size_to_min_capacity f n) = Ok c /\
    least_mersenne_above (size_to_min_capacity f n) c /\
    n <= size_to_min_capacity f n /\ n <= capacity_to_max_size f c /\ capacity_to_max_size f c <= c.
Proof. exact chosen_capacity. Qed.
Print Assumptions C24_capacity.

Example C24_case :
  align_capacity (size_to_min_capacity SSE2 14) = Ok 15 /\ capacity_to_max_size SSE2 15 = 14 /\
  align_capacity (size_to_min_capacity SSE2 15) = Ok 31 /\
  align_capacity (size_to_min_capacity WORD 7) = Ok 15 /\
  align_capacity (size_to_min_capacity SSE2 7) = Ok 7 /\
  align_capacity (size_to_min_capacity SSE2 (2 ^ 61)) = Ok (2 ^ 62 - 1).
Proof. repeat split; vm_compute; reflexivity. Qed.

(** C25: the group windows probed in the first (capacity+1)/width steps partition the
    slots: each slot is behind some lane of exactly one probed group. *)
Theorem C25_probe_permutation : forall f k h i, 1 <= k <= 59 -> width f <= 2 ^ k -> 0 <= i <= 2 ^ k - 1 ->
  exists n l, Z.of_nat n < 2 ^ k / width f /\ 0 <= l < width f /\
    probe_off (2 ^ k - 1) (Nat.iter n (probe_next f (2 ^ k - 1)) (probe_start (2 ^ k - 1) h)) l = i /\
    (forall n' l', Z.of_nat n' < 2 ^ k / width f -> 0 <= l' < width f ->
       probe_off (2 ^ k - 1) (Nat.iter n' (probe_next f (2 ^ k - 1)) (probe_start (2 ^ k - 1) h)) l' = i -> n' = n).
Proof. exact probe_permutation. Qed.
Print Assumptions C25_probe_permutation.

(** Windows of a 64-slot table for a hash with h1 = 5. *)
Example C25_case : map (fun n => snd (Nat.iter n (probe_next SSE2 63) (probe_start 63 (5 * 128)))) [0; 1; 2; 3]%nat
  = [5; 21; 53; 37].
Proof. vm_compute. reflexivity. Qed.
