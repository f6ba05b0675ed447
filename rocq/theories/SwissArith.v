(** Arithmetic behind the probe sequence: triangular probing over 2^m groups. *)
From Coq Require Import ZArith List Bool Lia.
From Coq Require Import ZifyBool ZifyNat.
From Verif Require Import Base BaseLemmas Bits BitsProofs SwissModel.
Import ListNotations.
Open Scope Z_scope.

Lemma land_mask : forall x k, 0 <= k -> Z.land x (2 ^ k - 1) = x mod 2 ^ k.
Proof. intros. rewrite <- Z.land_ones by lia. rewrite Z.ones_equiv. f_equal. Qed.

Lemma mod_mod_pow2 : forall x k, 0 <= k <= 64 -> (x mod two64) mod 2 ^ k = x mod 2 ^ k.
Proof.
  intros. unfold two64. replace (2 ^ 64) with (2 ^ k * 2 ^ (64 - k)).
  - rewrite Z.rem_mul_r by (try apply Z.pow_nonzero; try apply Z.pow_pos_nonneg; lia).
    rewrite Z.mul_comm, Z.mod_add by (apply Z.pow_nonzero; lia). apply Z.mod_mod.
    apply Z.pow_nonzero; lia.
  - rewrite <- Z.pow_add_r by lia. f_equal. lia.
Qed.

(** T(w) = w(w+1)/2 without division. *)
Definition tnum (w : Z) : Z := w * (w + 1) / 2.
Lemma tnum_double : forall w, 2 * tnum w = w * (w + 1).
Proof.
  intros w. unfold tnum.
  assert (H : (w * (w + 1)) mod 2 = 0).
  { destruct (Z.Even_or_Odd w) as [[q ->] | [q ->]].
    - replace (2 * q * (2 * q + 1)) with (q * (2 * q + 1) * 2) by ring. apply Z.mod_mul. lia.
    - replace ((2 * q + 1) * (2 * q + 1 + 1)) with ((2 * q + 1) * (q + 1) * 2) by ring. apply Z.mod_mul. lia. }
  pose proof (Z.div_mod (w * (w + 1)) 2 ltac:(lia)). lia.
Qed.
Lemma tnum_succ : forall w, tnum (w + 1) = tnum w + (w + 1).
Proof. intros. pose proof (tnum_double w). pose proof (tnum_double (w + 1)). lia. Qed.
Lemma tnum_nonneg : forall w, 0 <= w -> 0 <= tnum w.
Proof. intros. unfold tnum. apply Z.div_pos; [|lia]. apply Z.mul_nonneg_nonneg; lia. Qed.

Definition tri (M w : Z) : Z := tnum w mod M.

(** An odd factor can be cancelled modulo a power of two. *)
Lemma odd_cancel : forall m x y, 0 <= m -> Z.Odd x -> (2 ^ m | x * y) -> (2 ^ m | y).
Proof.
  intros m x y Hm Hx. revert y. pattern m. apply natlike_ind; [| |exact Hm].
  - intros y _. rewrite Z.pow_0_r. apply Z.divide_1_l.
  - intros n Hn IH y [q Hq]. rewrite Z.pow_succ_r in * by lia.
    destruct Hx as [p ->].
    destruct (Z.Even_or_Odd y) as [[z ->] | [z ->]].
    + destruct (IH z) as [r Hr].
      * exists q. lia.
      * exists r. lia.
    + exfalso. assert (H : (2 * p + 1) * (2 * z + 1) = 2 * (2 * p * z + p + z) + 1) by ring.
      rewrite H in Hq. replace (q * (2 * 2 ^ n)) with (2 * (q * 2 ^ n)) in Hq by ring. lia.
Qed.

Lemma tri_inj : forall m a b, 0 <= m -> 0 <= a < 2 ^ m -> 0 <= b < 2 ^ m ->
  tri (2 ^ m) a = tri (2 ^ m) b -> a = b.
Proof.
  intros m a b Hm Ha Hb H.
  assert (Hd : (2 ^ (m + 1) | (a - b) * (a + b + 1))).
  { unfold tri in H. assert (0 < 2 ^ m) by lia.
    pose proof (Z.div_mod (tnum a) (2 ^ m) ltac:(lia)) as Ea.
    pose proof (Z.div_mod (tnum b) (2 ^ m) ltac:(lia)) as Eb.
    pose proof (tnum_double a). pose proof (tnum_double b).
    exists (tnum a / 2 ^ m - tnum b / 2 ^ m). rewrite Z.pow_add_r, Z.pow_1_r by lia.
    replace ((a - b) * (a + b + 1)) with (a * (a + 1) - b * (b + 1)) by ring.
    rewrite H in Ea. nia. }
  assert (H2 : 2 ^ (m + 1) = 2 * 2 ^ m) by (rewrite Z.pow_add_r by lia; lia).
  destruct (Z.Even_or_Odd (a - b)) as [[q Hq] | Hodd].
  - assert (Ho : Z.Odd (a + b + 1)) by (exists (b + q); lia).
    rewrite Z.mul_comm in Hd. apply odd_cancel in Hd; [|lia|exact Ho].
    destruct Hd as [r Hr]. rewrite H2 in Hr.
    assert (r = 0) by (destruct (Z_le_gt_dec r (-1)); [nia|]; destruct (Z_le_gt_dec 1 r); nia). nia.
  - apply odd_cancel in Hd; [|lia|exact Hodd]. destruct Hd as [r Hr]. rewrite H2 in Hr.
    exfalso. destruct (Z_le_gt_dec r 0); nia.
Qed.

Lemma tri_range : forall m w, 0 <= m -> 0 <= tri (2 ^ m) w < 2 ^ m.
Proof. intros. unfold tri. apply Z.mod_pos_bound. apply Z.pow_pos_nonneg; lia. Qed.

Lemma tri_surj : forall m x, 0 <= m -> 0 <= x < 2 ^ m ->
  exists w, 0 <= w < 2 ^ m /\ tri (2 ^ m) w = x.
Proof.
  intros m x Hm Hx.
  assert (HI : In x (map (tri (2 ^ m)) (zrange (2 ^ m)))).
  { assert (Hincl : incl (zrange (2 ^ m)) (map (tri (2 ^ m)) (zrange (2 ^ m)))).
    { apply NoDup_length_incl.
      - apply NoDup_nth with (d := 0). rewrite map_length, zrange_length.
        intros i j Hi Hj. rewrite !(nth_map_lt _ _ _ _ 0) by (rewrite zrange_length; lia).
        rewrite !zrange_nth by lia. intros E. apply tri_inj in E; lia.
      - rewrite map_length. lia.
      - intros y Hy. apply in_map_iff in Hy. destruct Hy as (w & <- & _).
        apply zrange_In, tri_range, Hm. }
    apply Hincl, zrange_In, Hx. }
  apply in_map_iff in HI. destruct HI as (w & E & Hw). apply zrange_In in Hw. eauto.
Qed.

Section Probe.
Variable f : simd.
Local Notation W := (W f).

Lemma W_cases : W = 8 \/ W = 16.
Proof. unfold SwissModel.W. destruct f; cbn; auto. Qed.

Lemma W_pow2 : exists wl, 3 <= wl <= 4 /\ W = 2 ^ wl.
Proof. destruct W_cases as [-> | ->]; [exists 3|exists 4]; split; try lia; reflexivity. Qed.

(** Capacities of allocated, non-trivial tables. *)
Definition good_cap (cap : Z) : Prop := exists k, 1 <= k <= 59 /\ cap = 2 ^ k - 1.

Lemma good_cap_bounds : forall cap, good_cap cap -> 1 <= cap < 2 ^ 59.
Proof.
  intros cap (k & Hk & ->). assert (2 ^ 1 <= 2 ^ k) by (apply Z.pow_le_mono_r; lia).
  assert (2 ^ k <= 2 ^ 59) by (apply Z.pow_le_mono_r; lia). change (2 ^ 1) with 2 in *. lia.
Qed.

Lemma good_cap_land : forall cap x, good_cap cap -> Z.land x cap = x mod (cap + 1).
Proof.
  intros cap x (k & Hk & ->). rewrite land_mask by lia. f_equal. lia.
Qed.
Lemma good_cap_mod64 : forall cap x, good_cap cap -> (x mod two64) mod (cap + 1) = x mod (cap + 1).
Proof.
  intros cap x (k & Hk & ->). replace (2 ^ k - 1 + 1) with (2 ^ k) by lia. apply mod_mod_pow2. lia.
Qed.

(** Number of groups of a table: one for tables smaller than a group. *)
Definition nwin (cap : Z) : Z := Z.max 1 ((cap + 1) / W).

Lemma good_cap_split : forall cap, good_cap cap ->
  (cap + 1 < W /\ nwin cap = 1 /\ 2 * cap + 1 <= W - 1) \/
  (W <= cap + 1 /\ W - 1 <= cap /\ exists m, 0 <= m /\ nwin cap = 2 ^ m /\ cap + 1 = W * 2 ^ m).
Proof.
  intros cap (k & Hk & ->). destruct W_pow2 as (wl & Hwl & EW).
  unfold nwin. replace (2 ^ k - 1 + 1) with (2 ^ k) by lia.
  destruct (Z_lt_dec k wl).
  - left. assert (H : 2 ^ (k + 1) <= 2 ^ wl) by (apply Z.pow_le_mono_r; lia).
    rewrite Z.pow_add_r, Z.pow_1_r in H by lia.
    assert (0 < 2 ^ k) by (apply Z.pow_pos_nonneg; lia).
    rewrite Z.div_small by lia. lia.
  - right. assert (H : 2 ^ k = W * 2 ^ (k - wl)).
    { rewrite EW, <- Z.pow_add_r by lia. f_equal. lia. }
    assert (0 < 2 ^ (k - wl)) by (apply Z.pow_pos_nonneg; lia).
    destruct W_cases as [E8|E8]; rewrite E8 in *;
    (split; [lia|]; split; [lia|]; exists (k - wl); split; [lia|]; split; [|lia];
     rewrite H; rewrite Z.mul_comm, Z.div_mul by lia; lia).
Qed.

Lemma nwin_pos : forall cap, 1 <= nwin cap.
Proof. intros. unfold nwin. lia. Qed.

(** Position of the w-th group probed for hash h. *)
Definition pos_at (cap h w : Z) : Z := (h1_of h + W * tnum w) mod (cap + 1).
Definition probe_at (cap h w : Z) : Z * Z := (W * w, pos_at cap h w).

Lemma probe_start_at : forall cap h, good_cap cap -> probe_start cap h = probe_at cap h 0.
Proof.
  intros. unfold probe_start, probe_at, pos_at. rewrite good_cap_land by assumption.
  change (tnum 0) with 0. rewrite !Z.mul_0_r, Z.add_0_r. reflexivity.
Qed.

Lemma probe_next_at : forall cap h w, good_cap cap -> 0 <= w <= nwin cap ->
  probe_next f cap (probe_at cap h w) = probe_at cap h (w + 1).
Proof.
  intros cap h w Hc Hw. pose proof (good_cap_bounds cap Hc).
  unfold probe_next, probe_at.
  assert (HW : add64 (W * w) W = W * (w + 1)).
  { unfold add64. rewrite Z.mod_small; [ring|].
    destruct (good_cap_split cap Hc) as [(H1 & H2 & H3) | (H1 & H2 & m & Hm & E1 & E2)].
    - rewrite H2 in Hw. unfold two64. destruct W_cases as [E|E]; rewrite E in *; lia.
    - unfold two64. destruct W_cases as [E|E]; rewrite E in *; nia. }
  rewrite HW. f_equal. rewrite good_cap_land by assumption.
  unfold add64. rewrite good_cap_mod64 by assumption. unfold pos_at.
  rewrite Z.add_mod_idemp_l by lia. rewrite tnum_succ. f_equal. ring.
Qed.

Lemma pos_at_range : forall cap h w, good_cap cap -> 0 <= pos_at cap h w <= cap.
Proof.
  intros cap h w Hc. pose proof (good_cap_bounds cap Hc). unfold pos_at.
  pose proof (Z.mod_pos_bound (h1_of h + W * tnum w) (cap + 1)). lia.
Qed.

(** Slot behind lane l of the w-th group. *)
Definition slot_at (cap h w l : Z) : Z := (pos_at cap h w + l) mod (cap + 1).

Lemma probe_off_at : forall cap h w l, good_cap cap -> 0 <= l ->
  probe_off cap (probe_at cap h w) l = slot_at cap h w l.
Proof.
  intros. unfold probe_off, slot_at, probe_at. cbn [snd]. unfold add64.
  rewrite good_cap_land, good_cap_mod64 by assumption. reflexivity.
Qed.

(** Relative group number of a slot (cf. block_idx). *)
Definition blk (cap h i : Z) : Z :=
  if cap + 1 <? W then 0 else ((i - h1_of h) mod (cap + 1)) / W.

(** Number of the probe step at which a slot is visited. *)
Definition vis (cap h i : Z) : Z :=
  match List.find (fun w => tri (nwin cap) w =? blk cap h i) (zrange (nwin cap)) with
  | Some w => w
  | None => 0
  end.

Lemma blk_range : forall cap h i, good_cap cap -> 0 <= blk cap h i < nwin cap.
Proof.
  intros cap h i Hc. unfold blk.
  destruct (good_cap_split cap Hc) as [(H1 & H2 & H3) | (H1 & H2 & m & Hm & E1 & E2)].
  - destruct (Z.ltb_spec (cap + 1) W); lia.
  - destruct (Z.ltb_spec (cap + 1) W); [lia|].
    pose proof (good_cap_bounds cap Hc).
    pose proof (Z.mod_pos_bound (i - h1_of h) (cap + 1) ltac:(lia)).
    assert (0 < W) by (destruct W_cases; lia).
    split; [apply Z.div_pos; lia|]. apply Z.div_lt_upper_bound; [lia|]. rewrite E1. lia.
Qed.

Lemma tri_one : forall w, tri 1 w = 0.
Proof. intros. unfold tri. apply Z.mod_1_r. Qed.

Lemma vis_spec : forall cap h i, good_cap cap ->
  0 <= vis cap h i < nwin cap /\ tri (nwin cap) (vis cap h i) = blk cap h i.
Proof.
  intros cap h i Hc. unfold vis. pose proof (blk_range cap h i Hc) as Hb.
  destruct (List.find _ _) as [w|] eqn:Ef.
  - apply find_some in Ef. destruct Ef as [Hw E]. apply zrange_In in Hw. lia.
  - exfalso.
    assert (Hs : exists w, 0 <= w < nwin cap /\ tri (nwin cap) w = blk cap h i).
    { destruct (good_cap_split cap Hc) as [(H1 & H2 & H3) | (H1 & H2 & m & Hm & E1 & E2)].
      - exists 0. rewrite H2 in *. rewrite tri_one. lia.
      - rewrite E1 in *. apply tri_surj; assumption. }
    destruct Hs as (w & Hw & E). apply find_none with (x := w) in Ef; [lia|].
    apply zrange_In. exact Hw.
Qed.

Lemma vis_unique : forall cap h i w, good_cap cap -> 0 <= w < nwin cap ->
  tri (nwin cap) w = blk cap h i -> w = vis cap h i.
Proof.
  intros cap h i w Hc Hw E. destruct (vis_spec cap h i Hc) as [Hv Ev].
  destruct (good_cap_split cap Hc) as [(H1 & H2 & H3) | (H1 & H2 & m & Hm & E1 & E2)]; [lia|].
  rewrite E1 in *. apply (tri_inj m); [lia..|congruence].
Qed.

(** For tables of at least one group, group w covers exactly the slots visited at step w. *)
Lemma slot_at_vis : forall cap h w l, good_cap cap -> W <= cap + 1 -> 0 <= w < nwin cap -> 0 <= l < W ->
  0 <= slot_at cap h w l <= cap /\ vis cap h (slot_at cap h w l) = w.
Proof.
  intros cap h w l Hc HN Hw Hl. pose proof (good_cap_bounds cap Hc) as Hcb.
  destruct (good_cap_split cap Hc) as [(H1 & H2 & H3) | (H1 & H2 & m & Hm & E1 & E2)]; [lia|].
  assert (HS : 0 <= slot_at cap h w l <= cap).
  { unfold slot_at. pose proof (Z.mod_pos_bound (pos_at cap h w + l) (cap + 1)). lia. }
  split; [exact HS|]. symmetry. apply vis_unique; [assumption|assumption|].
  unfold blk. destruct (Z.ltb_spec (cap + 1) W); [lia|].
  assert (HM : 0 < 2 ^ m) by (apply Z.pow_pos_nonneg; lia).
  assert (HW0 : 0 < W) by (destruct W_cases; lia).
  assert (Hmod : (slot_at cap h w l - h1_of h) mod (cap + 1) = W * (tnum w mod 2 ^ m) + l).
  { unfold slot_at, pos_at. rewrite Zminus_mod_idemp_l.
    rewrite <- Zminus_mod_idemp_l, Z.add_mod_idemp_l by lia. rewrite Zminus_mod_idemp_l.
    replace (h1_of h + W * tnum w + l - h1_of h) with (W * tnum w + l) by ring.
    pose proof (Z.div_mod (tnum w) (2 ^ m) ltac:(lia)) as Ed.
    pose proof (Z.mod_pos_bound (tnum w) (2 ^ m) HM) as Eb.
    rewrite E2. symmetry. apply Z.mod_unique with (tnum w / 2 ^ m); [|nia].
    left. split; [nia|].
    destruct W_cases as [E|E]; rewrite E in *; nia. }
  rewrite Hmod. unfold tri. rewrite E1. symmetry.
  rewrite Z.mul_comm, Z.div_add_l by lia. rewrite Z.div_small by lia. lia.
Qed.

Lemma vis_slot_at : forall cap h i, good_cap cap -> W <= cap + 1 -> 0 <= i <= cap ->
  exists l, 0 <= l < W /\ slot_at cap h (vis cap h i) l = i.
Proof.
  intros cap h i Hc HN Hi. pose proof (good_cap_bounds cap Hc) as Hcb.
  destruct (good_cap_split cap Hc) as [(H1 & H2 & H3) | (H1 & H2 & m & Hm & E1 & E2)]; [lia|].
  destruct (vis_spec cap h i Hc) as [Hv Ev].
  set (w := vis cap h i) in *. unfold blk in Ev. destruct (Z.ltb_spec (cap + 1) W); [lia|].
  set (d := (i - h1_of h) mod (cap + 1)) in *.
  assert (HM : 0 < 2 ^ m) by (apply Z.pow_pos_nonneg; lia).
  assert (HW0 : 0 < W) by (destruct W_cases; lia).
  exists (d mod W). split; [apply Z.mod_pos_bound; lia|].
  unfold slot_at, pos_at. rewrite Z.add_mod_idemp_l by lia.
  unfold tri in Ev. rewrite E1 in Ev.
  pose proof (Z.div_mod (tnum w) (2 ^ m) ltac:(lia)) as Ed.
  pose proof (Z.div_mod d W ltac:(lia)) as Edw.
  pose proof (Z.div_mod (i - h1_of h) (cap + 1) ltac:(lia)) as Eq.
  fold d in Eq.
  replace (h1_of h + W * tnum w + d mod W)
    with (i + (tnum w / 2 ^ m - (i - h1_of h) / (cap + 1)) * (cap + 1)).
  - rewrite Z.mod_add by lia. apply Z.mod_small. lia.
  - set (q := (i - h1_of h) / (cap + 1)) in *. set (t := tnum w / 2 ^ m) in *.
    rewrite Ed, Ev.
    assert (HE : W * (2 ^ m * t + d / W) = t * (cap + 1) + W * (d / W)) by (rewrite E2; ring).
    rewrite HE. lia.
Qed.

(** block_idx of the code is blk. *)
Lemma block_idx_blk : forall cap h i, good_cap cap -> W <= cap + 1 -> 0 <= i <= cap ->
  block_idx f cap h i = blk cap h i.
Proof.
  intros cap h i Hc HN Hi. pose proof (good_cap_bounds cap Hc) as Hcb.
  unfold block_idx, blk. destruct (Z.ltb_spec (cap + 1) W); [lia|].
  unfold sub64. rewrite !good_cap_land, good_cap_mod64 by assumption.
  rewrite Zminus_mod_idemp_r. reflexivity.
Qed.

Lemma vis_eq_blk : forall cap h i j, good_cap cap ->
  (vis cap h i = vis cap h j <-> blk cap h i = blk cap h j).
Proof.
  intros cap h i j Hc. destruct (vis_spec cap h i Hc) as [Hi Ei].
  destruct (vis_spec cap h j Hc) as [Hj Ej]. split; intros H.
  - rewrite <- Ei, <- Ej, H. reflexivity.
  - apply vis_unique; [assumption..|]. congruence.
Qed.

(** In tables smaller than a group there is one step. *)
Lemma vis_small : forall cap h i, good_cap cap -> cap + 1 < W -> vis cap h i = 0.
Proof.
  intros cap h i Hc HN. destruct (vis_spec cap h i Hc) as [Hi _].
  destruct (good_cap_split cap Hc) as [(H1 & H2 & H3) | (H1 & H2 & m & Hm & E1 & E2)]; lia.
Qed.

End Probe.
