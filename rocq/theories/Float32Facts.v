(** Rounding to single precision: error bound, and comparison with representable numbers. *)
From Coq Require Import ZArith Bool Lia.
From Verif Require Import Base Float32.
Open Scope Z_scope.

Lemma round_even_bounds : forall n d, 0 < d -> n - d < d * round_even n d <= n + d.
Proof.
  intros n d Hd. unfold round_even. pose proof (Z.div_mod n d ltac:(lia)). pose proof (Z.mod_pos_bound n d Hd).
  destruct (Z.ltb_spec (2 * (n mod d)) d); [nia|]. destruct (Z.ltb_spec d (2 * (n mod d))); [nia|]. destruct (Z.even (n / d)); nia.
Qed.
(** Rounding does not cross integers. *)
Lemma round_even_le : forall n d c, 0 < d -> n <= c * d -> round_even n d <= c.
Proof.
  intros n d c Hd H. unfold round_even. pose proof (Z.div_mod n d ltac:(lia)) as Hq. pose proof (Z.mod_pos_bound n d Hd) as Hr.
  assert (n / d <= c) by nia. assert (n / d = c -> n mod d = 0) by nia.
  destruct (Z.ltb_spec (2 * (n mod d)) d); [lia|]. assert (n / d <> c) by (intros Hc; specialize (H1 Hc); lia).
  destruct (Z.ltb_spec d (2 * (n mod d))); [lia|]. destruct (Z.even (n / d)); lia.
Qed.
Lemma round_even_ge : forall n d c, 0 < d -> c * d <= n -> c <= round_even n d.
Proof.
  intros n d c Hd H. unfold round_even. pose proof (Z.div_mod n d ltac:(lia)) as Hq. pose proof (Z.mod_pos_bound n d Hd) as Hr.
  assert (c <= n / d) by nia.
  destruct (Z.ltb_spec (2 * (n mod d)) d); [lia|]. destruct (Z.ltb_spec d (2 * (n mod d))); [lia|]. destruct (Z.even (n / d)); lia.
Qed.

(** 2^e for an integer e, as a quotient. *)
Lemma pow_split : forall e, 0 < 2 ^ Z.max 0 e /\ 0 < 2 ^ Z.max 0 (- e).
Proof. intros e. split; apply Z.pow_pos_nonneg; lia. Qed.
Lemma pow_shift : forall e k, 0 <= k -> 2 ^ Z.max 0 (e + k) * 2 ^ Z.max 0 (- e) = 2 ^ k * 2 ^ Z.max 0 e * 2 ^ Z.max 0 (- (e + k)).
Proof.
  intros e k Hk. rewrite <- !Z.pow_add_r by lia. f_equal. lia.
Qed.

Lemma f32_exp_spec : forall n d, 0 < n -> 0 < d -> let e := f32_exp n d in
  2 ^ 23 * (d * 2 ^ Z.max 0 e) <= n * 2 ^ Z.max 0 (- e) < 2 ^ 24 * (d * 2 ^ Z.max 0 e).
Proof.
  intros n d Hn Hd. unfold f32_exp. pose proof (Z.log2_spec n Hn) as (Hn1 & Hn2). pose proof (Z.log2_spec d Hd) as (Hd1 & Hd2).
  pose proof (Z.log2_nonneg n) as Hln. pose proof (Z.log2_nonneg d) as Hld.
  rewrite Z.pow_succ_r in Hn2, Hd2 by lia. set (a := Z.log2 n) in *. set (b := Z.log2 d) in *.
  set (e := a - b - 23). cbn zeta. pose proof (pow_split e) as (Hp & Hq). pose proof (pow_split (e - 1)) as (Hp' & Hq').
  (* 2^a * q = 2^23 * 2^b * p *)
  assert (Hab : 2 ^ a * 2 ^ Z.max 0 (- e) = 2 ^ 23 * (2 ^ b * 2 ^ Z.max 0 e)).
  { rewrite <- !Z.pow_add_r by lia. f_equal. unfold e. lia. }
  assert (Hsh : 2 ^ Z.max 0 e * 2 ^ Z.max 0 (- (e - 1)) = 2 * 2 ^ Z.max 0 (e - 1) * 2 ^ Z.max 0 (- e)).
  { pose proof (pow_shift (e - 1) 1 ltac:(lia)) as H. replace (e - 1 + 1) with e in H by lia. rewrite Z.pow_1_r in H. exact H. }
  set (p := 2 ^ Z.max 0 e) in *. set (q := 2 ^ Z.max 0 (- e)) in *. set (p' := 2 ^ Z.max 0 (e - 1)) in *. set (q' := 2 ^ Z.max 0 (- (e - 1))) in *.
  set (A := 2 ^ a) in *. set (B := 2 ^ b) in *. change (2 ^ 24) with (2 * 2 ^ 23).
  assert (HP : 0 < 2 ^ 23) by reflexivity. set (P := 2 ^ 23) in *. clearbody P A B.
  assert (Hup : n * q < 2 * P * (d * p)).
  { apply Z.lt_le_trans with (2 * A * q); [apply Z.mul_lt_mono_pos_r; lia|]. replace (2 * A * q) with (2 * (A * q)) by ring. rewrite Hab.
    replace (2 * P * (d * p)) with (2 * (P * (d * p))) by ring. apply Z.mul_le_mono_nonneg_l; [lia|]. apply Z.mul_le_mono_nonneg_l; [lia|].
    apply Z.mul_le_mono_nonneg_r; lia. }
  assert (Hlo : P * (d * p) <= 2 * (n * q)).
  { apply Z.le_trans with (2 * (A * q)); [|apply Z.mul_le_mono_nonneg_l; [lia|]; apply Z.mul_le_mono_nonneg_r; lia].
    rewrite Hab. replace (2 * (P * (B * p))) with (P * (2 * B * p)) by ring. apply Z.mul_le_mono_nonneg_l; [lia|]. apply Z.mul_le_mono_nonneg_r; lia. }
  destruct (Z.ltb_spec (n * q) (d * p * P)) as [Hlt|Hge]; fold p q p' q'; clearbody p q p' q'.
  - assert (Hpos : 0 < p * q') by nia. split.
    + (* multiply by p *) apply (Zmult_le_reg_r _ _ q); [lia|]. apply (Zmult_le_reg_r _ _ 2); [lia|].
      replace (P * (d * p') * q * 2) with (P * d * (2 * p' * q)) by ring. rewrite <- Hsh.
      replace (P * d * (p * q')) with ((P * (d * p)) * q') by ring. replace (n * q' * q * 2) with (2 * (n * q) * q') by ring.
      apply Z.mul_le_mono_nonneg_r; lia.
    + apply (Zmult_lt_reg_r _ _ q); [lia|]. replace (2 * P * (d * p') * q) with (P * d * (2 * p' * q)) by ring. rewrite <- Hsh.
      replace (P * d * (p * q')) with ((d * p * P) * q') by ring. replace (n * q' * q) with ((n * q) * q') by ring.
      apply Z.mul_lt_mono_pos_r; lia.
  - split; [nia|exact Hup].
Qed.

Lemma f32_pos : forall n d, 0 <= n -> 0 < d -> 0 <= fst (f32 (n, d)) /\ 0 < snd (f32 (n, d)).
Proof.
  intros n d Hn Hd. unfold f32. destruct (Z.eqb_spec n 0); [cbn [fst snd]; lia|]. cbn [fst snd].
  pose proof (pow_split (f32_exp n d)) as (Hp & Hq). split; [|exact Hq].
  apply Z.mul_nonneg_nonneg; [|lia]. apply round_even_ge; nia.
Qed.

(** The relative error is at most 2^-23. *)
Lemma f32_rel : forall n d, 0 <= n -> 0 < d -> fst (f32 (n, d)) * d * 2 ^ 23 <= n * snd (f32 (n, d)) * (2 ^ 23 + 1).
Proof.
  intros n d Hn Hd. unfold f32. destruct (Z.eqb_spec n 0) as [->|Hne]; [cbn [fst snd]; lia|]. cbn [fst snd].
  pose proof (f32_exp_spec n d ltac:(lia) Hd) as Hs. cbn zeta in Hs. pose proof (pow_split (f32_exp n d)) as (Hp & Hq).
  set (e := f32_exp n d) in *. set (p := 2 ^ Z.max 0 e) in *. set (q := 2 ^ Z.max 0 (- e)) in *.
  pose proof (round_even_bounds (n * q) (d * p) ltac:(nia)) as Hr. set (m := round_even (n * q) (d * p)) in *. clearbody m p q.
  assert (HP : 0 < 2 ^ 23) by reflexivity. set (P := 2 ^ 23) in *. clearbody P.
  replace (m * p * d * P) with (P * (d * p * m)) by ring.
  apply Z.le_trans with (P * (n * q + d * p)); [apply Z.mul_le_mono_nonneg_l; lia|]. nia.
Qed.

(** Comparison with a representable number c * 2^z, 0 <= c < 2^24, here given as (c * 2^max(0,z), 2^max(0,-z)). *)
Lemma f32_le : forall n d c z, 0 <= n -> 0 < d -> 0 <= c < 2 ^ 24 ->
  n * 2 ^ Z.max 0 (- z) <= c * 2 ^ Z.max 0 z * d ->
  fst (f32 (n, d)) * 2 ^ Z.max 0 (- z) <= c * 2 ^ Z.max 0 z * snd (f32 (n, d)).
Proof.
  intros n d c z Hn Hd Hc Hle. pose proof (pow_split z) as (Hpz & Hqz). unfold f32. destruct (Z.eqb_spec n 0) as [->|Hne]; [cbn [fst snd]; nia|]. cbn [fst snd].
  pose proof (f32_exp_spec n d ltac:(lia) Hd) as Hs. cbn zeta in Hs. pose proof (pow_split (f32_exp n d)) as (Hp & Hq).
  set (e := f32_exp n d) in *. destruct (Z.le_gt_cases e z) as [Hez|Hez].
  - (* c 2^z is a multiple of 2^e *)
    pose proof (pow_shift e (z - e) ltac:(lia)) as Hsh. replace (e + (z - e)) with z in Hsh by lia.
    assert (Hk : 0 < 2 ^ (z - e)) by (apply Z.pow_pos_nonneg; lia).
    set (k := 2 ^ (z - e)) in *. set (pz := 2 ^ Z.max 0 z) in *. set (qz := 2 ^ Z.max 0 (- z)) in *. set (p := 2 ^ Z.max 0 e) in *. set (q := 2 ^ Z.max 0 (- e)) in *.
    assert (Hm : round_even (n * q) (d * p) <= c * k).
    { apply round_even_le; [nia|]. apply (Zmult_le_reg_r _ _ qz); [lia|].
      replace (n * q * qz) with ((n * qz) * q) by ring. replace (c * k * (d * p) * qz) with (c * d * (k * p * qz)) by ring. rewrite <- Hsh.
      replace (c * d * (pz * q)) with ((c * pz * d) * q) by ring. apply Z.mul_le_mono_nonneg_r; lia. }
    set (m := round_even (n * q) (d * p)) in *. clearbody m.
    apply Z.le_trans with ((c * k) * p * qz); [apply Z.mul_le_mono_nonneg_r; [lia|]; apply Z.mul_le_mono_nonneg_r; lia|].
    replace (c * k * p * qz) with (c * (k * p * qz)) by ring. rewrite <- Hsh. nia.
  - exfalso. pose proof (pow_shift z (e - z) ltac:(lia)) as Hsh. replace (z + (e - z)) with e in Hsh by lia.
    assert (Hk : 2 <= 2 ^ (e - z)) by (change 2 with (2 ^ 1) at 1; apply Z.pow_le_mono_r; lia).
    set (k := 2 ^ (e - z)) in *. set (pz := 2 ^ Z.max 0 z) in *. set (qz := 2 ^ Z.max 0 (- z)) in *. set (p := 2 ^ Z.max 0 e) in *. set (q := 2 ^ Z.max 0 (- e)) in *.
    change (2 ^ 24) with (2 * 2 ^ 23) in *. assert (HP : 0 < 2 ^ 23) by reflexivity. set (P := 2 ^ 23) in *. clearbody P k pz qz p q.
    (* P d p qz <= n q qz <= c pz d q < 2 P pz d q <= P d k pz q = P d p qz *)
    destruct Hs as (Hs & _).
    assert (H1 : P * (d * p) * qz <= n * q * qz) by (apply Z.mul_le_mono_nonneg_r; lia).
    assert (H2 : n * qz * q <= c * pz * d * q) by (apply Z.mul_le_mono_nonneg_r; lia).
    assert (H3 : c * (pz * d * q) < 2 * P * (pz * d * q)) by (apply Z.mul_lt_mono_pos_r; [|lia]; assert (0 < pz * d) by nia; nia).
    assert (H4 : P * (d * p) * qz = P * d * (k * pz * q)) by (rewrite <- Hsh; ring).
    assert (H5 : 2 * (P * d * (pz * q)) <= k * (P * d * (pz * q))).
    { apply Z.mul_le_mono_nonneg_r; [|lia]. assert (0 < P * d) by nia. assert (0 < pz * q) by nia. nia. }
    nia.
Qed.
Lemma f32_ge : forall n d c z, 0 < n -> 0 < d -> 0 <= c < 2 ^ 24 ->
  c * 2 ^ Z.max 0 z * d <= n * 2 ^ Z.max 0 (- z) ->
  c * 2 ^ Z.max 0 z * snd (f32 (n, d)) <= fst (f32 (n, d)) * 2 ^ Z.max 0 (- z).
Proof.
  intros n d c z Hn Hd Hc Hle. pose proof (pow_split z) as (Hpz & Hqz). unfold f32. destruct (Z.eqb_spec n 0) as [->|Hne]; [lia|]. cbn [fst snd].
  pose proof (f32_exp_spec n d ltac:(lia) Hd) as Hs. cbn zeta in Hs. pose proof (pow_split (f32_exp n d)) as (Hp & Hq).
  set (e := f32_exp n d) in *. destruct (Z.le_gt_cases e z) as [Hez|Hez].
  - pose proof (pow_shift e (z - e) ltac:(lia)) as Hsh. replace (e + (z - e)) with z in Hsh by lia.
    assert (Hk : 0 < 2 ^ (z - e)) by (apply Z.pow_pos_nonneg; lia).
    set (k := 2 ^ (z - e)) in *. set (pz := 2 ^ Z.max 0 z) in *. set (qz := 2 ^ Z.max 0 (- z)) in *. set (p := 2 ^ Z.max 0 e) in *. set (q := 2 ^ Z.max 0 (- e)) in *.
    assert (Hm : c * k <= round_even (n * q) (d * p)).
    { apply round_even_ge; [nia|]. apply (Zmult_le_reg_r _ _ qz); [lia|].
      replace (n * q * qz) with ((n * qz) * q) by ring. replace (c * k * (d * p) * qz) with (c * d * (k * p * qz)) by ring. rewrite <- Hsh.
      replace (c * d * (pz * q)) with ((c * pz * d) * q) by ring. apply Z.mul_le_mono_nonneg_r; lia. }
    set (m := round_even (n * q) (d * p)) in *. clearbody m.
    apply Z.le_trans with ((c * k) * p * qz); [|apply Z.mul_le_mono_nonneg_r; [lia|]; apply Z.mul_le_mono_nonneg_r; lia].
    replace (c * k * p * qz) with (c * (k * p * qz)) by ring. rewrite <- Hsh. nia.
  - pose proof (pow_shift z (e - z) ltac:(lia)) as Hsh. replace (z + (e - z)) with e in Hsh by lia.
    assert (Hk : 2 <= 2 ^ (e - z)) by (change 2 with (2 ^ 1) at 1; apply Z.pow_le_mono_r; lia).
    set (k := 2 ^ (e - z)) in *. set (pz := 2 ^ Z.max 0 z) in *. set (qz := 2 ^ Z.max 0 (- z)) in *. set (p := 2 ^ Z.max 0 e) in *. set (q := 2 ^ Z.max 0 (- e)) in *.
    change (2 ^ 24) with (2 * 2 ^ 23) in *.
    assert (Hm : 2 ^ 23 <= round_even (n * q) (d * p)) by (apply round_even_ge; [nia|]; lia).
    set (m := round_even (n * q) (d * p)) in *. assert (HP : 0 < 2 ^ 23) by reflexivity. set (P := 2 ^ 23) in *. clearbody P k pz qz p q m.
    (* c pz q <= 2 P pz q <= P k pz q = P p qz <= m p qz *)
    assert (H0 : 0 < pz * q) by nia.
    assert (H1 : c * (pz * q) <= 2 * P * (pz * q)) by (apply Z.mul_le_mono_nonneg_r; lia).
    assert (H2 : 2 * (P * (pz * q)) <= k * (P * (pz * q))) by (apply Z.mul_le_mono_nonneg_r; nia).
    assert (H3 : P * (p * qz) <= m * (p * qz)) by (apply Z.mul_le_mono_nonneg_r; nia).
    replace (m * p * qz) with (m * (p * qz)) by ring. apply Z.le_trans with (P * (p * qz)); [|exact H3]. rewrite Hsh. nia.
Qed.

(** Conversions of the quotient of a size by a max load factor to an integer are defined. *)
Lemma trunc_ok : forall n mlf, 0 <= n < 2 ^ 59 -> 0 < fst mlf -> 0 < snd mlf -> snd mlf <= 16 * fst mlf ->
  exists m, f32_trunc (f32_div (f32_of n) mlf) = Ok m /\ 0 <= m.
Proof.
  intros n mlf Hn Hp Hq Hpq. unfold f32_div, f32_of. pose proof (f32_pos n 1 ltac:(lia) ltac:(lia)) as (Ha & Hb). pose proof (f32_rel n 1 ltac:(lia) ltac:(lia)) as Hr.
  set (x := f32 (n, 1)) in *. destruct mlf as (p, q). cbn [fst snd] in *.
  pose proof (f32_pos (fst x * q) (snd x * p) ltac:(nia) ltac:(nia)) as (Hc & Hd). pose proof (f32_rel (fst x * q) (snd x * p) ltac:(nia) ltac:(nia)) as Hr2.
  set (y := f32 (fst x * q, snd x * p)) in *. unfold f32_trunc. exists (fst y / snd y).
  assert (Hlt : fst y / snd y < two64).
  { apply Z.div_lt_upper_bound; [lia|]. unfold two64.
    clearbody y. clearbody x. destruct x as (a, b), y as (c, d). cbn [fst snd] in *.
    (* a 2^23 <= n b (2^23+1); c b p 2^23 <= a q d (2^23+1) *)
    assert (H1 : a * 2 ^ 23 < b * (2 ^ 59 * (2 ^ 23 + 1))).
    { apply Z.le_lt_trans with (n * b * (2 ^ 23 + 1)); [lia|]. replace (n * b * (2 ^ 23 + 1)) with (n * (b * (2 ^ 23 + 1))) by ring.
      replace (b * (2 ^ 59 * (2 ^ 23 + 1))) with (2 ^ 59 * (b * (2 ^ 23 + 1))) by ring. apply Z.mul_lt_mono_pos_r; [|lia]. nia. }
    assert (H2 : c * (b * p * 2 ^ 23) * 2 ^ 23 <= (a * 2 ^ 23) * (16 * p * d * (2 ^ 23 + 1))).
    { apply Z.le_trans with (a * q * d * (2 ^ 23 + 1) * 2 ^ 23); [nia|].
      replace (a * q * d * (2 ^ 23 + 1) * 2 ^ 23) with (a * d * (2 ^ 23 + 1) * 2 ^ 23 * q) by ring.
      replace (a * 2 ^ 23 * (16 * p * d * (2 ^ 23 + 1))) with (a * d * (2 ^ 23 + 1) * 2 ^ 23 * (16 * p)) by ring.
      apply Z.mul_le_mono_nonneg_l; [|lia]. assert (0 <= a * d) by nia. nia. }
    assert (Hpd : 0 < 16 * p * d * (2 ^ 23 + 1)) by (assert (0 < p * d) by nia; nia).
    assert (H3 : c * (b * p * 2 ^ 23) * 2 ^ 23 < b * (2 ^ 59 * (2 ^ 23 + 1)) * (16 * p * d * (2 ^ 23 + 1))).
    { apply Z.le_lt_trans with ((a * 2 ^ 23) * (16 * p * d * (2 ^ 23 + 1))); [exact H2|]. apply Z.mul_lt_mono_pos_r; assumption. }
    assert (Hbp : 0 < b * p) by nia.
    apply (Zmult_lt_reg_r _ _ (b * p * 2 ^ 23 * 2 ^ 23)); [nia|].
    replace (c * (b * p * 2 ^ 23 * 2 ^ 23)) with (c * (b * p * 2 ^ 23) * 2 ^ 23) by ring.
    apply Z.lt_le_trans with (1 := H3).
    replace (b * (2 ^ 59 * (2 ^ 23 + 1)) * (16 * p * d * (2 ^ 23 + 1))) with ((b * p * d) * (2 ^ 59 * (2 ^ 23 + 1) * (16 * (2 ^ 23 + 1)))) by ring.
    replace (d * 2 ^ 64 * (b * p * 2 ^ 23 * 2 ^ 23)) with ((b * p * d) * (2 ^ 64 * 2 ^ 23 * 2 ^ 23)) by ring.
    apply Z.mul_le_mono_nonneg_l; [nia|]. vm_compute. discriminate. }
  destruct (Z.ltb_spec (fst y / snd y) two64); [|lia]. split; [reflexivity|]. apply Z.div_pos; lia.
Qed.
