(** reserve on dense tables: how many insertions fit before the next change of the arrays. *)
From Coq Require Import ZArith List Bool Lia.
From Verif Require Import Base BaseLemmas MapSpec Float32 Float32Facts DenseSpec DenseWorldSpec DenseModel DenseRun DenseChain DenseInv DenseOps DenseEdit DenseErase DenseRefine DenseMore.
Import ListNotations.
Open Scope Z_scope.

(** ** Rounding near a midpoint. *)
Lemma round_even_lt_half : forall n d c, 0 < d -> 2 * n < (2 * c - 1) * d -> round_even n d <= c - 1.
Proof.
  intros n d c Hd H. unfold round_even. pose proof (Z.div_mod n d ltac:(lia)) as Hq. pose proof (Z.mod_pos_bound n d Hd) as Hr.
  assert (n / d <= c - 1) by nia. destruct (Z.ltb_spec (2 * (n mod d)) d); [lia|]. assert (n / d <> c - 1) by (intros He; rewrite He in Hq; nia).
  destruct (Z.ltb_spec d (2 * (n mod d))); [lia|]. destruct (Z.even (n / d)); lia.
Qed.
Lemma round_even_gt_half : forall n d c, 0 < d -> (2 * c - 1) * d < 2 * n -> c <= round_even n d.
Proof.
  intros n d c Hd H. unfold round_even. pose proof (Z.div_mod n d ltac:(lia)) as Hq. pose proof (Z.mod_pos_bound n d Hd) as Hr.
  assert (c - 1 <= n / d) by nia. assert (n / d = c - 1 -> d < 2 * (n mod d)) by (intros He; rewrite He in Hq; nia).
  destruct (Z.ltb_spec (2 * (n mod d)) d); [lia|]. destruct (Z.ltb_spec d (2 * (n mod d))); [lia|]. destruct (Z.even (n / d)); lia.
Qed.
Lemma round_even_tie : forall n d c, 0 < d -> 2 * n = (2 * c - 1) * d -> Z.even c = true -> round_even n d = c.
Proof.
  intros n d c Hd H He. assert (Hc : n / d = c - 1) by (symmetry; apply (Z.div_unique_pos n d (c - 1) (n - d * (c - 1))); nia).
  assert (Hm : 2 * (n mod d) = d) by (pose proof (Z.div_mod n d ltac:(lia)); nia). unfold round_even. rewrite Hc.
  destruct (Z.ltb_spec (2 * (n mod d)) d); [lia|]. destruct (Z.ltb_spec d (2 * (n mod d))); [lia|].
  assert (Ho : Z.even (c - 1) = false) by (rewrite Z.even_sub, He; reflexivity). rewrite Ho. lia.
Qed.

(** The exponent is determined by the interval. *)
Lemma f32_exp_unique : forall n d z, 0 < n -> 0 < d ->
  2 ^ 23 * (d * 2 ^ Z.max 0 z) <= n * 2 ^ Z.max 0 (- z) < 2 ^ 24 * (d * 2 ^ Z.max 0 z) -> f32_exp n d = z.
Proof.
  intros n d z Hn Hd Hz. pose proof (f32_exp_spec n d Hn Hd) as Hs. cbn zeta in Hs. set (e := f32_exp n d) in *. clearbody e.
  pose proof (pow_split z) as (Hpz & Hqz). pose proof (pow_split e) as (Hp & Hq).
  assert (Hgen : forall a b, a < b -> 2 ^ 23 * (d * 2 ^ Z.max 0 b) <= n * 2 ^ Z.max 0 (- b) -> n * 2 ^ Z.max 0 (- a) < 2 ^ 24 * (d * 2 ^ Z.max 0 a) -> False).
  { intros a b Hab H1 H2. pose proof (pow_shift a (b - a) ltac:(lia)) as Hsh. replace (a + (b - a)) with b in Hsh by lia.
    assert (Hk : 2 <= 2 ^ (b - a)) by (change 2 with (2 ^ 1) at 1; apply Z.pow_le_mono_r; lia).
    pose proof (pow_split a) as (Hpa & Hqa). pose proof (pow_split b) as (Hpb & Hqb).
    set (k := 2 ^ (b - a)) in *. set (pa := 2 ^ Z.max 0 a) in *. set (qa := 2 ^ Z.max 0 (- a)) in *. set (pb := 2 ^ Z.max 0 b) in *. set (qb := 2 ^ Z.max 0 (- b)) in *.
    change (2 ^ 24) with (2 * 2 ^ 23) in *. assert (HP : 0 < 2 ^ 23) by reflexivity. set (P := 2 ^ 23) in *. clearbody P k pa qa pb qb.
    assert (h1 : P * (d * pb) * qa <= n * qb * qa) by (apply Z.mul_le_mono_nonneg_r; lia).
    assert (h2 : n * qa * qb < 2 * P * (d * pa) * qb) by (apply Z.mul_lt_mono_pos_r; lia).
    assert (h3 : P * (d * pb) * qa = P * d * (k * pa * qb)) by (rewrite <- Hsh; ring).
    assert (h4 : 2 * (P * d * (pa * qb)) <= k * (P * d * (pa * qb))).
    { apply Z.mul_le_mono_nonneg_r; [|lia]. assert (0 < P * d) by nia. assert (0 < pa * qb) by nia. nia. }
    nia. }
  destruct (Z.lt_trichotomy e z) as [H|[H|H]]; [|exact H|]; exfalso.
  - exact (Hgen e z H (proj1 Hz) (proj2 Hs)).
  - exact (Hgen z e H (proj1 Hs) (proj2 Hz)).
Qed.

(** A value below the midpoint of c-1 and c (times 2^z) does not round up to c. *)
Lemma f32_lt_half : forall n d c z, 0 < n -> 0 < d -> 2 ^ 23 < c < 2 ^ 24 ->
  2 * (n * 2 ^ Z.max 0 (- z)) < (2 * c - 1) * (d * 2 ^ Z.max 0 z) ->
  fst (f32 (n, d)) * 2 ^ Z.max 0 (- z) <= (c - 1) * 2 ^ Z.max 0 z * snd (f32 (n, d)).
Proof.
  intros n d c z Hn Hd Hc H. destruct (Z_le_gt_dec (n * 2 ^ Z.max 0 (- z)) ((c - 1) * 2 ^ Z.max 0 z * d)) as [Hle|Hgt]; [apply f32_le; lia|].
  pose proof (pow_split z) as (Hpz & Hqz). unfold f32. destruct (Z.eqb_spec n 0) as [|_]; [lia|]. cbn [fst snd].
  rewrite (f32_exp_unique n d z Hn Hd).
  - set (pz := 2 ^ Z.max 0 z) in *. set (qz := 2 ^ Z.max 0 (- z)) in *. pose proof (round_even_lt_half (n * qz) (d * pz) c ltac:(nia) H). clearbody pz qz. nia.
  - set (pz := 2 ^ Z.max 0 z) in *. set (qz := 2 ^ Z.max 0 (- z)) in *. clearbody pz qz. assert (0 < d * pz) by nia. change (2 ^ 24) with 16777216 in *. change (2 ^ 23) with 8388608 in *. split; nia.
Qed.
(** A value above the midpoint rounds to at least c. *)
Lemma f32_gt_half : forall n d c z, 0 < n -> 0 < d -> 2 ^ 23 < c < 2 ^ 24 ->
  (2 * c - 1) * (d * 2 ^ Z.max 0 z) < 2 * (n * 2 ^ Z.max 0 (- z)) ->
  c * 2 ^ Z.max 0 z * snd (f32 (n, d)) <= fst (f32 (n, d)) * 2 ^ Z.max 0 (- z).
Proof.
  intros n d c z Hn Hd Hc H. destruct (Z_le_gt_dec (c * 2 ^ Z.max 0 z * d) (n * 2 ^ Z.max 0 (- z))) as [Hle|Hgt]; [apply f32_ge; lia|].
  pose proof (pow_split z) as (Hpz & Hqz). unfold f32. destruct (Z.eqb_spec n 0) as [|_]; [lia|]. cbn [fst snd].
  rewrite (f32_exp_unique n d z Hn Hd).
  - set (pz := 2 ^ Z.max 0 z) in *. set (qz := 2 ^ Z.max 0 (- z)) in *. pose proof (round_even_gt_half (n * qz) (d * pz) c ltac:(nia) H). clearbody pz qz. nia.
  - set (pz := 2 ^ Z.max 0 z) in *. set (qz := 2 ^ Z.max 0 (- z)) in *. clearbody pz qz. assert (0 < d * pz) by nia. change (2 ^ 24) with 16777216 in *. change (2 ^ 23) with 8388608 in *. split; nia.
Qed.

(** Integers below 2^24 are represented exactly. *)
Lemma f32_of_small : forall k, 0 <= k < 2 ^ 24 -> fst (f32_of k) = k * snd (f32_of k) /\ 0 < snd (f32_of k).
Proof.
  intros k Hk. unfold f32_of. pose proof (f32_pos k 1 ltac:(lia) ltac:(lia)) as [_ Hs]. split; [|exact Hs].
  destruct (Z.eq_dec k 0) as [->|Hne]; [reflexivity|].
  pose proof (f32_le k 1 k 0 ltac:(lia) ltac:(lia) Hk) as H1. pose proof (f32_ge k 1 k 0 ltac:(lia) ltac:(lia) Hk) as H2.
  change (2 ^ Z.max 0 (- 0)) with 1 in *. change (2 ^ Z.max 0 0) with 1 in *. lia.
Qed.

(** ** The load factor test. *)
(** With max load factor 7/8: [k] elements in at least [m] buckets do not trigger a rehash
    if k / m stays clear of 7/8 by more than half a unit in the last place. *)
Lemma not_overloaded : forall E (s : dense E) m, d_mlf s = (7, 8) -> 0 <= d_size s < 2 ^ 24 -> 0 < m -> 0 < d_bc s ->
  m * snd (f32_of (d_bc s)) <= fst (f32_of (d_bc s)) -> m < (7 * m - 8 * d_size s) * 2 ^ 22 -> overloaded s = false.
Proof.
  intros E s m Hq Hk Hm Hb HB Hg. unfold overloaded, rle. rewrite Hq. apply Z.leb_gt. unfold f32_div.
  destruct (f32_of_small (d_size s) Hk) as [Ha Ha']. set (a := f32_of (d_size s)) in *.
  pose proof (f32_pos (d_bc s) 1 ltac:(lia) ltac:(lia)) as [Hb1 Hb2]. fold (f32_of (d_bc s)) in Hb1, Hb2. set (b := f32_of (d_bc s)) in *.
  assert (Hfb : 0 < fst b) by nia.
  destruct (Z.eq_dec (d_size s) 0) as [H0|H0]; [rewrite Ha, H0; cbn; lia|].
  assert (HN : 0 < fst a * snd b) by (rewrite Ha; apply Z.mul_pos_pos; [apply Z.mul_pos_pos|]; lia).
  assert (HD : 0 < snd a * fst b) by (apply Z.mul_pos_pos; lia).
  pose proof (f32_lt_half (fst a * snd b) (snd a * fst b) 14680064 (-24) HN HD) as H.
  change (2 ^ Z.max 0 (- -24)) with 16777216 in H. change (2 ^ Z.max 0 (-24)) with 1 in H.
  specialize (H ltac:(split; reflexivity)).
  assert (Hx : 2 * (fst a * snd b * 16777216) < (2 * 14680064 - 1) * (snd a * fst b * 1)).
  { rewrite Ha. clearbody a b. assert (H1 : 33554432 * d_size s < 29360127 * m) by (change (2 ^ 22) with 4194304 in Hg; lia).
    set (k := d_size s) in *. assert (H2 : m * (snd a * snd b) <= snd a * fst b) by nia. assert (H3 : 0 < snd a * snd b) by nia.
    set (w := snd a * snd b) in *. replace (k * snd a * snd b) with (k * w) by (unfold w; ring). clearbody w. nia. }
  specialize (H Hx). cbn [fst snd]. pose proof (f32_pos (fst a * snd b) (snd a * fst b) ltac:(lia) HD) as [_ Hs]. lia.
Qed.

(** The bucket count reserve(n) asks for. *)
Lemma reserve_buckets : forall n m, 0 < n -> 8 * n < 7 * 2 ^ 24 -> f32_trunc (f32_div (f32_of n) (7, 8)) = Ok m ->
  exists m', 0 < m' <= m /\ m' < 2 ^ 24 /\ m' < (7 * m' - 8 * (n - 1)) * 2 ^ 22.
Proof.
  intros n m Hn Hlt Ht. unfold f32_trunc in Ht. destruct (f32_of_small n ltac:(lia)) as [Ha Ha']. unfold f32_div in Ht. cbn [fst snd] in Ht. set (a := f32_of n) in *. clearbody a.
  assert (HN : 0 < fst a * 8) by nia. assert (HD : 0 < snd a * 7) by lia.
  pose proof (f32_pos (fst a * 8) (snd a * 7) ltac:(lia) HD) as [_ Hs]. set (y := f32 (fst a * 8, snd a * 7)) in *.
  destruct (Z.ltb (fst y / snd y) two64); [|discriminate]. injection Ht as Ht.
  assert (Hge : forall c, 0 < c -> c * snd y <= fst y -> c <= m) by (intros c Hc Hcy; rewrite <- Ht; apply Z.div_le_lower_bound; lia).
  destruct (Z_lt_le_dec (8 * n) (7 * 2 ^ 23)) as [Hsm|Hbig].
  - exists (8 * n / 7). pose proof (Z.div_mod (8 * n) 7 ltac:(lia)) as Hdm. pose proof (Z.mod_pos_bound (8 * n) 7 ltac:(lia)) as Hr. set (q := 8 * n / 7) in *.
    assert (Hq : 0 < q < 2 ^ 23) by lia. split; [split; [lia|]|split; [lia|change (2 ^ 22) with 4194304; lia]].
    apply Hge; [lia|]. pose proof (f32_ge (fst a * 8) (snd a * 7) q 0 HN HD ltac:(lia)) as H. fold y in H.
    change (2 ^ Z.max 0 (- 0)) with 1 in *. change (2 ^ Z.max 0 0) with 1 in *. rewrite !Z.mul_1_r in H. apply H. rewrite Ha. clearbody q. nia.
  - exists ((8 * n + 3) / 7). pose proof (Z.div_mod (8 * n + 3) 7 ltac:(lia)) as Hdm. pose proof (Z.mod_pos_bound (8 * n + 3) 7 ltac:(lia)) as Hr. set (q := (8 * n + 3) / 7) in *.
    assert (Hq : 2 ^ 23 <= q < 2 ^ 24) by lia. split; [split; [lia|]|split; [lia|change (2 ^ 22) with 4194304; lia]].
    apply Hge; [lia|]. destruct (Z_le_gt_dec (7 * q) (8 * n)) as [Hle|Hgt].
    + pose proof (f32_ge (fst a * 8) (snd a * 7) q 0 HN HD ltac:(lia)) as H. fold y in H.
      change (2 ^ Z.max 0 (- 0)) with 1 in *. change (2 ^ Z.max 0 0) with 1 in *. rewrite !Z.mul_1_r in H. apply H. rewrite Ha. clearbody q. nia.
    + pose proof (f32_gt_half (fst a * 8) (snd a * 7) q 0 HN HD ltac:(lia)) as H. fold y in H.
      change (2 ^ Z.max 0 (- 0)) with 1 in *. change (2 ^ Z.max 0 0) with 1 in *. rewrite !Z.mul_1_r in H. apply H. rewrite Ha. clearbody q. nia.
Qed.

Section Reserve.
Context {E K : Type}.
Variable nk : nat.
Variable key_of : nat -> E -> K.
Variable hash : K -> Z.
Variable keq : K -> K -> bool.
Hypothesis KL : key_laws hash keq.
Notation dense := (dense E).
Notation dwf := (dwf nk key_of hash keq).

Lemma room_quiet : forall dlim slim (s : dense), d_size s < d_cap s -> 0 < d_bc s -> overloaded s = false -> make_room nk dlim slim s = Ok (s, Some tt).
Proof.
  intros dlim slim s Hc Hb Ho. unfold make_room, maybe_resize. destruct (Z.eqb_spec (d_cap s) (d_size s)); [lia|]. cbn [bind].
  unfold maybe_rehash. destruct (Z.eqb_spec (d_bc s) 0); [lia|]. rewrite Ho. reflexivity.
Qed.

(** What an insertion does after room has been made. *)
Lemma insert_after_room : forall dlim slim (s s1 : dense) e, make_room nk dlim slim s = Ok (s1, Some tt) -> dwf s1 -> d_size s1 < d_cap s1 -> 0 < d_bc s1 ->
  exists s' p b, do_insert nk key_of hash keq dlim slim true s e = Ok (s', Some (p, b)) /\ dwf s' /\ (exists n, d_nodes s' p = Some n) /\
    d_bc s' = d_bc s1 /\ d_cap s' = d_cap s1 /\ d_mlf s' = d_mlf s1 /\
    ((b = true /\ dnew nk key_of keq e (delems s1) /\ delems s' = delems s1 ++ [e] /\ d_size s' = d_size s1 + 1) \/ (b = false /\ s' = s1 /\ exists x, dclash nk key_of keq e (delems s1) x)).
Proof.
  intros dlim slim s0 s e Hroom W Hcap Hbc. unfold do_insert. rewrite Hroom. cbn [bind].
  destruct (wf_lookup nk key_of hash keq (fun a _ => a) KL s e W Hbc) as (xs & Hxs & Hcase). rewrite Hxs. cbn [bind]. destruct Hcase as [(i & n & Hc & Hn & Hcl)|(Hc & Hno & sl & Hsl & Hm & Hfree)]; rewrite Hc; cbn [bind].
  - exists s, i, false. split; [reflexivity|]. split; [exact W|]. split; [exists n; exact Hn|]. do 3 (split; [reflexivity|]). right. split; [reflexivity|]. split; [reflexivity|]. exists (n_val n). exact Hcl.
  - rewrite Hsl. cbn [bind]. unfold emplace_node. rewrite (push_node_ok nk key_of hash keq s e W Hcap). cbn [bind].
    destruct (commit_ok nk key_of hash keq KL s e sl W Hcap Hbc) as (s2 & n & Hcm & W2 & Hn & Hv & Hde2 & Hs2 & Hc2 & Hb2 & Hq2).
    + intros j Hj. apply Hno. apply js_in. exact Hj.
    + exact Hm.
    + intros j p Hjp. apply pushed_free. apply Hfree. exact Hjp.
    + rewrite Hcm. cbn [bind]. exists s2, (d_size s), true. split; [reflexivity|]. split; [exact W2|]. split; [exists n; exact Hn|]. do 3 (split; [assumption|]). left.
      split; [reflexivity|]. split; [apply (new_of nk key_of hash keq); assumption|]. split; [exact Hde2|exact Hs2].
Qed.

Variable rep : E -> E -> E.
Notation drun := (drun nk key_of hash keq rep).
Notation dexec := (dexec nk key_of hash keq rep).
Notation dappended := (dappended nk key_of keq).
Definition inserts (v : denv) (es : list E) : list (denv * dcall E K) := map (fun e => (v, DInsert e)) es.

(** Insertions while the load factor stays clear of the limit. *)
Lemma fill_run : forall es v (s : dense) m, dwf s -> d_mlf s = (7, 8) -> 0 < m -> 0 < d_bc s -> m * snd (f32_of (d_bc s)) <= fst (f32_of (d_bc s)) ->
  d_size s + Z.of_nat (length es) <= d_cap s -> d_size s + Z.of_nat (length es) <= 2 ^ 24 ->
  m < (7 * m - 8 * (d_size s + Z.of_nat (length es) - 1)) * 2 ^ 22 ->
  exists s' rs, drun s (inserts v es) = Ok (s', rs) /\ dwf s' /\ d_bc s' = d_bc s /\ d_cap s' = d_cap s /\ d_mlf s' = (7, 8) /\ ~ In QThrow rs /\ dappended (delems s) es (delems s').
Proof.
  induction es as [|e es IH]; intros v s m W Hq Hm Hb HB Hc H24 Hg.
  - exists s, []. split; [reflexivity|]. split; [exact W|]. do 3 (split; [first [reflexivity|exact Hq]|]). split; [intros []|constructor].
  - cbn [length] in *. change (2 ^ 22) with 4194304 in Hg. change (2 ^ 24) with 16777216 in H24. pose proof (w_size _ _ _ _ _ W) as Hsz.
    assert (Ho : overloaded s = false) by (apply (not_overloaded E s m); auto; change (2 ^ 22) with 4194304; change (2 ^ 24) with 16777216; lia).
    destruct (insert_after_room (dv_dlim v) (dv_slim v) s s e (room_quiet _ _ s ltac:(lia) Hb Ho) W ltac:(lia) Hb) as (s1 & p & b & He & W1 & (n & Hn) & Hb1 & Hc1 & Hq1 & Hcase).
    assert (Hsz1 : d_size s1 <= d_size s + 1) by (destruct Hcase as [(_ & _ & _ & H)|(_ & -> & _)]; lia).
    destruct (IH v s1 m W1) as (s' & rs & Hr & W' & Hb' & Hc' & Hq' & Ht & Ha).
    + congruence.
    + exact Hm.
    + lia.
    + rewrite Hb1. exact HB.
    + lia.
    + change (2 ^ 24) with 16777216. lia.
    + change (2 ^ 22) with 4194304. lia.
    + exists s', (QInserted (n_val n) b :: rs). split.
      * cbn [inserts map DenseRun.drun DenseRun.dexec]. rewrite He. cbn [bind give_inserted]. rewrite (get_node_ok s1 p n (w_mem _ _ _ _ _ W1) Hn). cbn [bind].
        unfold inserts in Hr. rewrite Hr. reflexivity.
      * split; [exact W'|]. split; [congruence|]. split; [congruence|]. split; [exact Hq'|]. split; [intros [Hx|Hx]; [discriminate|contradiction]|].
        destruct Hcase as [(_ & Hnew & Hd & _)|(_ & -> & x & Hcl)].
        -- rewrite Hd in Ha. apply da_new; assumption.
        -- apply da_old; [apply (clash_not_new nk key_of keq e _ x Hcl)|exact Ha].
Qed.

(** After reserve(n), insertions up to n elements leave both arrays alone. *)
Lemma reserve_enough : forall v0 v n (s s1 : dense) es, dwf s -> d_mlf s = (7, 8) -> denv_ok v0 -> 0 <= n -> 8 * n < 7 * 2 ^ 24 ->
  dexec v0 s (DReserve n) = Ok (s1, QUnit) -> d_size s1 + Z.of_nat (length es) <= n ->
  exists s2 rs, drun s1 (inserts v es) = Ok (s2, rs) /\ d_bc s2 = d_bc s1 /\ d_cap s2 = d_cap s1 /\ ~ In QThrow rs /\ dappended (delems s) es (delems s2).
Proof.
  intros v0 v n s s1 es W Hq [Hdl Hsl] Hn H24 He Hes. cbn [DenseRun.dexec] in He.
  destruct (reserve_ok nk key_of hash keq (dv_dlim v0) (dv_slim v0) s n W Hdl Hsl ltac:(lia)) as (s1' & o & Hr & [Hel Hw] & Ho).
  rewrite Hr in He. cbn [bind give_unit] in He. destruct o as [u|]; [|discriminate]. injection He as ->.
  destruct (Ho ltac:(discriminate)) as (Hcap & Hq1 & Hbb & m & Hm & Hmb). rewrite Hq in Hm.
  pose proof (w_size _ _ _ _ _ Hw) as Hsz. pose proof (w_bc _ _ _ _ _ Hw) as Hbc.
  destruct es as [|e es].
  { exists s1, []. split; [reflexivity|]. do 2 (split; [reflexivity|]). split; [intros []|]. rewrite (delems_same s s1 Hel). constructor. }
  cbn [length] in Hes. destruct (reserve_buckets n m ltac:(lia) H24 Hm) as (m' & Hm1 & Hm2 & Hg).
  destruct (fill_run (e :: es) v s1 m' Hw) as (s2 & rs & H1 & _ & H3 & H4 & _ & H5 & H6).
  - congruence.
  - lia.
  - lia.
  - pose proof (f32_ge (d_bc s1) 1 m' 0 ltac:(lia) ltac:(lia) ltac:(lia)) as H. fold (f32_of (d_bc s1)) in H.
    change (2 ^ Z.max 0 (- 0)) with 1 in *. change (2 ^ Z.max 0 0) with 1 in *. rewrite !Z.mul_1_r in H. apply H. lia.
  - cbn [length]. lia.
  - cbn [length]. change (2 ^ 24) with 16777216 in *. lia.
  - cbn [length]. change (2 ^ 22) with 4194304 in *. lia.
  - exists s2, rs. split; [exact H1|]. split; [exact H3|]. split; [exact H4|]. split; [exact H5|]. rewrite <- (delems_same s s1 Hel). exact H6.
Qed.

(** The elements of a list with pairwise different keys are all appended. *)
Lemma appended_distinct : forall es l l', dappended l es l' -> (0 < nk)%nat -> ForallOrdPairs (fun a b => forall j, (j < nk)%nat -> keq (key_of j a) (key_of j b) = false) es ->
  (forall x e, In x l -> In e es -> forall j, (j < nk)%nat -> keq (key_of j x) (key_of j e) = false) -> l' = l ++ es.
Proof.
  induction es as [|e es IH]; intros l l' Ha Hnk Hd Hl; inversion Ha as [|? ? ? ? Hn Ha'|? ? ? ? Hn Ha']; subst.
  - rewrite app_nil_r. reflexivity.
  - inversion Hd as [|? ? Hf Hd']; subst. rewrite (IH (l ++ [e]) l' Ha' Hnk Hd'); [rewrite <- app_assoc; reflexivity|].
    intros x y Hx Hy j Hj. apply in_app_or in Hx. destruct Hx as [Hx|[<-|[]]]; [apply Hl; auto; right; exact Hy|].
    rewrite Forall_forall in Hf. apply Hf; assumption.
  - exfalso. apply Hn. intros j Hj x Hx. apply Hl; auto. left. reflexivity.
Qed.
End Reserve.
