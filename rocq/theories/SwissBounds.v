(** When calls on the unordered open-addressing table throw, and how large its array grows. *)
From Coq Require Import ZArith List Bool Lia Permutation.
From Coq Require Import ZifyBool ZifyNat.
From Verif Require Import Base BaseLemmas Bits BitsProofs SwissModel SwissArith SwissCap SwissInv SwissOps SwissClean
  SwissIter SwissRoom MapSpec SwissRun SwissRefine BoundsSpec.
Import ListNotations.
Open Scope Z_scope.

Section Bounds.
Context {E K : Type}.
Variable f : simd.
Variable key_of : E -> K.
Variable hash : K -> Z.
Variable keq : K -> K -> bool.
Local Notation swiss := (@swiss E).
Local Notation wf1 := (wf1 f key_of hash keq).
Local Notation wf := (wf f key_of hash keq).
Local Notation W := (SwissModel.W f).
Local Notation max_of := (capacity_to_max_size f).
Hypothesis KL : key_laws hash keq.

Local Notation slots := (slots f).

Lemma W_cases : W = 8 \/ W = 16.
Proof. destruct f; cbn; auto. Qed.

Lemma small_cap : forall c, good_cap c -> c <= W -> c <= W - 1.
Proof.
  intros c (k & Hk & ->) Hc. destruct W_cases as [HW|HW]; rewrite HW in *.
  - destruct (Z_le_dec k 3); [assert (2 ^ k <= 2 ^ 3) by (apply Z.pow_le_mono_r; lia); lia|].
    assert (2 ^ 4 <= 2 ^ k) by (apply Z.pow_le_mono_r; lia). lia.
  - destruct (Z_le_dec k 4); [assert (2 ^ k <= 2 ^ 4) by (apply Z.pow_le_mono_r; lia); lia|].
    assert (2 ^ 5 <= 2 ^ k) by (apply Z.pow_le_mono_r; lia). lia.
Qed.

Lemma do_rehash_cap : forall lim (s s' : swiss) c o, wf s -> lim < 2 ^ 59 -> (c < 2 ^ 59 -> good_cap c /\ s_size s <= max_of c) ->
  do_rehash f lim s c = Ok (s', o) ->
  (o = None /\ s' = s /\ lim < c) \/ (o <> None /\ s_cap s' = c).
Proof.
  intros lim s s' c o H Hl Hc E0. destruct (do_rehash_resized f key_of hash keq KL lim s c H Hl Hc) as (s1 & o1 & E1 & R1 & C1 & N1).
  rewrite E0 in E1. injection E1 as <- <-. destruct o as [tr|]; [right; split; [discriminate|apply C1; discriminate]|].
  left. split; [reflexivity|]. split; [exact R1|auto].
Qed.

Lemma make_room_caps : forall lim (s s' : swiss) h o, wf s -> lim < 2 ^ 59 -> make_room f lim s h = Ok (s', o) ->
  s_cap s' <= Z.max (s_cap s) (slots (s_size s)) /\ (o = None -> s' = s /\ lim < slots (s_size s)).
Proof.
  intros lim s s' h o H Hl E0. pose proof (wf_size f key_of hash keq s H) as [Hsz Hszm]. unfold make_room in E0. unfold BoundsSpec.slots.
  pose proof W_cases as HW.
  destruct (Z.eqb_spec (s_cap s) 0) as [C0|C0].
  - assert (Hsz0 : s_size s = 0).
    { rewrite C0 in Hszm. pose proof (max_size_bounds f 0 ltac:(lia)). lia. }
    destruct (do_rehash f lim s 1) as [[s1 o1]|] eqn:E1; [|discriminate]. cbn [bind] in E0.
    pose proof (max_size_pos f 1 good_cap_1).
    destruct (do_rehash_cap lim s s1 1 o1 H Hl ltac:(intros; split; [exact good_cap_1|lia]) E1) as [(-> & -> & Hlt)|(Hn & Hc1)].
    + injection E0 as <- <-. split; [lia|]. intros _. split; [reflexivity|lia].
    + destruct o1 as [tr|]; [|congruence]. destruct (find_available f s1 h) as [p|]; [|discriminate]. cbn [bind] in E0.
      injection E0 as <- <-. split; [lia|discriminate].
  - assert (H1 : wf1 s) by (destruct H as [H|H]; [destruct C0; apply (w0_cap s H)|exact H]).
    pose proof (w_m _ _ _ _ s H1) as M. pose proof (cap_bounds f s M) as Hcb.
    destruct (find_available f s h) as [p|]; [|discriminate]. cbn [bind] in E0.
    destruct (get_meta f s p) as [tm|]; [|discriminate]. cbn [bind] in E0.
    destruct ((s_nempty s =? 0) && negb (tm =? m_deleted)) eqn:Eb.
    + rewrite (mul64_small (s_size s)), (mul64_small (s_cap s)) in E0 by (pose proof (max_size_bounds f (s_cap s) ltac:(lia)); rewrite two64_val; lia).
      destruct ((W <? s_cap s) && (s_size s * 32 <=? s_cap s * 25)) eqn:Ec.
      * destruct (rehash_deleted_ok f key_of hash keq KL s H1 ltac:(lia) ltac:(lia))
          as (s1 & tr & E1 & W1 & C1 & _). rewrite E1 in E0. cbn [bind fst snd] in E0.
        destruct (find_available f s1 h) as [q|]; [|discriminate]. cbn [bind] in E0. injection E0 as <- <-. split; [lia|discriminate].
      * assert (Eq : sub64 (mul64 (add64 (s_cap s) 1) 2) 1 = 2 * s_cap s + 1).
        { rewrite add64_small, mul64_small, sub64_small by (rewrite ?two64_val; lia). lia. }
        rewrite Eq in E0.
        assert (Hb : 2 * s_cap s + 1 <= Z.max (2 * W - 1) (3 * s_size s)).
        { destruct (Z_le_dec (s_cap s) W) as [Hw|Hw]; [pose proof (small_cap (s_cap s) (mw_cap f s M) Hw); lia|]. lia. }
        destruct (do_rehash f lim s (2 * s_cap s + 1)) as [[s1 o1]|] eqn:E1; [|discriminate]. cbn [bind] in E0.
        destruct (do_rehash_cap lim s s1 (2 * s_cap s + 1) o1 H Hl) as [(-> & -> & Hlt)|(Hn & Hc1)]; [|exact E1| |].
        -- intros Hlt. destruct (good_cap_double (s_cap s) (mw_cap f s M) ltac:(lia)) as [_ Hg].
           pose proof (max_size_double f (s_cap s) (mw_cap f s M)). split; [exact Hg|lia].
        -- injection E0 as <- <-. split; [lia|]. intros _. split; [reflexivity|lia].
        -- destruct o1 as [tr|]; [|congruence]. destruct (find_available f s1 h) as [q|]; [|discriminate]. cbn [bind] in E0.
           injection E0 as <- <-. split; [lia|discriminate].
    + injection E0 as <- <-. split; [lia|discriminate].
Qed.

Lemma put_node_cap : forall (s s' : swiss) i n, put_node s i n = Ok s' -> s_cap s' = s_cap s /\ s_size s' = s_size s.
Proof.
  intros s s' i n E0. unfold put_node in E0. destruct (check_buf s); [|discriminate]. cbn [bind] in E0.
  destruct (guard _ _); [|discriminate]. cbn [bind] in E0. destruct (s_nodes s i); [discriminate|]. injection E0 as <-. auto.
Qed.
Lemma put_meta_cap : forall (s s' : swiss) i n, put_meta f s i n = Ok s' -> s_cap s' = s_cap s /\ s_size s' = s_size s.
Proof.
  intros s s' i n E0. unfold put_meta in E0. destruct (check_buf s); [|discriminate]. cbn [bind] in E0.
  destruct (guard _ _); [|discriminate]. cbn [bind] in E0. injection E0 as <-. auto.
Qed.
Lemma set_metadata_cap : forall (s s' : swiss) i n, set_metadata f s i n = Ok s' -> s_cap s' = s_cap s /\ s_size s' = s_size s.
Proof.
  intros s s' i n E0. unfold set_metadata in E0. destruct (put_meta f s _ n) as [s1|] eqn:E1; [|discriminate]. cbn [bind] in E0.
  destruct (put_meta_cap _ _ _ _ E1). destruct (put_meta_cap _ _ _ _ E0). split; congruence.
Qed.

Lemma emplace_caps : forall lim ok (s s' : swiss) h e o, wf s -> lim < 2 ^ 59 -> emplace_node f lim ok s h e = Ok (s', o) ->
  s_cap s' <= Z.max (s_cap s) (slots (s_size s)) /\ (o = None -> ok = false \/ lim < slots (s_size s)).
Proof.
  intros lim ok s s' h e o H Hl E0. unfold emplace_node in E0.
  destruct (make_room f lim s h) as [[s1 o1]|] eqn:E1; [|discriminate]. cbn [bind] in E0.
  destruct (make_room_caps lim s s1 h o1 H Hl E1) as [Hc Ho]. destruct o1 as [[p tr]|].
  - destruct ok; cbn [negb] in E0; [|injection E0 as <- <-; auto].
    destruct (put_node s1 p (e, h)) as [s2|] eqn:E2; [|discriminate]. cbn [bind] in E0.
    destruct (get_meta f s2 p) as [tm|]; [|discriminate]. cbn [bind] in E0. cbv zeta in E0.
    destruct (set_metadata f _ p _) as [s4|] eqn:E4; [|discriminate]. cbn [bind] in E0. injection E0 as <- <-.
    destruct (put_node_cap _ _ _ _ E2) as [C2 _]. destruct (set_metadata_cap _ _ _ _ E4) as [C4 _]. cbn [s_cap set_size set_nempty] in *.
    split; [lia|discriminate].
  - injection E0 as <- <-. split; [exact Hc|]. intros _. right. apply Ho. reflexivity.
Qed.

(** The capacity chosen for n elements. *)
Lemma align_tight : forall m k, 1 <= m -> 1 <= k -> m <= 2 ^ k - 1 -> (forall j, 1 <= j -> m <= 2 ^ j - 1 -> k <= j) -> 2 ^ k - 1 <= 2 * m - 1.
Proof.
  intros m k Hm Hk Hmk Hmin. destruct (Z.eq_dec k 1) as [->|Hk1]; [change (2 ^ 1) with 2; lia|].
  destruct (Z_le_dec m (2 ^ (k - 1) - 1)) as [Hle|Hgt]; [specialize (Hmin (k - 1) ltac:(lia) Hle); lia|].
  replace k with (1 + (k - 1)) by lia. rewrite Z.pow_add_r by lia. change (2 ^ 1) with 2. lia.
Qed.

Lemma min_capacity_tight : forall n, 1 <= n < 2 ^ 62 -> 2 * size_to_min_capacity f n - 1 <= 3 * n.
Proof.
  intros n Hn. rewrite size_to_min_capacity_pos by exact Hn.
  assert (7 * ((n - 1) / 7) <= n - 1) by (apply Z.mul_div_le; lia).
  destruct ((W =? 8) && (n =? 7)) eqn:Eb; lia.
Qed.

Lemma lor_same_width : forall a b k, 0 <= a -> 0 <= b -> 0 <= k -> a <= 2 ^ k - 1 -> b <= 2 ^ k - 1 -> Z.lor a b <= 2 ^ k - 1.
Proof. intros a b k Ha Hb Hk H1 H2. pose proof (lor_bounds a b k Hk ltac:(lia) ltac:(lia)). lia. Qed.

Lemma reserve_cap : forall lim (s s' : swiss) n o, wf s -> lim < 2 ^ 59 -> 0 <= n < two64 -> reserve f lim s n = Ok (s', o) ->
  s_cap s' <= Z.max (s_cap s) (3 * n) /\ (o = None -> lim < 3 * n).
Proof.
  intros lim s s' n o H Hl Hn E0. pose proof (wf_size f key_of hash keq s H) as [Hsz Hb].
  pose proof (wf_cap_nonneg f key_of hash keq s H) as Hc. pose proof (max_size_bounds f (s_cap s) ltac:(lia)) as Hmb.
  unfold reserve in E0.
  assert (Hne : 0 <= s_nempty s < 2 ^ 59).
  { destruct H as [H|H]; [apply (w0_nempty s H)|]. pose proof (wf1_nempty f key_of hash keq s H). lia. }
  rewrite add64_small in E0 by (rewrite two64_val; lia).
  destruct (Z.ltb_spec (s_size s + s_nempty s) n) as [Hlt|Hge]; [|injection E0 as <- <-; split; [lia|discriminate]].
  destruct (Z_lt_dec n (2 ^ 62)) as [Hs|Hs].
  - pose proof (min_capacity_bound f n ltac:(lia)) as Hmc. pose proof (min_capacity_tight n ltac:(lia)) as Ht.
    destruct (align_capacity_spec (size_to_min_capacity f n) ltac:(lia)) as (k & Ek & Hk & Hk2 & Hmin). rewrite Ek in E0. cbn [bind] in E0.
    pose proof (align_tight (size_to_min_capacity f n) k ltac:(lia) ltac:(lia) Hk2 Hmin).
    pose proof (max_size_sufficient f n (2 ^ k - 1) ltac:(lia) Hk2) as Hsuf.
    destruct (do_rehash_cap lim s s' (2 ^ k - 1) o H Hl) as [(-> & -> & Hx)|(Hx & Hc')]; [|exact E0|split; [lia|intros; lia]|split; [lia|congruence]].
    intros Hll. split; [apply good_cap_of_pow; lia|lia].
  - destruct (align_capacity_huge _ (size_to_min_capacity_huge f n ltac:(lia))) as (c & Ek & Hc59). rewrite Ek in E0. cbn [bind] in E0.
    destruct (do_rehash_cap lim s s' c o H Hl ltac:(lia) E0) as [(-> & -> & Hx)|(Hx & Hc')]; [split; [lia|intros; lia]|].
    exfalso. unfold do_rehash in E0. destruct (Z.ltb_spec lim c); [|lia]. injection E0 as <- <-. congruence.
Qed.

Lemma rehash_cap : forall lim (s s' : swiss) n o, wf s -> lim < 2 ^ 59 -> 0 < n < two64 -> rehash f lim s n = Ok (s', o) ->
  s_cap s' <= Z.max (s_cap s) (3 * n) /\ (o = None -> lim < 3 * n).
Proof.
  intros lim s s' n o H Hl Hn E0. pose proof (wf_size f key_of hash keq s H) as [Hsz Hb].
  pose proof (wf_cap_nonneg f key_of hash keq s H) as Hc. unfold rehash in E0.
  destruct (Z.eqb_spec n 0); [lia|]. cbn [andb orb] in E0.
  destruct (Z_lt_dec n (2 ^ 62)) as [Hs|Hs].
  - pose proof (min_capacity_bound f n ltac:(lia)) as Hmc. pose proof (min_capacity_tight n ltac:(lia)) as Ht.
    pose proof (lor_bounds n (size_to_min_capacity f n) 63 ltac:(lia) ltac:(lia) ltac:(lia)) as Hlor.
    destruct (align_capacity_spec (Z.lor n (size_to_min_capacity f n)) ltac:(lia)) as (k & Ek & Hk & Hk2 & Hmin). rewrite Ek in E0. cbn [bind] in E0.
    assert (Hmin' : forall j, 1 <= j -> size_to_min_capacity f n <= 2 ^ j - 1 -> k <= j).
    { intros j Hj Hle. apply Hmin; [exact Hj|]. apply lor_same_width; lia. }
    pose proof (align_tight (size_to_min_capacity f n) k ltac:(lia) ltac:(lia) ltac:(lia) Hmin').
    pose proof (max_size_sufficient f n (2 ^ k - 1) ltac:(lia) ltac:(lia)) as Hsuf.
    destruct (Z.ltb_spec (s_cap s) (2 ^ k - 1)) as [Hg|Hg]; [|injection E0 as <- <-; split; [lia|discriminate]].
    destruct (do_rehash_cap lim s s' (2 ^ k - 1) o H Hl) as [(-> & -> & Hx)|(Hx & Hc')]; [|exact E0|split; [lia|intros; lia]|split; [lia|congruence]].
    intros Hll. split; [apply good_cap_of_pow; lia|].
    pose proof (max_size_mono f (s_cap s) (2 ^ k - 1) ltac:(lia)). lia.
  - pose proof (size_to_min_capacity_huge f n ltac:(lia)) as Hmc.
    pose proof (lor_bounds n (size_to_min_capacity f n) 64 ltac:(lia) ltac:(rewrite two64_val in *; lia) ltac:(rewrite two64_val in *; lia)) as Hlor.
    destruct (align_capacity_huge (Z.lor n (size_to_min_capacity f n)) ltac:(rewrite two64_val; lia)) as (c & Ek & Hc59). rewrite Ek in E0. cbn [bind] in E0.
    destruct (Z.ltb_spec (s_cap s) c); [|injection E0 as <- <-; split; [lia|discriminate]].
    destruct (do_rehash_cap lim s s' c o H Hl ltac:(lia) E0) as [(-> & -> & Hx)|(Hx & Hc')]; [split; [lia|intros; lia]|].
    exfalso. unfold do_rehash in E0. destruct (Z.ltb_spec lim c); [|lia]. injection E0 as <- <-. congruence.
Qed.

Variable rep : E -> E -> E.
Hypothesis Hrep : forall a b, keq (key_of a) (key_of b) = true -> key_of (rep a b) = key_of a.
Local Notation exec := (exec f key_of hash keq rep).
Local Notation run := (run f key_of hash keq rep).

Local Notation within := (within f key_of hash keq rep).

Lemma give_inserted_cap : forall (s s' : swiss) o r, give_inserted f (s, o) = Ok (s', r) -> s' = s /\ (r = RThrow -> o = None).
Proof.
  intros s s' o r E0. unfold give_inserted in E0. destruct o as [[[p b] tr]|]; [|injection E0 as <- <-; auto].
  destruct (to_iter f s p) as [q|]; [|discriminate]. cbn [bind] in E0. destruct (get_node s q) as [n|]; [|discriminate].
  cbn [bind] in E0. injection E0 as <- <-. split; [reflexivity|discriminate].
Qed.

Lemma exec_caps : forall v s c s' r, wf s -> env_ok v -> call_ok c -> exec v s c = Ok (s', r) ->
  s_cap s' <= Z.max (s_cap s) (slots (demand (s_size s) c)) /\
  (r = RThrow -> (constructs key_of keq (elems s) c /\ ev_ctor v = false) \/ ev_lim v < slots (demand (s_size s) c)).
Proof.
  intros v s c s' r H Hv Hc E0. pose proof (wf_size f key_of hash keq s H) as [Hsz _].
  assert (Hd : forall n, slots n >= 3 * n) by (intros n; unfold BoundsSpec.slots; lia).
  destruct c as [e|e|k|k|k| |n|n| |]; cbn [exec SwissRun.exec call_ok demand constructs] in *.
  - destruct (do_insert f key_of hash keq (ev_lim v) (ev_ctor v) s e) as [[s1 o1]|] eqn:E1; [|discriminate]. cbn [bind] in E0.
    destruct (give_inserted_cap _ _ _ _ E0) as [-> Hr]. clear E0. unfold do_insert in E1.
    destruct (find_located f key_of hash keq KL s (key_of e) H) as (p & Ep & Hp). rewrite Ep in E1. cbn [bind] in E1.
    destruct Hp as [(x & h & W1 & Hp & _)|(-> & Habs)].
    + destruct (Z.eqb_spec p (s_cap s)); [lia|]. injection E1 as <- <-. split; [lia|]. intros Ht. discriminate (Hr Ht).
    + rewrite Z.eqb_refl in E1. destruct (emplace_node _ _ _ _ _ _) as [[s2 o2]|] eqn:E2; [|discriminate]. cbn [bind] in E1.
      injection E1 as <- <-. destruct (emplace_caps _ _ _ _ _ _ _ H Hv E2) as [Hcap Ho]. split; [exact Hcap|].
      intros Ht. specialize (Hr Ht). destruct o2 as [[q tr]|]; [discriminate|]. destruct (Ho eq_refl); auto.
  - destruct (do_insert_or_assign f key_of hash keq rep (ev_lim v) (ev_ctor v) s e) as [[s1 o1]|] eqn:E1; [|discriminate]. cbn [bind] in E0.
    destruct (give_inserted_cap _ _ _ _ E0) as [-> Hr]. clear E0. unfold do_insert_or_assign in E1.
    destruct (find_located f key_of hash keq KL s (key_of e) H) as (p & Ep & Hp). rewrite Ep in E1. cbn [bind] in E1.
    destruct Hp as [(x & h & W1 & Hp & _ & Eg & _)|(-> & Habs)].
    + destruct (Z.eqb_spec p (s_cap s)); [lia|]. rewrite Eg in E1. cbn [bind] in E1. injection E1 as <- <-.
      cbn [s_cap]. split; [lia|]. intros Ht. discriminate (Hr Ht).
    + rewrite Z.eqb_refl in E1. destruct (emplace_node _ _ _ _ _ _) as [[s2 o2]|] eqn:E2; [|discriminate]. cbn [bind] in E1.
      injection E1 as <- <-. destruct (emplace_caps _ _ _ _ _ _ _ H Hv E2) as [Hcap Ho]. split; [exact Hcap|].
      intros Ht. specialize (Hr Ht). destruct o2 as [[q tr]|]; [discriminate|]. destruct (Ho eq_refl); auto.
  - destruct (erase_key f key_of hash keq s k) as [[[s1 p] b]|] eqn:E1; [|discriminate]. cbn [bind] in E0.
    destruct (deref f s1 p) as [d|]; [|discriminate]. cbn [bind] in E0. injection E0 as <- <-. split; [|discriminate].
    unfold erase_key in E1. destruct (find_located f key_of hash keq KL s k H) as (q & Eq & Hq). rewrite Eq in E1. cbn [bind] in E1.
    destruct Hq as [(x & h & W1 & Hq & En & _)|(-> & Habs)].
    + destruct (Z.eqb_spec q (s_cap s)); [lia|].
      destruct (do_erase_ok f key_of hash keq KL s q (x, h) W1 En) as [([s2 q2] & E2 & W' & C' & _)|(Hn & E2)]; rewrite E2 in E1; [|discriminate].
      cbn [bind] in E1. injection E1 as <- <- <-. lia.
    + rewrite Z.eqb_refl in E1. destruct (end_iter f s); [|discriminate]. cbn [bind] in E1. injection E1 as <- <- <-. lia.
  - destruct (find f key_of hash keq s k); [|discriminate]. cbn [bind] in E0. injection E0 as <- <-. split; [lia|discriminate].
  - destruct (contains f key_of hash keq s k); [|discriminate]. cbn [bind] in E0. injection E0 as <- <-. split; [lia|discriminate].
  - destruct (clear_ok f key_of hash keq s H) as (s1 & E1 & _ & _ & C' & _). rewrite E1 in E0. cbn [bind] in E0. injection E0 as <- <-.
    split; [lia|discriminate].
  - destruct (reserve f (ev_lim v) s n) as [[s1 o1]|] eqn:E1; [|discriminate]. cbn [bind give_unit] in E0. injection E0 as <- <-.
    destruct (reserve_cap _ _ _ _ _ H Hv Hc E1) as [Hcap Ho]. specialize (Hd n). split; [lia|]. destruct o1; [discriminate|]. intros _. specialize (Ho eq_refl). lia.
  - destruct (rehash f (ev_lim v) s n) as [[s1 o1]|] eqn:E1; [|discriminate]. cbn [bind give_unit] in E0. injection E0 as <- <-.
    destruct (rehash_cap _ _ _ _ _ H Hv Hc E1) as [Hcap Ho]. specialize (Hd n). split; [lia|]. destruct o1; [discriminate|]. intros _. specialize (Ho eq_refl). lia.
  - injection E0 as <- <-. split; [lia|discriminate].
  - destruct (iterate f s); [|discriminate]. cbn [bind] in E0. injection E0 as <- <-. split; [lia|discriminate].
Qed.

Lemma within_cons : forall m s v c h s1 r, within m s ((v, c) :: h) -> exec v s c = Ok (s1, r) -> within m s1 h.
Proof.
  intros m s v c h s1 r [Ha Hb] E0. split.
  - intros h1 h2 t rs -> E1. apply (Ha ((v, c) :: h1) h2 t (r :: rs)); [reflexivity|].
    cbn [run SwissRun.run]. rewrite E0. cbn [bind]. rewrite E1. reflexivity.
  - intros v' n Hin. apply (Hb v' n). destruct Hin; [left|right]; right; assumption.
Qed.

Lemma within_demand : forall m s v c h, 0 <= m -> within m s ((v, c) :: h) -> demand (s_size s) c <= m.
Proof.
  intros m s v c h Hm [Ha Hb]. pose proof (Ha [] ((v, c) :: h) s [] eq_refl eq_refl) as Hs. unfold size in Hs.
  destruct c as [e|e|k|k|k| |n|n| |]; cbn [demand]; try lia.
  - apply (Hb v n). left. left. reflexivity.
  - apply (Hb v n). right. left. reflexivity.
Qed.

Lemma slots_mono : forall a b, a <= b -> slots a <= slots b.
Proof. intros a b H. unfold BoundsSpec.slots. lia. Qed.

Lemma run_caps : forall m h s s' rs, 0 <= m -> wf s -> history_ok h -> within m s h -> run s h = Ok (s', rs) ->
  s_cap s' <= Z.max (s_cap s) (slots m).
Proof.
  intros m h. induction h as [|[v c] h IH]; intros s s' rs Hm H Hh Hw E0; cbn [run SwissRun.run] in E0.
  - injection E0 as <- <-. lia.
  - inversion Hh as [|? ? [Hv Hc] Hh']; subst. cbn [fst snd] in *.
    destruct (exec v s c) as [[s1 r]|] eqn:E1; [|discriminate]. cbn [bind] in E0.
    destruct (run s1 h) as [[s2 rs2]|] eqn:E2; [|discriminate]. cbn [bind] in E0. injection E0 as <- <-.
    destruct (exec_ok f key_of hash keq KL rep Hrep v s c H Hv Hc) as [(s1' & r' & E1' & Hk & _)|(_ & _ & E1')]; rewrite E1 in E1'; [|discriminate].
    injection E1' as <- <-. pose proof (IH s1 s2 rs2 Hm (proj1 Hk) Hh' (within_cons _ _ _ _ _ _ _ Hw E1) E2).
    destruct (exec_caps v s c s1 r H Hv Hc E1) as [Hcap _]. pose proof (slots_mono _ _ (within_demand _ _ _ _ _ Hm Hw)). lia.
Qed.

Lemma run_no_throw : forall m h s s' rs, 0 <= m -> wf s -> history_ok h -> within m s h ->
  (forall v c, In (v, c) h -> ev_ctor v = true /\ slots m <= ev_lim v) -> run s h = Ok (s', rs) -> ~ In RThrow rs.
Proof.
  intros m h. induction h as [|[v c] h IH]; intros s s' rs Hm H Hh Hw Hl E0; cbn [run SwissRun.run] in E0.
  - injection E0 as <- <-. intros [].
  - inversion Hh as [|? ? [Hv Hc] Hh']; subst. cbn [fst snd] in *.
    destruct (exec v s c) as [[s1 r]|] eqn:E1; [|discriminate]. cbn [bind] in E0.
    destruct (run s1 h) as [[s2 rs2]|] eqn:E2; [|discriminate]. cbn [bind] in E0. injection E0 as <- <-.
    destruct (exec_ok f key_of hash keq KL rep Hrep v s c H Hv Hc) as [(s1' & r' & E1' & Hk & _)|(_ & _ & E1')]; rewrite E1 in E1'; [|discriminate].
    injection E1' as <- <-. intros [->|Hin].
    + destruct (exec_caps v s c s1 RThrow H Hv Hc E1) as [_ Ht]. destruct (Hl v c (or_introl eq_refl)) as [Hok Hlim].
      pose proof (slots_mono _ _ (within_demand _ _ _ _ _ Hm Hw)). destruct (Ht eq_refl) as [[_ Hf]|Hf]; [congruence|lia].
    + revert Hin. apply (IH s1 s2 rs2 Hm (proj1 Hk) Hh' (within_cons _ _ _ _ _ _ _ Hw E1)); [|exact E2].
      intros v' c' Hin. apply (Hl v' c'). right. exact Hin.
Qed.

Lemma run_caps_empty : forall m h s' rs, 0 <= m -> history_ok h -> within m empty_swiss h -> run empty_swiss h = Ok (s', rs) ->
  bucket_count s' <= slots m.
Proof.
  intros m h s' rs Hm Hh Hw Hr. pose proof (run_caps m h empty_swiss s' rs Hm (proj1 (empty_inv f key_of hash keq)) Hh Hw Hr) as H.
  unfold bucket_count. cbn [empty_swiss s_cap] in H. unfold BoundsSpec.slots in *. pose proof W_cases. lia.
Qed.

End Bounds.
