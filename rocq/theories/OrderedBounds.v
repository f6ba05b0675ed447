(** When calls on the ordered tables throw. *)
From Coq Require Import ZArith List Bool Lia Permutation.
From Verif Require Import Base BaseLemmas Bits MapSpec SwissModel SwissInv SwissRoom SwissRun SwissRefine LinkModel SwissOrderedSpec SwissOrdered SwissOrderedRun BoundsSpec SwissBounds.
From Verif Require SwissOrderedWorld SwissOrderedProofs WrapSwissOrdered OrderedWorld OrderedRefine OrderedFinal.
From Verif Require Float32 DenseSpec DenseModel DenseRun DenseInv DenseOps DenseMono DenseBounds OrderedSpec OrderedDense OrderedRun.
Import ListNotations.
Open Scope Z_scope.

Section Sparse.
Context {E K : Type}.
Variable f : simd.
Variable sz : Z.
Variable key_of : E -> K.
Variable hash : K -> Z.
Variable keq : K -> K -> bool.
Variable rep : E -> E -> E.
Local Notation wf := (wf f key_of hash keq).
Local Notation zexec := (zexec f sz key_of hash keq rep).
Hypothesis KL : key_laws hash keq.

Lemma s_emplace_throw : forall v ctor h (s : oswiss E) hint hh e h' s', wf (os_t s) -> env_ok (sv_e v) ->
  s_emplace_node f sz v ctor h s hint hh e = Ok (h', s', None) -> ctor = false \/ ev_lim (sv_e v) < slots f (s_size (os_t s)).
Proof.
  intros v ctor h s hint hh e h' s' W Hv H. unfold s_emplace_node in H.
  destruct (make_room f (ev_lim (sv_e v)) (os_t s) hh) as [[t1 o]|] eqn:E1; [|discriminate]. cbn [bind] in H.
  destruct (make_room_caps f key_of hash keq KL _ _ _ _ _ W Hv E1) as [_ Ho]. destruct o as [[p tr]|]; [|right; apply Ho; reflexivity].
  destruct ctor; [|left; reflexivity]. exfalso. DenseMono.bstep H. destruct a as [h1 s1]. cbn [negb] in H. DenseMono.binv H. discriminate.
Qed.

Lemma s_resized_throw : forall v h (s : oswiss E) x h' s', s_resized sz v h s x = Ok (h', s', None) -> snd x = None.
Proof. intros v h s [t o] h' s' H. unfold s_resized in H. destruct o as [tr|]; [|reflexivity]. DenseMono.bstep H. discriminate. Qed.

Lemma z_erased_quiet : forall (x : heap * oswiss E * Z) b hs', z_erased sz x b = Ok (hs', RThrow) -> False.
Proof. intros [[h s] a] b hs' H. unfold z_erased in H. DenseMono.bstep H. discriminate. Qed.


Lemma zexec_throw : forall v h (s : oswiss E) c hs', wf (os_t s) -> env_ok (sv_e v) -> zcall_ok c -> zexec v (h, s) c = Ok (hs', RThrow) ->
  (zconstructs key_of keq (elems (os_t s)) c /\ ev_ctor (sv_e v) = false) \/ ev_lim (sv_e v) < slots f (zdemand (size (os_t s)) c).
Proof.
  intros v h s c hs' W Hv Hc H. unfold size. destruct c as [e|e|k|i|i j|pred|k|k| | | |n|n| | |]; cbn [SwissOrderedRun.zexec zconstructs zdemand zcall_ok] in *;
    try (DenseMono.binv H; discriminate);
    try (exfalso; repeat DenseMono.bstep H; apply z_erased_quiet in H; exact H).
  - destruct (s_do_insert f sz key_of hash keq v h s 0 e) as [[[h1 s1] o]|] eqn:E1; [|discriminate]. cbn [bind z_give] in H.
    destruct o as [[a b]|]; [DenseMono.bstep H; discriminate|]. unfold s_do_insert in E1.
    destruct (find_located f key_of hash keq KL (os_t s) (key_of e) W) as (p & Ep & Hp). rewrite Ep in E1. cbn [bind] in E1.
    destruct (p =? s_cap (os_t s)) eqn:Eq; [|discriminate]. apply Z.eqb_eq in Eq.
    destruct Hp as [(x & hx & _ & Hx & _)|(_ & Habs)]; [lia|].
    destruct (s_emplace_node f sz v (ev_ctor (sv_e v)) h s 0 (hash (key_of e)) e) as [[[h2 s2] o2]|] eqn:E2; [|discriminate]. cbn [bind] in E1.
    destruct o2; [discriminate|]. destruct (s_emplace_throw _ _ _ _ _ _ _ _ _ W Hv E2); auto.
  - destruct (s_do_insert_or_assign f sz key_of hash keq rep v h s 0 e) as [[[h1 s1] o]|] eqn:E1; [|discriminate]. cbn [bind z_give] in H.
    destruct o as [[a b]|]; [DenseMono.bstep H; discriminate|]. unfold s_do_insert_or_assign in E1.
    destruct (find_located f key_of hash keq KL (os_t s) (key_of e) W) as (p & Ep & Hp). rewrite Ep in E1. cbn [bind] in E1.
    destruct (p =? s_cap (os_t s)) eqn:Eq; [|DenseMono.bstep E1; discriminate]. apply Z.eqb_eq in Eq.
    destruct Hp as [(x & hx & _ & Hx & _)|(_ & Habs)]; [lia|].
    destruct (s_emplace_node f sz v (ev_ctor (sv_e v)) h s 0 (hash (key_of e)) e) as [[[h2 s2] o2]|] eqn:E2; [|discriminate]. cbn [bind] in E1.
    destruct o2; [discriminate|]. destruct (s_emplace_throw _ _ _ _ _ _ _ _ _ W Hv E2); auto.
  - unfold s_reserve in H. destruct (reserve f (ev_lim (sv_e v)) (os_t s) n) as [[t o]|] eqn:E1; [|discriminate]. cbn [bind] in H.
    destruct (s_resized sz v h s (t, o)) as [[[h1 s1] o1]|] eqn:E2; [|discriminate]. cbn [bind z_unit] in H. destruct o1; [discriminate|].
    apply s_resized_throw in E2. cbn [snd] in E2. destruct (reserve_cap f key_of hash keq KL _ _ _ _ _ W Hv Hc E1) as [_ Ho].
    specialize (Ho E2). right. unfold slots. lia.
  - unfold s_rehash in H. destruct (rehash f (ev_lim (sv_e v)) (os_t s) n) as [[t o]|] eqn:E1; [|discriminate]. cbn [bind] in H.
    destruct (s_resized sz v h s (t, o)) as [[[h1 s1] o1]|] eqn:E2; [|discriminate]. cbn [bind z_unit] in H. destruct o1; [discriminate|].
    apply s_resized_throw in E2. cbn [snd] in E2. destruct (rehash_cap f key_of hash keq KL _ _ _ _ _ W Hv Hc E1) as [_ Ho].
    specialize (Ho E2). right. unfold slots. lia.
Qed.

Lemma zexec_throw_list : forall clone pocca pocma, 0 < sz ->
  (forall a b, keq (key_of a) (key_of b) = true -> key_of (rep a b) = key_of a) -> (forall e, key_of (clone e) = key_of e) ->
  forall w i l v c hs', SwissOrderedWorld.xoccurs f sz key_of hash keq rep clone pocca pocma w -> env_ok (sv_e v) -> zcall_ok c ->
  s_iterate sz (SwissOrderedWorld.xw_m w) (SwissOrderedWorld.xw_c w i) = Ok l -> zexec v (SwissOrderedWorld.xw_m w, SwissOrderedWorld.xw_c w i) c = Ok (hs', RThrow) ->
  (zconstructs key_of keq l c /\ ev_ctor (sv_e v) = false) \/ ev_lim (sv_e v) < slots f (zdemand (Z.of_nat (length l)) c).
Proof.
  intros clone pocca pocma Hsz R C w i l v c hs' Ho Hv Hc Hl H.
  destruct (WrapSwissOrdered.inv_of f sz key_of hash keq rep clone pocca pocma Hsz KL R C w i Ho) as (ord & Hi & He). rewrite He in Hl. injection Hl as <-.
  pose proof (SwissOrderedProofs.zi_perm f sz key_of hash keq _ _ _ Hi) as Hp. pose proof (SwissOrderedProofs.zi_wf _ _ _ _ _ _ _ _ Hi) as W.
  destruct (zexec_throw _ _ _ _ _ W Hv Hc H) as [(A & B)|A].
  - left. split; [|exact B]. destruct c; cbn [zconstructs] in *; try exact A; intros x Hx; apply A; apply (Permutation_in _ Hp Hx).
  - right. rewrite (Permutation_length Hp). unfold size in A. rewrite (proj1 (wf_size f key_of hash keq _ W)) in A. exact A.
Qed.
End Sparse.

Section Dense.
Import Float32 DenseSpec DenseModel DenseRun DenseInv DenseMono DenseBounds OrderedSpec OrderedDense OrderedRun.
Context {E K : Type}.
Variable sz : Z.
Variable nk : nat.
Variable key_of : nat -> E -> K.
Variable hash : K -> Z.
Variable keq : K -> K -> bool.
Variable rep : E -> E -> E.
Local Notation dwf := (dwf nk key_of hash keq).
Local Notation oexec := (oexec sz nk key_of hash keq rep).
Variable lp lq : Z.
Hypothesis Hlp : 0 < lp.
Hypothesis Hlq : 0 < lq.
Hypothesis Hlpq : lp <= 3 * lq.
Local Notation loaded := (loaded lp lq).

(** The ordered growth does to the table what the unordered growth does. *)
Lemma o_resize_table : forall v h (s : odense E) cap h1 s1 o, o_resize_data sz v h s cap = Ok (h1, s1, o) ->
  resize_data (dv_dlim (ov_d v)) (o_d s) cap = Ok (o_d s1, o).
Proof.
  intros v h s cap h1 s1 o H. unfold o_resize_data in H. destruct (resize_data (dv_dlim (ov_d v)) (o_d s) cap) as [[d1 o1]|] eqn:E1; [|discriminate]. cbn [bind] in H.
  destruct o1 as [[]|]; [|injection H as <- <- <-; reflexivity]. do 2 bstep H. injection H as <- <- <-. reflexivity.
Qed.
Lemma o_room_table : forall v h (s : odense E) hint h1 s1 hint1 o, o_make_room sz nk v h s hint = Ok (h1, s1, hint1, o) ->
  make_room nk (dv_dlim (ov_d v)) (dv_slim (ov_d v)) (o_d s) = Ok (o_d s1, o).
Proof.
  intros v h s hint h1 s1 hint1 o H. unfold o_make_room in H. unfold make_room.
  destruct (o_maybe_resize sz v h s hint) as [[[[h2 s2] hint2] o2]|] eqn:E1; [|discriminate]. cbn [bind] in H.
  assert (Hr : maybe_resize (dv_dlim (ov_d v)) (o_d s) = Ok (o_d s2, o2)).
  { unfold o_maybe_resize in E1. unfold maybe_resize. destruct (d_cap (o_d s) =? d_size (o_d s)); [|injection E1 as <- <- <- <-; reflexivity].
    destruct (o_resize_data sz v h s _) as [[[h3 s3] o3]|] eqn:E2; [|discriminate]. cbn [bind] in E1. injection E1 as <- <- <- <-. exact (o_resize_table _ _ _ _ _ _ _ E2). }
  rewrite Hr. cbn [bind]. destruct o2 as [u|]; [|injection H as <- <- <- <-; reflexivity].
  destruct (maybe_rehash nk (dv_slim (ov_d v)) (o_d s2)) as [[d3 o3]|] eqn:E3; [|discriminate]. cbn [bind] in H. injection H as <- <- <- <-. reflexivity.
Qed.
Lemma o_reserve_table : forall v h (s : odense E) n h1 s1 o, o_reserve sz nk v h s n = Ok (h1, s1, o) ->
  reserve nk (dv_dlim (ov_d v)) (dv_slim (ov_d v)) (o_d s) n = Ok (o_d s1, o).
Proof.
  intros v h s n h1 s1 o H. unfold o_reserve in H. unfold reserve.
  destruct (if d_cap (o_d s) <? n then o_resize_data sz v h s n else Ok (h, s, Some tt)) as [[[h2 s2] o2]|] eqn:E1; [|discriminate]. cbn [bind] in H.
  assert (Hr : (if d_cap (o_d s) <? n then resize_data (dv_dlim (ov_d v)) (o_d s) n else Ok (o_d s, Some tt)) = Ok (o_d s2, o2)).
  { destruct (d_cap (o_d s) <? n); [exact (o_resize_table _ _ _ _ _ _ _ E1)|injection E1 as <- <- <-; reflexivity]. }
  rewrite Hr. cbn [bind]. destruct o2 as [u|]; [|injection H as <- <- <-; reflexivity]. bstep H. cbn [bind].
  destruct (rehash nk (dv_slim (ov_d v)) (o_d s2) a) as [[d3 o3]|] eqn:E3; [|discriminate]. cbn [bind] in H. injection H as <- <- <-. reflexivity.
Qed.

Lemma o_emplace_quiet : forall h (s : odense E) hint sl hs e h' s', o_emplace_node sz true h s hint sl hs e = Ok (h', s', None) -> False.
Proof.
  intros h s hint sl hs e h' s' H. unfold o_emplace_node in H. bstep H. destruct a as [d1 o]. unfold push_node in Eb. bstep Eb. injection Eb as <- <-.
  cbn iota beta in H. bstep H. destruct a0 as [h2 s2]. discriminate.
Qed.
Lemma o_give_throw : forall (x : heap * odense E * o_result) hs', o_give sz x = Ok (hs', QThrow) -> snd x = None.
Proof. intros [[h s] o] hs' H. unfold o_give in H. destruct o as [[a b]|]; [|reflexivity]. bstep H. destruct a0; discriminate. Qed.


Lemma oexec_throw : forall v h (s : odense E) c hs', dwf (o_d s) -> denv_ok (ov_d v) -> ocall_ok nk c -> loaded (o_d s) -> oexec v (h, s) c = Ok (hs', QThrow) ->
  dv_dlim (ov_d v) < nodes_for (odemand (size (o_d s)) c) \/ exists b, buckets_for lp lq (odemand (size (o_d s)) c) b /\ dv_slim (ov_d v) < b.
Proof.
  intros v h s c hs' W Hv Hc Hl H. pose proof (w_size _ _ _ _ _ W) as Hsz. unfold size.
  assert (Hroom : forall t, make_room nk (dv_dlim (ov_d v)) (dv_slim (ov_d v)) (o_d s) = Ok (t, None) ->
    dv_dlim (ov_d v) < nodes_for (d_size (o_d s)) \/ exists b, buckets_for lp lq (d_size (o_d s)) b /\ dv_slim (ov_d v) < b).
  { intros t Ht. apply (make_room_caps nk key_of hash keq lp lq Hlp Hlq _ _ _ _ _ (d_size (o_d s)) W (proj1 Hv) Hl (Z.le_refl _) Ht). reflexivity. }
  destruct c; cbn [OrderedRun.oexec odemand ocall_ok] in *; try (binv H; discriminate).
  - destruct (o_do_insert sz nk key_of hash keq v true h s 0 e) as [[[h1 s1] o]|] eqn:E1; [|discriminate]. cbn [bind] in H. apply o_give_throw in H. cbn [snd] in H. subst o.
    unfold o_do_insert in E1. destruct (o_make_room sz nk v h s 0) as [[[[h2 s2] hint2] o2]|] eqn:E2; [|discriminate]. cbn [bind] in E1. apply o_room_table in E2.
    destruct o2 as [u|]; [|exact (Hroom _ E2)]. exfalso. do 2 bstep E1. destruct a0 as [i|]; [discriminate|]. do 2 bstep E1. destruct a1 as [[h3 s3] o3]. destruct o3; [discriminate|].
    exact (o_emplace_quiet _ _ _ _ _ _ _ _ Eb2).
  - destruct (o_do_emplace sz nk key_of hash keq v true h s 0 e) as [[[h1 s1] o]|] eqn:E1; [|discriminate]. cbn [bind] in H. apply o_give_throw in H. cbn [snd] in H. subst o.
    unfold o_do_emplace in E1. destruct (o_make_room sz nk v h s 0) as [[[[h2 s2] hint2] o2]|] eqn:E2; [|discriminate]. cbn [bind] in E1. apply o_room_table in E2.
    destruct o2 as [u|]; [|exact (Hroom _ E2)]. exfalso. bstep E1. destruct a as [d3 o3]. unfold push_node in Eb. bstep Eb. injection Eb as <- <-. do 3 bstep E1.
    destruct a2 as [i|]; [bstep E1; discriminate|]. do 2 bstep E1. destruct a3 as [h4 s4]. discriminate.
  - destruct (o_do_insert_or_assign sz nk key_of hash keq rep v true h s 0 e) as [[[h1 s1] o]|] eqn:E1; [|discriminate]. cbn [bind] in H. apply o_give_throw in H. cbn [snd] in H. subst o.
    unfold o_do_insert_or_assign in E1. destruct (o_make_room sz nk v h s 0) as [[[[h2 s2] hint2] o2]|] eqn:E2; [|discriminate]. cbn [bind] in E1. apply o_room_table in E2.
    destruct o2 as [u|]; [|exact (Hroom _ E2)]. exfalso. bstep E1. destruct a as [i op]. bstep E1. destruct a.
    + do 2 bstep E1. destruct a0 as [[h3 s3] o3]. destruct o3; [discriminate|]. exact (o_emplace_quiet _ _ _ _ _ _ _ _ Eb2).
    + do 2 bstep E1. discriminate.
  - destruct (o_reserve sz nk v h s n) as [[[h1 s1] o]|] eqn:E1; [|discriminate]. cbn [bind o_unit] in H. destruct o; [discriminate|]. apply o_reserve_table in E1.
    destruct (reserve_caps nk key_of hash keq lp lq Hlp Hlq _ _ _ _ _ _ (Z.max (d_size (o_d s)) n) W (proj1 Hv) Hl (proj1 Hc) ltac:(lia) ltac:(lia) E1) as (_ & _ & _ & Ho).
    destruct (Ho eq_refl) as [Hx|Hx]; [left; unfold nodes_for; lia|right; exact Hx].
  - destruct (rehash nk (dv_slim (ov_d v)) (o_d s) n) as [[d1 o]|] eqn:E1; [|discriminate]. cbn [bind o_unit fst snd] in H. destruct o; [discriminate|].
    assert (Hn : buckets_for lp lq (Z.max (d_size (o_d s)) n) n) by (right; nia).
    destruct (rehash_caps nk key_of hash keq lp lq Hlp Hlq _ _ _ _ (Z.max (d_size (o_d s)) n) _ W Hl ltac:(lia) ltac:(lia) Hn E1) as (_ & _ & _ & Ho). right. apply Ho. reflexivity.
Qed.

Lemma oexec_throw_list : forall clone pocca pocma, 0 < sz -> key_laws hash keq ->
  (forall x e, key_of 0%nat (rep x e) = key_of 0%nat x) -> (forall j e, (j < nk)%nat -> key_of j (clone e) = key_of j e) ->
  forall hw i l v c hs', OrderedWorld.yoccurs sz nk key_of hash keq rep clone pocca pocma hw -> denv_ok (ov_d v) -> ocall_ok nk c -> loaded (o_d (snd hw i)) ->
  o_iterate sz (fst hw) (snd hw i) = Ok l -> oexec v (fst hw, snd hw i) c = Ok (hs', QThrow) ->
  dv_dlim (ov_d v) < nodes_for (odemand (Z.of_nat (length l)) c) \/ exists b, buckets_for lp lq (odemand (Z.of_nat (length l)) c) b /\ dv_slim (ov_d v) < b.
Proof.
  intros clone pocca pocma Hsz KL R C hw i l v c hs' Ho Hv Hc Hld Hl H.
  destruct (OrderedFinal.occurs_oinv sz nk key_of hash keq rep clone pocca pocma Hsz KL R C hw i Ho) as (ord & Hi & He). rewrite He in Hl. injection Hl as <-.
  rewrite (OrderedRefine.inv_len sz nk key_of hash keq _ _ _ Hi). exact (oexec_throw _ _ _ _ _ (proj1 Hi) Hv Hc Hld H).
Qed.
End Dense.
