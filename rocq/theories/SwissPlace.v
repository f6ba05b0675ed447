(** Where the elements of the unordered open-addressing table are stored, call by call. *)
From Coq Require Import ZArith List Bool Lia Permutation.
From Coq Require Import ZifyBool ZifyNat.
From Verif Require Import Base BaseLemmas Bits BitsProofs SwissModel SwissArith SwissCap SwissInv SwissOps SwissClean
  SwissIter SwissRoom MapSpec SwissRun SwissRefine BoundsSpec SwissBounds PlaceSpec.
Import ListNotations.
Open Scope Z_scope.

Section Place.
Context {E K : Type}.
Variable f : simd.
Variable key_of : E -> K.
Variable hash : K -> Z.
Variable keq : K -> K -> bool.
Local Notation swiss := (@swiss E).
Local Notation wf1 := (wf1 f key_of hash keq).
Local Notation wf := (wf f key_of hash keq).
Local Notation W := (SwissModel.W f).
Local Notation max_of := (capacity_to_max_size f).
Hypothesis KL : key_laws hash keq.
Variable rep : E -> E -> E.
Hypothesis Hrep : forall a b, keq (key_of a) (key_of b) = true -> key_of (rep a b) = key_of a.
Local Notation exec := (exec f key_of hash keq rep).
Local Notation run := (run f key_of hash keq rep).

(** From s to s' only the slots in P changed. *)
Definition unmoved (P : Z -> Prop) (s s' : swiss) : Prop := s_cap s' = s_cap s /\ forall i, ~ P i -> s_nodes s' i = s_nodes s i.

Lemma unmoved_refl : forall P s, unmoved P s s. Proof. split; auto. Qed.

Lemma put_meta_nodes : forall (s s' : swiss) i v, put_meta f s i v = Ok s' -> s_nodes s' = s_nodes s /\ s_nempty s' = s_nempty s.
Proof.
  intros s s' i v H. unfold put_meta in H. destruct (check_buf s); [|discriminate]. cbn [bind] in H.
  destruct (guard _ _); [|discriminate]. cbn [bind] in H. injection H as <-. auto.
Qed.
Lemma set_metadata_nodes : forall (s s' : swiss) i v, set_metadata f s i v = Ok s' -> s_nodes s' = s_nodes s /\ s_nempty s' = s_nempty s.
Proof.
  intros s s' i v H. unfold set_metadata in H. destruct (put_meta f s _ v) as [s1|] eqn:E1; [|discriminate]. cbn [bind] in H.
  destruct (put_meta_nodes _ _ _ _ E1). destruct (put_meta_nodes _ _ _ _ H). split; congruence.
Qed.

(** With an empty slot left nothing is rebuilt. *)
Lemma make_room_quiet : forall lim (s s' : swiss) h o, wf s -> s_cap s <> 0 -> 0 < s_nempty s -> make_room f lim s h = Ok (s', o) ->
  s' = s /\ exists p, o = Some (p, []).
Proof.
  intros lim s s' h o H C0 Hn E0. unfold make_room in E0.
  destruct (Z.eqb_spec (s_cap s) 0); [lia|].
  destruct (find_available f s h) as [p|]; [|discriminate]. cbn [bind] in E0.
  destruct (get_meta f s p) as [tm|]; [|discriminate]. cbn [bind] in E0.
  destruct (Z.eqb_spec (s_nempty s) 0); [lia|]. cbn [andb] in E0. injection E0 as <- <-. eauto.
Qed.

Lemma emplace_quiet : forall lim ok (s s' : swiss) h e o, wf s -> s_cap s <> 0 -> 0 < s_nempty s -> emplace_node f lim ok s h e = Ok (s', o) ->
  s_nempty s - 1 <= s_nempty s' /\ (o = None -> s' = s) /\
  (forall p tr, o = Some (p, tr) -> tr = [] /\ s_nodes s p = None /\ unmoved (fun i => i = p) s s').
Proof.
  intros lim ok s s' h e o H C0 Hn E0. unfold emplace_node in E0.
  destruct (make_room f lim s h) as [[s1 o1]|] eqn:E1; [|discriminate]. cbn [bind] in E0.
  destruct (make_room_quiet _ _ _ _ _ H C0 Hn E1) as (-> & p & ->).
  destruct ok; cbn [negb] in E0; [|injection E0 as <- <-; split; [lia|split; [auto|discriminate]]].
  destruct (put_node s p (e, h)) as [s2|] eqn:E2; [|discriminate]. cbn [bind] in E0.
  destruct (get_meta f s2 p) as [tm|]; [|discriminate]. cbn [bind] in E0. cbv zeta in E0.
  destruct (set_metadata f _ p _) as [s4|] eqn:E4; [|discriminate]. cbn [bind] in E0. injection E0 as <- <-.
  destruct (set_metadata_nodes _ _ _ _ E4) as [N4 M4]. destruct (set_metadata_cap _ _ _ _ _ E4) as [C4 _]. cbn [s_cap s_nodes s_nempty set_size set_nempty] in *.
  unfold put_node in E2. destruct (check_buf s); [|discriminate]. cbn [bind] in E2. destruct (guard _ _); [|discriminate]. cbn [bind] in E2.
  destruct (s_nodes s p) eqn:Ep; [discriminate|]. injection E2 as <-. cbn [s_cap s_nodes s_nempty] in *.
  assert (Hb : s_nempty s < two64).
  { destruct H as [H|H]; [pose proof (w0_nempty s H); rewrite two64_val; lia|]. pose proof (wf1_nempty f key_of hash keq s H).
    pose proof (cap_bounds f s (w_m _ _ _ _ s H)). pose proof (max_size_bounds f (s_cap s) ltac:(lia)). pose proof (wf1_size_max f key_of hash keq s H). rewrite two64_val. lia. }
  split.
  - rewrite M4. destruct (tm =? m_empty); rewrite sub64_small by lia; lia.
  - split; [discriminate|]. intros q tr Hq. injection Hq as <- <-. split; [reflexivity|]. split; [exact Ep|].
    split; [exact C4|]. intros i Hi. cbn [s_nodes set_size]. rewrite N4. rewrite upd_other by auto. reflexivity.
Qed.

Lemma do_erase_place : forall (s s' : swiss) p n q, wf1 s -> s_nodes s p = Some n -> do_erase f s p = Ok (s', q) ->
  unmoved (fun i => i = p) s s' /\ s_nempty s' = s_nempty s.
Proof.
  intros s s' p n q H Hp E0. unfold do_erase in E0. destruct (erase_node f s p) as [s1|] eqn:E1; [|discriminate]. cbn [bind] in E0.
  destruct (to_iter f s1 p); [|discriminate]. cbn [bind] in E0. destruct (kill_node s1 p) as [s2|] eqn:E2; [|discriminate]. cbn [bind] in E0.
  injection E0 as <- <-. unfold erase_node in E1. destruct (guard _ _); [|discriminate]. cbn [bind] in E1.
  destruct (get_meta f s p); [|discriminate]. cbn [bind] in E1. destruct (guard _ _); [|discriminate]. cbn [bind] in E1.
  destruct (set_metadata f s p m_deleted) as [t|] eqn:E3; [|discriminate]. cbn [bind] in E1. injection E1 as <-.
  destruct (set_metadata_nodes _ _ _ _ E3) as [N3 M3]. destruct (set_metadata_cap _ _ _ _ _ E3) as [C3 _].
  unfold kill_node in E2. destruct (get_node _ p); [|discriminate]. cbn [bind] in E2. injection E2 as <-.
  cbn [s_cap s_nodes s_nempty set_size]. split; [split; [exact C3|]|exact M3]. intros i Hi. cbn [s_nodes]. rewrite upd_other by auto. rewrite N3. reflexivity.
Qed.

(** What a call leaves of the element in slot p. *)
Definition in_place (c : call E K) (s s' : swiss) : Prop :=
  forall p e, holds s p e -> ~ drops keq (key_of e) c ->
    exists e', holds s' p e' /\ key_of e' = key_of e /\ (~ assigns key_of keq (key_of e) c -> e' = e).

Lemma unmoved_place : forall P c (s s' : swiss), unmoved P s s' -> (forall p e, holds s p e -> ~ drops keq (key_of e) c -> ~ P p) -> in_place c s s'.
Proof.
  intros P c s s' [C N] HP p e Hh Hd. specialize (HP p e Hh Hd). destruct Hh as [Hp [h Hh]]. exists e.
  split; [|auto]. split; [lia|]. exists h. rewrite N by exact HP. exact Hh.
Qed.

(** Each call either leaves every element where it is, or adds one to a table without empty
    slots (or fails to), or was told to resize. *)
Lemma exec_place : forall v s c s' r, wf s -> env_ok v -> call_ok c -> exec v s c = Ok (s', r) -> steady c ->
  (adds r = true -> s_cap s <> 0 /\ 0 < s_nempty s) ->
  s_cap s' = s_cap s /\ in_place c s s' /\ s_nempty s - (if adds r then 1 else 0) <= s_nempty s'.
Proof.
  intros v s c s' r H Hv Hc E0 Hst Hn.
  assert (Hid : s_cap s = s_cap s /\ in_place c s s /\ forall b : bool, s_nempty s - (if b then 1 else 0) <= s_nempty s).
  { split; [reflexivity|]. split; [|intros []; lia]. intros p e Hh _. exists e. auto. }
  assert (Hfresh : forall p e (s1 : swiss), s_nodes s p = None -> unmoved (fun i => i = p) s s1 -> in_place c s s1 /\ s_cap s1 = s_cap s /\ e = e :> E).
  { intros p e s1 Hp U. split; [|split; [apply U|reflexivity]]. apply (unmoved_place _ _ _ _ U). intros q x [_ [h Hq]] _ ->. congruence. }
  destruct c as [e|e|k|k|k| |n|n| |]; cbn [exec SwissRun.exec call_ok steady] in *; try contradiction.
  - destruct (do_insert f key_of hash keq (ev_lim v) (ev_ctor v) s e) as [[s1 o1]|] eqn:E1; [|discriminate]. cbn [bind] in E0.
    unfold do_insert in E1.
    destruct (find_located f key_of hash keq KL s (key_of e) H) as (p & Ep & Hp). rewrite Ep in E1. cbn [bind] in E1.
    destruct Hp as [(x & h & W1 & Hp & _)|(-> & Habs)].
    + destruct (Z.eqb_spec p (s_cap s)); [lia|]. injection E1 as <- <-. destruct (give_inserted_cap f _ _ _ _ E0) as [-> _].
      repeat split; try apply Hid.
    + rewrite Z.eqb_refl in E1. destruct (emplace_node _ _ _ _ _ _) as [[s2 o2]|] eqn:E2; [|discriminate]. cbn [bind] in E1.
      injection E1 as <- <-. destruct (give_inserted_cap f _ _ _ _ E0) as [-> _].
      assert (Ha : adds r = true).
      { destruct o2 as [[q tr]|]; cbn [give_inserted] in E0; [|injection E0 as <-; reflexivity].
        destruct (to_iter f s2 q); [|discriminate]. cbn [bind] in E0. destruct (get_node s2 _); [|discriminate]. cbn [bind] in E0. injection E0 as <-. reflexivity. }
      rewrite Ha. destruct (emplace_quiet _ _ _ _ _ _ _ H (proj1 (Hn Ha)) (proj2 (Hn Ha)) E2) as (Hle & Hno & Hsome).
      destruct o2 as [[q tr]|]; [|rewrite (Hno eq_refl); split; [reflexivity|]; split; [apply Hid|lia]].
      destruct (Hsome q tr eq_refl) as (_ & Hq & U). destruct (Hfresh q e s2 Hq U) as (Hpl & Hcap & _). auto.
  - destruct (do_insert_or_assign f key_of hash keq rep (ev_lim v) (ev_ctor v) s e) as [[s1 o1]|] eqn:E1; [|discriminate]. cbn [bind] in E0.
    unfold do_insert_or_assign in E1.
    destruct (find_located f key_of hash keq KL s (key_of e) H) as (p & Ep & Hp). rewrite Ep in E1. cbn [bind] in E1.
    destruct Hp as [(x & h & W1 & Hp & En & Eg & _ & _ & Hk)|(-> & Habs)].
    + destruct (Z.eqb_spec p (s_cap s)); [lia|]. rewrite Eg in E1. cbn [bind fst snd] in E1. injection E1 as <- <-.
      destruct (give_inserted_cap f _ _ _ _ E0) as [-> _]. cbn [s_cap s_nempty]. split; [reflexivity|]. split; [|destruct (adds r); lia].
      intros q y [Hq [h' Hy]] _. unfold holds. cbn [s_cap s_nodes]. destruct (Z.eq_dec q p) as [->|Hd].
      * rewrite En in Hy. injection Hy as <- <-. exists (rep x e). split; [split; [exact Hp|exists h; rewrite upd_same; reflexivity]|].
        split; [apply Hrep; exact Hk|]. intros Hna. destruct Hna. cbn [assigns]. exact Hk.
      * exists y. split; [split; [exact Hq|exists h'; rewrite upd_other by auto; exact Hy]|]. auto.
    + rewrite Z.eqb_refl in E1. destruct (emplace_node _ _ _ _ _ _) as [[s2 o2]|] eqn:E2; [|discriminate]. cbn [bind] in E1.
      injection E1 as <- <-. destruct (give_inserted_cap f _ _ _ _ E0) as [-> _].
      assert (Ha : adds r = true).
      { destruct o2 as [[q tr]|]; cbn [give_inserted] in E0; [|injection E0 as <-; reflexivity].
        destruct (to_iter f s2 q); [|discriminate]. cbn [bind] in E0. destruct (get_node s2 _); [|discriminate]. cbn [bind] in E0. injection E0 as <-. reflexivity. }
      rewrite Ha. destruct (emplace_quiet _ _ _ _ _ _ _ H (proj1 (Hn Ha)) (proj2 (Hn Ha)) E2) as (Hle & Hno & Hsome).
      destruct o2 as [[q tr]|]; [|rewrite (Hno eq_refl); split; [reflexivity|]; split; [apply Hid|lia]].
      destruct (Hsome q tr eq_refl) as (_ & Hq & U). destruct (Hfresh q e s2 Hq U) as (Hpl & Hcap & _). auto.
  - destruct (erase_key f key_of hash keq s k) as [[[s1 p] b]|] eqn:E1; [|discriminate]. cbn [bind] in E0.
    destruct (deref f s1 p) as [d|]; [|discriminate]. cbn [bind] in E0. injection E0 as <- <-. cbn [adds].
    unfold erase_key in E1. destruct (find_located f key_of hash keq KL s k H) as (q & Eq & Hq). rewrite Eq in E1. cbn [bind] in E1.
    destruct Hq as [(x & h & W1 & Hq & En & _ & _ & _ & Hk)|(-> & Habs)].
    + destruct (Z.eqb_spec q (s_cap s)); [lia|].
      destruct (do_erase f s q) as [[s2 q2]|] eqn:E2; [|discriminate]. cbn [bind] in E1. injection E1 as <- <- <-.
      destruct (do_erase_place _ _ _ _ _ W1 En E2) as [U M]. split; [apply U|]. split; [|lia].
      apply (unmoved_place _ _ _ _ U). intros i y [_ [h' Hy]] Hd ->. rewrite En in Hy. injection Hy as <- _. apply Hd. exact Hk.
    + rewrite Z.eqb_refl in E1. destruct (end_iter f s); [|discriminate]. cbn [bind] in E1. injection E1 as <- <- <-. split; [reflexivity|]. split; [apply Hid|lia].
  - destruct (find f key_of hash keq s k); [|discriminate]. cbn [bind] in E0. injection E0 as <- <-. repeat split; try apply Hid.
  - destruct (contains f key_of hash keq s k); [|discriminate]. cbn [bind] in E0. injection E0 as <- <-. repeat split; try apply Hid.
  - destruct (clear_ok f key_of hash keq s H) as (s1 & E1 & _ & _ & C' & _). rewrite E1 in E0. cbn [bind] in E0. injection E0 as <- <-.
    split; [lia|]. split; [intros p e _ Hd; destruct (Hd Logic.I)|]. cbn [adds].
    unfold clear in E1. destruct (Z.eqb_spec (s_size s) 0); [injection E1 as <-; lia|].
    destruct (erase_nodes f s) as [t|]; [|discriminate]. cbn [bind] in E1. destruct (fill_empty t) as [t1|]; [|discriminate]. cbn [bind] in E1.
    injection E1 as <-. cbn [s_nempty set_nempty s_cap set_size] in *. rewrite C'. destruct H as [H|H].
    * pose proof (w0_size s H). lia.
    * pose proof (wf1_nempty f key_of hash keq s H). pose proof (wf1_size_max f key_of hash keq s H). lia.
  - injection E0 as <- <-. repeat split; try apply Hid.
  - destruct (iterate f s); [|discriminate]. cbn [bind] in E0. injection E0 as <- <-. repeat split; try apply Hid.
Qed.

Lemma run_place : forall h s s' rs, wf s -> s_cap s <> 0 -> history_ok h -> Forall (fun vc => steady (snd vc)) h -> run s h = Ok (s', rs) ->
  additions rs <= s_nempty s ->
  s_cap s' = s_cap s /\
  forall p e, holds s p e -> Forall (fun vc => ~ drops keq (key_of e) (snd vc)) h ->
    exists e', holds s' p e' /\ key_of e' = key_of e /\ (Forall (fun vc => ~ assigns key_of keq (key_of e) (snd vc)) h -> e' = e).
Proof.
  induction h as [|[v c] h IH]; intros s s' rs H C0 Hh Hst E0 Hb; cbn [run SwissRun.run] in E0.
  - injection E0 as <- <-. split; [reflexivity|]. intros p e Hp _. exists e. auto.
  - inversion Hh as [|? ? [Hv Hc] Hh']; subst. inversion Hst as [|? ? Hs0 Hst']; subst. cbn [fst snd] in *.
    destruct (exec v s c) as [[s1 r]|] eqn:E1; [|discriminate]. cbn [bind] in E0.
    destruct (run s1 h) as [[s2 rs2]|] eqn:E2; [|discriminate]. cbn [bind] in E0. injection E0 as <- <-.
    destruct (exec_ok f key_of hash keq KL rep Hrep v s c H Hv Hc) as [(s1' & r' & E1' & Hk & _)|(_ & _ & E1')]; rewrite E1 in E1'; [|discriminate].
    injection E1' as <- <-.
    assert (Ea : additions (r :: rs2) = (if adds r then 1 else 0) + additions rs2).
    { unfold additions. cbn [filter]. destruct (adds r); cbn [length]; lia. }
    assert (Hpos : 0 <= additions rs2) by (unfold additions; lia).
    destruct (exec_place v s c s1 r H Hv Hc E1 Hs0) as (C1 & P1 & N1); [intros Ha; rewrite Ha in Ea; split; lia|].
    destruct (IH s1 s2 rs2 (proj1 Hk) ltac:(lia) Hh' Hst' E2 ltac:(lia)) as (C2 & P2). split; [lia|].
    intros p e Hp Hd. inversion Hd as [|? ? Hd1 Hd2]; subst. cbn [snd] in Hd1. destruct (P1 p e Hp Hd1) as (e1 & Hp1 & K1 & A1).
    rewrite <- K1 in Hd2. destruct (P2 p e1 Hp1 Hd2) as (e2 & Hp2 & K2 & A2). exists e2. split; [exact Hp2|]. split; [congruence|].
    intros Ha. inversion Ha as [|? ? Ha1 Ha2]; subst. cbn [snd] in Ha1. rewrite <- K1 in Ha2. rewrite (A2 Ha2). apply A1. exact Ha1.
Qed.

Lemma reserved_place : forall lim (s s0 : swiss) n tr h s' rs, wf s -> lim < 2 ^ 59 -> 0 <= n < 2 ^ 64 -> reserve f lim s n = Ok (s0, Some tr) ->
  bucket_count s0 <> 0 -> history_ok h -> Forall (fun vc => steady (snd vc)) h -> run s0 h = Ok (s', rs) -> size s + additions rs <= n ->
  bucket_count s' = bucket_count s0 /\
  forall p e, holds s0 p e -> Forall (fun vc => ~ drops keq (key_of e) (snd vc)) h ->
    exists e', holds s' p e' /\ key_of e' = key_of e /\ (Forall (fun vc => ~ assigns key_of keq (key_of e) (snd vc)) h -> e' = e).
Proof.
  intros lim s s0 n tr h s' rs H Hl Hn E0 C0 Hh Hst E1 Hb.
  destruct (reserve_ok f key_of hash keq KL lim s n H Hl Hn) as (s1 & o & E2 & Hr & Hrs). rewrite E0 in E2. injection E2 as <- <-.
  destruct Hr as (W0 & _ & S0 & _). destruct (Hrs ltac:(discriminate)) as [Hroom _]. unfold size in Hb. unfold bucket_count in *.
  apply (run_place h s0 s' rs W0 C0 Hh Hst E1). lia.
Qed.

Lemma call_place : forall v s c s' r, wf s -> env_ok v -> call_ok c -> exec v s c = Ok (s', r) -> steady c -> adds r = false ->
  bucket_count s' = bucket_count s /\ in_place c s s'.
Proof.
  intros v s c s' r H Hv Hc E0 Hst Ha.
  destruct (exec_place v s c s' r H Hv Hc E0 Hst) as (C1 & P1 & _); [congruence|]. auto.
Qed.
End Place.
