(** Comparison, element access and aliased arguments on the unordered sparse tables. *)
From Coq Require Import ZArith List Bool Lia Permutation.
From Verif Require Import Base BaseLemmas Bits MapSpec WorldSpec WrapSpec SwissModel SwissInv SwissOps SwissIter SwissRoom SwissRun SwissRefine SwissFinal World WorldProofs WorldFinal WrapModel WrapProofs.
Import ListNotations.
Open Scope Z_scope.

Section Sparse.
Context {E K V : Type}.
Variable f : simd.
Variable key_of : E -> K.
Variable hash : K -> Z.
Variable keq : K -> K -> bool.
Variable rep : E -> E -> E.
Variable mapped : E -> V.
Hypothesis KL : key_laws hash keq.
Hypothesis Rep : forall a b, keq (key_of a) (key_of b) = true -> key_of (rep a b) = key_of a.
Local Notation swiss := (@swiss E).
Local Notation wf := (wf f key_of hash keq).
Local Notation occurs := (occurs f key_of hash keq rep).

Lemma equal_final : forall veq (s o : swiss), eq_laws veq -> occurs s -> occurs o ->
  (exists b, s_equal f veq s o = Ok b /\ (b = true <-> same_elements veq (elems s) (elems o))) \/ ((f = NEON \/ f = WORD) /\ s_equal f veq s o = Err BitScanZero).
Proof.
  intros veq s o L Hs Ho. apply (occ_wf f key_of hash keq KL rep Rep) in Hs, Ho.
  assert (H : scans f (s_equal f veq s o) (fun b => b = true <-> same_elements veq (elems s) (elems o))).
  { unfold s_equal. eapply scans_bind; [apply (iterate_elems f key_of hash keq s Hs)|]. intros l Hl. eapply scans_bind; [apply (iterate_elems f key_of hash keq o Ho)|]. intros m Hm.
    apply scans_Ok. rewrite Hl, Hm. apply is_permutation_ok. exact L. }
  destruct H as [(b & Hb & Hp)|(Hn & Hb)]; [left; eauto|right; split; [exact Hn|exact Hb]].
Qed.
Lemma equal_wide : forall veq (s o : swiss), f = SSE2 \/ f = SSSE3 -> eq_laws veq -> occurs s -> occurs o ->
  exists b, s_equal f veq s o = Ok b /\ (b = true <-> same_elements veq (elems s) (elems o)).
Proof.
  intros veq s o Hf L Hs Ho. destruct (equal_final veq s o L Hs Ho) as [H|([->| ->] & _)]; [exact H| |]; destruct Hf; discriminate.
Qed.

Lemma at_final : forall (s : swiss) k, occurs s -> exists r, s_at mapped f key_of hash keq s k = Ok r /\ at_spec key_of mapped keq (elems s) k r.
Proof.
  intros s k Hs. apply (occ_wf f key_of hash keq KL rep Rep) in Hs. destruct (lookup_defined f key_of hash keq KL s k Hs) as (_ & (o & Eo & Ho) & _).
  unfold s_at. rewrite Eo. cbn [bind]. eexists. split; [reflexivity|]. destruct o as [e|]; cbn [guard_at option_map at_spec]; [|exact Ho]. exists e. destruct Ho. auto.
Qed.

Lemma index_final : forall fresh v (s : swiss) k, (forall k, key_of (fresh k) = k) -> occurs s -> env_ok v ->
  exists s' r, s_index mapped f key_of hash keq fresh v s k = Ok (s', r) /\ index_spec key_of mapped keq (elems s) k (fresh k) (elems s') r /\ behaves f key_of hash keq rep s' (elems s').
Proof.
  intros fresh v s k Hfr Hs Hv. apply (occ_wf f key_of hash keq KL rep Rep) in Hs. unfold s_index, do_insert. rewrite Hfr.
  destruct (find_located f key_of hash keq KL s k Hs) as (r & -> & Hr). cbn [bind]. destruct Hr as [(x & h & W1 & Hr & En & Eg & Ha & Hl)|(-> & Habs)].
  - destruct (Z.eqb_spec r (s_cap s)); [lia|]. cbn [bind give_inserted]. rewrite to_iter_here by ((apply (w_m _ _ _ _ s W1)) || assumption || lia). cbn [bind]. rewrite Eg. cbn [bind fst snd].
    exists s, (Some (mapped x)). split; [reflexivity|]. split; [|apply (beh f key_of hash keq KL rep Rep); auto]. left. split; [|apply Permutation_refl]. exists x. destruct Hl as (-> & Hk). split; [apply in_or_app; right; left; reflexivity|]. auto.
  - rewrite Z.eqb_refl. destruct (emplace_given f key_of hash keq KL v s (fresh k) Hs Hv) as (s' & o & r & E1 & E2 & W' & _ & Hr); [rewrite Hfr; exact Habs|]. rewrite Hfr in E1. rewrite E1. cbn [bind]. rewrite E2. cbn [bind fst snd].
    destruct Hr as [(-> & P)|(-> & P)].
    + exists s', (Some (mapped (fresh k))). split; [reflexivity|]. split; [|apply (beh f key_of hash keq KL rep Rep); auto]. right. left. auto.
    + exists s', None. split; [reflexivity|]. split; [|apply (beh f key_of hash keq KL rep Rep); auto]. right. right. auto.
Qed.

(** ** Aliased arguments. *)
Variable build : K -> E -> E.
Hypothesis Hbuild : forall k e, key_of (build k e) = k.

Lemma aliased_wf : forall lim (s : swiss) k i e, wf s -> holds s i e -> lim < 2 ^ 59 -> 0 < s_nempty s ->
  try_emplace_aliased f key_of hash keq lim s k i build = do_insert f key_of hash keq lim true s (build k e).
Proof. clear mapped.
  intros lim s k i e Hs (Hi & h & Hn) Hlim Hroom. unfold try_emplace_aliased, do_insert. rewrite Hbuild.
  destruct (find_located f key_of hash keq KL s k Hs) as (r & -> & _). cbn [bind]. destruct (r =? s_cap s); [|reflexivity].
  destruct (make_room_ok f key_of hash keq KL lim s (hash k) Hs Hlim) as (s1 & o & E1 & _ & Hr). destruct (Hr ltac:(lia) Hroom) as (-> & p & ->).
  unfold emplace_aliased. rewrite E1. cbn [bind fst snd]. rewrite Z.eqb_refl.
  assert (Hb : s_buf s = Live) by (destruct Hs as [H0|H1]; [pose proof (w0_cap s H0); lia|apply (mw_buf f s (w_m _ _ _ _ s H1))]).
  rewrite (get_node_ok s i (e, h) Hb Hi Hn). cbn [bind fst]. destruct (emplace_node f lim true s (hash k) (build k e)) as [[s2 o2]|]; reflexivity.
Qed.

Lemma aliased_room : forall lim (s : swiss) k i e, occurs s -> holds s i e -> lim < 2 ^ 59 -> 0 < s_nempty s ->
  try_emplace_aliased f key_of hash keq lim s k i build = do_insert f key_of hash keq lim true s (build k e).
Proof. clear mapped. intros lim s k i e Hs. apply aliased_wf. apply (occ_wf f key_of hash keq KL rep Rep). exact Hs. Qed.
(** reserve for one more element makes room. *)
Lemma aliased_reserved : forall lim lim' (s s' : swiss) n tr k i e, occurs s -> lim < 2 ^ 59 -> lim' < 2 ^ 59 -> 0 <= n < 2 ^ 64 ->
  reserve f lim s n = Ok (s', Some tr) -> size s < n -> holds s' i e ->
  try_emplace_aliased f key_of hash keq lim' s' k i build = do_insert f key_of hash keq lim' true s' (build k e).
Proof. clear mapped.
  intros lim lim' s s' n tr k i e Hs Hlim Hlim' Hn Er Hsz Hh. apply (occ_wf f key_of hash keq KL rep Rep) in Hs.
  destruct (reserve_ok f key_of hash keq KL lim s n Hs Hlim Hn) as (s1 & o & E1 & Hr & Hroom). rewrite Er in E1. injection E1 as <- <-. destruct Hr as (W' & _ & S' & _).
  apply aliased_wf; try assumption. specialize (Hroom ltac:(discriminate)). unfold size in Hsz. lia.
Qed.

Lemma aliased_freed : forall lim (s : swiss) k i, occurs s -> lim < 2 ^ 59 -> absent key_of keq k (elems s) ->
  (exists s' p tr, make_room f lim s (hash k) = Ok (s', Some (p, tr)) /\ s_cap s' <> s_cap s) ->
  try_emplace_aliased f key_of hash keq lim s k i build = Err UseAfterFree.
Proof.
  intros lim s k i Hs Hlim Ha (s' & p & tr & E1 & Hc). apply (occ_wf f key_of hash keq KL rep Rep) in Hs. unfold try_emplace_aliased.
  destruct (find_located f key_of hash keq KL s k Hs) as (r & -> & Hr). cbn [bind]. destruct Hr as [(x & h & W1 & Hr & En & Eg & _ & Hl)|(-> & _)].
  { exfalso. destruct Hl as (Hl & Hk). rewrite (Ha x) in Hk; [discriminate|]. rewrite Hl. apply in_or_app. right. left. reflexivity. }
  rewrite Z.eqb_refl. unfold emplace_aliased. rewrite E1. cbn [bind fst snd]. destruct (Z.eqb_spec (s_cap s') (s_cap s)); [contradiction|reflexivity].
Qed.

Lemma aliased_stable : forall A (addr : E -> A) aeq lim (s : swiss) k e, (forall a b, aeq a b = true <-> a = b) -> occurs s -> NoDup (map addr (elems s)) -> In e (elems s) -> lim < 2 ^ 59 ->
  try_emplace_aliased_stable f key_of hash keq addr aeq lim s k (addr e) build = do_insert f key_of hash keq lim true s (build k e).
Proof.
  intros A addr aeq lim s k e Haeq Hs Hnd He Hlim. apply (occ_wf f key_of hash keq KL rep Rep) in Hs. unfold try_emplace_aliased_stable, do_insert. rewrite Hbuild.
  destruct (find_located f key_of hash keq KL s k Hs) as (r & -> & _). cbn [bind]. destruct (r =? s_cap s); [|reflexivity].
  destruct (make_room_ok f key_of hash keq KL lim s (hash k) Hs Hlim) as (s1 & o & E1 & Ho & _). rewrite E1. cbn [bind fst snd]. destruct o as [[p tr]|].
  - destruct Ho as (W1 & P & _).
    assert (Hob : object_at addr aeq s1 (addr e) = Ok e).
    { unfold object_at. destruct (List.find _ (zrange (s_cap s1))) as [i|] eqn:Ef.
      - apply find_some in Ef. destruct Ef as (Hi & Hx). apply zrange_In in Hi. destruct (s_nodes s1 i) as [[x h]|] eqn:En; [|discriminate]. cbn [fst] in Hx. apply Haeq in Hx.
        rewrite (get_node_ok s1 i (x, h) (mw_buf f s1 (w_m _ _ _ _ s1 W1)) Hi En). cbn [bind fst]. f_equal.
        assert (Hin : In x (elems s)) by (apply (Permutation_in x P); apply elems_In; exists i; split; [exact Hi|exists h; exact En]).
        clear - Hnd Hin He Hx. induction (elems s) as [|y l IH]; [contradiction|]. cbn [map] in Hnd. inversion Hnd as [|? ? Hn Hd]; subst.
        destruct Hin as [->|Hin], He as [->|He]; [reflexivity| | |apply IH; assumption]; exfalso; apply Hn; [rewrite Hx|rewrite <- Hx]; apply in_map; assumption.
      - exfalso. assert (Hin : In e (elems s1)) by (apply (Permutation_in e (Permutation_sym P)); exact He). apply elems_In in Hin. destruct Hin as (i & Hi & h & En).
        pose proof (find_none _ _ Ef i (proj2 (zrange_In _ _) Hi)) as Hx. cbn beta in Hx. rewrite En in Hx. cbn [fst] in Hx. assert (aeq (addr e) (addr e) = true) by (apply Haeq; reflexivity). congruence. }
    rewrite Hob. cbn [bind]. destruct (emplace_node f lim true s (hash k) (build k e)) as [[s2 o2]|]; reflexivity.
  - unfold emplace_node. rewrite E1. reflexivity.
Qed.
End Sparse.
