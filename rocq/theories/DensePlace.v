(** Where the elements of the unordered dense table are stored, call by call: element i is
    in slot i of the element array, and d_cap is the length of that array, which changes
    whenever the array is replaced. *)
From Coq Require Import ZArith List Bool Lia.
From Coq Require Import ZifyBool ZifyNat.
From Verif Require Import Base BaseLemmas MapSpec Float32 DenseSpec DenseModel DenseRun DenseChain DenseInv DenseOps DenseEdit DenseErase DenseRefine DenseMono BoundsSpec DenseBounds LoadSpec DenseLoad PlaceSpec.
Import ListNotations.
Open Scope Z_scope.

Section Place.
Context {E K : Type}.
Variable nk : nat.
Variable key_of : nat -> E -> K.
Variable hash : K -> Z.
Variable keq : K -> K -> bool.
Variable rep : E -> E -> E.
Hypothesis KL : key_laws hash keq.
Hypothesis rep_key : forall x e, key_of 0%nat (rep x e) = key_of 0%nat x.
Notation dense := (dense E).
Notation dwf := (dwf nk key_of hash keq).
Notation dexec := (dexec nk key_of hash keq rep).
Notation drun := (drun nk key_of hash keq rep).

Lemma rehash_cap : forall lim (s t : dense) n o, rehash nk lim s n = Ok (t, o) -> d_cap t = d_cap s.
Proof.
  intros lim s t n o H. unfold rehash in H. destruct ((n =? 0) && _); [injection H as <- _; reflexivity|].
  bstep H. destruct ((n =? 0) || _); [|injection H as <- _; reflexivity]. apply (do_rehash_caps nk key_of) in H. apply H.
Qed.
Lemma maybe_rehash_cap : forall lim (s t : dense) o, maybe_rehash nk lim s = Ok (t, o) -> d_cap t = d_cap s.
Proof.
  intros lim s t o H. unfold maybe_rehash in H.
  repeat match type of H with (if ?b then _ else _) = _ => destruct b end; try (injection H as <- _; reflexivity); apply (rehash_cap _ _ _ _ _ H).
Qed.
Lemma make_room_cap : forall dlim slim (s t : dense) o, d_size s < d_cap s -> make_room nk dlim slim s = Ok (t, o) -> d_cap t = d_cap s.
Proof.
  intros dlim slim s t o Hr H. unfold make_room, maybe_resize in H. destruct (Z.eqb_spec (d_cap s) (d_size s)); [lia|]. cbn [bind] in H.
  exact (maybe_rehash_cap _ _ _ _ H).
Qed.

(** Calls keep the element array unless it is full. *)
Lemma exec_array : forall v (s t : dense) c r, dexec v s c = Ok (t, r) -> dsteady c -> (dinserts c -> d_size s < d_cap s) -> d_cap t = d_cap s.
Proof.
  intros v s t c r H Hst Hi. destruct c as [e|e|e|j k|i|i1 i2|j k|j k| |n|n|p q| |]; try contradiction.
  1-3: specialize (Hi Logic.I); match type of H with DenseRun.dexec _ _ _ _ _ _ _ ?c = _ => destruct (insert_room nk key_of hash keq rep v s t c r Logic.I H) as (s1 & o & Hr & Hd & _) end;
    injection Hd as _ -> _; exact (make_room_cap _ _ _ _ _ Hi Hr).
  all: cbn [DenseRun.dexec] in H; try (injection H as <- _; reflexivity); bstep H.
  - destruct a as [s1 o]. unfold erase_key in Eb. bstep Eb. apply erase_loop_dims in Eb. cbn [give_next] in H. bstep H. injection H as <- <-. injection Eb as _ -> _. reflexivity.
  - destruct a as [s1 o]. apply erase_at_dims in Eb. cbn [give_next] in H. bstep H. injection H as <- <-. injection Eb as _ -> _. reflexivity.
  - destruct a as [s1 o]. unfold erase_range in Eb. apply erase_range_dims in Eb. cbn [give_next] in H. bstep H. injection H as <- <-. injection Eb as _ -> _. reflexivity.
  - injection H as <- <-. reflexivity.
  - injection H as <- <-. reflexivity.
  - injection H as <- <-. apply clear_dims in Eb. injection Eb as _ -> _. reflexivity.
  - destruct a as [s1 o]. cbn [give_unit] in H. injection H as <- <-. exact (rehash_cap _ _ _ _ _ Eb).
  - injection H as <- <-. reflexivity.
Qed.

Notation same_index := (same_index nk key_of).
Lemma index_refl : forall l, same_index l l. Proof. intros l i x H. exists x. auto. Qed.
Lemma index_trans : forall l m n, same_index l m -> same_index m n -> same_index l n.
Proof. intros l m n H1 H2 i x H. destruct (H1 i x H) as (y & Hy & K1). destruct (H2 i y Hy) as (z & Hz & K2). exists z. split; [exact Hz|]. intros j Hj. rewrite K2 by exact Hj. auto. Qed.
Lemma index_app : forall l m, same_index l (l ++ m).
Proof. intros l m i x H. exists x. split; [|auto]. rewrite nth_error_app1; [exact H|]. apply nth_error_Some. congruence. Qed.

Lemma spec_index : forall c l l' r, dcall_ok nk c -> dspec nk key_of keq rep c l l' r -> ~ derases c -> same_index l l'.
Proof.
  intros c l l' r Hc H Hd. inversion H; subst; cbn [derases] in Hd; try (destruct (Hd Logic.I)); try apply index_refl; try apply index_app.
  match goal with Hl : dlocated _ _ _ _ _ _ _ _ |- _ => destruct Hl as [-> _] end.
  intros i y Hy. cbn [dcall_ok] in Hc. subst nk.
  destruct (Nat.lt_ge_cases i (length a)) as [Hlt|Hge].
  - rewrite nth_error_app1 in * by exact Hlt. exists y. auto.
  - rewrite nth_error_app2 in * by exact Hge. destruct (i - length a)%nat; cbn [nth_error] in *.
    + injection Hy as <-. eexists. split; [reflexivity|]. intros j Hj. replace j with 0%nat by lia. apply rep_key.
    + exists y. auto.
Qed.

Lemma run_array : forall h (s t : dense) rs n, dwf s -> n <= d_cap s -> dhistory_ok nk h -> Forall (fun vc => dsteady (snd vc)) h ->
  (forall h1 v c h2 s1 rs1, h = h1 ++ (v, c) :: h2 -> drun s h1 = Ok (s1, rs1) -> ~ blocked nk key_of hash keq rep v s1 c /\ (dinserts c -> size s1 < n)) ->
  drun s h = Ok (t, rs) ->
  d_cap t = d_cap s /\ (Forall (fun vc => ~ derases (snd vc)) h -> same_index (delems s) (delems t)).
Proof.
  induction h as [|[v c] h IH]; intros s t rs n W Hn Hh Hst Hp E0; cbn [DenseRun.drun] in E0.
  - injection E0 as <- <-. split; [reflexivity|]. intros _. apply index_refl.
  - inversion Hh as [|? ? [Hv Hc] Hh']; subst. inversion Hst as [|? ? Hs0 Hst']; subst. cbn [fst snd] in *.
    destruct (dexec v s c) as [[s1 r]|] eqn:E1; [|discriminate]. cbn [bind] in E0.
    destruct (drun s1 h) as [[s2 rs2]|] eqn:E2; [|discriminate]. cbn [bind] in E0. injection E0 as <- <-.
    destruct (Hp [] v c h s [] eq_refl eq_refl) as [Hb Hi].
    pose proof (exec_array v s s1 c r E1 Hs0 ltac:(intros Hx; specialize (Hi Hx); unfold size in Hi; lia)) as Hcap.
    destruct (step_ok nk key_of hash keq rep KL rep_key v s c W Hv Hc) as [Hb'|(t' & r' & H' & W1 & Hs)]; [contradiction|].
    rewrite E1 in H'. injection H' as <- <-.
    destruct (IH s1 s2 rs2 n W1 ltac:(lia) Hh' Hst') as [Hc2 Hx2]; [|exact E2|].
    { intros h1 v1 c1 h2 u rs1 -> Hr. apply (Hp ((v, c) :: h1) v1 c1 h2 u (r :: rs1) eq_refl). cbn [DenseRun.drun]. rewrite E1. cbn [bind]. rewrite Hr. reflexivity. }
    split; [lia|]. intros Hd. inversion Hd as [|? ? Hd1 Hd2]; subst. cbn [snd] in Hd1.
    apply (index_trans _ (delems s1)); [exact (spec_index _ _ _ _ Hc Hs Hd1)|exact (Hx2 Hd2)].
Qed.

Lemma reserve_cap : forall dlim slim (s t : dense) n o, reserve nk dlim slim s n = Ok (t, Some o) -> n <= d_cap t.
Proof.
  intros dlim slim s t n o H. unfold reserve in H. bstep H. destruct a as [s1 o1].
  assert (H1 : o1 <> None -> n <= d_cap s1).
  { destruct (Z.ltb_spec (d_cap s) n); [|injection Eb as <- <-; lia].
    destruct (resize_caps _ _ _ _ _ Eb) as [(-> & _)|(_ & Hd & _)]; [congruence|]. injection Hd as _ -> _. lia. }
  destruct o1; [|discriminate]. bstep H. rewrite (rehash_cap _ _ _ _ _ H). apply H1. discriminate.
Qed.

Lemma reserved_array : forall v0 n (s s1 s2 : dense) h rs, dwf s -> denv_ok v0 -> 0 <= n < 2 ^ 59 -> dexec v0 s (DReserve n) = Ok (s1, QUnit) ->
  dhistory_ok nk h -> Forall (fun vc => dsteady (snd vc)) h ->
  (forall h1 v c h2 t rs1, h = h1 ++ (v, c) :: h2 -> drun s1 h1 = Ok (t, rs1) -> ~ blocked nk key_of hash keq rep v t c /\ (dinserts c -> size t < n)) ->
  drun s1 h = Ok (s2, rs) ->
  d_cap s2 = d_cap s1 /\ (Forall (fun vc => ~ derases (snd vc)) h -> same_index (delems s1) (delems s2)).
Proof.
  intros v0 n s s1 s2 h rs W Hv Hn E0 Hh Hst Hp E1.
  destruct (step_ok nk key_of hash keq rep KL rep_key v0 s (DReserve n) W Hv Hn) as [Hb|(t' & r' & H' & W1 & _)].
  - exfalso. destruct Hb as [Hb|[(_ & j & k & Hb)|(_ & s' & Hb & _)]]; [apply Hb; exact Logic.I|discriminate|]. rewrite E0 in Hb. discriminate.
  - rewrite E0 in H'. injection H' as <- <-. apply (run_array h s1 s2 rs n W1); try assumption.
    cbn [DenseRun.dexec] in E0. bstep E0. destruct a as [s3 o]. cbn [give_unit] in E0. destruct o as [o|]; [|discriminate]. injection E0 as ->.
    exact (reserve_cap _ _ _ _ _ _ Eb).
Qed.

(** Erasing moves at most the last element. *)
Lemma nth_swap : forall (a b : list E) x i y, nth_error (a ++ x :: b) i = Some y -> i <> length a -> (S i < length (a ++ x :: b))%nat -> nth_error (swap_remove a b) i = Some y.
Proof.
  intros a b x i y H Hi Hl. unfold swap_remove. rewrite app_length in Hl. cbn [length] in Hl. rewrite <- (rev_involutive b) in H.
  assert (Hb : length b = length (rev b)) by (rewrite rev_length; reflexivity).
  destruct (rev b) as [|z r]; cbn [length rev] in *.
  - rewrite nth_error_app1 in H by lia. exact H.
  - destruct (Nat.lt_ge_cases i (length a)) as [Hlt|Hge].
    + rewrite nth_error_app1 in * by exact Hlt. exact H.
    + rewrite nth_error_app2 in * by exact Hge. destruct (i - length a)%nat as [|m] eqn:Em; [lia|]. cbn [nth_error] in *.
      rewrite nth_error_app1 in H by (rewrite rev_length; lia). exact H.
Qed.

Lemma erase_array : forall v (s t : dense) c r, dwf s -> denv_ok v -> dcall_ok nk c -> ~ blocked nk key_of hash keq rep v s c -> dexec v s c = Ok (t, r) ->
  forall i x, nth_error (delems s) i = Some x -> (S i < length (delems s))%nat ->
  spares key_of keq c i x ->
  d_cap t = d_cap s /\ nth_error (delems t) i = Some x.
Proof.
  intros v s t c r W Hv Hc Hb E0 i x Hx Hl Hk.
  destruct (step_ok nk key_of hash keq rep KL rep_key v s c W Hv Hc) as [Hb'|(t' & r' & H' & W1 & Hs)]; [contradiction|].
  rewrite E0 in H'. injection H' as <- <-.
  split; [destruct c; try contradiction; apply (exec_array v s t _ r E0 Logic.I); intros []|].
  destruct c; try contradiction; cbn [spares] in Hk; inversion Hs; subst; try discriminate.
  - match goal with H : delems s = delems t |- _ => rewrite <- H | _ => idtac end; exact Hx.
  - match goal with H : dlocated _ _ _ _ _ _ _ _ |- _ => destruct H as [Hd Hkx] end. rewrite Hd in *.
    apply (nth_swap _ _ x0); [exact Hx| |exact Hl]. intros ->. rewrite nth_error_app2, Nat.sub_diag in Hx by lia. cbn [nth_error] in Hx. injection Hx as <-. congruence.
  - match goal with H : _ = delems s |- _ => rewrite <- H in * end. apply (nth_swap _ _ x0); [exact Hx|lia|exact Hl].
Qed.
End Place.
