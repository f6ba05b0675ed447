(** The number of elements insertions into the unordered dense table move. *)
From Coq Require Import ZArith List Bool Lia.
From Coq Require Import ZifyBool ZifyNat.
From Verif Require Import Base BaseLemmas MapSpec Float32 DenseSpec DenseModel DenseRun DenseChain DenseInv DenseOps DenseEdit DenseErase DenseRefine DenseMono BoundsSpec DenseBounds LoadSpec DenseLoad PlaceSpec DensePlace.
From Verif Require CostSpec.
Import ListNotations.
Open Scope Z_scope.

Section Cost.
Context {E K : Type}.
Variable nk : nat.
Variable key_of : nat -> E -> K.
Variable hash : K -> Z.
Variable keq : K -> K -> bool.
Variable rep : E -> E -> E.
Hypothesis KL : key_laws hash keq.
Hypothesis rep_key : forall x e, key_of 0%nat (rep x e) = key_of 0%nat x.
Notation dense := (dense E).
Notation dwf := (dwf nk key_of hash keq).
Notation dexec := (dexec nk key_of hash keq rep).
Notation drun := (drun nk key_of hash keq rep).
Notation dmoved_by := (CostSpec.dmoved_by nk key_of hash keq rep).

(** Growing doubles the array. *)
Lemma make_room_grows : forall dlim slim (s t : dense) o, dwf s -> make_room nk dlim slim s = Ok (t, o) ->
  d_cap t = d_cap s \/ (d_cap s + d_size s <= d_cap t <= Z.max 1 (2 * d_size s)).
Proof.
  intros dlim slim s t o W H. unfold make_room in H. bstep H. destruct a as [s1 o1]. pose proof (w_cap _ _ _ _ _ W) as Hc. pose proof (w_size _ _ _ _ _ W) as Hsz.
  assert (H1 : d_cap s1 = d_cap s \/ (d_cap s + d_size s <= d_cap s1 <= Z.max 1 (2 * d_size s))).
  { unfold maybe_resize in Eb. destruct (Z.eqb_spec (d_cap s) (d_size s)) as [He|He]; [|injection Eb as <- <-; auto].
    destruct (resize_caps _ _ _ _ _ Eb) as [(_ & -> & _)|(_ & Hd & _)]; [auto|]. injection Hd as _ -> _. right.
    destruct (Z.eqb_spec (d_cap s) 0); [lia|]. rewrite Z.mod_small by (change two64 with (2 ^ 64); lia). lia. }
  destruct o1 as [u|]; [|injection H as <- _; exact H1]. rewrite (maybe_rehash_cap nk key_of _ _ _ _ H). exact H1.
Qed.

Lemma exec_cost : forall v (s t : dense) c r, dwf s -> dexec v s c = Ok (t, r) -> dsteady c ->
  CostSpec.dmoved s c t + d_cap s <= d_cap t <= Z.max (d_cap s) (Z.max 1 (2 * d_size s)).
Proof.
  intros v s t c r W H Hst.
  assert (Hi : inserting c -> d_cap t = d_cap s \/ (d_cap s + d_size s <= d_cap t <= Z.max 1 (2 * d_size s))).
  { intros Hc. destruct (insert_room nk key_of hash keq rep v s t c r Hc H) as (s1 & o & Hr & Hd & _). injection Hd as _ -> _.
    exact (make_room_grows _ _ _ _ _ W Hr). }
  assert (Hn : ~ dinserts c -> d_cap t = d_cap s).
  { intros Hc. apply (exec_array nk key_of hash keq rep v s t c r H Hst). intros Hc'. contradiction. }
  destruct c as [e|e|e|j k|i|i1 i2|j k|j k| |n|n|p q| |]; cbn [CostSpec.dmoved inserting dinserts] in *; try contradiction;
    try (specialize (Hn ltac:(auto)); lia);
    specialize (Hi Logic.I); unfold size; destruct (Z.eqb_spec (d_cap t) (d_cap s)); lia.
Qed.

Lemma step_len : forall c (l l' : list E) r, dspec nk key_of keq rep c l l' r ->
  Z.of_nat (length l') <= Z.of_nat (length l) + (if CostSpec.dadds r then 1 else 0).
Proof.
  intros c l l' r H. inversion H; subst; cbn [CostSpec.dadds length]; rewrite ?app_length; cbn [length]; try lia.
  - match goal with Hl : dlocated _ _ _ _ _ _ _ _ |- _ => destruct Hl as [-> _] end. rewrite app_length. cbn [length]. lia.
  - match goal with Hl : dlocated _ _ _ _ _ _ _ _ |- _ => destruct Hl as [-> _] end. rewrite (DenseErase.swap_remove_len nk key_of), app_length. cbn [length]. lia.
  - rewrite (DenseErase.swap_remove_len nk key_of). lia.
  - pose proof (DenseLoad.remove_range_len nk key_of hash keq rep n a l ltac:(assumption)). lia.
Qed.

Lemma run_cost : forall h (s t : dense) rs, dwf s -> dhistory_ok nk h -> Forall (fun vc => dsteady (snd vc)) h ->
  (forall h1 v c h2 s1 rs1, h = h1 ++ (v, c) :: h2 -> drun s h1 = Ok (s1, rs1) -> ~ blocked nk key_of hash keq rep v s1 c) ->
  drun s h = Ok (t, rs) ->
  dmoved_by s h + d_cap s <= d_cap t /\ d_cap t <= Z.max (d_cap s) (Z.max 1 (2 * (d_size s + CostSpec.dadditions rs))).
Proof.
  induction h as [|[v c] h IH]; intros s t rs W Hh Hst Hp E0; cbn [DenseRun.drun CostSpec.dmoved_by] in *.
  - injection E0 as <- <-. lia.
  - inversion Hh as [|? ? [Hv Hc] Hh']; subst. inversion Hst as [|? ? Hs0 Hst']; subst. cbn [fst snd] in *.
    destruct (dexec v s c) as [[s1 r]|] eqn:E1; [|discriminate]. cbn [bind] in E0.
    destruct (drun s1 h) as [[s2 rs2]|] eqn:E2; [|discriminate]. cbn [bind] in E0. injection E0 as <- <-.
    pose proof (Hp [] v c h s [] eq_refl eq_refl) as Hb.
    pose proof (exec_cost v s s1 c r W E1 Hs0) as Hx.
    destruct (step_ok nk key_of hash keq rep KL rep_key v s c W Hv Hc) as [Hb'|(t' & r' & H' & W1 & Hs)]; [contradiction|].
    rewrite E1 in H'. injection H' as <- <-. apply step_len in Hs. rewrite (delems_len nk key_of hash keq s W), (delems_len nk key_of hash keq s1 W1) in Hs.
    pose proof (w_size _ _ _ _ _ W). pose proof (w_size _ _ _ _ _ W1).
    destruct (IH s1 s2 rs2 W1 Hh' Hst') as [Hc2 Hx2]; [|exact E2|].
    { intros h1 v1 c1 h2 u rs1 -> Hr. apply (Hp ((v, c) :: h1) v1 c1 h2 u (r :: rs1) eq_refl). cbn [DenseRun.drun]. rewrite E1. cbn [bind]. rewrite Hr. reflexivity. }
    assert (Ea : CostSpec.dadditions (r :: rs2) = (if CostSpec.dadds r then 1 else 0) + CostSpec.dadditions rs2).
    { unfold CostSpec.dadditions. cbn [filter]. destruct (CostSpec.dadds r); cbn [length]; lia. }
    assert (Hpos : 0 <= CostSpec.dadditions rs2) by (unfold CostSpec.dadditions; lia).
    rewrite Ea. destruct (CostSpec.dadds r); lia.
Qed.
End Cost.
