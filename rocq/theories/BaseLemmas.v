(** General lemmas about the vocabulary of Base.v. *)
From Coq Require Import ZArith List Bool Lia Permutation.
From Coq Require Import ZifyBool ZifyNat.
From Verif Require Import Base.
Import ListNotations.
Open Scope Z_scope.

Lemma zrange_In : forall n i, In i (zrange n) <-> 0 <= i < n.
Proof.
  intros n i. unfold zrange. rewrite in_map_iff. split.
  - intros (k & <- & H). apply in_seq in H. lia.
  - intros H. exists (Z.to_nat i). rewrite in_seq. lia.
Qed.

Lemma zrange_length : forall n, length (zrange n) = Z.to_nat n.
Proof. intros; unfold zrange; rewrite map_length, seq_length; reflexivity. Qed.

Lemma zrange_NoDup : forall n, NoDup (zrange n).
Proof.
  intros. unfold zrange. apply FinFun.Injective_map_NoDup; [|apply seq_NoDup].
  intros a b. lia.
Qed.

Lemma zrange_nth : forall n k d, (k < Z.to_nat n)%nat -> nth k (zrange n) d = Z.of_nat k.
Proof.
  intros. unfold zrange. rewrite nth_indep with (d' := Z.of_nat 0).
  - rewrite map_nth, seq_nth by lia. reflexivity.
  - rewrite map_length, seq_length. lia.
Qed.

Lemma zrange_succ : forall n, 0 <= n -> zrange (n + 1) = zrange n ++ [n].
Proof.
  intros. unfold zrange. replace (Z.to_nat (n + 1)) with (S (Z.to_nat n)) by lia.
  rewrite seq_S, map_app. cbn. f_equal. f_equal. lia.
Qed.

Lemma zrange_0 : forall n, n <= 0 -> zrange n = [].
Proof. intros. unfold zrange. replace (Z.to_nat n) with O by lia. reflexivity. Qed.

Lemma upd_same : forall A (f : Z -> A) i v, upd f i v i = v.
Proof. intros. unfold upd. rewrite Z.eqb_refl. reflexivity. Qed.
Lemma upd_other : forall A (f : Z -> A) i j v, j <> i -> upd f i v j = f j.
Proof. intros. unfold upd. destruct (Z.eqb_spec j i); congruence. Qed.

Lemma bind_Ok : forall A B (x : res A) (k : A -> res B) b,
  bind x k = Ok b -> exists a, x = Ok a /\ k a = Ok b.
Proof. intros A B [a|e] k b H; cbn in H; [exists a; auto | discriminate]. Qed.

Lemma foldM_app : forall S A (f : S -> A -> res S) l1 l2 s,
  foldM f (l1 ++ l2) s = bind (foldM f l1 s) (foldM f l2).
Proof.
  induction l1 as [|x l1 IH]; intros; cbn; [reflexivity|].
  destruct (f s x); cbn; auto.
Qed.

(** Strong induction on a list from the right gives the usual invariant rule for loops
    over a range. *)
Lemma foldM_zrange_inv : forall S (f : S -> Z -> res S) (P : Z -> S -> Prop) n s,
  0 <= n -> P 0 s ->
  (forall i s, 0 <= i < n -> P i s -> exists s', f s i = Ok s' /\ P (i + 1) s') ->
  exists s', foldM f (zrange n) s = Ok s' /\ P n s'.
Proof.
  intros S f P n s Hn H0 Hstep.
  assert (Hgen : forall k, 0 <= k <= n -> exists s', foldM f (zrange k) s = Ok s' /\ P k s').
  { intros k Hk. assert (Hk0 : 0 <= k) by lia. revert Hk. pattern k.
    apply natlike_ind; [| |exact Hk0].
    - intros _. rewrite zrange_0 by lia. exists s. auto.
    - intros x Hx IH Hle. destruct IH as (s1 & E1 & P1); [lia|].
      replace (Z.succ x) with (x + 1) by lia. rewrite zrange_succ by lia.
      rewrite foldM_app, E1. cbn. destruct (Hstep x s1) as (s2 & E2 & P2); [lia|auto|].
      rewrite E2. cbn. exists s2. auto. }
  apply Hgen. lia.
Qed.

Lemma Forall_zrange : forall (P : Z -> Prop) n,
  Forall P (zrange n) <-> (forall i, 0 <= i < n -> P i).
Proof.
  intros. rewrite Forall_forall. split; intros H i Hi; apply H; apply zrange_In; auto.
Qed.

Lemma NoDup_app_intro : forall A (l l' : list A), NoDup l -> NoDup l' ->
  (forall x, In x l -> In x l' -> False) -> NoDup (l ++ l').
Proof.
  induction l as [|a l IH]; intros l' H1 H2 H; cbn; [assumption|]. inversion H1; subst. constructor.
  - rewrite in_app_iff. intros [Hin|Hin]; [contradiction|]. apply (H a); [left; reflexivity|exact Hin].
  - apply IH; auto. intros x Hx Hx'. apply (H x); [right; exact Hx|exact Hx'].
Qed.
