(** The results about the bucket interface for containers that occur in programs. *)
From Coq Require Import ZArith List Bool Lia Arith Permutation.
From Verif Require Import Base BaseLemmas MapSpec DenseSpec DenseWorldSpec World DenseModel DenseRun DenseChain DenseInv DenseEdit DenseWorld DenseFinal DenseBuckets DenseBucketProofs.
From Verif Require Import LinkModel OrderedSpec OrderedWorldSpec OrderedDense OrderedRun OrderedWorld OrderedRefine OrderedFinal.
From Verif Require DenseFinal.
Import ListNotations.
Open Scope Z_scope.

Section Final.
Context {E K : Type}.
Variable sz : Z.
Variable nk : nat.
Variable key_of : nat -> E -> K.
Variable hash : K -> Z.
Variable keq : K -> K -> bool.
Variable rep : E -> E -> E.
Variable clone : E -> E.
Variables pocca pocma : bool.
Hypothesis KL : key_laws hash keq.
Hypothesis rep_key : forall x e, key_of 0%nat (rep x e) = key_of 0%nat x.
Hypothesis clone_key : forall j e, (j < nk)%nat -> key_of j (clone e) = key_of j e.
Notation dwf := (dwf nk key_of hash keq).

Notation walks := (walks nk key_of hash).

Lemma wf_walks : forall (s : dense E) l, dwf s -> Permutation (delems s) l -> walks s l.
Proof.
  intros s l W P j Hj. split.
  - intros n Hn. destruct (walk_ok nk key_of hash keq j s n W Hj Hn) as (Hp & Hr). split; [|exact Hr].
    rewrite Hp. clear -P. induction P as [|x l l' P IH|x y l|l1 l2 l3 P1 IH1 P2 IH2].
    + constructor.
    + cbn [filter]. destruct (_ =? n); [constructor|]; exact IH.
    + cbn [filter]. destruct (hash (key_of j x) mod _ =? n), (hash (key_of j y) mod _ =? n); try reflexivity. apply perm_swap.
    + rewrite IH1. exact IH2.
  - intros x Hx. apply (Permutation_in _ (Permutation_sym P)) in Hx.
    assert (Hb : 0 < d_bc s).
    { apply (w_bucket _ _ _ _ _ W). apply In_nth_error in Hx. destruct Hx as (k & Hk).
      assert (k < length (delems s))%nat by (apply nth_error_Some; congruence). rewrite (delems_len nk key_of hash keq s W) in H. lia. }
    destruct (bucket_ok nk key_of hash keq s (key_of j x) W Hb) as (H1 & H2). eexists. split; [exact H1|]. split; [exact H2|].
    destruct (walk_ok nk key_of hash keq j s _ W Hj H2) as (Hp & _). apply (Permutation_in _ (Permutation_sym Hp)). apply filter_In. split; [exact Hx|]. apply Z.eqb_refl.
Qed.

Lemma occurs_walks : forall s : dense E, doccurs nk key_of hash keq rep clone pocca pocma s -> walks s (delems s).
Proof. intros s Ho. apply wf_walks; [|reflexivity]. apply (DenseFinal.occurs_wf nk key_of hash keq rep clone pocca pocma KL rep_key clone_key s Ho). Qed.
Lemma ordered_walks : 0 < sz -> forall (hw : @yworld E) i l, yoccurs sz nk key_of hash keq rep clone pocca pocma hw ->
  o_iterate sz (fst hw) (snd hw i) = Ok l -> walks (o_d (snd hw i)) l.
Proof.
  intros Hsz hw i l Ho Hl. destruct (occurs_oinv sz nk key_of hash keq rep clone pocca pocma Hsz KL rep_key clone_key hw i Ho) as (ord & Hi & Hl').
  rewrite Hl in Hl'. injection Hl' as ->. apply wf_walks; [exact (proj1 Hi)|]. apply Permutation_sym. exact (inv_perm sz nk key_of hash keq _ _ _ Hi).
Qed.
Lemma occurs_size : forall (s : dense E) j n, doccurs nk key_of hash keq rep clone pocca pocma s -> (j < nk)%nat -> exists e, bucket_size s j n = Err e.
Proof. intros s j n Ho Hj. apply (size_err nk key_of hash keq); [|exact Hj]. apply (DenseFinal.occurs_wf nk key_of hash keq rep clone pocca pocma KL rep_key clone_key s Ho). Qed.
Lemma ordered_size : 0 < sz -> forall (hw : @yworld E) i j n, yoccurs sz nk key_of hash keq rep clone pocca pocma hw -> (j < nk)%nat -> exists e, bucket_size (o_d (snd hw i)) j n = Err e.
Proof.
  intros Hsz hw i j n Ho Hj. destruct (occurs_oinv sz nk key_of hash keq rep clone pocca pocma Hsz KL rep_key clone_key hw i Ho) as (ord & Hi & _).
  apply (size_err nk key_of hash keq); [exact (proj1 Hi)|exact Hj].
Qed.
End Final.
