(** The statements about moves between unequal allocators, for containers that occur. *)
From Coq Require Import ZArith List Bool Lia Arith.
From Verif Require Import Base BaseLemmas MapSpec Float32 DenseSpec DenseModel DenseRun DenseChain DenseInv DenseWorld DenseMore UnequalModel UnequalDense.
From Verif Require DenseFinal DenseEdit.
Import ListNotations.
Open Scope Z_scope.

Section Dense.
Context {E K : Type}.
Variable nk : nat.
Variable key_of : nat -> E -> K.
Variable hash : K -> Z.
Variable keq : K -> K -> bool.
Variable rep : E -> E -> E.
Variable clone : E -> E.
Variables pocca pocma : bool.
Hypothesis KL : key_laws hash keq.
Hypothesis rep_key : forall x e, key_of 0%nat (rep x e) = key_of 0%nat x.
Hypothesis clone_key : forall j e, (j < nk)%nat -> key_of j (clone e) = key_of j e.
Notation dense := (dense E).
Notation doccurs := (doccurs nk key_of hash keq rep clone pocca pocma).
Notation drefines := (drefines nk key_of hash keq rep).

(** A move of [o] by [r], to a container with [bc] buckets and room for [cap] elements. *)
Definition dmoves (v : denv) (o : dense) (r : res (dense * dense)) (bc cap : Z) : Prop :=
  (exists s, doccurs s /\ r = u_dense_assign nk (dv_dlim v) (dv_slim v) s o /\ bc = d_bc s /\ cap = d_cap s) \/
  (r = u_dense_ctor nk (dv_dlim v) (dv_slim v) o /\ bc = 0 /\ cap = 0).
(** Some element of [o] shares the bucket of the key [k]. *)
Definition shares (o : dense) (j : nat) (k : K) : Prop :=
  exists x, In x (delems o) /\ hash (key_of j x) mod d_bc o = hash k mod d_bc o.

Lemma dense_cases : forall v o r bc cap, doccurs o -> denv_ok v -> delems o <> [] -> dmoves v o r bc cap ->
  (refused (dv_dlim v) (dv_slim v) bc cap o /\ r = Err Terminated) \/
  (~ refused (dv_dlim v) (dv_slim v) bc cap o /\ exists s' o', r = Ok (s', o') /\ dwf nk key_of hash keq s' /\ delems s' = delems o /\ husk o o').
Proof.
  intros v o r bc cap Ho V Hne Hm. pose proof (DenseFinal.occurs_wf nk key_of hash keq rep clone pocca pocma KL rep_key clone_key o Ho) as Wo.
  assert (Hpos : 0 < d_size o) by (pose proof (DenseEdit.delems_len nk key_of hash keq o Wo) as X; destruct (delems o); [congruence|cbn [length] in X; lia]).
  destruct Hm as [(s & Hs & -> & -> & ->)|(-> & -> & ->)].
  - pose proof (DenseFinal.occurs_wf nk key_of hash keq rep clone pocca pocma KL rep_key clone_key s Hs) as Ws.
    apply (assign_cases nk key_of hash keq); [exact Ws|exact Wo|exact Hpos|apply V|apply V].
  - apply (ctor_cases nk key_of hash keq); [exact Wo|exact Hpos|apply V|apply V].
Qed.
Lemma dense_moved : forall v o r bc cap, doccurs o -> denv_ok v -> delems o <> [] -> dmoves v o r bc cap ->
  (refused (dv_dlim v) (dv_slim v) bc cap o /\ r = Err Terminated) \/
  (~ refused (dv_dlim v) (dv_slim v) bc cap o /\ exists s' o', r = Ok (s', o') /\
     (forall h, dhistory_ok nk h -> drefines s' (delems o) h) /\
     delems o' = [] /\ exists o2, DenseModel.clear o' = Ok o2 /\ forall h, dhistory_ok nk h -> drefines o2 [] h).
Proof.
  intros v o r bc cap Ho V Hne Hm. destruct (dense_cases v o r bc cap Ho V Hne Hm) as [H|(Hr & s' & o' & Er & W & Es & Hu)]; [left; exact H|right]. split; [exact Hr|]. exists s', o'. split; [exact Er|].
  pose proof (DenseFinal.occurs_wf nk key_of hash keq rep clone pocca pocma KL rep_key clone_key o Ho) as Wo. split; [|split].
  - intros h Hh. rewrite <- Es. apply (DenseFinal.wf_refines nk key_of hash keq rep KL rep_key); assumption.
  - unfold delems. rewrite (ho_size _ (proj1 Hu)). reflexivity.
  - destruct (husk_clear nk key_of hash keq o o' Wo Hu) as (o2 & E2 & W2 & D2). exists o2. split; [exact E2|]. intros h Hh. rewrite <- D2. apply (DenseFinal.wf_refines nk key_of hash keq rep KL rep_key); assumption.
Qed.
Lemma dense_source : forall v o r bc cap s' o', doccurs o -> denv_ok v -> delems o <> [] -> dmoves v o r bc cap -> r = Ok (s', o') ->
  forall w j k, (j < nk)%nat ->
  (shares o j k -> dexec nk key_of hash keq rep w o' (DFind j k) = Err DeadObject) /\
  (~ shares o j k -> dexec nk key_of hash keq rep w o' (DFind j k) = Ok (o', QFound None)).
Proof.
  intros v o r bc cap s' o' Ho V Hne Hm Er w j k Hj. destruct (dense_cases v o r bc cap Ho V Hne Hm) as [(_ & X)|(_ & s1 & o1 & X & _ & _ & Hu)]; [congruence|]. rewrite Er in X. injection X as <- <-.
  pose proof (DenseFinal.occurs_wf nk key_of hash keq rep clone pocca pocma KL rep_key clone_key o Ho) as Wo.
  destruct (husk_dexec nk key_of hash keq rep o o' w j k Wo Hu Hj) as [(A & B)|(A & B)]; (split; [intros H|intros H]).
  - exact B.
  - contradiction.
  - exfalso. destruct H as (x & Hx & X). exact (A x Hx X).
  - exact B.
Qed.
End Dense.
