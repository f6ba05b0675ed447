(** Proofs about the comparison of element references. *)
From Coq Require Import Bool ZArith.
From Verif Require Import RefModel.

(** A strict total order (for which values that are not ordered are the same). *)
Record total {A : Type} (lt : A -> A -> bool) : Prop := mktotal {
  tot_irr : forall a, lt a a = false;
  tot_trans : forall a b c, lt a b = true -> lt b c = true -> lt a c = true;
  tot_eq : forall a b, lt a b = false -> lt b a = false -> a = b }.

(** [lt], [le], [eq] fit together: lt is a strict total order up to eq, le its reflexive closure. *)
Definition consistent {A : Type} (eq lt le gt ge ne : A -> A -> bool) : Prop :=
  (forall a b, eq a b = true <-> a = b) /\
  (forall a b, le a b = true <-> lt a b = true \/ eq a b = true) /\
  (forall a b, (lt a b = true /\ eq a b = false /\ lt b a = false) \/ (lt a b = false /\ eq a b = true /\ lt b a = false) \/ (lt a b = false /\ eq a b = false /\ lt b a = true)) /\
  (forall a b c, lt a b = true -> lt b c = true -> lt a c = true) /\
  (forall a b, gt a b = lt b a /\ ge a b = le b a /\ ne a b = negb (eq a b)).

Section Proofs.
Context {K M : Type} (ltk : K -> K -> bool) (ltm : M -> M -> bool).
Hypothesis Tk : total ltk.
Hypothesis Tm : total ltm.

Lemma anti {A} (lt : A -> A -> bool) a b : total lt -> lt a b = true -> lt b a = false.
Proof. intros T H. destruct (lt b a) eqn:E; [|reflexivity]. pose proof (tot_trans lt T a b a H E). rewrite tot_irr in H0 by assumption. discriminate. Qed.
Lemma same {A} (lt : A -> A -> bool) a b : total lt -> (negb (lt a b) && negb (lt b a) = true <-> a = b).
Proof.
  intros T. rewrite andb_true_iff, !negb_true_iff. split; [intros [H1 H2]; apply (tot_eq lt T); assumption|]. intros ->. rewrite tot_irr by assumption. auto.
Qed.

Theorem ref20_consistent : consistent (ref20_eq ltk ltm) (ref20_lt ltk ltm) (ref20_le ltk ltm) (ref20_gt ltk ltm) (ref20_ge ltk ltm) (ref20_ne ltk ltm).
Proof.
  assert (forall a b, ref20_eq ltk ltm a b = true <-> a = b) as E.
  { intros [k m] [k' m']. unfold ref20_eq, eqk, eqm. cbn [fst snd]. rewrite andb_true_iff, (same ltk) by exact Tk. rewrite (same ltm) by exact Tm.
    split; [intros [-> ->]; reflexivity|]. intros [= -> ->]. auto. }
  assert (forall a b, ref20_eq ltk ltm a b = match ref20_cmp ltk ltm a b with Eq => true | _ => false end) as C.
  { intros [k m] [k' m']. unfold ref20_eq, ref20_cmp, eqk, eqm, three_way. cbn [fst snd].
    destruct (ltk k k'), (ltk k' k), (ltm m m'), (ltm m' m); reflexivity. }
  assert (forall a b, ref20_cmp ltk ltm b a = CompOpp (ref20_cmp ltk ltm a b)) as O.
  { intros [k m] [k' m']. unfold ref20_cmp, three_way. cbn [fst snd].
    destruct (ltk k k') eqn:E1; [rewrite (anti ltk _ _ Tk E1); reflexivity|]. destruct (ltk k' k); [reflexivity|].
    destruct (ltm m m') eqn:E2; [rewrite (anti ltm _ _ Tm E2); reflexivity|]. destruct (ltm m' m); reflexivity. }
  split; [exact E|]. split; [|split; [|split]].
  - intros a b. unfold ref20_le, ref20_lt. rewrite C. destruct (ref20_cmp ltk ltm a b); intuition discriminate.
  - intros a b. unfold ref20_lt. rewrite C, (O a b). destruct (ref20_cmp ltk ltm a b); cbn; intuition.
  - assert (forall x y, ref20_lt ltk ltm x y = true <-> ltk (fst x) (fst y) = true \/ (fst x = fst y /\ ltm (snd x) (snd y) = true)) as L.
    { intros [k m] [k' m']. unfold ref20_lt, ref20_cmp, three_way. cbn [fst snd]. destruct (ltk k k') eqn:E1; [intuition|]. destruct (ltk k' k) eqn:E2.
      - split; [discriminate|]. intros [H|[-> H]]; [discriminate|]. rewrite tot_irr in E2 by exact Tk. discriminate.
      - pose proof (tot_eq ltk Tk _ _ E1 E2). destruct (ltm m m') eqn:E3; [intuition|]. destruct (ltm m' m); intuition discriminate. }
    intros a b c. rewrite !L. intros [H|[H1 H2]] [G|[G1 G2]].
    + left. apply (tot_trans ltk Tk _ _ _ H G).
    + left. rewrite <- G1. exact H.
    + left. rewrite H1. exact G.
    + right. split; [congruence|]. apply (tot_trans ltm Tm _ _ _ H2 G2).
  - intros a b. unfold ref20_gt, ref20_lt, ref20_ge, ref20_le, ref20_ne. rewrite (O a b). destruct (ref20_cmp ltk ltm a b); cbn; auto.
Qed.
(** What holds of the C++17 operators. *)
Theorem ref17_holds : (forall a b, ref17_eq ltk ltm a b = true <-> a = b) /\ (forall a b, ref17_ne ltk ltm a b = negb (ref17_eq ltk ltm a b)) /\
  (forall a b, ref17_gt ltk ltm a b = ref17_lt ltk ltm b a /\ ref17_ge ltk ltm a b = ref17_le ltk ltm b a) /\
  (forall a b c, ref17_lt ltk ltm a b = true -> ref17_lt ltk ltm b c = true -> ref17_lt ltk ltm a c = true) /\
  (forall a b, ref17_lt ltk ltm a b = true \/ ref17_eq ltk ltm a b = true -> ref17_le ltk ltm a b = true) /\
  (forall a b, ref17_lt ltk ltm a b = true -> ref17_eq ltk ltm a b = false /\ ref17_lt ltk ltm b a = false) /\
  forall a b, ltk (fst a) (fst b) = ltm (snd a) (snd b) -> ltk (fst b) (fst a) = ltm (snd b) (snd a) ->
    (ref17_le ltk ltm a b = true <-> ref17_lt ltk ltm a b = true \/ ref17_eq ltk ltm a b = true) /\
    (ref17_lt ltk ltm a b = true \/ ref17_eq ltk ltm a b = true \/ ref17_lt ltk ltm b a = true).
Proof.
  assert (forall a b, ref17_eq ltk ltm a b = true <-> a = b) as E.
  { intros [k m] [k' m']. unfold ref17_eq, eqk, eqm. cbn [fst snd]. rewrite andb_true_iff, (same ltk) by exact Tk. rewrite (same ltm) by exact Tm.
    split; [intros [-> ->]; reflexivity|]. intros [= -> ->]. auto. }
  split; [exact E|]. split; [|split; [|split; [|split; [|split]]]].
  - intros a b. unfold ref17_ne, ref17_eq. rewrite negb_andb. reflexivity.
  - intros a b. split; reflexivity.
  - intros a b c. unfold ref17_lt. rewrite !andb_true_iff. intros [H1 H2] [G1 G2]. split; [apply (tot_trans ltk Tk _ _ _ H1 G1)|apply (tot_trans ltm Tm _ _ _ H2 G2)].
  - intros a b [H|H].
    + unfold ref17_lt in H. apply andb_true_iff in H. destruct H as [H1 H2]. unfold ref17_le. rewrite (anti ltk _ _ Tk H1), (anti ltm _ _ Tm H2). reflexivity.
    + apply E in H. subst b. unfold ref17_le. rewrite !tot_irr by assumption. reflexivity.
  - intros a b H. unfold ref17_lt, ref17_eq, eqk in *. apply andb_true_iff in H. destruct H as [H1 H2]. rewrite H1, (anti ltk _ _ Tk H1). split; reflexivity.
  - intros a b H G. unfold ref17_le, ref17_lt, ref17_eq, eqk, eqm. rewrite H, G. destruct (ltm (snd a) (snd b)) eqn:E1; [rewrite (anti ltm _ _ Tm E1); cbn; intuition discriminate|].
    destruct (ltm (snd b) (snd a)); cbn; intuition discriminate.
Qed.
End Proofs.

(** The order of the integers is total. *)
Lemma z_total : total Z.ltb.
Proof. split; intros; repeat match goal with H : (_ <? _)%Z = _ |- _ => first [apply Z.ltb_lt in H|apply Z.ltb_ge in H] end; rewrite ?Z.ltb_lt, ?Z.ltb_ge in *; Lia.lia. Qed.
