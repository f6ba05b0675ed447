(** Proofs about comparison, element access and aliased arguments. *)
From Coq Require Import ZArith List Bool Lia Permutation Arith.
From Verif Require Import Base BaseLemmas Bits MapSpec WrapSpec WrapModel SwissModel SwissRun.
Import ListNotations.
Open Scope nat_scope.

Lemma Forall2_length : forall A B (R : A -> B -> Prop) l m, Forall2 R l m -> length l = length m.
Proof. induction 1; cbn [length]; congruence. Qed.

(** ** std::is_permutation. *)
Section Perm.
Context {E : Type}.
Variable veq : E -> E -> bool.
Hypothesis L : eq_laws veq.
Local Notation count := (count veq).
Local Notation same := (same_elements veq).
Local Notation eqv := (fun a b => veq a b = true).

Lemma veq_cong : forall a b c, veq a b = true -> veq a c = veq b c.
Proof.
  intros a b c H. apply eq_true_iff_eq. split; intros Hc.
  - apply (el_trans _ L b a c); [apply (el_sym _ L); exact H|exact Hc].
  - apply (el_trans _ L a b c); assumption.
Qed.
Lemma veq_comm : forall a b, veq a b = veq b a.
Proof. intros a b. apply eq_true_iff_eq. split; apply (el_sym _ L). Qed.
Lemma veq_cong_r : forall a b c, veq a b = true -> veq c a = veq c b.
Proof. intros a b c H. rewrite (veq_comm c a), (veq_comm c b). apply veq_cong. exact H. Qed.

Lemma count_app : forall x l m, count x (l ++ m) = count x l + count x m.
Proof. intros. unfold WrapModel.count. rewrite filter_app, app_length. reflexivity. Qed.
Lemma count_cons : forall x y l, count x (y :: l) = (if veq x y then 1 else 0) + count x l.
Proof. intros. unfold WrapModel.count. cbn [filter]. destruct (veq x y); reflexivity. Qed.
Lemma count_perm : forall x l m, Permutation l m -> count x l = count x m.
Proof. induction 1; rewrite ?count_cons; lia. Qed.
Lemma count_eqv : forall x l m, Forall2 eqv l m -> count x l = count x m.
Proof. induction 1 as [|a b l m H1 H2 IH]; [reflexivity|]. rewrite !count_cons, IH, (veq_cong_r a b x H1). reflexivity. Qed.
Lemma count_class : forall x y l, veq x y = true -> count x l = count y l.
Proof. intros x y l H. unfold WrapModel.count. f_equal. apply filter_ext. intros c. apply veq_cong. exact H. Qed.
Lemma count_self : forall x l, In x l -> 0 < count x l.
Proof.
  induction l as [|y l IH]; intros H; [contradiction|]. rewrite count_cons. destruct H as [->|H]; [rewrite (el_refl _ L); lia|specialize (IH H); lia].
Qed.
Lemma count_pos : forall x l, 0 < count x l -> exists a y b, l = a ++ y :: b /\ veq x y = true.
Proof.
  intros x l H. unfold WrapModel.count in H. destruct (filter (veq x) l) as [|y r] eqn:Ef; [cbn in H; lia|].
  assert (Hy : In y (filter (veq x) l)) by (rewrite Ef; left; reflexivity).
  apply filter_In in Hy. destruct Hy as [Hy Hx]. apply in_split in Hy. destruct Hy as (a & b & ->). eauto.
Qed.

Lemma same_counts : forall l m, same l m -> length l = length m /\ forall x, count x l = count x m.
Proof.
  intros l m (p & Hp & Hf). split; [rewrite (Permutation_length Hp); apply (Forall2_length _ _ _ _ _ Hf)|]. intros x. rewrite (count_perm x l p Hp). apply count_eqv. exact Hf.
Qed.
Lemma counts_same : forall l m, length l = length m -> (forall x, In x l -> count x l = count x m) -> same l m.
Proof.
  induction l as [|x l IH]; intros m Hl Hc.
  - destruct m; [|discriminate]. exists []. split; constructor.
  - assert (Hx : 0 < count x m) by (rewrite <- (Hc x (or_introl eq_refl)); apply count_self; left; reflexivity).
    apply count_pos in Hx. destruct Hx as (a & y & b & -> & Hxy).
    destruct (IH (a ++ b)) as (p & Hp & Hf).
    + rewrite !app_length in *. cbn [length] in *. lia.
    + intros z Hz. specialize (Hc z (or_intror Hz)). rewrite count_app, !count_cons in Hc. rewrite count_app, (veq_cong_r x y z Hxy) in *. lia.
    + apply Forall2_app_inv_r in Hf. destruct Hf as (p1 & p2 & F1 & F2 & ->). exists (p1 ++ x :: p2). split.
      * apply Permutation_cons_app. exact Hp.
      * apply Forall2_app; [exact F1|]. constructor; assumption.
Qed.

Lemma mismatch_ok : forall l m l' m', mismatch veq l m = (l', m') -> exists a b, l = a ++ l' /\ m = b ++ m' /\ Forall2 eqv a b.
Proof.
  induction l as [|x l IH]; intros m l' m' H; cbn [mismatch] in H.
  - injection H as <- <-. exists [], []. repeat split. constructor.
  - destruct m as [|y m]; [injection H as <- <-; exists [], []; repeat split; constructor|]. destruct (veq x y) eqn:Exy.
    + destruct (IH m l' m' H) as (a & b & -> & -> & F). exists (x :: a), (y :: b). repeat split. constructor; assumption.
    + injection H as <- <-. exists [], []. repeat split. constructor.
Qed.

Lemma loop_ok : forall scan seen m, (forall x, In x seen -> count x (seen ++ scan) = count x m) ->
  (count_loop veq seen scan m = true <-> forall x, In x (seen ++ scan) -> count x (seen ++ scan) = count x m).
Proof.
  induction scan as [|x scan IH]; intros seen m Hs; cbn [count_loop].
  - rewrite app_nil_r in *. split; auto.
  - assert (Hnext : (count x (seen ++ x :: scan) = count x m) -> (count_loop veq (seen ++ [x]) scan m = true <-> forall y, In y (seen ++ x :: scan) -> count y (seen ++ x :: scan) = count y m)).
    { intros Hx. change (x :: scan) with ([x] ++ scan) in *. rewrite !(app_assoc seen [x] scan) in *. apply IH. intros y Hy. apply in_app_or in Hy. destruct Hy as [Hy|[<-|[]]]; [apply Hs; exact Hy|exact Hx]. }
    destruct (existsb (veq x) seen) eqn:Ex.
    + apply existsb_exists in Ex. destruct Ex as (y & Hy & Hxy). apply Hnext. rewrite !(count_class x y _ Hxy). apply Hs. exact Hy.
    + assert (Hno : count x seen = 0).
      { destruct (Nat.eq_dec (count x seen) 0) as [|Hn]; [assumption|]. destruct (count_pos x seen ltac:(lia)) as (a & y & b & -> & Hxy).
        rewrite existsb_app in Ex. cbn [existsb] in Ex. rewrite Hxy, orb_true_r in Ex. discriminate. }
      assert (Hall : count x (seen ++ x :: scan) = count x (x :: scan)) by (rewrite count_app; lia).
      assert (Hself : 0 < count x (x :: scan)) by (apply count_self; left; reflexivity).
      destruct (Nat.eqb_spec (count x m) 0) as [E0|E0]; cbn [orb].
      * split; [discriminate|]. intros H. specialize (H x ltac:(apply in_or_app; right; left; reflexivity)). lia.
      * destruct (Nat.eqb_spec (count x (x :: scan)) (count x m)) as [E1|E1]; cbn [negb].
        -- apply Hnext. lia.
        -- split; [discriminate|]. intros H. specialize (H x ltac:(apply in_or_app; right; left; reflexivity)). lia.
Qed.

Lemma is_permutation_ok : forall l m, is_permutation veq l m = true <-> same l m.
Proof.
  intros l m. unfold is_permutation. destruct (mismatch veq l m) as [l' m'] eqn:Em. destruct (mismatch_ok l m l' m' Em) as (a & b & -> & -> & F).
  assert (Hsp : same (a ++ l') (b ++ m') <-> same l' m').
  { split.
    - intros H. destruct (same_counts _ _ H) as (Hl & Hc). apply counts_same.
      + rewrite !app_length, (Forall2_length _ _ _ _ _ F) in Hl. lia.
      + intros x _. specialize (Hc x). rewrite !count_app, (count_eqv x a b F) in Hc. lia.
    - intros (p & Hp & Hf). exists (a ++ p). split; [apply Permutation_app_head; exact Hp|apply Forall2_app; assumption]. }
  rewrite Hsp. destruct (Nat.eqb_spec (length l') (length m')) as [El|El]; cbn [negb].
  - rewrite loop_ok by (intros x []). cbn [app]. split.
    + intros H. apply counts_same; [exact El|exact H].
    + intros H x _. apply (proj2 (same_counts _ _ H)).
  - split; [discriminate|]. intros H. destruct (same_counts _ _ H). contradiction.
Qed.
End Perm.

(** For an element type whose == is equality, the specification is permutation of lists. *)
Lemma same_elements_eq : forall E (veq : E -> E -> bool) l m, (forall a b, veq a b = true <-> a = b) -> (same_elements veq l m <-> Permutation l m).
Proof.
  intros E veq l m H. split.
  - intros (p & Hp & Hf). assert (Hpm : p = m) by (clear Hp; induction Hf as [|a b p m H1 _ IH]; [reflexivity|]; apply H in H1; congruence). congruence.
  - intros Hp. exists m. split; [exact Hp|]. clear Hp. induction m as [|a m IH]; constructor; [apply H; reflexivity|exact IH].
Qed.
