(** Moves between ordered dense containers in which enough element moves succeed. *)
From Coq Require Import ZArith List Bool Lia Arith.
From Verif Require Import Base BaseLemmas MapSpec DenseSpec World DenseModel DenseRun DenseChain DenseInv DenseOps DenseEdit DenseErase DenseRefine DenseMore DenseFinal.
From Verif Require Import LinkModel OrderedDense OrderedLinks OrderedSpec OrderedWorldSpec OrderedRun OrderedProofs OrderedRefine OrderedMoves OrderedWorld OrderedWorldProofs.
From Verif Require Import UnequalModel UnequalDense UnequalOrdered MoveLeftModel MoveLeftDense MoveLeftOrderedModel.
Import ListNotations.
Open Scope Z_scope.

Section World.
Context {E K : Type}.
Variable sz : Z.
Variable nk : nat.
Variable key_of : nat -> E -> K.
Variable hash : K -> Z.
Variable keq : K -> K -> bool.
Variable rep : E -> E -> E.
Variable clone : E -> E.
Variables pocca pocma : bool.
Hypothesis Hsz : 0 < sz.
Hypothesis KL : key_laws hash keq.
Hypothesis rep_key : forall x e, key_of 0 (rep x e) = key_of 0 x.
Hypothesis clone_key : forall j e, (j < nk)%nat -> key_of j (clone e) = key_of j e.
Notation odense := (odense E).
Notation dwf := (dwf nk key_of hash keq).
Notation yoccurs := (yoccurs sz nk key_of hash keq rep clone pocca pocma).

Lemma quiet_core : forall n v h (s o : odense), hollow (o_d s) -> dwf (o_d o) -> d_mlf (o_d s) = d_mlf (o_d o) -> d_size (o_d o) <= Z.of_nat n -> denv_ok (ov_d v) ->
  om_move_data sz nk n v h s o = o_move_data sz nk v h s o.
Proof.
  clear rep_key clone_key clone rep pocca pocma Hsz. intros n v h s o Hh Wo Hq Hn V. pose proof (w_size _ _ _ _ _ Wo) as Hsize. unfold om_move_data, o_move_data.
  destruct (Z.eqb_spec (d_size (o_d o)) 0) as [H0|H0].
  - assert (X : dm_move_data nk n (dv_dlim (ov_d v)) (dv_slim (ov_d v)) (o_d s) (o_d o) = move_data nk (dv_dlim (ov_d v)) (dv_slim (ov_d v)) (o_d s) (o_d o)) by (unfold dm_move_data, move_data; rewrite H0; reflexivity).
    rewrite X. reflexivity.
  - destruct (dm_move_data_ok nk key_of hash keq KL n (dv_dlim (ov_d v)) (dv_slim (ov_d v)) (o_d s) (o_d o) (proj1 V) (proj2 V) Hh Wo ltac:(lia) Hq) as (_ & Hm). rewrite (Hm Hn). clear Hm.
    rewrite (firstn_all2 (n := S n) (zrange (d_size (o_d o)))) by (rewrite zrange_length; lia).
    unfold move_data. rewrite (ho_size _ Hh). cbn [Z.eqb guard bind]. destruct (Z.eqb_spec (d_size (o_d o)) 0) as [|_]; [contradiction|].
    assert (Hsok : forall s1 b, realloc_sparse (dv_slim (ov_d v)) (o_d s) (d_bc (o_d o)) = (s1, b) -> d_dok s1 = true).
    { intros s1 b. unfold realloc_sparse. destruct (d_bc (o_d s) <? d_bc (o_d o)); [destruct (dv_slim (ov_d v) <? d_bc (o_d o))|]; intros X; injection X as <- _; apply (ho_dok _ Hh). }
    destruct (realloc_sparse (dv_slim (ov_d v)) (o_d s) (d_bc (o_d o))) as [s1 ok1]. specialize (Hsok s1 ok1 eq_refl). destruct ok1; cbn [negb bind andb]; [|rewrite Hsok; reflexivity].
    destruct (realloc_dense (dv_dlim (ov_d v)) s1 (d_size (o_d o))) as [s2 ok2] eqn:Er. destruct ok2; cbn [negb bind andb].
    + destruct (fill_sparse s2) as [s3|]; cbn [bind]; [|reflexivity]. destruct (foldM (move_step nk) (zrange (d_size (o_d o))) (s3, o_d o)) as [[a b]|]; cbn [bind negb andb]; reflexivity.
    + destruct (d_dok s2); reflexivity.
Qed.
Lemma quiet_moves : forall ne n v h w i j l, yoccurs (h, w) -> denv_ok (ov_d v) -> o_iterate sz h (w j) = Ok l -> (length l <= n)%nat ->
  om_move_assign sz nk ne n v h (w i) (w j) = leaves ne (o_move_assign sz nk false false v h (w i) (w j)) /\
  om_move_ctor sz nk ne n v (o_destroy sz h (w i)) (o_hdr (w i)) (w j) = leaves ne (o_move_ctor sz nk false v (o_destroy sz h (w i)) (o_hdr (w i)) (w j)).
Proof.
  intros ne n v h w i j l Ho V Hl Hn. destruct (yoccurs_inv sz nk key_of hash keq rep clone pocca pocma Hsz KL rep_key clone_key (h, w) Ho) as (ords & H). cbn [fst snd] in H.
  destruct (proj1 H i) as (Wi & _). destruct (proj1 H j) as (Wj & _).
  assert (Hn0 : d_size (o_d (w j)) <= Z.of_nat n).
  { pose proof (o_iterate_ok sz nk key_of hash keq Hsz _ _ _ (proj1 H j)) as X. rewrite Hl in X. injection X as ->. rewrite (Permutation.Permutation_length (inv_perm sz nk key_of hash keq _ _ _ (proj1 H j))) in Hn. pose proof (delems_len nk key_of hash keq _ Wj). pose proof (w_size _ _ _ _ _ Wj). lia. }
  destruct (cleared_hollow nk key_of hash keq (o_d (w i)) (d_mlf (o_d (w j))) Wi) as (dc & Hcl & Hh & Hq & _).
  unfold om_move_assign, o_move_assign, om_move_ctor, o_move_ctor. split; f_equal.
  - destruct (relink_from h (o_hdr (w i)) (o_hdr (w j))) as [h1|]; [|reflexivity]. cbn [bind]. rewrite Hcl. cbn [bind o_release o_move_from]. apply quiet_core; assumption.
  - destruct (relink_from (o_destroy sz h (w i)) (o_hdr (w i)) (o_hdr (w j))) as [h1|]; [|reflexivity]. cbn [bind o_move_from]. apply quiet_core; [apply empty_hollow|exact Wj|reflexivity|exact Hn0|exact V].
Qed.
End World.
