(** Comparison, element access and aliased arguments on the dense tables. *)
From Coq Require Import ZArith List Bool Lia Permutation.
From Verif Require Import Base BaseLemmas MapSpec WrapSpec DenseSpec DenseModel DenseRun DenseInv DenseOps DenseEdit DenseRefine DenseWorldSpec DenseWorld DenseFinal WrapProofs.
From Verif Require WrapModel.
Import ListNotations.
Open Scope Z_scope.

Section Dense.
Context {E K V : Type}.
Variable nk : nat.
Variable key_of : nat -> E -> K.
Variable hash : K -> Z.
Variable keq : K -> K -> bool.
Variable rep : E -> E -> E.
Variable clone : E -> E.
Variables pocca pocma : bool.
Variable mapped : E -> V.
Hypothesis KL : key_laws hash keq.
Hypothesis rep_key : forall x e, key_of 0%nat (rep x e) = key_of 0%nat x.
Hypothesis clone_key : forall j e, (j < nk)%nat -> key_of j (clone e) = key_of j e.
Notation dense := (dense E).
Notation dwf := (dwf nk key_of hash keq).
Notation doccurs := (doccurs nk key_of hash keq rep clone pocca pocma).

Lemma equal_final : forall veq (s o : dense), eq_laws veq -> doccurs s -> doccurs o ->
  exists b, WrapModel.d_equal veq s o = Ok b /\ (b = true <-> same_elements veq (delems s) (delems o)).
Proof.
  intros veq s o L Hs Ho. apply (occurs_wf nk key_of hash keq rep clone pocca pocma KL rep_key clone_key) in Hs, Ho.
  unfold WrapModel.d_equal. rewrite (iterate_ok nk key_of hash keq s Hs), (iterate_ok nk key_of hash keq o Ho). cbn [bind]. eexists. split; [reflexivity|]. apply is_permutation_ok. exact L.
Qed.

Lemma at_final : forall (s : dense) k, (0 < nk)%nat -> doccurs s -> exists r, WrapModel.d_at mapped key_of hash keq s k = Ok r /\ at_spec (key_of 0%nat) mapped keq (delems s) k r.
Proof.
  intros s k Hnk Hs. pose proof (occurs_wf nk key_of hash keq rep clone pocca pocma KL rep_key clone_key s Hs) as W.
  unfold WrapModel.d_at, find. destruct (find_node_ok nk key_of hash keq KL s 0%nat k W Hnk) as [(i & n & p & Hn & Hk & -> & _)|(Hno & o & ->)]; cbn [bind fst].
  - pose proof (node_live nk key_of hash keq s i n W Hn) as Hl. destruct (Z.eqb_spec i (d_size s)) as [He|_]; [unfold live in Hl; lia|].
    rewrite (get_node_ok s i n (w_mem _ _ _ _ _ W) Hn). cbn [bind]. eexists. split; [reflexivity|]. cbn [WrapModel.guard_at option_map at_spec]. exists (n_val n). split; [|auto].
    apply (delems_in nk key_of hash keq s _ W). exists i, n. auto.
  - rewrite Z.eqb_refl. cbn [bind]. eexists. split; [reflexivity|]. cbn [WrapModel.guard_at option_map at_spec]. apply (absent_iff nk key_of hash keq); assumption.
Qed.
End Dense.

(** Maps: one key. *)
Section Map.
Context {E K V : Type}.
Variable key_of : nat -> E -> K.
Variable hash : K -> Z.
Variable keq : K -> K -> bool.
Variable rep : E -> E -> E.
Variable clone : E -> E.
Variables pocca pocma : bool.
Variable mapped : E -> V.
Hypothesis KL : key_laws hash keq.
Hypothesis rep_key : forall x e, key_of 0%nat (rep x e) = key_of 0%nat x.
Hypothesis clone_key : forall j e, (j < 1)%nat -> key_of j (clone e) = key_of j e.
Notation dense := (dense E).
Notation doccurs := (doccurs 1 key_of hash keq rep clone pocca pocma).

Lemma index_final : forall moved fresh v (s : dense) k, (forall k, key_of 0%nat (fresh k) = k) -> doccurs s -> denv_ok v ->
  exists s' r k', WrapModel.d_index mapped 1 key_of hash keq moved fresh v s k = Ok (s', r, k') /\ index_spec (key_of 0%nat) mapped keq (delems s) k (fresh k) (delems s') r /\
    k' = (if forallb (fun e => negb (keq (key_of 0%nat e) k)) (delems s) then match r with Some _ => moved k | None => k end else k).
Proof.
  intros moved fresh v s k Hfr Hs (Hv1 & Hv2). apply (occurs_wf 1 key_of hash keq rep clone pocca pocma KL rep_key clone_key) in Hs.
  destruct (do_insert_ok 1 key_of hash keq rep KL (dv_dlim v) (dv_slim v) s (fresh k) Hs Hv1 Hv2) as ((s' & o) & H & Hi). unfold WrapModel.d_index. rewrite H. cbn [bind give_inserted]. cbn [ins_ok] in Hi.
  assert (Hall : forall l, (forall e, In e l -> keq (key_of 0%nat e) k = false) -> forallb (fun e => negb (keq (key_of 0%nat e) k)) l = true) by (intros l Hl; apply forallb_forall; intros x Hx; rewrite (Hl x Hx); reflexivity).
  destruct o as [(p, [|])|].
  - destruct Hi as (W' & Hnew & Hde & n & Hn & Hv). rewrite (get_node_ok s' p n (w_mem _ _ _ _ _ W') Hn). cbn [bind fst snd]. specialize (Hnew 0%nat ltac:(lia)). rewrite Hfr in Hnew. rewrite Hv. eexists _, _, _. split; [reflexivity|].
    split.
    + right. left. split; [exact Hnew|]. split; [reflexivity|]. rewrite Hde. symmetry. apply Permutation_cons_append.
    + rewrite Hall; [reflexivity|]. exact Hnew.
  - destruct Hi as (W' & Hde & n & Hn & j & Hj & Hin & Hk & _). assert (j = 0%nat) by lia. subst j. rewrite Hfr in Hk. rewrite (get_node_ok s' p n (w_mem _ _ _ _ _ W') Hn). cbn [bind fst snd]. eexists _, _, _. split; [reflexivity|]. rewrite Hde. split.
    + left. split; [|apply Permutation_refl]. exists (n_val n). auto.
    + destruct (forallb _ (delems s)) eqn:Ef; [|reflexivity]. exfalso. rewrite forallb_forall in Ef. specialize (Ef _ Hin). cbn beta in Ef. rewrite Hk in Ef. discriminate.
  - destruct Hi as (He & _). cbn [bind fst snd]. eexists _, _, _. split; [reflexivity|]. split; [right; right; split; [reflexivity|]; rewrite (delems_same _ _ He); apply Permutation_refl|]. destruct (forallb _ _); reflexivity.
Qed.

Lemma index_keeps_key : forall moved fresh v (s : dense) k, (forall k, key_of 0%nat (fresh k) = k) -> doccurs s -> denv_ok v -> (exists e, In e (delems s) /\ keq (key_of 0%nat e) k = true) ->
  exists s' r, WrapModel.d_index mapped 1 key_of hash keq moved fresh v s k = Ok (s', r, k).
Proof.
  intros moved fresh v s k Hfr Hs Hv (e & He & Hk). destruct (index_final moved fresh v s k Hfr Hs Hv) as (s' & r & k' & E1 & _ & Hk'). exists s', r. rewrite E1. f_equal. f_equal. rewrite Hk'.
  destruct (forallb _ (delems s)) eqn:Ef; [|reflexivity]. exfalso. rewrite forallb_forall in Ef. specialize (Ef e He). cbn beta in Ef. rewrite Hk in Ef. discriminate.
Qed.

Variable build : K -> E -> E.
Hypothesis Hbuild : forall k e, key_of 0%nat (build k e) = k.

Lemma aliased_room : forall v (s : dense) k i e, doccurs s -> nth_error (delems s) i = Some e -> denv_ok v -> d_size s < d_cap s ->
  WrapModel.d_try_emplace_aliased 1 key_of hash keq v s k (Z.of_nat i) build = do_insert 1 key_of hash keq (dv_dlim v) (dv_slim v) true s (build k e).
Proof. clear mapped.
  intros v s k i e Hs Hi (Hv1 & Hv2) Hroom. apply (occurs_wf 1 key_of hash keq rep clone pocca pocma KL rep_key clone_key) in Hs. unfold WrapModel.d_try_emplace_aliased, do_insert, make_room, maybe_resize.
  destruct (Z.eqb_spec (d_cap s) (d_size s)); [lia|]. cbn [bind].
  destruct (maybe_rehash_ok 1 key_of hash keq (dv_slim v) s Hs Hv2) as (s1 & o & -> & (He & Hr) & Hc). cbn [bind fst snd]. destruct o as [u|]; [|reflexivity].
  cbn [js seq find_all]. rewrite Hbuild. destruct (find_node key_of keq s1 0 k (hash k)) as [x|] eqn:Ef; cbn [bind]; [|reflexivity].
  destruct (first_clash s1 [(0%nat, x)]) as [[j|]|] eqn:Ec; cbn [bind]; [reflexivity| |reflexivity].
  destruct (Hc ltac:(discriminate)) as (-> & _). rewrite Z.eqb_refl.
  rewrite <- (delems_same _ _ He) in Hi. assert (Hlt : (i < length (delems s1))%nat) by (apply nth_error_Some; congruence). rewrite (delems_len 1 key_of hash keq s1 Hr) in Hlt.
  assert (Hl : live s1 (Z.of_nat i)) by (unfold live; lia). destruct (w_live _ _ _ _ _ Hr _ Hl) as (nn & Hn). rewrite (get_node_ok s1 _ nn (w_mem _ _ _ _ _ Hr) Hn). cbn [bind].
  pose proof (delems_nth 1 key_of hash keq s1 _ Hr Hl) as Hx. rewrite Nat2Z.id, Hi in Hx. unfold val in Hx. rewrite Hn in Hx. cbn [option_map] in Hx. injection Hx as ->.
  rewrite Hbuild, Ef. cbn [bind]. rewrite Ec. reflexivity.
Qed.

(** A full element array is replaced before the argument is read. *)
Lemma aliased_freed : forall v (s : dense) k i e, doccurs s -> denv_ok v -> dabsent key_of keq 0 k (delems s) -> d_size s = d_cap s ->
  WrapModel.d_try_emplace_aliased 1 key_of hash keq v s k i build = Err UseAfterFree \/
  exists s', WrapModel.d_try_emplace_aliased 1 key_of hash keq v s k i build = Ok (s', None) /\ do_insert 1 key_of hash keq (dv_dlim v) (dv_slim v) true s (build k e) = Ok (s', None).
Proof. clear mapped.
  intros v s k i e Hs (Hv1 & Hv2) Ha Hfull. apply (occurs_wf 1 key_of hash keq rep clone pocca pocma KL rep_key clone_key) in Hs. unfold WrapModel.d_try_emplace_aliased, do_insert.
  destruct (make_room_ok 1 key_of hash keq (dv_dlim v) (dv_slim v) s Hs Hv1 Hv2) as (s1 & o & -> & (He & Hr) & Hc). cbn [bind fst snd]. destruct o as [u|]; [|right; exists s1; auto]. left.
  destruct (Hc ltac:(discriminate)) as (Hc1 & Hb). rewrite <- (delems_same _ _ He) in Ha. pose proof (proj1 (absent_iff 1 key_of hash keq s1 0 k Hr) Ha) as Hno.
  destruct (wf_lookup 1 key_of hash keq rep KL s1 (build k e) Hr Hb) as (xs & Hxs & Hcase). cbn [js seq find_all] in Hxs. rewrite Hbuild in Hxs.
  destruct (find_node key_of keq s1 0 k (hash k)) as [x|]; cbn [bind] in Hxs |- *; [|discriminate]. injection Hxs as <-.
  destruct Hcase as [(j & n & Hx & Hn & Hcl)|(Hx & _)].
  - exfalso. destruct Hcl as (j' & Hj' & Hin & Hk & _). assert (j' = 0%nat) by lia. subst j'. rewrite Hbuild in Hk. rewrite (Ha _ Hin) in Hk. discriminate.
  - rewrite Hx. cbn [bind]. destruct (Z.eqb_spec (d_cap s1) (d_cap s)) as [Eq|_]; [|reflexivity]. exfalso. destruct He as (Hsz & _). lia.
Qed.
End Map.
