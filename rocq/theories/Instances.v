(** Concrete key and element types used in the examples and counterexamples. *)
From Coq Require Import ZArith List Bool Lia.
From Verif Require Import Base Bits MapSpec SwissModel SwissRun.
Import ListNotations.
Open Scope Z_scope.

(** Map entries (key, mapped value) with integer keys. *)
Definition entry : Type := Z * Z.
Definition ekey (e : entry) : Z := fst e.
Definition ekeq (a b : Z) : bool := a =? b.
(** Mapped value of the second argument under the key of the first. *)
Definition erep (a b : entry) : entry := (fst a, snd b).
(** Hash whose first probe slot is the key itself, and a constant hash. *)
Definition ehash (k : Z) : Z := (k * 128 + k mod 128) mod 2 ^ 64.
Definition chash (k : Z) : Z := 0.

Lemma elaws : key_laws ehash ekeq.
Proof.
  constructor; unfold ekeq, ehash; intros.
  - apply Z.eqb_refl.
  - rewrite Z.eqb_sym. assumption.
  - apply Z.eqb_eq in H, H0. subst. apply Z.eqb_refl.
  - apply Z.eqb_eq in H. subst. reflexivity.
  - apply Z.mod_pos_bound. reflexivity.
Qed.
Lemma claws : key_laws chash ekeq.
Proof.
  constructor; unfold ekeq, chash; intros.
  - apply Z.eqb_refl.
  - rewrite Z.eqb_sym. assumption.
  - apply Z.eqb_eq in H, H0. subst. apply Z.eqb_refl.
  - reflexivity.
  - lia.
Qed.
Lemma erep_key : forall a b, ekeq (ekey a) (ekey b) = true -> ekey (erep a b) = ekey a.
Proof. reflexivity. Qed.

(** Calls in an environment where every allocation up to 2^40 slots succeeds. *)
Definition v0 : env := mkenv (2 ^ 40) true.
Definition calls (l : list (call entry Z)) : list (env * call entry Z) := map (fun c => (v0, c)) l.

(** Runs of the model with the two hashes, and the final table only. *)
Definition erun (f : simd) (l : list (call entry Z)) : res (@swiss entry * list (ret entry)) :=
  run f ekey ehash ekeq erep empty_swiss (calls l).
Definition crun (f : simd) (l : list (call entry Z)) : res (@swiss entry * list (ret entry)) :=
  run f ekey chash ekeq erep empty_swiss (calls l).
Definition results {S R} (x : res (S * R)) : res R := let* y := x in Ok (snd y).
Definition state {S R} (x : res (S * R)) (d : S) : S := match x with Ok y => fst y | Err _ => d end.

(** Checking that a history of calls is admissible. *)
Definition callb (c : call entry Z) : bool :=
  match c with
  | CReserve n => (0 <=? n) && (n <? 2 ^ 64)
  | CRehash n => (0 <? n) && (n <? 2 ^ 64)
  | _ => true
  end.
Lemma calls_ok : forall l, forallb callb l = true -> history_ok (calls l).
Proof.
  unfold history_ok, calls. induction l as [|c l IH]; intros H; [constructor|].
  cbn [forallb] in H. apply andb_true_iff in H. destruct H as [Hc Hl]. cbn [map]. constructor; [|apply IH; exact Hl].
  cbn [fst snd]. split; [reflexivity|]. destruct c; cbn [callb call_ok] in *; try exact I;
    apply andb_true_iff in Hc; destruct Hc as [H1 H2]; apply Z.ltb_lt in H2;
    [apply Z.leb_le in H1|apply Z.ltb_lt in H1]; auto.
Qed.
Lemma erun_reachable : forall f l, forallb callb l = true -> (exists rs, results (erun f l) = Ok rs) ->
  reachable f ekey ehash ekeq erep (state (erun f l) empty_swiss).
Proof.
  intros f l Hl [rs Hr]. unfold results in Hr. exists (calls l).
  change (run f ekey ehash ekeq erep empty_swiss (calls l)) with (erun f l).
  destruct (erun f l) as [[s r]|] eqn:Ex; [|discriminate]. exists r. split; [apply calls_ok; exact Hl|].
  reflexivity.
Qed.
Lemma crun_reachable : forall f l, forallb callb l = true -> (exists rs, results (crun f l) = Ok rs) ->
  reachable f ekey chash ekeq erep (state (crun f l) empty_swiss).
Proof.
  intros f l Hl [rs Hr]. unfold results in Hr. exists (calls l).
  destruct (crun f l) as [[s r]|] eqn:Ex; [|discriminate]. exists r. split; [apply calls_ok; exact Hl|].
  exact Ex.
Qed.
