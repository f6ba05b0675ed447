(** Histories in which elements of an open-addressing table move although the table never
    holds more elements than were reserved. *)
From Coq Require Import ZArith List Bool Lia.
From Verif Require Import Base Bits MapSpec SwissModel SwissRun Instances BoundsSpec PlaceSpec.
From Verif Require Import Float32 DenseSpec DenseWorldSpec DenseModel DenseRun DenseWorld DenseInstances.
From Verif Require Import SwissModel SwissRun.
Import ListNotations.
Open Scope Z_scope.

(** Checking that the sizes of a run stay within a bound. *)
Fixpoint sizes_ok (f : simd) (m : Z) (s : @swiss entry) (h : list (env * call entry Z)) : bool :=
  (size s <=? m) &&
  match h with
  | [] => true
  | (v, c) :: r => match exec f ekey ehash ekeq erep v s c with Ok (s1, _) => sizes_ok f m s1 r | Err _ => true end
  end.
Lemma sizes_run : forall f m h s h1 h2 t rs, sizes_ok f m s h = true -> h = h1 ++ h2 -> run f ekey ehash ekeq erep s h1 = Ok (t, rs) -> size t <= m.
Proof.
  induction h as [|[v c] h IH]; intros s h1 h2 t rs Hok Eh Er; cbn [sizes_ok] in Hok; apply andb_true_iff in Hok; destruct Hok as [Hs Hok].
  - destruct h1; [|discriminate]. cbn [run SwissRun.run] in Er. injection Er as <- <-. lia.
  - destruct h1 as [|vc h1]; cbn [run SwissRun.run] in Er; [injection Er as <- <-; lia|].
    cbn [app] in Eh. injection Eh as <- Eh. destruct (exec f ekey ehash ekeq erep v s c) as [[s1 r]|] eqn:E1; [|discriminate]. cbn [bind] in Er.
    destruct (run f ekey ehash ekeq erep s1 h1) as [[s2 rs2]|] eqn:E2; [|discriminate]. cbn [bind] in Er. injection Er as <- _.
    apply (IH s1 h1 h2 s2 rs2 Hok Eh E2).
Qed.

(** Inserting and erasing n keys, one after the other. *)
Definition churn (a n : Z) : list (call entry Z) := flat_map (fun i => [CInsert (a + i, i); CErase (a + i)]) (zrange n).
(** A group filled with keys of equal hash; the last goes to slot 16, then the first is erased. *)
Definition crowd : list (call entry Z) := map (fun i => CInsert (32 * i, i)) (zrange 17) ++ [CErase 0].
(** The table after reserve(n), and a table after further calls. *)
Definition reserved (n : Z) : @swiss entry := match reserve SSE2 (2 ^ 40) (@empty_swiss entry) n with Ok (s, _) => s | Err _ => empty_swiss end.
Definition later (s : @swiss entry) (l : list (call entry Z)) : @swiss entry := state (run SSE2 ekey ehash ekeq erep s (calls l)) empty_swiss.

Lemma within_calls : forall f m s l, sizes_ok f m s (calls l) = true -> Forall steady l -> within f ekey ehash ekeq erep m s (calls l).
Proof.
  intros f m s l Hok Hst. split; [intros h1 h2 t rs Eh Er; exact (sizes_run f m (calls l) s h1 h2 t rs Hok Eh Er)|].
  intros v n Hin. exfalso. rewrite Forall_forall in Hst. unfold calls in Hin. rewrite !in_map_iff in Hin.
  destruct Hin as [(c & Ec & Hc)|(c & Ec & Hc)]; specialize (Hst c Hc); injection Ec as _ ->; exact Hst.
Qed.

Ltac all_calls := repeat first [apply Forall_nil | apply Forall_cons]; cbn [steady drops]; try exact I; try (intros []; fail); try (let H := fresh in intros H; vm_compute in H; discriminate).

(** Key 512 sits in slot 16 while the table has empty slots, and is moved to slot 0 by the
    insertion that finds none left. *)
Lemma moved_within : exists s0 tr l s' rs p e, reserve SSE2 (2 ^ 40) (@empty_swiss entry) 20 = Ok (s0, Some tr) /\ Forall steady l /\ within SSE2 ekey ehash ekeq erep 20 s0 (calls l) /\
     run SSE2 ekey ehash ekeq erep s0 (calls l) = Ok (s', rs) /\ holds s' p e /\ Forall (fun c => ~ drops ekeq (ekey e) c) l /\ bucket_count s' = bucket_count s0 /\
     exists l1 l2 t rs1 q, l = l1 ++ l2 /\ run SSE2 ekey ehash ekeq erep s0 (calls l1) = Ok (t, rs1) /\ holds t q e /\ q <> p.
Proof.
  exists (reserved 20). eexists. exists ((crowd ++ churn 17 11) ++ [CInsert (28, 0)]). do 2 eexists. exists 0, (512, 16).
  assert (Hst : Forall steady ((crowd ++ churn 17 11) ++ [CInsert (28, 0)])) by (cbv - [steady]; all_calls).
  split; [vm_compute; reflexivity|]. split; [exact Hst|]. split; [apply within_calls; [vm_compute; reflexivity|exact Hst]|].
  split; [vm_compute; reflexivity|]. split; [unfold holds; split; [split; [discriminate|reflexivity]|eexists; reflexivity]|].
  split; [cbv - [drops ekeq ekey not]; all_calls|]. split; [reflexivity|].
  exists (crowd ++ churn 17 11), [CInsert (28, 0)]. do 2 eexists. exists 16. split; [reflexivity|].
  split; [vm_compute; reflexivity|]. split; [unfold holds; split; [split; [discriminate|reflexivity]|eexists; reflexivity]|discriminate].
Qed.

(** 25 elements and three erased ones use up the empty slots of a table of 31. *)
Lemma grown_within : exists s0 tr l s' rs, reserve SSE2 (2 ^ 40) (@empty_swiss entry) 28 = Ok (s0, Some tr) /\ Forall steady l /\ within SSE2 ekey ehash ekeq erep 28 s0 (calls l) /\
     run SSE2 ekey ehash ekeq erep s0 (calls l) = Ok (s', rs) /\ bucket_count s0 < bucket_count s'.
Proof.
  exists (reserved 28). eexists. exists (map (fun i => CInsert (i, i)) (zrange 25) ++ churn 25 3 ++ [CInsert (28, 0)]). do 2 eexists.
  assert (Hst : Forall steady (map (fun i => CInsert (i, i)) (zrange 25) ++ churn 25 3 ++ [CInsert (28, 0)])) by (cbv - [steady]; all_calls).
  split; [vm_compute; reflexivity|]. split; [exact Hst|]. split; [apply within_calls; [vm_compute; reflexivity|exact Hst]|].
  split; [vm_compute; reflexivity|]. reflexivity.
Qed.

(** A full element array is doubled before the key is looked up. *)
Lemma present_moves : exists (s s1 s2 t : dense entry) n rs, doccurs 1 key1 ehash ekeq erep sameel false true s /\
  dexec 1 key1 ehash ekeq erep dv0 s (DReserve n) = Ok (s1, QUnit) /\
  drun 1 key1 ehash ekeq erep s1 (dcalls [DInsert (1, 10); DInsert (2, 20); DInsert (3, 30)]) = Ok (s2, rs) /\ DenseModel.size s2 = n /\
  dexec 1 key1 ehash ekeq erep dv0 s2 (DInsert (2, 21)) = Ok (t, QInserted (2, 20) false) /\ DenseModel.size t = n /\ d_cap s2 < d_cap t.
Proof.
  exists (dmap [] 0). do 3 eexists. exists 3. eexists. split; [apply dmap_occurs; reflexivity|].
  split; [vm_compute; reflexivity|]. split; [vm_compute; reflexivity|]. split; [reflexivity|]. split; [vm_compute; reflexivity|]. split; reflexivity.
Qed.
