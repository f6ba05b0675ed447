(** Containers whose load factor exceeds the maximum. *)
From Coq Require Import ZArith List Bool Lia.
From Verif Require Import Base BaseLemmas MapSpec Float32 DenseSpec DenseModel DenseRun Instances DenseInstances LoadSpec.
Import ListNotations.
Open Scope Z_scope.

Definition over (h : list (denv * dcall entry Z)) (n b : Z) : Prop :=
  match drun 1 key1 ehash ekeq erep empty_dense h with
  | Ok (s, rs) => forallb (fun r => match r with QThrow => false | _ => true end) rs = true /\ d_mlf s = (7, 8) /\ size s = n /\ d_bc s = b
  | Err _ => False
  end.
Lemma over_run : forall h n b, over h n b -> 8 * n > 7 * b ->
  exists s rs, drun 1 key1 ehash ekeq erep empty_dense h = Ok (s, rs) /\ ~ In QThrow rs /\ d_mlf s = (7, 8) /\ size s = n /\ d_bc s = b /\ ~ within_load 7 8 (size s) (d_bc s).
Proof.
  intros h n b H Hn. unfold over in H. destruct (drun _ _ _ _ _ _ h) as [[s rs]|]; [|contradiction]. destruct H as (H1 & H2 & H3 & H4).
  exists s, rs. split; [reflexivity|]. split; [intros Hi; rewrite forallb_forall in H1; specialize (H1 _ Hi); discriminate|].
  split; [exact H2|]. split; [exact H3|]. split; [exact H4|]. unfold within_load. rewrite H3, H4. lia.
Qed.
Lemma load_rehash : exists h s rs, dhistory_ok 1 h /\ Forall (fun vc => keeps_max (snd vc)) h /\ drun 1 key1 ehash ekeq erep empty_dense h = Ok (s, rs) /\ ~ In QThrow rs /\
  d_mlf s = (7, 8) /\ size s = 1 /\ d_bc s = 1 /\ ~ within_load 7 8 (size s) (d_bc s).
Proof.
  exists (dcalls [DRehash 1; DInsert (5, 50)]). destruct (over_run (dcalls [DRehash 1; DInsert (5, 50)]) 1 1) as (s & rs & H); [vm_compute; repeat split; reflexivity|lia|].
  exists s, rs. split; [repeat constructor; cbn; lia|]. split; [repeat constructor|exact H].
Qed.
Definition ten : list (denv * dcall entry Z) := dcalls (map (fun k => DInsert (k, k)) (zrange 10)).
Lemma load_reserve : exists h s rs, dhistory_ok 1 (dcalls [DReserve 10] ++ h) /\ Forall (fun vc => exists e : entry, snd vc = @DInsert entry Z e) h /\
  drun 1 key1 ehash ekeq erep empty_dense (dcalls [DReserve 10] ++ h) = Ok (s, rs) /\ ~ In QThrow rs /\
  d_mlf s = (7, 8) /\ size s = 10 /\ d_bc s = 11 /\ ~ within_load 7 8 (size s) (d_bc s).
Proof.
  exists ten. destruct (over_run (dcalls [DReserve 10] ++ ten) 10 11) as (s & rs & H); [vm_compute; repeat split; reflexivity|lia|].
  exists s, rs. split; [repeat constructor; cbn; lia|]. split; [repeat (constructor; [eexists; reflexivity|]); constructor|exact H].
Qed.
