(** C77 for ordered containers: calls whose key argument has another type than the keys. *)
From Coq Require Import ZArith List Bool Lia.
From Verif Require Import Base Float32 DenseSpec DenseModel DenseRun DenseInstances TransparentDenseSpec TransparentDenseModel OrderedSpec OrderedDense OrderedRun OrderedWorldSpec OrderedWorld OrderedInstances
  TransparentOrderedDenseModel.
From Verif Require Import Bits MapSpec WorldSpec World SwissModel SwissRun Instances LinkModel SwissOrderedSpec SwissOrdered SwissOrderedRun SwissOrderedWorldSpec SwissOrderedWorld SwissOrderedInstances
  TransparentSpec TransparentModel TransparentOrderedSpec TransparentOrderedModel TransparentOrderedProofs TransparentOrderedDense Props_Transparent.
Import ListNotations.
Open Scope Z_scope.

(** C77 for ordered sparse and stable containers on all builds: on every container that occurs,
    every history of calls with arguments of either type has the results of the list in
    insertion order, in which an argument of the other type denotes the elements that compare
    equal to it.  Missing: as for own keys, insertions that swap nodes while they reclaim
    erased slots (C17). *)
Theorem C77_ordered_partial : forall (E K T V : Type) f sz (key_of : E -> K) hash keq rep clone pocca pocma hasht (eqt : K -> T -> bool) (make : T -> V -> E), 0 < sz ->
  key_laws hash keq -> (forall a b, keq (key_of a) (key_of b) = true -> key_of (rep a b) = key_of a) -> (forall e, key_of (clone e) = key_of e) ->
  transparent_laws key_of hash keq hasht eqt make ->
  forall w i l hist, xoccurs f sz key_of hash keq rep clone pocca pocma w -> s_iterate sz (xw_m w) (xw_c w i) = Ok l -> zthistory_ok hist ->
  ztrefines f sz key_of hash keq rep hasht eqt make (xw_m w, xw_c w i) l hist.
Proof. exact (fun E K T V f sz key_of hash keq rep clone pocca pocma hasht eqt make Hsz KL R C TL => zt_refines f sz key_of hash keq rep Hsz KL R hasht eqt make TL clone pocca pocma C). Qed.
Print Assumptions C77_ordered_partial.

(** C77 for ordered dense containers with any number of keys per element.  Missing: as for own
    keys, what follows erase(key) on a container without buckets (C32) and a failed
    allocation of a larger bucket array (C29). *)
Theorem C77_ordered_dense_partial : forall (E K T V : Type) sz nk (key_of : nat -> E -> K) hash keq rep clone pocca pocma hasht (eqt : K -> T -> bool) (make : (nat -> T) -> V -> E), 0 < sz ->
  key_laws hash keq -> (forall x e, key_of 0%nat (rep x e) = key_of 0%nat x) -> (forall j e, (j < nk)%nat -> key_of j (clone e) = key_of j e) ->
  utransparent_laws nk key_of hash keq hasht eqt make ->
  forall hw i l hist, yoccurs sz nk key_of hash keq rep clone pocca pocma hw -> o_iterate sz (fst hw) (snd hw i) = Ok l -> othistory_ok nk hist ->
  otrefines sz nk key_of hash keq rep hasht eqt make (fst hw, snd hw i) l hist.
Proof. exact (fun E K T V sz nk key_of hash keq rep clone pocca pocma hasht eqt make Hsz KL R C TL => ot_refines sz nk key_of hash keq rep Hsz KL R hasht eqt make TL clone pocca pocma C). Qed.
Print Assumptions C77_ordered_dense_partial.

Example C77_ordered_case : forall f,
  let h := xprog [ZTTry (1, 2) 5; ZTOn (ZInsert (30, 7)); ZTTry (0, 12) 6; ZTTry (0, 4) 1; ZTFind (2, -8); ZTContains (3, 0); ZTContains (3, 1); ZTAssign (2, 10) 8; ZTOn ZIterate;
                  ZTErase (0, 30); ZTAssign (7, 7) 9; ZTOn ZBackwards; ZTErase (7, 7); ZTErase (7, 7); ZTOn (ZFind 4); ZTOn ZIterate] in
  zthistory_ok h /\ xnormal f (smaps f []) /\ s_iterate 48 (xw_m (smaps f [])) (xw_c (smaps f []) 0%nat) = Ok [] /\
  match ztrun f 48 ekey ehash ekeq erep thash teq tmake (xw_m (smaps f []), xw_c (smaps f []) 0%nat) h with
  | Ok (_, rs) => rs = [RInserted (12, 5) true; RInserted (30, 7) true; RInserted (12, 5) false; RInserted (4, 1) true; RFound (Some (12, 5)); RBool true; RBool false; RInserted (30, 8) false; RList [(12, 5); (30, 8); (4, 1)];
      RErased (Some (4, 1)) true; RInserted (77, 9) true; RList [(77, 9); (4, 1); (12, 5)]; RErased None true; RErased None false; RFound (Some (4, 1)); RList [(12, 5); (4, 1)]]
  | Err _ => False
  end.
Proof.
  intros f. split; [repeat (apply Forall_cons; [split; [reflexivity|exact I]|]); apply Forall_nil|]. split; [apply smaps_occur; destruct f; vm_compute; reflexivity|].
  split; [destruct f; vm_compute; reflexivity|]. destruct f; vm_compute; reflexivity.
Qed.

Example C77_ordered_dense_case :
  let h := yprog [OTTry (fun _ => (1, 2)) 5; OTOn (OInsert (30, 7)); OTTry (fun _ => (0, 12)) 6; OTTry (fun _ => (0, 4)) 1; OTFind 0 (2, -8); OTContains 0 (3, 0); OTContains 0 (3, 1); OTAssign (2, 10) 8; OTOn OIterate;
                  OTErase 0 (0, 12); OTAssign (7, 7) 9; OTOn OBackwards; OTErase 0 (7, 8); OTErase 0 (3, 0); OTOn (OFind 0 4); OTOn OIterate] in
  othistory_ok 1 h /\ ynormal (omaps []) /\ o_iterate 48 (fst (omaps [])) (snd (omaps []) 0%nat) = Ok [] /\
  match otrun 48 1 key1 ehash ekeq erep thash teq umake (fst (omaps []), snd (omaps []) 0%nat) h with
  | Ok (_, rs) => rs = [QInserted (12, 5) true; QInserted (30, 7) true; QInserted (12, 5) false; QInserted (4, 1) true; QFound (Some (12, 5)); QBool true; QBool false; QInserted (30, 8) false; QList [(12, 5); (30, 8); (4, 1)];
      QUnit; QInserted (77, 9) true; QList [(77, 9); (4, 1); (30, 8)]; QUnit; QUnit; QFound (Some (4, 1)); QList [(4, 1); (77, 9)]]
  | Err _ => False
  end.
Proof.
  split; [repeat (apply Forall_cons; [split; [split; reflexivity|first [exact I|exact (le_n 1)|reflexivity]]|]); apply Forall_nil|]. split; [apply omaps_occur; reflexivity|].
  split; [reflexivity|]. vm_compute. reflexivity.
Qed.

(** An insertion with another key type that swaps nodes succeeds and leaves an ordered sparse
    or stable container that cannot be iterated; erase(t) on a new ordered dense container
    dereferences a null pointer. *)
Definition tworn (f : simd) : list (xcall entry Z) :=
  match f with
  | WORD => map (fun k => XOn 0 (ZInsert (k, 10 * k))) [8; 24; 40; 56; 72; 88; 104; 120; 136; 2; 3; 4; 5; 6] ++ map (fun k => XOn 0 (ZErase k)) [2; 3; 4]
  | _ => map (fun k => XOn 0 (ZInsert (k, 10 * k))) (map (fun k => 16 + 32 * k) [0; 1; 2; 3; 4; 5; 6; 7; 8; 9; 10; 11; 12; 13; 14; 15; 16] ++ [2; 3; 4; 5; 6; 7; 8; 9; 10; 11; 12]) ++
         map (fun k => XOn 0 (ZErase k)) [2; 3; 4; 5]
  end.
Definition tworn_next (f : simd) : tens := match f with WORD => (0, 7) | _ => (1, 3) end.
Theorem C77_ordered_refuted :
  (forall f, xnormal f (smaps f (tworn f)) /\ (exists l, s_iterate 48 (xw_m (smaps f (tworn f))) (xw_c (smaps f (tworn f)) 0%nat) = Ok l) /\
     match ztexec f 48 ekey ehash ekeq erep thash teq tmake (sat (2 ^ 40)) (xw_m (smaps f (tworn f)), xw_c (smaps f (tworn f)) 0%nat) (ZTTry (tworn_next f) 70) with
     | Ok (h', s', r) => r = RInserted (tmake (tworn_next f) 70) true /\ s_iterate 48 h' s' = Err OutOfBounds
     | Err _ => False
     end) /\
  (forall v t, otexec 48 1 key1 ehash ekeq erep thash teq umake v (fst (omaps []), snd (omaps []) 0%nat) (OTErase 0 t) = Err NullDeref).
Proof.
  split; [|reflexivity]. intros f. split; [apply smaps_occur; destruct f; vm_compute; reflexivity|].
  destruct f; vm_compute; (split; [eexists; reflexivity|split; reflexivity]).
Qed.
Print Assumptions C77_ordered_refuted.
