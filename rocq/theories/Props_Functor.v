(** Containers with different hash functions and key comparisons (C74). *)
From Coq Require Import ZArith List Bool Lia.
From Verif Require Import Base Bits MapSpec WorldSpec FunctorSpec SwissModel SwissInv SwissRun World Instances FunctorModel FunctorProofs.
Import ListNotations.
Open Scope Z_scope.

(** Programs over containers each of which has its own hash function and key_equal: every
    container compares keys with its own functors, also for nodes and elements that come from
    others; swap, move assignment and construction carry the functors along; all other
    statements leave them alone.  Missing: C22 on narrow builds; a merge into a container
    without elements (one moved from) that runs out of memory ends the program; merging a
    temporary into a container without elements (refuted below). *)
Theorem C74_partial : forall (E K G : Type) f (key_of : E -> K) (hash : G -> K -> Z) (keq : G -> K -> K -> bool) rep moved,
  (forall g, key_laws (hash g) (keq g)) -> (forall g a b, keq g (key_of a) (key_of b) = true -> key_of (rep a b) = key_of a) ->
  forall g h, fhistory_ok h ->
  let run := frun f key_of hash keq rep moved (finit g) in
  let spec p w rs := fspec_run key_of keq rep moved (map snd p) (fstart g) (fabs w) rs in
  (exists w rs, run h = Ok (w, rs) /\ spec h w rs) \/
  ((f = NEON \/ f = WORD) /\ (exists v c, In (v, c) h /\ fscanning c) /\ run h = Err BitScanZero) \/
  (exists h1 v i j h2 w1 rs, h = h1 ++ (v, FMerge i j) :: h2 /\ run h1 = Ok (w1, rs) /\ spec h1 w1 rs /\
    elems (fw_c w1 i) = [] /\ elems (fw_c w1 j) <> [] /\ run h = Err Terminated) \/
  (exists h1 v i j h2 w1 rs, h = h1 ++ (v, FMergeR i j) :: h2 /\ run h1 = Ok (w1, rs) /\ spec h1 w1 rs /\ elems (fw_c w1 i) = []).
Proof. exact (fun E K G f key_of hash keq rep moved KL R => functors_refine f key_of hash keq KL rep R moved). Qed.
Print Assumptions C74_partial.

(** Functors: keys modulo a number, or the keys themselves for 0. *)
Definition norm (m k : Z) : Z := if m =? 0 then k else k mod m.
Definition mhash (m k : Z) : Z := ehash (norm m k).
Definition mkeq (m a b : Z) : bool := norm m a =? norm m b.
Lemma mlaws : forall m, key_laws (mhash m) (mkeq m).
Proof.
  intros m. constructor; unfold mkeq, mhash; intros.
  - apply Z.eqb_refl.
  - rewrite Z.eqb_sym. assumption.
  - apply Z.eqb_eq in H, H0. rewrite H, H0. apply Z.eqb_refl.
  - apply Z.eqb_eq in H. rewrite H. reflexivity.
  - apply Z.mod_pos_bound. reflexivity.
Qed.
Lemma mrep_key : forall m a b, mkeq m (ekey a) (ekey b) = true -> ekey (erep a b) = ekey a.
Proof. reflexivity. Qed.
Definition frun1 (g : nat -> Z) (l : list (fcall entry Z Z)) :=
  frun SSE2 ekey mhash mkeq erep (fun _ => 99) (finit g) (map (fun c => (v0, c)) l).
Definition mods (l : list Z) (i : nat) : Z := nth i l 0.
Definition frep (x : res (@fworld entry Z * list (wret entry))) : res (list (wret entry) * list (list entry * Z)) :=
  let* y := x in Ok (snd y, map (fun i => (elems (fw_c (fst y) i), fw_g (fst y) i)) [0; 1; 2]%nat).

(** c0 compares modulo 10, c1 exactly.  Merging moves one of 1, 11, 21 and leaves the others;
    a node with key 17 is refused by c0, which has 7; after the swap it is accepted. *)
Example C74_case :
  let h := [FOn 0 (CInsert (7, 70)); FOn 1 (CInsert (1, 10)); FOn 1 (CInsert (11, 11)); FOn 1 (CInsert (21, 12)); FOn 1 (CInsert (17, 13));
            FExtract 1 17 0; FMerge 0 1; FInsertNode 0 0; FOn 0 (CFind 57); FOn 1 (CFind 57); FSwap 0 1; FInsertNode 0 0; FOn 1 (CFind 91); FMove 2 1; FOn 2 (CContains 117); FRange 1 5 true [(1, 1); (6, 2); (3, 3)] 3] in
  fhistory_ok (map (fun c => (v0, c)) h) /\
  frep (frun1 (mods [10; 0; 3]) h) =
  Ok ([WRet (RInserted (7, 70) true); WRet (RInserted (1, 10) true); WRet (RInserted (11, 11) true); WRet (RInserted (21, 12) true); WRet (RInserted (17, 13) true);
       WNode (Some (17, 13)); WDone; WNodeIn (7, 70) false; WRet (RFound (Some (7, 70))); WRet (RFound None); WDone; WNodeIn (17, 13) true; WRet (RFound (Some (1, 10))); WDone; WRet (RBool true); WDone],
      [([(17, 13); (11, 11); (21, 12)], 0); ([(3, 3); (1, 1)], 5); ([(7, 70); (1, 10)], 10)]).
Proof.
  split; [|vm_compute; reflexivity]. repeat (apply Forall_cons; [split; [unfold env_ok; cbn; lia|cbn; auto; try discriminate]|]); [|apply Forall_nil].
  split; [lia|]. exists 2. cbn. lia.
Qed.

(** Merging a temporary into a container without elements replaces the hash function and
    key_equal of the target and takes all elements, whether they are equal for the target or
    not: for every program, target and source with different functors. *)
Theorem C74_refuted : forall (E K G : Type) f (key_of : E -> K) (hash : G -> K -> Z) (keq : G -> K -> K -> bool) rep moved,
  (forall g, key_laws (hash g) (keq g)) -> (forall g a b, keq g (key_of a) (key_of b) = true -> key_of (rep a b) = key_of a) ->
  forall g h w rs v i j, fhistory_ok h -> (forall v i j, ~ In (v, FMergeR i j) h) ->
  frun f key_of hash keq rep moved (finit g) h = Ok (w, rs) -> i <> j -> elems (fw_c w i) = [] ->
  exists w', fexec f key_of hash keq rep moved v w (FMergeR i j) = Ok (w', WDone) /\
    fw_g w' i = fw_g w j /\ elems (fw_c w' i) = elems (fw_c w j) /\
    (fw_g w i <> fw_g w j -> ~ fspec key_of keq rep moved (FMergeR i j) (fabs w) (fabs w') WDone).
Proof. exact (fun E K G f key_of hash keq rep moved KL R => mergeR_refutes f key_of hash keq KL rep R moved). Qed.
Print Assumptions C74_refuted.
(** c0 was told that keys are equal modulo 10 and then contains 1, 11 and 21; merge(c1)
    instead of merge(move(c1)) behaves. *)
Example C74_refuted_case :
  let h c := [FOn 1 (CInsert (1, 10)); FOn 1 (CInsert (11, 11)); FOn 1 (CInsert (21, 12)); c; FOn 0 (CContains 31)] in
  map (fun c => frep (let* x := frun1 (mods [10; 0; 3]) (h c) in Ok (fst x, skipn 3 (snd x)))) [FMergeR 0 1; FMerge 0 1] =
  [Ok ([WDone; WRet (RBool false)], [([(11, 11); (1, 10); (21, 12)], 0); ([], 99); ([], 3)]);
   Ok ([WDone; WRet (RBool true)], [([(11, 11)], 10); ([(1, 10); (21, 12)], 0); ([], 3)])].
Proof. vm_compute. reflexivity. Qed.

(** It is right if both have the same functors, and moving a functor leaves it as it was. *)
Theorem C74_same : forall (E K G : Type) f (key_of : E -> K) (hash : G -> K -> Z) (keq : G -> K -> K -> bool) rep moved,
  (forall g, key_laws (hash g) (keq g)) -> (forall g a b, keq g (key_of a) (key_of b) = true -> key_of (rep a b) = key_of a) ->
  forall g h w rs v i j, fhistory_ok h -> frun f key_of hash keq rep moved (finit g) h = Ok (w, rs) -> (forall v i j, ~ In (v, FMergeR i j) h) ->
  i <> j -> elems (fw_c w i) = [] -> fw_g w i = fw_g w j -> moved (fw_g w j) = fw_g w j ->
  exists w', fexec f key_of hash keq rep moved v w (FMergeR i j) = Ok (w', WDone) /\ fspec key_of keq rep moved (FMergeR i j) (fabs w) (fabs w') WDone.
Proof. exact (fun E K G f key_of hash keq rep moved KL R g h w rs v i j Hh Er Hno => mergeR_same f key_of hash keq KL rep R moved v w i j (run_wf f key_of hash keq KL rep R moved g h w rs Hh Er Hno)). Qed.
Print Assumptions C74_same.
Example C74_same_case :
  frep (frun SSE2 ekey mhash mkeq erep (fun g => g) (finit (mods [10; 10; 3])) (map (fun c => (v0, c)) [FOn 1 (CInsert (1, 10)); FOn 1 (CInsert (11, 11)); FOn 1 (CInsert (2, 12)); FMergeR 0 1])) =
  Ok ([WRet (RInserted (1, 10) true); WRet (RInserted (1, 10) false); WRet (RInserted (2, 12) true); WDone], [([(1, 10); (2, 12)], 10); ([], 10); ([], 3)]).
Proof. vm_compute. reflexivity. Qed.
