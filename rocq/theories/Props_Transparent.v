(** C77: calls whose key argument has another type than the keys of the container. *)
From Coq Require Import ZArith List Bool Lia.
From Verif Require Import Base Float32 DenseSpec DenseModel DenseRun DenseInstances TransparentDenseSpec TransparentDenseModel TransparentDenseProofs.
From Verif Require Import Bits MapSpec SwissModel SwissInv SwissRun Instances TransparentSpec TransparentModel TransparentProofs.
Import ListNotations.
Open Scope Z_scope.

(** C77 for unordered sparse and stable containers on x86 builds, in full: every history of
    calls, with arguments of either type, has the results of the list model in which an
    argument of the other type denotes the elements that compare equal to it. *)
Theorem C77_sparse : forall (E K T V : Type) f (key_of : E -> K) hash keq rep hasht (eqt : K -> T -> bool) (make : T -> V -> E),
  f = SSE2 \/ f = SSSE3 ->
  key_laws hash keq -> (forall a b, keq (key_of a) (key_of b) = true -> key_of (rep a b) = key_of a) ->
  transparent_laws key_of hash keq hasht eqt make ->
  forall h, thistory_ok h ->
  exists s rs, trun f key_of hash keq rep hasht eqt make empty_swiss h = Ok (s, rs) /\
    tspec_run key_of keq rep eqt make (map snd h) [] (elems s) rs.
Proof. exact (fun E K T V f key_of hash keq rep hasht eqt make F KL R TL h H => transparent_wide f key_of hash keq KL rep R hasht eqt make TL h F H). Qed.
Print Assumptions C77_sparse.

(** C77 for unordered sparse and stable containers on all builds, as far as it holds.
    Missing: histories with an erase or an iteration that ends in the bit scan of C22 on
    builds with 8-slot blocks. *)
Theorem C77_sparse_partial : forall (E K T V : Type) f (key_of : E -> K) hash keq rep hasht (eqt : K -> T -> bool) (make : T -> V -> E),
  key_laws hash keq -> (forall a b, keq (key_of a) (key_of b) = true -> key_of (rep a b) = key_of a) ->
  transparent_laws key_of hash keq hasht eqt make ->
  forall h, thistory_ok h ->
  (exists s rs, trun f key_of hash keq rep hasht eqt make empty_swiss h = Ok (s, rs) /\
     tspec_run key_of keq rep eqt make (map snd h) [] (elems s) rs) \/
  ((f = NEON \/ f = WORD) /\ (exists v c, In (v, c) h /\ tscanning c) /\ trun f key_of hash keq rep hasht eqt make empty_swiss h = Err BitScanZero).
Proof. exact (fun E K T V f key_of hash keq rep hasht eqt make KL R TL => transparent_all f key_of hash keq KL rep R hasht eqt make TL). Qed.
Print Assumptions C77_sparse_partial.

(** C77 for unordered dense containers with any number of keys per element, as far as it
    holds: up to an erase(key) on a table without buckets (C32), an iterator argument that is
    not valid, or a refused larger bucket array (C29). *)
Theorem C77_dense_partial : forall (E K T V : Type) nk (key_of : nat -> E -> K) hash keq rep hasht (eqt : K -> T -> bool) (make : (nat -> T) -> V -> E),
  key_laws hash keq -> (forall x e, key_of 0%nat (rep x e) = key_of 0%nat x) ->
  utransparent_laws nk key_of hash keq hasht eqt make ->
  forall h, uhistory_ok nk h ->
  (exists s rs, urun nk key_of hash keq rep hasht eqt make empty_dense h = Ok (s, rs) /\
     uspec_run nk key_of keq rep eqt make (map snd h) [] (delems s) rs) \/
  (exists h1 v c h2 s1 rs1, h = h1 ++ (v, c) :: h2 /\ urun nk key_of hash keq rep hasht eqt make empty_dense h1 = Ok (s1, rs1) /\
     uspec_run nk key_of keq rep eqt make (map snd h1) [] (delems s1) rs1 /\ ublocked nk key_of hash keq rep hasht eqt make v s1 c).
Proof. exact (fun E K T V nk key_of hash keq rep hasht eqt make KL R TL => utransparent_all nk key_of hash keq rep KL R hasht eqt make TL). Qed.
Print Assumptions C77_dense_partial.

(** Keys written as tens and units; several arguments denote the same key. *)
Definition tens : Type := Z * Z.
Definition tval (t : tens) : Z := 10 * fst t + snd t.
Definition thash (t : tens) : Z := ehash (tval t).
Definition teq (k : Z) (t : tens) : bool := k =? tval t.
Definition tmake (t : tens) (v : Z) : entry := (tval t, v).
Definition umake (ts : nat -> tens) (v : Z) : entry := (tval (ts 0%nat), v).
Definition umake2 (ts : nat -> tens) (v : unit) : entry := (tval (ts 0%nat), tval (ts 1%nat)).
Lemma tens_laws : transparent_laws ekey ehash ekeq thash teq tmake.
Proof.
  constructor; unfold teq, ekeq, thash, tmake; intros.
  - apply Z.eqb_eq in H, H0. subst. apply Z.eqb_refl.
  - apply Z.eqb_eq in H, H0. subst. apply Z.eqb_refl.
  - apply Z.eqb_eq in H. subst. reflexivity.
  - apply Z.mod_pos_bound. reflexivity.
  - apply Z.eqb_refl.
Qed.
Lemma tens_ulaws : utransparent_laws 1 key1 ehash ekeq thash teq umake.
Proof.
  destruct tens_laws. constructor; auto. intros j ts v Hj. replace j with 0%nat by lia. apply Z.eqb_refl.
Qed.
Lemma tens_ulaws2 : utransparent_laws 2 key2 ehash ekeq thash teq umake2.
Proof.
  destruct tens_laws. constructor; auto. intros j ts v Hj. destruct j as [|[|j]]; [apply Z.eqb_refl|apply Z.eqb_refl|lia].
Qed.

Example C77_sparse_case :
  results (trun SSE2 ekey ehash ekeq erep thash teq tmake empty_swiss
    ((mkenv 0 true, TTry (7, 7) 1) :: map (fun c => (v0, c)) [TTry (1, 2) 5; TOn (CFind 12); TTry (0, 12) 6; TFind (2, -8); TOn (CInsert (30, 7)); TContains (3, 0); TContains (3, 1);
       TAssign (1, 2) 8; TErase (0, 30); TOn CIterate; TAssign (0, 4) 9; TOn (CErase 4); TFind (0, 4); TErase (0, 4)])) =
  Ok [RThrow; RInserted (12, 5) true; RFound (Some (12, 5)); RInserted (12, 5) false; RFound (Some (12, 5)); RInserted (30, 7) true; RBool true; RBool false;
      RInserted (12, 8) false; RErased None true; RList [(12, 8)]; RInserted (4, 9) true; RErased None true; RFound None; RErased None false].
Proof. vm_compute. reflexivity. Qed.

Example C77_dense_case :
  results (urun 1 key1 ehash ekeq erep thash teq umake empty_dense
    (map (fun c => (dv0, c)) [UTry (fun _ => (1, 2)) 5; UOn (DFind 0 12); UTry (fun _ => (0, 12)) 6; UFind 0 (2, -8); UOn (DInsert (30, 7)); UOn (DInsert (20, 1));
       UContains 0 (3, 0); UContains 0 (3, 1); UAssign (1, 2) 8; UErase 0 (0, 12); UOn DIterate; UAssign (0, 4) 9; UErase 0 (0, 5)])) =
  Ok [QInserted (12, 5) true; QFound (Some (12, 5)); QInserted (12, 5) false; QFound (Some (12, 5)); QInserted (30, 7) true; QInserted (20, 1) true;
      QBool true; QBool false; QInserted (12, 8) false; QNext (Some (20, 1)); QList [(20, 1); (30, 7)]; QInserted (4, 9) true; QNext None] /\
  (* two keys per element: the first key that is present decides *)
  results (urun 2 key2 ehash ekeq erep thash teq umake2 empty_dense
    (map (fun c => (dv0, c)) [UTry (fun j => match j with O => (1, 0) | _ => (2, 0) end) tt; UTry (fun j => match j with O => (1, 1) | _ => (2, 1) end) tt;
       UTry (fun j => match j with O => (0, 11) | _ => (2, 0) end) tt; UTry (fun j => match j with O => (5, 5) | _ => (0, 20) end) tt; UFind 1 (1, 11); UErase 1 (0, 20); UOn DIterate])) =
  Ok [QInserted (10, 20) true; QInserted (11, 21) true; QInserted (11, 21) false; QInserted (10, 20) false; QFound (Some (11, 21)); QNext (Some (11, 21)); QList [(11, 21)]].
Proof. split; vm_compute; reflexivity. Qed.

(** On builds with 8-slot blocks an erase with another key type reaches the bit scan of
    C22. *)
Theorem C77_sparse_refuted : forall f, f = NEON \/ f = WORD ->
  exists h : list (env * tcall entry Z tens Z), thistory_ok h /\ trun f ekey ehash ekeq erep thash teq tmake empty_swiss h = Err BitScanZero.
Proof.
  intros f Hf. exists (map (fun c => (v0, c)) [TTry (1, 2) 5; TOn (CReserve 20); TErase (0, 12)]).
  split; [repeat (apply Forall_cons; [split; [reflexivity|first [exact I|split; discriminate || reflexivity]]|]); apply Forall_nil|].
  destruct Hf as [-> | ->]; vm_compute; reflexivity.
Qed.
Print Assumptions C77_sparse_refuted.

(** A try_emplace with another key type that is refused a larger bucket array leaves a
    released one behind, and erase(t) on a new container dereferences a null pointer. *)
Theorem C77_dense_refuted :
  (exists h : list (denv * ucall entry Z tens Z), uhistory_ok 1 h /\ urun 1 key1 ehash ekeq erep thash teq umake empty_dense h = Err UseAfterFree) /\
  (forall v t, urun 1 key1 ehash ekeq erep thash teq umake empty_dense [(v, UErase 0 t)] = Err NullDeref).
Proof.
  split.
  - exists (map (fun c => (dv0, c)) (map (fun i => UTry (fun _ => (0, i)) i) (zrange 7)) ++ [(mkdv (2 ^ 40) 8, UTry (fun _ => (1, 1)) 1); (dv0, UFind 0 (0, 1))]).
    split; [repeat (apply Forall_cons; [split; [split; reflexivity|first [exact I|exact (le_n 1)]]|]); apply Forall_nil|]. vm_compute. reflexivity.
  - reflexivity.
Qed.
Print Assumptions C77_dense_refuted.
