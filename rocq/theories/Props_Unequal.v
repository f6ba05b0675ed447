(** Moves between containers whose allocators compare unequal (C68). *)
From Coq Require Import ZArith List Bool Lia.
From Verif Require Import Float32 DenseSpec DenseWorldSpec DenseModel DenseRun DenseWorld DenseInstances UnequalFinal.
From Verif Require Import LinkModel OrderedSpec OrderedWorldSpec OrderedDense OrderedRun OrderedWorld OrderedInstances.
From Verif Require Import Base Bits MapSpec SwissModel SwissInv SwissRun World WorldProofs Instances PlaceInstances MoveFinal.
From Verif Require Import SwissOrderedSpec SwissOrdered SwissOrderedRun SwissOrderedWorldSpec SwissOrderedWorld SwissOrderedInstances UnequalModel.
From Verif Require UnequalDense UnequalOrdered UnequalSwiss.
Import ListNotations.
Open Scope Z_scope.

(** Dense containers: the program ends if memory is refused; otherwise the target has the
    elements in order and behaves so afterwards.  Missing: lookups in the source (next
    theorem), which works again after clear. *)
Theorem C68_dense_partial : forall (E K : Type) nk (key_of : nat -> E -> K) hash keq rep clone pocca pocma,
  key_laws hash keq -> (forall x e, key_of 0%nat (rep x e) = key_of 0%nat x) -> (forall j e, (j < nk)%nat -> key_of j (clone e) = key_of j e) ->
  forall v o r bc cap, doccurs nk key_of hash keq rep clone pocca pocma o -> denv_ok v -> delems o <> [] -> dmoves nk key_of hash keq rep clone pocca pocma v o r bc cap ->
  (UnequalDense.refused (dv_dlim v) (dv_slim v) bc cap o /\ r = Err Terminated) \/
  (~ UnequalDense.refused (dv_dlim v) (dv_slim v) bc cap o /\ exists s' o', r = Ok (s', o') /\
     (forall h, dhistory_ok nk h -> drefines nk key_of hash keq rep s' (delems o) h) /\
     delems o' = [] /\ exists o2, DenseModel.clear o' = Ok o2 /\ forall h, dhistory_ok nk h -> drefines nk key_of hash keq rep o2 [] h).
Proof. exact (fun E K nk key_of hash keq rep clone pocca pocma KL R C => dense_moved nk key_of hash keq rep clone pocca pocma KL R C). Qed.
Print Assumptions C68_dense_partial.
Definition ud_src : dense entry := dmap (map (fun k => DenseWorldSpec.XOn 0 (DInsert (k, 10 * k))) [3; 11; 4; 8; 19]) 0.
Definition ud_dst : dense entry := dmap [DenseWorldSpec.XOn 0 (DInsert (1, 1)); DenseWorldSpec.XOn 0 (DInsert (4, 4))] 0.
Example C68_dense_case : doccurs 1 key1 ehash ekeq erep sameel false true ud_src /\ doccurs 1 key1 ehash ekeq erep sameel false true ud_dst /\
  match u_dense_assign 1 100 100 ud_dst ud_src with
  | Ok (s, o) => delems s = [(3, 30); (11, 110); (4, 40); (8, 80); (19, 190)] /\ delems o = [] /\
      match drun 1 key1 ehash ekeq erep s (dcalls [DSize; DContains 0 11; DContains 0 1; DErase 0 4; DIterate]) with
      | Ok (_, rs) => rs = [QNum 5; QBool true; QBool false; QNext (Some (19, 190)); QList [(3, 30); (11, 110); (19, 190); (8, 80)]] | Err _ => False end
  | Err _ => False
  end /\ u_dense_assign 1 4 100 ud_dst ud_src = Err Terminated /\ u_dense_ctor 1 100 4 ud_src = Err Terminated.
Proof. split; [apply dmap_occurs; vm_compute; reflexivity|]. split; [apply dmap_occurs; vm_compute; reflexivity|]. vm_compute. repeat split. Qed.

(** The source keeps its buckets, which name destroyed nodes: a lookup whose bucket is not
    empty, such as that of every element moved away, reads a destroyed node. *)
Theorem C68_dense_refuted : forall (E K : Type) nk (key_of : nat -> E -> K) hash keq rep clone pocca pocma,
  key_laws hash keq -> (forall x e, key_of 0%nat (rep x e) = key_of 0%nat x) -> (forall j e, (j < nk)%nat -> key_of j (clone e) = key_of j e) ->
  forall v o r bc cap s' o', doccurs nk key_of hash keq rep clone pocca pocma o -> denv_ok v -> delems o <> [] -> dmoves nk key_of hash keq rep clone pocca pocma v o r bc cap -> r = Ok (s', o') ->
  forall w j k, (j < nk)%nat ->
  (shares key_of hash o j k -> dexec nk key_of hash keq rep w o' (DFind j k) = Err DeadObject) /\
  (~ shares key_of hash o j k -> dexec nk key_of hash keq rep w o' (DFind j k) = Ok (o', QFound None)).
Proof. exact (fun E K nk key_of hash keq rep clone pocca pocma KL R C => dense_source nk key_of hash keq rep clone pocca pocma KL R C). Qed.
Print Assumptions C68_dense_refuted.
(** Eight buckets: 3, 11 and 19 share one; 5 has an empty one; 12 shares one with 4. *)
Example C68_dense_source_case :
  match u_dense_ctor 1 100 100 ud_src with
  | Ok (_, o) => dexec 1 key1 ehash ekeq erep dv0 o (DFind 0 11) = Err DeadObject /\ dexec 1 key1 ehash ekeq erep dv0 o (DFind 0 12) = Err DeadObject /\
      match dexec 1 key1 ehash ekeq erep dv0 o (DFind 0 5) with Ok (_, x) => x = QFound None | Err _ => False end /\
      match DenseModel.clear o with
      | Ok o2 => match drun 1 key1 ehash ekeq erep o2 (dcalls [DFind 0 11; DInsert (11, 1); DIterate]) with
                 | Ok (_, rs) => rs = [QFound None; QInserted (11, 1) true; QList [(11, 1)]] | Err _ => False end
      | Err _ => False end
  | Err _ => False
  end.
Proof. vm_compute. repeat split. Qed.

(** Ordered dense containers: the same; the sequences in both directions are moved, and the
    other containers keep theirs.  Placements of new arrays over memory in use are excluded. *)
Theorem C68_ordered_dense_partial : forall (E K : Type) sz nk (key_of : nat -> E -> K) hash keq rep clone pocca pocma, 0 < sz ->
  key_laws hash keq -> (forall x e, key_of 0%nat (rep x e) = key_of 0%nat x) -> (forall j e, (j < nk)%nat -> key_of j (clone e) = key_of j e) ->
  forall v h w i j l, yoccurs sz nk key_of hash keq rep clone pocca pocma (h, w) -> i <> j -> denv_ok (ov_d v) -> ylists sz (h, w) l -> l j <> [] ->
  let done := fun (r : res (heap * odense E * odense E)) bc cap =>
    (UnequalDense.refused (dv_dlim (ov_d v)) (dv_slim (ov_d v)) bc cap (o_d (w j)) /\ r = Err Terminated) \/
    (~ UnequalDense.refused (dv_dlim (ov_d v)) (dv_slim (ov_d v)) bc cap (o_d (w j)) /\ (r = Err BadPlacement \/ exists h' s' o', r = Ok (h', s', o') /\
       ylists sz (h', setn (setn w i s') j o') (setn (setn l i (l j)) j []) /\
       (forall v k x, In x (l j) -> (k < nk)%nat -> dexec nk key_of hash keq rep v (o_d o') (DFind k (key_of k x)) = Err DeadObject) /\
       exists h2 o2, o_clear h' o' = Ok (h2, o2) /\
         forall hist, yhistory_ok nk hist -> yrefines sz nk key_of hash keq rep clone pocca pocma (h2, setn (setn w i s') j o2) (setn (setn l i (l j)) j []) hist)) in
  done (u_odense_assign sz nk v h (w i) (w j)) (d_bc (o_d (w i))) (d_cap (o_d (w i))) /\
  done (u_odense_ctor sz nk v (o_destroy sz h (w i)) (o_hdr (w i)) (w j)) 0 0.
Proof.
  exact (fun E K sz nk key_of hash keq rep clone pocca pocma Hsz KL R C v h w i j l Ho Hij V Hl Hne =>
    conj (UnequalOrdered.u_assign sz nk key_of hash keq rep clone pocca pocma Hsz KL R C v h w i j l Ho Hij V Hl Hne)
         (UnequalOrdered.u_ctor sz nk key_of hash keq rep clone pocca pocma Hsz KL R C v h w i j l Ho Hij V Hl Hne)).
Qed.
Print Assumptions C68_ordered_dense_partial.
Definition uo_prog : list (ycall entry Z) := map (fun k => YOn 0 (OInsert (k, 10 * k))) [1; 2] ++ map (fun k => YOn 1 (OInsert (k, 10 * k))) [3; 11; 4; 8; 19] ++ [YOn 1 (OErase 0 11)].
Definition uo_v : oenv := OrderedInstances.at_ (2 ^ 30).
Example C68_ordered_dense_case : ynormal (omaps uo_prog) /\
  (let '(h, w) := omaps uo_prog in
   match u_odense_assign 48 1 uo_v h (w 0%nat) (w 1%nat) with
   | Ok (h', s, o) => o_iterate 48 h' s = Ok [(3, 30); (4, 40); (8, 80); (19, 190)] /\ o_backwards 48 h' s = Ok [(19, 190); (8, 80); (4, 40); (3, 30)] /\ o_iterate 48 h' o = Ok []
   | Err _ => False end).
Proof. split; [apply omaps_occur; vm_compute; reflexivity|]. vm_compute. repeat split. Qed.

(** Ordered sparse and stable containers whose target has no more slots than the source: the
    sequence is moved, and unless an element is not found in the target, the program goes on
    as the lists say. *)
Theorem C68_ordered_sparse_partial : forall (E K : Type) f sz (key_of : E -> K) hash keq rep clone pocca pocma, 0 < sz ->
  key_laws hash keq -> (forall a b, keq (key_of a) (key_of b) = true -> key_of (rep a b) = key_of a) -> (forall e, key_of (clone e) = key_of e) ->
  forall v w i j l, xoccurs f sz key_of hash keq rep clone pocca pocma w -> i <> j -> xlists sz w l -> l j <> [] ->
  let s := xw_c w i in let o := xw_c w j in
  let moved := fun h' s' o' => let w' := mkxw h' (setn (setn (xw_c w) i s') j o') (xw_h w) in let m := setn (setn l i (l j)) j [] in
    xlists sz w' m /\
    ((exists x, In x (l j) /\ contains f key_of hash keq (os_t (xw_c w' i)) (key_of x) <> Ok true) \/
     forall hist, xhistory_ok hist -> xrefines f sz key_of hash keq rep clone pocca pocma w' (mkx m (xw_h w)) hist) in
  (bucket_count (os_t s) <= bucket_count (os_t o) -> ~ (bucket_count (os_t s) < bucket_count (os_t o) /\ ev_lim (sv_e v) < bucket_count (os_t o)) ->
   let r := u_oswiss_assign f sz v (xw_m w) s o in r = Err BadPlacement \/ exists h' s' o', r = Ok (h', s', o') /\ moved h' s' o') /\
  (bucket_count (os_t o) <= ev_lim (sv_e v) ->
   let r := u_oswiss_ctor f sz v (x_destroy sz (xw_m w) s) (os_hdr s) o in r = Err BadPlacement \/ exists h' s' o', r = Ok (h', s', o', true) /\ moved h' s' o').
Proof.
  exact (fun E K f sz key_of hash keq rep clone pocca pocma Hsz KL R C v w i j l Ho Hij Hl Hne =>
    conj (UnequalSwiss.u_assign_done f sz key_of hash keq rep clone pocca pocma Hsz KL R C v w i j l Ho Hij Hl Hne)
         (UnequalSwiss.u_ctor_done f sz key_of hash keq rep clone pocca pocma Hsz KL R C v w i j l Ho Hij Hl Hne)).
Qed.
Print Assumptions C68_ordered_sparse_partial.
Definition us_prog : list (xcall entry Z) := map (fun k => XOn 0 (ZInsert (k, 10 * k))) [1; 2] ++ map (fun k => XOn 1 (ZInsert (k, 10 * k))) [3; 11; 4; 8; 19] ++ [XOn 1 (ZErase 11)].
Definition us_v : senv := mksv v0 (2 ^ 30) (fun a => (a mod 7, 5)).
Example C68_ordered_sparse_case : forall f, xnormal f (smaps f us_prog) /\
  (let w := smaps f us_prog in
   match u_oswiss_assign f 48 us_v (xw_m w) (xw_c w 0%nat) (xw_c w 1%nat) with
   | Ok (h', s, o) => s_iterate 48 h' s = Ok [(3, 30); (4, 40); (8, 80); (19, 190)] /\ s_backwards 48 h' s = Ok [(19, 190); (8, 80); (4, 40); (3, 30)] /\ s_iterate 48 h' o = Ok [] /\
       contains f ekey ehash ekeq (os_t s) 19 = Ok true
   | Err _ => False end).
Proof. intros f. split; [apply smaps_occur; destruct f; vm_compute; reflexivity|destruct f; vm_compute; repeat split; reflexivity]. Qed.

(** Refused memory: assignments end the program.  Sparse and stable containers, ordered or
    not; for dense ones see above. *)
Theorem C68_noexcept_refuted : forall (E K : Type) f (key_of : E -> K) hash keq rep, key_laws hash keq -> (forall a b, keq (key_of a) (key_of b) = true -> key_of (rep a b) = key_of a) ->
  forall lim s o, occurs f key_of hash keq rep s -> occurs f key_of hash keq rep o -> elems o <> [] -> bucket_count s < bucket_count o -> lim < bucket_count o ->
  u_swiss_assign f lim s o = Err Terminated.
Proof. exact (fun E K f key_of hash keq rep KL R lim s o Hs Ho Hne Hb Hl => UnequalSwiss.swiss_ends f key_of hash keq KL lim s o (occurs_wf f key_of hash keq KL rep R s Hs) (occurs_wf f key_of hash keq KL rep R o Ho) Hne Hb Hl). Qed.
Print Assumptions C68_noexcept_refuted.
Example C68_noexcept_case : forall f, let run l := state (erun f l) empty_swiss in
  occurs f ekey ehash ekeq erep (run [CInsert (1, 1)]) /\ occurs f ekey ehash ekeq erep (run (map (fun k => CInsert (k, k)) (zrange 20))) /\
  u_swiss_assign f 20 (run [CInsert (1, 1)]) (run (map (fun k => CInsert (k, k)) (zrange 20))) = Err Terminated.
Proof.
  intros f. cbv zeta. split; [apply (reachable_occurs f ekey ehash ekeq erep), erun_reachable; [vm_compute; reflexivity|destruct f; eexists; vm_compute; reflexivity]|].
  split; [apply (reachable_occurs f ekey ehash ekeq erep), erun_reachable; [vm_compute; reflexivity|destruct f; eexists; vm_compute; reflexivity]|]. destruct f; vm_compute; reflexivity.
Qed.

(** The constructor throws instead; by then the links of the source have been moved to the
    header under construction: the source counts its elements and iterates over none. *)
Theorem C68_constructor_refuted : forall (E K : Type) f sz (key_of : E -> K) hash keq rep clone pocca pocma, 0 < sz ->
  key_laws hash keq -> (forall a b, keq (key_of a) (key_of b) = true -> key_of (rep a b) = key_of a) -> (forall e, key_of (clone e) = key_of e) ->
  forall v w i j l, xoccurs f sz key_of hash keq rep clone pocca pocma w -> i <> j -> xlists sz w l -> l j <> [] -> ev_lim (sv_e v) < bucket_count (os_t (xw_c w j)) ->
  exists h' s', u_oswiss_ctor f sz v (x_destroy sz (xw_m w) (xw_c w i)) (os_hdr (xw_c w i)) (xw_c w j) = Ok (h', s', xw_c w j, false) /\
    s_iterate sz h' (xw_c w j) = Ok [] /\ size (os_t (xw_c w j)) = Z.of_nat (length (l j)).
Proof. exact (fun E K f sz key_of hash keq rep clone pocca pocma Hsz KL R C => UnequalSwiss.u_ctor_throws f sz key_of hash keq rep clone pocca pocma Hsz KL R C). Qed.
Print Assumptions C68_constructor_refuted.
Example C68_constructor_case : forall f, let w := smaps f us_prog in
  match u_oswiss_ctor f 48 (mksv (mkenv 3 false) (2 ^ 30) (fun a => (a mod 7, 5))) (x_destroy 48 (xw_m w) (xw_c w 0%nat)) (os_hdr (xw_c w 0%nat)) (xw_c w 1%nat) with
  | Ok (h', _, o, false) => s_iterate 48 h' o = Ok [] /\ size (os_t o) = 4 /\ contains f ekey ehash ekeq (os_t o) 19 = Ok true
  | _ => False end.
Proof. intros f. destruct f; vm_compute; repeat split; reflexivity. Qed.
