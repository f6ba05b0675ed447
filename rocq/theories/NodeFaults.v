(** What the statements that are not covered do, and that plain programs contain none of them. *)
From Coq Require Import ZArith List Bool Lia Permutation Arith.
From Verif Require Import Base BaseLemmas NodeModel NodeSpec NodeProofs NodeRun.
Import ListNotations.
Open Scope Z_scope.

Section Faults.
Context {K V : Type}.
Variable keq : K -> K -> bool.
Variables pocca pocma : bool.
Variable dflt : Z.
Local Notation nworld := (nworld K V).
Local Notation nexec := (nexec keq pocca pocma dflt).
Local Notation nrun := (nrun keq pocca pocma dflt).
Local Notation nblocked := (nblocked keq pocma dflt).
Local Notation no_handle := (no_handle dflt).

(** The block stays behind when the constructor throws. *)
Lemma construct_leaks : forall v (w : nworld) a k x, winv w -> e_alloc v = true -> e_ctor v = false ->
  exists m1, construct v (w_m w) a k x = (m1, None) /\ forall i t, t_nodes t = t_nodes (w_c w i) -> leaked (with_t w m1 i t).
Proof.
  intros v w a k x I Ea Ec. unfold construct. rewrite Ea, Ec. eexists. split; [reflexivity|]. intros i t Ht.
  exists (m_next (w_m w)), (Raw a). cbn [with_t w_m m_cell]. rewrite upd_same. split; [reflexivity|]. intros o Ho.
  assert (H : In (m_next (w_m w)) (held w o)). { destruct o as [y|y]; [|exact Ho]. cbn [held with_t w_c] in *. unfold setn in Ho. destruct (Nat.eqb_spec y i) as [Ey|N]; [rewrite Ey, <- Ht|]; exact Ho. }
  pose proof (g_range _ _ _ _ _ I H). lia.
Qed.
Lemma insert_leaks : forall v (w : nworld) i k x, winv w -> nblocked v w (NInsert i k x) -> exists w', nexec v w (NInsert i k x) = Ok (w', false) /\ leaked w'.
Proof.
  intros v w i k x I (Eg & Ea & Ec & Hm). apply absent_iff in Hm; [|exact I]. destruct (construct_leaks v w (t_alloc (w_c w i)) k x I Ea Ec) as (m1 & E & L).
  cbn [NodeModel.nexec]. unfold on_table, do_insert. rewrite Hm. cbn [bind]. rewrite Eg, E. cbn [bind]. eexists. split; [reflexivity|apply L; reflexivity].
Qed.
Lemma emplace_leaks : forall v (w : nworld) i k x, winv w -> nblocked v w (NEmplace i k x) -> exists w', nexec v w (NEmplace i k x) = Ok (w', false) /\ leaked w'.
Proof.
  intros v w i k x I (Ea & H). cbn [NodeModel.nexec]. unfold on_table, do_emplace. destruct (e_ctor v) eqn:Ec.
  - destruct H as [H|(Eg & Hm)]; [discriminate|]. apply absent_iff in Hm; [|exact I].
    destruct (g_new v _ _ _ (HC i) k x I Ea Ec) as (m1 & p & E1 & Er & Hp0 & Hs & _). cbn [alloc_of] in E1. rewrite E1, Er. cbn [bind fst].
    rewrite (split_same keq (w_m w) m1) by (intros q Hq; apply (proj1 (Hs (HC i) q Hq))). rewrite Hm. cbn [bind]. rewrite Eg. cbn [bind]. eexists. split; [reflexivity|].
    unfold construct in E1. rewrite Ea, Ec in E1. injection E1 as <- <-. exists (m_next (w_m w)). eexists. cbn [with_t w_m m_cell]. rewrite upd_same. split; [reflexivity|]. intros o Ho.
    assert (H : In (m_next (w_m w)) (held w o)). { destruct o as [y|y]; [|exact Ho]. cbn [held with_t w_c] in *. unfold setn in Ho. destruct (Nat.eqb_spec y i) as [Ey|N]; [rewrite Ey|]; exact Ho. }
    pose proof (g_range _ _ _ _ _ I H). lia.
  - destruct (construct_leaks v w (t_alloc (w_c w i)) k x I Ea Ec) as (m1 & E & L). rewrite E. cbn [bind]. eexists. split; [reflexivity|apply L; reflexivity].
Qed.

(** The mapped value is destroyed and not constructed again; the destructor of the container
    destroys it a second time. *)
Lemma dead_in_list : forall l (m : mem K V) a p b k, In p l -> NoDup l -> p <> 0 -> m_cell m p = Some (Obj b k None) ->
  (forall q, In q l -> q <> p -> q <> 0 /\ exists k' x, m_cell m q = Some (Obj a k' (Some x))) -> foldM (fun m p => destroy m a p) l m = Err DeadObject.
Proof.
  induction l as [|q l IH]; intros m a p b k Hp Hnd Hp0 E H; [destruct Hp|]. cbn [foldM]. apply NoDup_cons_iff in Hnd. destruct Hnd as (Hq & Hnd).
  destruct (Z.eq_dec q p) as [->|N].
  - unfold destroy at 1, end_obj. rewrite (eqb0 p Hp0), E. reflexivity.
  - destruct Hp as [Hp|Hp]; [contradiction|]. destruct (H q (or_introl eq_refl) N) as (Hq0 & k' & x & Eq).
    unfold destroy at 1, end_obj, release. rewrite (eqb0 q Hq0), Eq. cbn [bind m_cell m_next]. rewrite upd_same, Z.eqb_refl. cbn [bind].
    apply (IH _ a p b k Hp Hnd Hp0); cbn [m_cell].
    + rewrite !upd_other by congruence. exact E.
    + intros r Hr Nr. assert (Hrq : r <> q) by (intros ->; contradiction). destruct (H r (or_intror Hr) Nr) as (G1 & G2). split; [exact G1|]. rewrite !upd_other by exact Hrq. exact G2.
Qed.
Lemma assign_dead : forall v v' (w : nworld) i k x, winv w -> e_ctor v = false -> ~ absent keq w i k ->
  exists w', nexec v w (NAssign i k x) = Ok (w', false) /\ forall a, nexec v' w' (NNew i a) = Err DeadObject /\ nexec v' w' (NClear i) = Err DeadObject.
Proof.
  intros v v' w i k x I Ec Hm. cbn [NodeModel.nexec]. unfold on_table, do_assign. destruct (find_t keq w i k I) as [E|(a & p & b & E & El)]; [contradiction Hm; apply absent_iff; assumption|].
  rewrite E. cbn [bind]. assert (Hp : In p (held w (HC i))) by (cbn [held]; rewrite El; apply in_elt). destruct (g_live _ _ _ I (HC i) p Hp) as (k' & y & Ep). pose proof (g_range _ _ _ _ _ I Hp) as Hr.
  unfold replace. rewrite eqb0 by lia. rewrite Ep, Ec. cbn [bind]. eexists. split; [reflexivity|]. intros al. cbn [with_t w_m w_c]. rewrite setn_same. unfold erase_nodes.
  assert (F : foldM (fun m p => destroy m (t_alloc (w_c w i)) p) (t_nodes (w_c w i)) (mkm (m_next (w_m w)) (upd (m_cell (w_m w)) p (Some (Obj (alloc_of w (HC i)) k' None)))) = Err DeadObject).
  { apply (dead_in_list _ _ _ p (alloc_of w (HC i)) k').
    - exact Hp.
    - apply (g_nd _ _ _ I (HC i)).
    - lia.
    - cbn [m_cell]. apply upd_same.
    - intros q Hq Nq. pose proof (g_range _ _ _ (HC i) q I Hq). split; [lia|]. cbn [m_cell]. rewrite upd_other by exact Nq. apply (g_live _ _ _ I (HC i) q Hq). }
  rewrite F. split; reflexivity.
Qed.
Lemma assign_leaks : forall v (w : nworld) i k x, winv w -> e_grow v = true -> e_alloc v = true -> e_ctor v = false -> absent keq w i k -> exists w', nexec v w (NAssign i k x) = Ok (w', false) /\ leaked w'.
Proof.
  intros v w i k x I Eg Ea Ec Hm. destruct (insert_leaks v w i k x I) as (w' & E & L); [cbn; auto|]. exists w'. split; [|exact L]. rewrite <- E. cbn [NodeModel.nexec]. unfold do_assign.
  apply absent_iff in Hm; [|exact I]. rewrite Hm. reflexivity.
Qed.

(** Construction from a handle with an unequal allocator: the old object is gone, but the handle
    still points to it. *)
Lemma construct_unequal : forall v (w : nworld) o a p, winv w -> e_alloc v = true -> e_ctor v = true -> In p (held w o) -> alloc_of w o <> a ->
  exists m1 q, construct_from v (w_m w) a (mkh (alloc_of w o) p) = Ok (m1, mkh (alloc_of w o) p, Some q) /\ m_cell m1 p = None.
Proof.
  intros v w o a p I Ea Ec Hp Ha. destruct (g_live _ _ _ I o p Hp) as (k & x & E). pose proof (g_range _ _ _ _ _ I Hp) as Hr.
  unfold construct_from. cbn [h_alloc h_ptr]. destruct (Z.eqb_spec a (alloc_of w o)); [congruence|]. unfold read. rewrite eqb0 by lia. rewrite E. cbn [bind fst snd].
  unfold construct. rewrite Ea, Ec. unfold h_destroy, destroy, end_obj, release. cbn [h_ptr h_alloc m_cell m_next]. rewrite eqb0 by lia. rewrite !upd_other by lia. rewrite E. cbn [bind m_cell m_next]. rewrite upd_same, Z.eqb_refl. cbn [bind].
  eexists _, _. split; [reflexivity|]. cbn [m_cell]. apply upd_same.
Qed.
Lemma handle_dangles : forall v v' (w : nworld) i j, winv w -> e_grow v = true -> e_alloc v = true -> e_ctor v = true -> h_ptr (w_h w j) <> 0 -> h_alloc (w_h w j) <> t_alloc (w_c w i) ->
  (forall k x, read (w_m w) (h_ptr (w_h w j)) = Ok (k, x) -> absent keq w i k) ->
  exists w', nexec v w (NInsertNode i j) = Ok (w', true) /\ nexec v' w' (NHandleDrop j) = Err UseAfterFree.
Proof.
  intros v v' w i j I Eg Ea Ec Hp Ha Hm. cbn [NodeModel.nexec]. unfold insert_node. destruct (handle_read w j I Hp) as (k & x & Er). rewrite Er. cbn [bind fst].
  specialize (Hm _ _ Er). apply absent_iff in Hm; [|exact I]. rewrite Hm. cbn [bind]. rewrite Eg.
  assert (Hin : In (h_ptr (w_h w j)) (held w (HH j))) by (cbn [held]; rewrite (eqb0 _ Hp); left; reflexivity).
  destruct (construct_unequal v w (HH j) (t_alloc (w_c w i)) (h_ptr (w_h w j)) I Ea Ec Hin Ha) as (m1 & q & E & Hn). cbn [alloc_of] in E.
  assert (Eh : mkh (h_alloc (w_h w j)) (h_ptr (w_h w j)) = w_h w j) by (destruct (w_h w j); reflexivity). rewrite Eh in E. rewrite E. cbn [bind].
  unfold h_destroy at 1, destroy at 1. cbn [h_ptr NodeModel.no_handle Z.eqb bind]. eexists. split; [reflexivity|]. cbn [w_m w_h]. rewrite setn_same. unfold h_destroy, destroy, end_obj. rewrite (eqb0 _ Hp), Hn. reflexivity.
Qed.

(** merge of containers with unequal allocators. *)
Lemma transfer_unequal : forall v l (w : nworld) i j, winv w -> incl l (t_nodes (w_c w j)) -> t_alloc (w_c w i) <> t_alloc (w_c w j) ->
  (exists p a k x, In p l /\ m_cell (w_m w) p = Some (Obj a k x) /\ absent keq w i k) ->
  exists e, transfer keq v (w_m w) (w_c w i) (t_alloc (w_c w j)) l = Err e.
Proof.
  intros v l w i j I. induction l as [|q l IH]; intros Hl Ha (p & a & k & x & Hp & E & Hm); [destruct Hp|]. cbn [transfer].
  assert (Hq : In q (held w (HC j))) by (apply Hl; left; reflexivity). destruct (g_live _ _ _ I (HC j) q Hq) as (k1 & x1 & Eq). pose proof (g_range _ _ _ _ _ I Hq) as Hr.
  assert (Er : read (w_m w) q = Ok (k1, Some x1)) by (unfold read; rewrite eqb0 by lia; rewrite Eq; reflexivity). rewrite Er. cbn [bind fst].
  destruct (find_t keq w i k1 I) as [E1|(u & r & z & E1 & El)]; rewrite E1; cbn [bind].
  - destruct (e_alloc v && e_ctor v) eqn:Eb.
    + apply andb_true_iff in Eb. destruct Eb as (Ea & Ec). destruct (construct_unequal v w (HC j) (t_alloc (w_c w i)) q I Ea Ec Hq ltac:(cbn [alloc_of]; congruence)) as (m1 & r & E2 & Hn). cbn [alloc_of] in E2. rewrite E2. cbn [bind].
      unfold h_destroy, destroy, end_obj. cbn [h_ptr]. rewrite eqb0 by lia. rewrite Hn. cbn [bind]. eauto.
    + unfold construct_from. cbn [h_alloc h_ptr]. destruct (Z.eqb_spec (t_alloc (w_c w i)) (t_alloc (w_c w j))); [contradiction|]. rewrite Er. cbn [bind fst snd]. unfold construct.
      destruct (e_alloc v); cbn [andb] in Eb; [rewrite Eb|]; cbn [bind]; eauto.
  - destruct Hp as [->|Hp].
    + exfalso. rewrite E in Eq. injection Eq as -> <- ->. apply absent_iff in Hm; [|exact I]. congruence.
    + destruct IH as (e & E2); [intros y Hy; apply Hl; right; exact Hy|exact Ha|exists p, a, k, x; auto|]. rewrite E2. cbn [bind]. eauto.
Qed.
Lemma merge_unequal : forall v (w : nworld) i j, winv w -> i <> j -> e_grow v = true -> t_alloc (w_c w i) <> t_alloc (w_c w j) ->
  (exists p a k x, In p (t_nodes (w_c w j)) /\ m_cell (w_m w) p = Some (Obj a k x) /\ absent keq w i k) -> exists e, nexec v w (NMerge i j) = Err e.
Proof.
  intros v w i j I N Eg Ha H. cbn [NodeModel.nexec]. destruct (Nat.eqb_spec i j); [contradiction|]. unfold merge. rewrite Eg. destruct (transfer_unequal v (t_nodes (w_c w j)) w i j I (incl_refl _) Ha H) as (e & E). rewrite E. cbn [bind]. eauto.
Qed.

(** Move assignment between unequal allocators that do not propagate. *)
Lemma move_unequal : forall v v' (w : nworld) i j a, winv w -> nblocked v w (NMove i j) -> i <> j ->
  exists w', nexec v w (NMove i j) = Ok (w', true) /\ nexec v' w' (NNew i a) = Err BadFree.
Proof.
  intros v v' w i j a I (Ep & Ha & Hn) N. cbn [NodeModel.nexec]. destruct (Nat.eqb_spec i j); [contradiction|]. destruct (erase_all w i I) as (m1 & E & I1). rewrite E. cbn [bind fst snd t_nodes]. rewrite Ep.
  unfold move_from. cbn [t_alloc t_nodes]. destruct (Z.eqb_spec (t_alloc (w_c w i)) (t_alloc (w_c w j))); [contradiction|]. cbn [guard bind]. eexists. split; [reflexivity|].
  cbn [w_m w_c fst snd]. rewrite setn_other, setn_same by exact N. unfold erase_nodes. cbn [t_nodes t_alloc]. destruct (t_nodes (w_c w j)) as [|p l] eqn:El; [contradiction|]. cbn [foldM].
  assert (Hp : In p (emptied (held w) (HC i) (HC j))) by (rewrite emptied_other by congruence; cbn [held]; rewrite El; left; reflexivity).
  destruct (g_live _ _ _ I1 _ _ Hp) as (k & x & Ek). pose proof (g_range _ _ _ _ _ I1 Hp). unfold destroy at 1, end_obj, release. rewrite eqb0 by lia. rewrite Ek. cbn [bind m_cell m_next alloc_of]. rewrite upd_same.
  destruct (Z.eqb_spec (t_alloc (w_c w i)) (t_alloc (w_c w j))); [contradiction|]. reflexivity.
Qed.

(** h = c.extract(k) for a key that is not there. *)
Lemma extract_absent : forall v (w : nworld) i k j, winv w -> pocma = false -> absent keq w i k -> h_alloc (w_h w j) <> dflt -> nexec v w (NExtract i k j) = Err AssertFailed.
Proof.
  intros v w i k j I Ep Hm Hd. cbn [NodeModel.nexec]. unfold extract. apply absent_iff in Hm; [|exact I]. rewrite Hm. cbn [bind]. unfold h_assign. destruct (free_h w j I) as (m1 & E1 & _). rewrite E1. cbn [bind]. rewrite Ep.
  cbn [h_alloc NodeModel.no_handle]. destruct (Z.eqb_spec (h_alloc (w_h w j)) dflt); [contradiction|]. reflexivity.
Qed.
(** An empty handle. *)
Lemma empty_insert : forall v (w : nworld) i j, h_ptr (w_h w j) = 0 -> nexec v w (NInsertNode i j) = Err NullDeref /\ nexec v w (NInsertBack i j) = Err NullDeref /\ nexec v w (NAssignNode i j) = Err NullDeref.
Proof. intros v w i j H. cbn [NodeModel.nexec]. unfold insert_node, assign_node, read. rewrite H. repeat split; reflexivity. Qed.

(** ** Plain programs. *)
Definition same_alloc (w : nworld) : Prop := forall o, alloc_of w o = dflt.
Lemma transfer_alloc : forall v l (m : mem K V) t b m1 t1 l1, transfer keq v m t b l = Ok (m1, t1, l1) -> t_alloc t1 = t_alloc t.
Proof.
  intros v. induction l as [|p l IH]; intros m t b m1 t1 l1 E; cbn [transfer] in E; [injection E as <- <- <-; reflexivity|].
  destruct (read m p) as [x|]; [|discriminate]. cbn [bind] in E. destruct (split_at keq m (t_nodes t) (fst x)) as [[y|]|]; [| |discriminate]; cbn [bind] in E.
  - destruct (transfer keq v m t b l) as [((m2, t2), l2)|] eqn:E2; [|discriminate]. cbn [bind] in E. injection E as <- <- <-. apply (IH _ _ _ _ _ _ E2).
  - destruct (construct_from v m (t_alloc t) (mkh b p)) as [((m2, h2), [q|])|]; [|discriminate|discriminate]. cbn [bind] in E. destruct (h_destroy m2 h2) as [m3|]; [|discriminate]. cbn [bind] in E. apply (IH _ _ _ _ _ _) in E. exact E.
Qed.

Ltac crunch H := repeat (match type of H with
  | bind ?x _ = Ok _ => destruct x eqn:?; [cbn [bind] in H|discriminate H]
  | Ok _ = Ok _ => injection H as H; intros; subst
  | Err _ = Ok _ => discriminate H
  | (match ?x with _ => _ end) = Ok _ => destruct x eqn:?; try discriminate H
  end; cbn [bind fst snd] in H).
Lemma insert_alloc : forall v (m : mem K V) t k x y, do_insert keq v m t k x = Ok y -> t_alloc (snd (fst y)) = t_alloc t.
Proof. intros v m t k x y H. unfold do_insert in H. crunch H; reflexivity. Qed.
Lemma emplace_alloc : forall v (m : mem K V) t k x y, do_emplace keq v m t k x = Ok y -> t_alloc (snd (fst y)) = t_alloc t.
Proof. intros v m t k x y H. unfold do_emplace in H. crunch H; reflexivity. Qed.
Lemma assign_alloc : forall v (m : mem K V) t k x y, do_assign keq v m t k x = Ok y -> t_alloc (snd (fst y)) = t_alloc t.
Proof. intros v m t k x y H. unfold do_assign in H. crunch H; try reflexivity. apply (insert_alloc _ _ _ _ _ _ H). Qed.
Lemma erase_alloc : forall (m : mem K V) t k y, erase keq m t k = Ok y -> t_alloc (snd y) = t_alloc t.
Proof. intros m t k y H. unfold erase in H. crunch H; reflexivity. Qed.
Lemma erase_nodes_alloc : forall (m : mem K V) t y, erase_nodes m t = Ok y -> t_alloc (snd y) = t_alloc t.
Proof. intros m t y H. unfold erase_nodes in H. crunch H; reflexivity. Qed.
Lemma extract_alloc : forall (m : mem K V) t k y, extract keq dflt m t k = Ok y -> t_alloc (fst y) = t_alloc t /\ (h_alloc (snd y) = t_alloc t \/ h_alloc (snd y) = dflt).
Proof. intros m t k y H. unfold extract in H. destruct (split_at keq m (t_nodes t) k) as [[((a, p), b)|]|]; cbn [bind] in H; try discriminate; injection H as <-; cbn; auto. Qed.
Lemma construct_from_alloc : forall v (m : mem K V) a h y, construct_from v m a h = Ok y -> h_alloc (snd (fst y)) = h_alloc h.
Proof. intros v m a h y H. unfold construct_from in H. crunch H; reflexivity. Qed.
Lemma h_assign_alloc : forall (m : mem K V) d s y, h_assign pocma m d s = Ok y -> h_alloc (snd (fst y)) = (if pocma then h_alloc s else h_alloc d) /\ h_alloc (snd y) = h_alloc s.
Proof. intros m d s y H. unfold h_assign in H. crunch H; auto. Qed.
Lemma insert_node_alloc : forall v (m : mem K V) t h m1 t1 h1 n b, insert_node keq dflt v m t h = Ok (m1, t1, h1, n, b) -> t_alloc t1 = t_alloc t /\ h_alloc h1 = h_alloc h /\ (h_alloc n = h_alloc h \/ h_alloc n = dflt).
Proof.
  intros v m t h m1 t1 h1 n b H. unfold insert_node, h_moved in H. crunch H; cbn; auto; pose proof (construct_from_alloc _ _ _ _ _ Heqr1) as X; cbn [fst snd] in X; cbn; auto. destruct o; injection H as <- <- <- <- <-; cbn; auto.
Qed.
Lemma assign_node_alloc : forall v (m : mem K V) t h y, assign_node keq dflt v m t h = Ok y -> t_alloc (snd (fst (fst y))) = t_alloc t /\ h_alloc (snd (fst y)) = h_alloc h.
Proof.
  intros v m t h y H. unfold assign_node in H. crunch H; cbn.
  - split; [reflexivity|]. match goal with X : construct_from _ _ _ _ = Ok _ |- _ => pose proof (construct_from_alloc _ _ _ _ _ X) as Y; exact Y end.
  - match goal with X : insert_node _ _ _ _ _ _ = Ok _ |- _ => destruct (insert_node_alloc _ _ _ _ _ _ _ _ _ X) as (Y1 & Y2 & _); auto end.
Qed.
Lemma copy_data_alloc : forall (m : mem K V) t o y, copy_data m t o = Ok y -> t_alloc (snd y) = t_alloc t.
Proof. intros m t o y H. unfold copy_data in H. crunch H; reflexivity. Qed.
Lemma move_from_alloc : forall t o y, move_from t o = Ok y -> t_alloc (fst y) = t_alloc t /\ t_alloc (snd y) = t_alloc o.
Proof. intros t o y H. unfold move_from in H. crunch H; auto. Qed.

Lemma same_t1 : forall (w : nworld) m i t, same_alloc w -> t_alloc t = dflt -> same_alloc (with_t w m i t).
Proof. intros w m i t S H [y|y]; [|apply (S (HH y))]. cbn [alloc_of with_t w_c]. unfold setn. destruct (Nat.eqb y i); [exact H|apply (S (HC y))]. Qed.
Lemma same_t2 : forall (w : nworld) m i t j u, same_alloc w -> t_alloc t = dflt -> t_alloc u = dflt -> same_alloc (mkw m (setn (setn (w_c w) i t) j u) (w_h w)).
Proof. intros w m i t j u S H1 H2 [y|y]; [|apply (S (HH y))]. cbn [alloc_of w_c]. unfold setn. destruct (Nat.eqb y j); [exact H2|]. destruct (Nat.eqb y i); [exact H1|apply (S (HC y))]. Qed.
Lemma same_h2 : forall (w : nworld) m i t j u, same_alloc w -> h_alloc t = dflt -> h_alloc u = dflt -> same_alloc (mkw m (w_c w) (setn (setn (w_h w) i t) j u)).
Proof. intros w m i t j u S H1 H2 [y|y]; [apply (S (HC y))|]. cbn [alloc_of w_h]. unfold setn. destruct (Nat.eqb y j); [exact H2|]. destruct (Nat.eqb y i); [exact H1|apply (S (HH y))]. Qed.
Lemma same_th : forall (w : nworld) m i t j u, same_alloc w -> t_alloc t = dflt -> h_alloc u = dflt -> same_alloc (mkw m (setn (w_c w) i t) (setn (w_h w) j u)).
Proof. intros w m i t j u S H1 H2 [y|y]; cbn [alloc_of w_c w_h]; unfold setn; destruct (Nat.eqb y _); auto; [apply (S (HC y))|apply (S (HH y))]. Qed.

Lemma same_step : forall v (w : nworld) c w' b, same_alloc w -> plain dflt (v, c) -> nexec v w c = Ok (w', b) -> same_alloc w'.
Proof.
  intros v w c w' b S (_ & P) H. assert (SC : forall i, t_alloc (w_c w i) = dflt) by (intros i; apply (S (HC i))). assert (SH : forall j, h_alloc (w_h w j) = dflt) by (intros j; apply (S (HH j))).
  cbn [snd fst] in P. destruct c; cbn [NodeModel.nexec] in H.
  - unfold on_table in H. crunch H. apply same_t1; [exact S|]. match goal with X : do_insert _ _ _ _ _ _ = _ |- _ => pose proof (insert_alloc _ _ _ _ _ _ X) as Y end. cbn [fst snd] in Y. rewrite Y. apply SC.
  - unfold on_table in H. crunch H. apply same_t1; [exact S|]. match goal with X : do_emplace _ _ _ _ _ _ = _ |- _ => pose proof (emplace_alloc _ _ _ _ _ _ X) as Y end. cbn [fst snd] in Y. rewrite Y. apply SC.
  - unfold on_table in H. crunch H. apply same_t1; [exact S|]. match goal with X : do_assign _ _ _ _ _ _ = _ |- _ => pose proof (assign_alloc _ _ _ _ _ _ X) as Y end. cbn [fst snd] in Y. rewrite Y. apply SC.
  - crunch H. apply same_t1; [exact S|]. match goal with X : erase _ _ _ _ = _ |- _ => pose proof (erase_alloc _ _ _ _ X) as Y end. rewrite Y. apply SC.
  - crunch H. apply same_t1; [exact S|]. match goal with X : erase_nodes _ _ = _ |- _ => pose proof (erase_nodes_alloc _ _ _ X) as Y end. rewrite Y. apply SC.
  - crunch H. apply same_t1; [exact S|]. reflexivity.
  - crunch H. match goal with X : extract _ _ _ _ _ = _ |- _ => pose proof (extract_alloc _ _ _ _ X) as (Y1 & Y2) end. match goal with X : h_assign _ _ _ _ = _ |- _ => pose proof (h_assign_alloc _ _ _ _ X) as (Y3 & _) end. cbn [fst snd] in *.
    apply same_th; [exact S|rewrite Y1; apply SC|]. rewrite Y3. rewrite SC in Y2. destruct pocma; [destruct Y2; assumption|apply SH].
  - crunch H. match goal with X : extract _ _ _ _ _ = _ |- _ => pose proof (extract_alloc _ _ _ _ X) as (Y1 & Y2) end. apply same_th; [exact S|rewrite Y1; apply SC|]. rewrite SC in Y2. destruct Y2; assumption.
  - crunch H. match goal with X : insert_node _ _ _ _ _ _ = _ |- _ => pose proof (insert_node_alloc _ _ _ _ _ _ _ _ _ X) as (Y1 & Y2 & _) end. apply same_th; [exact S|rewrite Y1; apply SC|rewrite Y2; apply SH].
  - crunch H; match goal with X : insert_node _ _ _ _ _ _ = _ |- _ => pose proof (insert_node_alloc _ _ _ _ _ _ _ _ _ X) as (Y1 & Y2 & Y4) end.
    + match goal with X : h_assign _ _ _ _ = _ |- _ => pose proof (h_assign_alloc _ _ _ _ X) as (Y3 & _) end. cbn [fst snd] in *. apply same_th; [exact S|rewrite Y1; apply SC|]. rewrite Y3. rewrite SH in Y2, Y4. destruct pocma; [destruct Y4; assumption|exact Y2].
    + apply same_th; [exact S|rewrite Y1; apply SC|rewrite Y2; apply SH].
  - crunch H. match goal with X : assign_node _ _ _ _ _ _ = _ |- _ => pose proof (assign_node_alloc _ _ _ _ _ X) as (Y1 & Y2) end. cbn [fst snd] in *. apply same_th; [exact S|rewrite Y1; apply SC|rewrite Y2; apply SH].
  - crunch H; [exact S|]. match goal with X : h_assign _ _ _ _ = _ |- _ => pose proof (h_assign_alloc _ _ _ _ X) as (Y1 & Y2) end. cbn [fst snd] in *. apply same_h2; [exact S|rewrite Y1; destruct pocma; apply SH|rewrite Y2; apply SH].
  - unfold h_moved in H. crunch H; [exact S|]. apply same_h2; [exact S|apply SH|apply SH].
  - crunch H. intros [y|y]; [apply SC|]. cbn [alloc_of with_h w_h]. unfold setn. destruct (Nat.eqb y j); [reflexivity|apply SH].
  - unfold h_swap in H. crunch H. match goal with X : _ = Ok _ |- _ => crunch X end. cbn [fst snd]. apply same_h2; [exact S|apply SH|apply SH].
  - unfold merge in H. crunch H; [exact S|].
    match goal with X : _ = Ok _ |- _ => crunch X end.
    + match goal with X : transfer _ _ _ _ _ _ = _ |- _ => pose proof (transfer_alloc _ _ _ _ _ _ _ _ X) as Y end. apply same_t2; [exact S|rewrite Y; apply SC|apply SC].
    + apply same_t2; [exact S|apply SC|apply SC].
  - crunch H; [exact S|]. match goal with X : copy_data _ _ _ = _ |- _ => pose proof (copy_data_alloc _ _ _ _ X) as Y end. apply same_t1; [exact S|]. rewrite Y. apply SC.
  - crunch H; [exact S|]. match goal with X : copy_data _ _ _ = _ |- _ => pose proof (copy_data_alloc _ _ _ _ X) as Y end. apply same_t1; [exact S|]. rewrite Y. reflexivity.
  - crunch H; [exact S|]. match goal with X : copy_data _ _ _ = _ |- _ => pose proof (copy_data_alloc _ _ _ _ X) as Y end. apply same_t1; [exact S|]. rewrite Y. cbn [t_alloc]. destruct pocca; apply SC.
  - crunch H; [exact S|]. match goal with X : move_from _ _ = _ |- _ => pose proof (move_from_alloc _ _ _ X) as (Y1 & Y2) end. apply same_t2; [exact S|rewrite Y1|rewrite Y2]; apply SC.
  - crunch H; [exact S|]. match goal with X : move_from _ _ = _ |- _ => pose proof (move_from_alloc _ _ _ X) as (Y1 & Y2) end. apply same_t2; [exact S|rewrite Y1; reflexivity|rewrite Y2; apply SC].
  - crunch H; [exact S|]. match goal with X : move_from _ _ = _ |- _ => pose proof (move_from_alloc _ _ _ X) as (Y1 & Y2) end. apply same_t2; [exact S|rewrite Y1; cbn [t_alloc]; destruct pocma; apply SC|rewrite Y2; apply SC].
  - crunch H; [exact S|]. apply same_t2; [exact S|apply SC|apply SC].
Qed.
Lemma plain_blocked : forall v (w : nworld) c, same_alloc w -> plain dflt (v, c) -> nblocked v w c -> inserts_nothing w c.
Proof.
  intros v w c S (P1 & P2) B. assert (SC : forall i, t_alloc (w_c w i) = dflt) by (intros i; apply (S (HC i))). assert (SH : forall j, h_alloc (w_h w j) = dflt) by (intros j; apply (S (HH j))).
  cbn [fst snd] in *. destruct c; cbn [NodeSpec.nblocked inserts_nothing] in *; rewrite ?SC, ?SH in B; intuition congruence.
Qed.
Lemma reached_winv : forall w : nworld, reached keq pocca pocma dflt w -> winv w.
Proof.
  intros w (al & h & bs & E & H). destruct (run_ok keq pocca pocma dflt h _ (start_winv dflt al)) as [(w' & bs' & E' & I)|(h1 & v & c & h2 & w1 & bs1 & -> & E1 & _ & B)].
  - rewrite E in E'. injection E' as <- _. exact I.
  - contradiction (H h1 v c h2 w1 bs1 eq_refl E1 B).
Qed.
Lemma nothing_held : forall w : nworld, owned w -> (forall o, held w o = []) -> forall p, m_cell (w_m w) p = None.
Proof. intros w (L & _) H p. destruct (m_cell (w_m w) p) as [c|] eqn:E; [|reflexivity]. destruct (L p c E) as (o & Ho). rewrite H in Ho. destruct Ho. Qed.
Lemma plain_run : forall h (w : nworld), winv w -> same_alloc w -> Forall (plain dflt) h ->
  (exists w' bs, nrun w h = Ok (w', bs) /\ winv w') \/
  (exists h1 v c h2 w1 bs, h = h1 ++ (v, c) :: h2 /\ nrun w h1 = Ok (w1, bs) /\ winv w1 /\ inserts_nothing w1 c).
Proof.
  induction h as [|(v, c) h IH]; intros w I S P; cbn [NodeModel.nrun].
  - left. eauto.
  - apply Forall_cons_iff in P. destruct P as (P1 & P2). destruct (step keq pocca pocma dflt v w c I) as [B|(w1 & b & E & I1)].
    + right. exists [], v, c, h, w, []. cbn [app NodeModel.nrun]. split; [reflexivity|]. split; [reflexivity|]. split; [exact I|]. apply (plain_blocked v w c S P1 B).
    + rewrite E. cbn [bind]. destruct (IH w1 I1 (same_step _ _ _ _ _ S P1 E) P2) as [(w2 & bs & E2 & I2)|(h1 & v1 & c1 & h2 & w2 & bs & -> & E2 & I2 & B)].
      * left. rewrite E2. cbn [bind]. eauto.
      * right. exists ((v, c) :: h1), v1, c1, h2, w2, (b :: bs). cbn [app NodeModel.nrun]. rewrite E. cbn [bind]. rewrite E2. cbn [bind]. auto.
Qed.

(** ** In terms of programs. *)
Lemma plain_programs : forall h : list (nenv * ncall K V), Forall (plain dflt) h ->
  (exists w bs, nrun (nstart dflt (fun _ => dflt)) h = Ok (w, bs) /\ owned w /\ ((forall o, held w o = []) -> forall p, m_cell (w_m w) p = None)) \/
  (exists h1 v c h2 w1 bs, h = h1 ++ (v, c) :: h2 /\ nrun (nstart dflt (fun _ => dflt)) h1 = Ok (w1, bs) /\ owned w1 /\ inserts_nothing w1 c).
Proof.
  intros h P. destruct (plain_run h (nstart dflt (fun _ => dflt)) (start_winv dflt _)) as [(w & bs & E & I)|(h1 & v & c & h2 & w1 & bs & Eh & E & I & B)].
  - intros [i|i]; reflexivity.
  - exact P.
  - left. exists w, bs. pose proof (winv_owned _ I) as O. split; [exact E|]. split; [exact O|]. apply nothing_held. exact O.
  - right. exists h1, v, c, h2, w1, bs. pose proof (winv_owned _ I) as O. auto.
Qed.
Lemma all_programs : forall al (h : list (nenv * ncall K V)),
  (exists w bs, nrun (nstart dflt al) h = Ok (w, bs) /\ owned w /\ ((forall o, held w o = []) -> forall p, m_cell (w_m w) p = None)) \/
  (exists h1 v c h2 w1 bs, h = h1 ++ (v, c) :: h2 /\ nrun (nstart dflt al) h1 = Ok (w1, bs) /\ owned w1 /\ nblocked v w1 c).
Proof.
  intros al h. destruct (run_ok keq pocca pocma dflt h (nstart dflt al) (start_winv dflt _)) as [(w & bs & E & I)|(h1 & v & c & h2 & w1 & bs & Eh & E & I & B)].
  - left. exists w, bs. pose proof (winv_owned _ I) as O. split; [exact E|]. split; [exact O|]. apply nothing_held. exact O.
  - right. exists h1, v, c, h2, w1, bs. pose proof (winv_owned _ I) as O. auto.
Qed.
Local Notation reached := (reached keq pocca pocma dflt).
Lemma throw_insert : forall v (w : nworld) i k x, reached w -> e_grow v = true -> e_alloc v = true -> e_ctor v = false -> absent keq w i k ->
  (exists w', nexec v w (NInsert i k x) = Ok (w', false) /\ leaked w') /\ (exists w', nexec v w (NAssign i k x) = Ok (w', false) /\ leaked w').
Proof. intros v w i k x R Eg Ea Ec Hm. apply reached_winv in R. split; [apply insert_leaks; [exact R|cbn; auto]|apply assign_leaks; assumption]. Qed.
Lemma throw_emplace : forall v (w : nworld) i k x, reached w -> e_alloc v = true -> e_ctor v = false \/ (e_grow v = false /\ absent keq w i k) ->
  exists w', nexec v w (NEmplace i k x) = Ok (w', false) /\ leaked w'.
Proof. intros v w i k x R Ea H. apply emplace_leaks; [apply reached_winv; exact R|split; assumption]. Qed.
Lemma throw_assign : forall v v' (w : nworld) i k x, reached w -> e_ctor v = false -> ~ absent keq w i k ->
  exists w', nexec v w (NAssign i k x) = Ok (w', false) /\ forall a, nexec v' w' (NNew i a) = Err DeadObject /\ nexec v' w' (NClear i) = Err DeadObject.
Proof. intros v v' w i k x R. apply assign_dead. apply reached_winv. exact R. Qed.
Lemma handle_unequal : forall v v' (w : nworld) i j, reached w -> e_grow v = true -> e_alloc v = true -> e_ctor v = true -> h_ptr (w_h w j) <> 0 -> h_alloc (w_h w j) <> t_alloc (w_c w i) ->
  (forall a k x, m_cell (w_m w) (h_ptr (w_h w j)) = Some (Obj a k x) -> absent keq w i k) ->
  exists w', nexec v w (NInsertNode i j) = Ok (w', true) /\ nexec v' w' (NHandleDrop j) = Err UseAfterFree.
Proof.
  intros v v' w i j R Eg Ea Ec Hp Ha Hm. apply handle_dangles; try assumption; [apply reached_winv; exact R|]. intros k x Er. unfold read in Er. rewrite (eqb0 _ Hp) in Er.
  destruct (m_cell (w_m w) (h_ptr (w_h w j))) as [[a|a k' y]|] eqn:E; try discriminate. injection Er as -> ->. apply (Hm a k x eq_refl).
Qed.
End Faults.
