(** Moves between ordered sparse containers in which enough element moves succeed. *)
From Coq Require Import ZArith List Bool Lia Permutation Arith.
From Verif Require Import Base BaseLemmas Bits BitsProofs SwissModel SwissArith SwissCap SwissInv SwissOps SwissClean SwissIter SwissRoom MapSpec WorldSpec World WorldProofs SwissRun SwissRefine SwissFinal SwissMore SwissCopy
  LinkModel LinkProofs SwissOrderedSpec SwissOrderedWorldSpec SwissOrdered SwissOrderedRun SwissOrderedWorld SwissOrderedLinks SwissOrderedProofs SwissOrderedOps SwissOrderedRefine SwissOrderedStep SwissOrderedWorldProofs.
From Verif Require Import UnequalModel UnequalSwiss MoveLeftModel MoveLeftSwiss MoveLeftSparseModel MoveLeftSparse.
Import ListNotations.
Open Scope Z_scope.

Section World.
Context {E K : Type}.
Variable f : simd.
Variable sz : Z.
Variable key_of : E -> K.
Variable hash : K -> Z.
Variable keq : K -> K -> bool.
Variable rep : E -> E -> E.
Variable clone : E -> E.
Variables pocca pocma : bool.
Hypothesis Hsz : 0 < sz.
Hypothesis KL : key_laws hash keq.
Hypothesis Hrep : forall a b, keq (key_of a) (key_of b) = true -> key_of (rep a b) = key_of a.
Hypothesis Hclone : forall e, key_of (clone e) = key_of e.
Notation swiss := (@swiss E).
Notation oswiss := (oswiss E).
Notation wf := (wf f key_of hash keq).
Notation xoccurs := (xoccurs f sz key_of hash keq rep clone pocca pocma).

Lemma quiet_core : forall n v h (s o : oswiss), wf (os_t o) -> (length (elems (os_t o)) <= n)%nat -> s_size (os_t s) = 0 -> (forall j, s_nodes (os_t s) j = None) ->
  (0 < s_cap (os_t o) -> s_cap (os_t s) < s_cap (os_t o) \/ (s_cap (os_t s) = s_cap (os_t o) /\ s_buf (os_t s) = Live)) ->
  sm_move_data f sz n v h s o = s_move_data f sz v h s o.
Proof.
  clear Hrep Hclone rep clone pocca pocma. intros n v h s o Wo Hn S0 N0 Hcap. unfold sm_move_data, s_move_data. destruct Wo as [W0|W].
  - assert (X : m_move_data f n (ev_lim (sv_e v)) (os_t s) (os_t o) = move_data f (ev_lim (sv_e v)) (os_t s) (os_t o)) by (unfold m_move_data, move_data; rewrite (w0_size _ W0); reflexivity).
    rewrite X, (w0_size _ W0). reflexivity.
  - pose proof (cap_bounds f _ (w_m _ _ _ _ _ W)) as Hcb.
    assert (Hroom : s_cap (os_t s) < s_cap (os_t o) \/ (s_cap (os_t s) = s_cap (os_t o) /\ s_buf (os_t s) = Live /\ forall j, s_nodes (os_t s) j = None)) by (destruct (Hcap ltac:(lia)) as [X|(X & Y)]; auto).
    rewrite (m_move_data_same f key_of hash keq n _ _ _ W Hn S0 Hroom).
    destruct (Z.eqb_spec (s_size (os_t o)) 0) as [H0|H0]; [reflexivity|].
    assert (Hu : forall nb h1, relink_until f sz n (os_t o) nb (os_base o) (zrange (s_cap (os_t o))) h1 = foldM (relink_occ f sz (os_t o) nb (os_base o)) (zrange (s_cap (os_t o))) h1).
    { intros nb h1. rewrite (until_filter f sz key_of hash keq (os_t o) nb (os_base o) W) by (intros i Hi; apply zrange_In; exact Hi). rewrite (relink_filter f sz key_of hash keq (os_t o) nb (os_base o) W) by (intros i Hi; apply zrange_In; exact Hi).
      rewrite firstn_all2; [reflexivity|]. rewrite full_length. unfold elems, collect in Hn. rewrite map_length in Hn. lia. }
    unfold move_data. rewrite S0. cbn [Z.eqb guard bind]. destruct (Z.eqb_spec (s_size (os_t o)) 0) as [|_]; [contradiction|].
    destruct (reallocate (ev_lim (sv_e v)) (os_t s) (s_cap (os_t o))) as [[s1 okb]|]; cbn [bind snd]; [|reflexivity]. destruct okb; cbn [negb bind].
    + destruct (fill_empty s1) as [s2|]; cbn [bind]; [|reflexivity]. destruct (foldM (move_step f) (zrange (s_cap (os_t o))) (s2, os_t o)) as [[a b]|]; cbn [bind]; [|reflexivity].
      destruct (fill_empty _) as [o2|]; cbn [bind negb]; [|reflexivity]. destruct (s_realloc sz v h s (s_cap (os_t o)) false) as [[h1 nb]|]; cbn [bind]; [|reflexivity]. rewrite Hu. reflexivity.
    + reflexivity.
Qed.
Lemma quiet_moves : forall ne n v (w : xworld E) i j l, xoccurs w -> s_iterate sz (xw_m w) (xw_c w j) = Ok l -> (length l <= n)%nat ->
  (bucket_count (os_t (xw_c w i)) <= bucket_count (os_t (xw_c w j)) -> unthrown (sm_move_assign f sz ne n v (xw_m w) (xw_c w i) (xw_c w j)) = u_oswiss_assign f sz v (xw_m w) (xw_c w i) (xw_c w j)) /\
  (let h := x_destroy sz (xw_m w) (xw_c w i) in sm_move_ctor f sz ne n v h (os_hdr (xw_c w i)) (xw_c w j) = leaves ne (u_oswiss_ctor f sz v h (os_hdr (xw_c w i)) (xw_c w j))).
Proof.
  intros ne n v w i j l Ho Hl Hn. destruct (xoccurs_inv f sz key_of hash keq rep clone pocca pocma Hsz KL Hrep Hclone w Ho) as (ords & H).
  rewrite (shown f sz key_of hash keq Hsz _ _ _ _ (proj1 H j) Hl) in Hn. pose proof (zi_wf _ _ _ _ _ _ _ _ (proj1 H i)) as Wi. pose proof (zi_wf _ _ _ _ _ _ _ _ (proj1 H j)) as Wj.
  destruct (erase_nodes_ok f key_of hash keq _ Wi) as (t & Ee & Bf & Ct & _ & _ & S0 & N0).
  assert (Hlf : forall A B (x : res (A * B * bool)), unthrown (leaves ne x) = unthrown x) by (intros A B [[[a b] []]|e]; destruct ne; reflexivity).
  unfold sm_move_assign, sm_move_ctor, u_oswiss_assign, u_oswiss_ctor. split.
  - intros Hc. unfold bucket_count in Hc. rewrite Hlf. destruct (relink_from (xw_m w) (os_hdr (xw_c w i)) (os_hdr (xw_c w j))) as [h1|]; [|reflexivity]. cbn [bind]. rewrite Ee. cbn [bind]. rewrite quiet_core; [reflexivity|exact Wj|exact Hn|exact S0|exact N0|].
    cbn [with_t os_t]. rewrite Ct, Bf. intros Hp. destruct Wi as [W0|Wi]; [left; rewrite (w0_cap _ W0); lia|]. destruct (Z_lt_ge_dec (s_cap (os_t (xw_c w i))) (s_cap (os_t (xw_c w j)))); [left; assumption|right]. split; [lia|]. apply (mw_buf f _ (w_m _ _ _ _ _ Wi)).
  - cbv zeta. destruct (relink_from (x_destroy sz (xw_m w) (xw_c w i)) (os_hdr (xw_c w i)) (os_hdr (xw_c w j))) as [h1|]; [|reflexivity]. cbn [bind]. f_equal. apply quiet_core; [exact Wj|exact Hn|reflexivity|reflexivity|]. intros Hp. left. exact Hp.
Qed.
End World.
