(** Ownership along programs over stable containers and node handles. *)
From Coq Require Import ZArith List Bool Lia Permutation Arith.
From Verif Require Import Base BaseLemmas NodeModel NodeSpec NodeProofs.
Import ListNotations.
Open Scope Z_scope.

Section Run.
Context {K V : Type}.
Variable keq : K -> K -> bool.
Variables pocca pocma : bool.
Variable dflt : Z.
Local Notation nworld := (nworld K V).
Local Notation nexec := (nexec keq pocca pocma dflt).
Local Notation nrun := (nrun keq pocca pocma dflt).
Local Notation nblocked := (nblocked keq pocma dflt).
Local Notation no_handle := (no_handle dflt).

Ltac pt := intros; repeat match goal with o : holder |- _ => destruct o end; cbn [held alloc_of w_c w_h w_m with_t with_h t_nodes t_alloc h_ptr h_alloc fst snd NodeModel.no_handle Z.eqb] in *;
  unfold setn; repeat match goal with |- context [Nat.eqb ?a ?b] => destruct (Nat.eqb_spec a b); subst end;
  cbn [held alloc_of w_c w_h w_m t_nodes t_alloc h_ptr h_alloc fst snd NodeModel.no_handle Z.eqb] in *; try reflexivity; try congruence; try contradiction.
(** The same for worlds from which one holder was emptied. *)
Ltac ptm := intros; repeat match goal with o : holder |- _ => destruct o end; unfold emptied;
  repeat match goal with |- context [holder_dec ?a ?b] => destruct (holder_dec a b) as [?Eh|?Eh]; [try (exfalso; congruence); try (injection Eh as Eh; subst)|try (exfalso; congruence)] end; pt.

Lemma eqb0 : forall p, p <> 0 -> (p =? 0) = false. Proof. intros p H. apply Z.eqb_neq. exact H. Qed.

Lemma split_none : forall (m : mem K V) l k, (forall p, In p l -> exists a k' x, p <> 0 /\ m_cell m p = Some (Obj a k' (Some x))) ->
  (split_at keq m l k = Ok None <-> forall p a k' x, In p l -> m_cell m p = Some (Obj a k' x) -> keq k' k = false).
Proof.
  intros m l k. induction l as [|p l IH]; intros H; cbn [split_at]; [split; [intros _ p a k' x []|reflexivity]|].
  destruct (H p (or_introl eq_refl)) as (a & k' & x & Hp & E). unfold read. rewrite (eqb0 p Hp), E. cbn [bind fst].
  specialize (IH (fun q Hq => H q (or_intror Hq))). destruct (keq k' k) eqn:Ek.
  - split; [discriminate|]. intros G. rewrite (G p a k' (Some x) (or_introl eq_refl) E) in Ek. discriminate.
  - split.
    + intros G. assert (S : split_at keq m l k = Ok None) by (destruct (split_at keq m l k) as [[((u, q), r)|]|]; [discriminate|reflexivity|discriminate]).
      intros q b k2 y [<-|Hq] Eq; [rewrite E in Eq; injection Eq as <- <- <-; exact Ek|apply (proj1 IH S q b k2 y Hq Eq)].
    + intros G. rewrite (proj2 IH (fun q b k2 y Hq Eq => G q b k2 y (or_intror Hq) Eq)). reflexivity.
Qed.
Lemma absent_iff : forall (w : nworld) i k, winv w -> (split_at keq (w_m w) (t_nodes (w_c w i)) k = Ok None <-> absent keq w i k).
Proof.
  intros w i k I. apply split_none. intros p Hp. destruct (g_live _ _ _ I (HC i) p Hp) as (k' & x & E). exists (alloc_of w (HC i)), k', x. split; [|exact E].
  pose proof (g_range _ _ _ (HC i) p I Hp). lia.
Qed.

Lemma ex_emplace : forall v (w : nworld) i k x, winv w -> nblocked v w (NEmplace i k x) \/ exists m1 t1 b, do_emplace keq v (w_m w) (w_c w i) k x = Ok (m1, t1, b) /\ winv (with_t w m1 i t1).
Proof.
  intros v w i k x I. unfold do_emplace. destruct (e_alloc v) eqn:Ea; [|right; unfold construct; rewrite Ea; eexists _, _, _; split; [reflexivity|apply same_t; exact I]].
  destruct (e_ctor v) eqn:Ec; [|left; split; [exact Ea|left; exact Ec]].
  destruct (g_new v _ _ _ (HC i) k x I Ea Ec) as (m1 & p & E1 & Er & Hp0 & Hs & Hi). cbn [alloc_of] in E1. rewrite E1, Er. cbn [bind fst].
  rewrite (split_same keq (w_m w) m1) by (intros q Hq; apply (proj1 (Hs (HC i) q Hq))).
  assert (Iadd : inv m1 (held (with_t w m1 i (add (w_c w i) p))) (alloc_of w)).
  { apply Hi; [pt|]. cbn [held with_t w_c]. rewrite setn_same. unfold add. cbn [t_nodes]. apply Permutation_sym, Permutation_cons_append. }
  destruct (find_t keq w i k I) as [E|(a & q & b & E & El)]; rewrite E; cbn [bind].
  - destruct (e_grow v) eqn:Eg; [|left; split; [exact Ea|right; split; [exact Eg|apply absent_iff; assumption]]].
    right. unfold destroy. cbn [Z.eqb bind]. eexists _, _, _. split; [reflexivity|]. apply (g_ext _ _ _ _ _ Iadd); [reflexivity|pt].
  - right. destruct (g_free _ _ _ (HC i) p Iadd) as (m2 & E2 & _ & H2).
    { cbn [held with_t w_c]. rewrite setn_same. unfold add. cbn [t_nodes]. apply in_or_app. right. left. reflexivity. }
    cbn [alloc_of] in E2. rewrite E2. cbn [bind]. eexists _, _, _. split; [reflexivity|].
    apply (g_ext _ (held w) (alloc_of w)); [|pt|pt]. apply H2; [pt|]. cbn [held with_t w_c]. rewrite setn_same. unfold add. cbn [t_nodes]. apply Permutation_sym, Permutation_cons_append.
Qed.

Lemma ex_assign : forall v (w : nworld) i k x, winv w -> nblocked v w (NAssign i k x) \/ exists m1 t1 b, do_assign keq v (w_m w) (w_c w i) k x = Ok (m1, t1, b) /\ winv (with_t w m1 i t1).
Proof.
  intros v w i k x I. unfold do_assign. destruct (find_t keq w i k I) as [E|(a & q & b & E & El)]; rewrite E; cbn [bind].
  - destruct (e_grow v) eqn:Eg; [destruct (e_alloc v) eqn:Ea; [destruct (e_ctor v) eqn:Ec|]|];
      try (right; apply insert_ok; [exact I|exact E|intros; congruence]). left. split; [exact Ec|]. right. auto.
  - destruct (e_ctor v) eqn:Ec; [|left; split; [exact Ec|left; intros X; apply absent_iff in X; [|exact I]; congruence]].
    right. destruct (g_replace v _ _ _ (HC i) q x I) as (m1 & E1 & I1); [cbn [held]; rewrite El; apply in_elt|exact Ec|]. rewrite E1. cbn [bind].
    eexists _, _, _. split; [reflexivity|]. apply (g_ext _ _ _ _ _ I1); pt.
Qed.

Lemma ex_erase : forall (w : nworld) i k, winv w -> exists m1 t1, erase keq (w_m w) (w_c w i) k = Ok (m1, t1) /\ winv (with_t w m1 i t1).
Proof.
  intros w i k I. unfold erase. destruct (find_t keq w i k I) as [E|(a & q & b & E & El)]; rewrite E; cbn [bind].
  - eexists _, _. split; [reflexivity|apply same_t; exact I].
  - destruct (g_free _ _ _ (HC i) q I) as (m1 & E1 & _ & H1); [cbn [held]; rewrite El; apply in_elt|]. cbn [alloc_of] in E1. rewrite E1. cbn [bind].
    eexists _, _. split; [reflexivity|]. apply (g_ext _ (held (with_t w m1 i (mkt (t_alloc (w_c w i)) (a ++ b)))) (alloc_of w)); [|reflexivity|pt].
    apply H1; [pt|]. cbn [held with_t w_c]. rewrite setn_same. cbn [t_nodes]. rewrite El. apply Permutation_sym, Permutation_middle.
Qed.

(** An object goes from a container to a handle that is empty by then. *)
Lemma to_handle : forall (w : nworld) m1 i j a p b h, inv (K := K) (V := V) m1 (emptied (held w) (HH j)) (alloc_of w) -> t_nodes (w_c w i) = a ++ p :: b -> h = mkh (t_alloc (w_c w i)) p ->
  winv (mkw m1 (setn (w_c w) i (mkt (t_alloc (w_c w i)) (a ++ b))) (setn (w_h w) j h)).
Proof.
  intros w m1 i j a p b h I El ->. assert (Hp : p <> 0). { assert (H : In p (emptied (held w) (HH j) (HC i))) by (rewrite emptied_other by discriminate; cbn [held]; rewrite El; apply in_elt). pose proof (g_range _ _ _ _ _ I H). lia. }
  apply (g_move _ _ _ _ _ (HC i) (HH j) (t_alloc (w_c w i)) I).
  - discriminate.
  - rewrite emptied_same, emptied_other by discriminate. cbn [held w_c w_h]. rewrite !setn_same. cbn [t_nodes h_ptr]. rewrite (eqb0 p Hp), app_nil_r, El. rewrite <- app_assoc. apply Permutation_app_head. apply Permutation_cons_append.
  - intros y N1 N2. split; ptm.
  - reflexivity.
  - rewrite emptied_same. intros H. contradiction H. reflexivity.
  - cbn [alloc_of w_c]. rewrite setn_same. reflexivity.
  - cbn [alloc_of w_h]. rewrite setn_same. reflexivity.
Qed.
(** Nothing is extracted. *)
Lemma to_none : forall (w : nworld) m1 i j h, inv (K := K) (V := V) m1 (emptied (held w) (HH j)) (alloc_of w) -> h_ptr h = 0 -> winv (mkw m1 (setn (w_c w) i (w_c w i)) (setn (w_h w) j h)).
Proof.
  intros w m1 i j h I Hh. apply (g_ext _ _ _ _ _ I).
  - intros [y|y]; [rewrite emptied_other by discriminate; pt|]. cbn [held w_h]. unfold setn. destruct (Nat.eqb_spec y j) as [->|N]; [rewrite Hh, emptied_same; reflexivity|rewrite emptied_other by congruence; reflexivity].
  - intros [y|y] H; [pt|]. cbn [alloc_of w_h]. unfold setn. destruct (Nat.eqb_spec y j) as [->|N]; [rewrite emptied_same in H; contradiction H; reflexivity|reflexivity].
Qed.

Lemma free_h : forall (w : nworld) j, winv w -> exists m1, h_destroy (w_m w) (w_h w j) = Ok m1 /\ inv m1 (emptied (held w) (HH j)) (alloc_of w) /\ (forall o q, o <> HH j -> In q (held w o) -> m_cell m1 q = m_cell (w_m w) q).
Proof. intros w j I. apply (handle_free _ _ _ (w_h w j) j I); reflexivity. Qed.

Lemma ex_extract : forall v (w : nworld) i k j, winv w -> nblocked v w (NExtract i k j) \/ exists w' b, nexec v w (NExtract i k j) = Ok (w', b) /\ winv w'.
Proof.
  intros v w i k j I. cbn [NodeModel.nexec]. unfold extract, h_assign. destruct (free_h w j I) as (m1 & E1 & I1 & _). rewrite E1.
  destruct pocma eqn:Ep.
  - right. destruct (find_t keq w i k I) as [E|(a & q & b & E & El)]; rewrite E; cbn [bind h_alloc NodeModel.no_handle]; rewrite Z.eqb_refl; cbn [guard bind]; unfold h_destroy, destroy; cbn [h_ptr Z.eqb bind]; eexists _, _; (split; [reflexivity|]).
    + apply to_none; [exact I1|reflexivity].
    + eapply to_handle; [exact I1|exact El|reflexivity].
  - destruct (Z.eq_dec (h_alloc (w_h w j)) (t_alloc (w_c w i))) as [A|A]; [|left; split; [reflexivity|left; exact A]].
    destruct (Z.eq_dec (h_alloc (w_h w j)) dflt) as [B|B]; [|left; split; [reflexivity|right; exact B]]. right.
    destruct (find_t keq w i k I) as [E|(a & q & b & E & El)]; rewrite E; cbn [bind h_alloc NodeModel.no_handle].
    + rewrite B, Z.eqb_refl. cbn [guard bind]. unfold h_destroy, destroy. cbn [h_ptr Z.eqb bind]. eexists _, _. split; [reflexivity|]. apply to_none; [exact I1|reflexivity].
    + rewrite A, Z.eqb_refl. cbn [guard bind]. unfold h_destroy, destroy. cbn [h_ptr Z.eqb bind]. eexists _, _. split; [reflexivity|]. eapply to_handle; [exact I1|exact El|reflexivity].
Qed.

Lemma ex_extract_new : forall v (w : nworld) i k j, winv w -> exists w' b, nexec v w (NExtractNew i k j) = Ok (w', b) /\ winv w'.
Proof.
  intros v w i k j I. cbn [NodeModel.nexec]. destruct (free_h w j I) as (m1 & E1 & I1 & Hs). rewrite E1. cbn [bind]. unfold extract.
  rewrite (split_same keq (w_m w) m1) by (intros q Hq; apply (Hs (HC i)); [discriminate|exact Hq]).
  destruct (find_t keq w i k I) as [E|(a & q & b & E & El)]; rewrite E; cbn [bind fst snd]; eexists _, _; (split; [reflexivity|]).
  - apply to_none; [exact I1|reflexivity].
  - eapply to_handle; [exact I1|exact El|reflexivity].
Qed.

(** An object goes from a handle to a container. *)
Lemma from_handle : forall (w : nworld) i j l h, winv w -> h_alloc (w_h w j) = t_alloc (w_c w i) -> h_ptr (w_h w j) <> 0 -> h_ptr h = 0 -> Permutation l (h_ptr (w_h w j) :: t_nodes (w_c w i)) ->
  winv (mkw (w_m w) (setn (w_c w) i (mkt (t_alloc (w_c w i)) l)) (setn (w_h w) j h)).
Proof.
  intros w i j l h I Ha Hp Hh P. apply (g_move _ _ _ _ _ (HC i) (HH j) (t_alloc (w_c w i)) I).
  - discriminate.
  - cbn [held w_c w_h]. rewrite !setn_same. cbn [t_nodes]. rewrite Hh, (eqb0 _ Hp). cbn [Z.eqb]. rewrite app_nil_r. apply Permutation_sym. rewrite P. apply Permutation_cons_append.
  - intros y N1 N2. split; pt.
  - reflexivity.
  - intros _. exact Ha.
  - cbn [alloc_of w_c]. rewrite setn_same. reflexivity.
  - cbn [held w_h]. rewrite setn_same, Hh. intros H. contradiction H. reflexivity.
Qed.

Lemma handle_read : forall (w : nworld) j, winv w -> h_ptr (w_h w j) <> 0 -> exists k x, read (w_m w) (h_ptr (w_h w j)) = Ok (k, Some x).
Proof. intros w j I H. apply (read_ok _ _ _ (HH j) _ I). cbn [held]. rewrite (eqb0 _ H). left. reflexivity. Qed.

Lemma same_w : forall (w : nworld) i j, winv w -> winv (mkw (w_m w) (setn (w_c w) i (w_c w i)) (setn (w_h w) j (w_h w j))).
Proof. intros w i j I. apply (g_ext _ _ _ _ _ I); pt. Qed.

(** insert_node on equal allocators. *)
Lemma insert_node_ok : forall v (w : nworld) i j, winv w -> h_ptr (w_h w j) <> 0 -> h_alloc (w_h w j) = t_alloc (w_c w i) ->
  exists m1 t1 h1 n b, insert_node keq dflt v (w_m w) (w_c w i) (w_h w j) = Ok (m1, t1, h1, n, b) /\
    ((b = true /\ m1 = w_m w /\ t1 = w_c w i /\ h1 = mkh (h_alloc (w_h w j)) 0 /\ n = w_h w j) \/
     (b = true /\ m1 = w_m w /\ h1 = mkh (h_alloc (w_h w j)) 0 /\ n = no_handle /\ forall h, h_ptr h = 0 -> winv (mkw m1 (setn (w_c w) i t1) (setn (w_h w) j h))) \/
     (b = false /\ m1 = w_m w /\ t1 = w_c w i /\ h1 = w_h w j /\ n = no_handle)).
Proof.
  intros v w i j I Hp Ha. unfold insert_node. destruct (handle_read w j I Hp) as (k & x & Er). rewrite Er. cbn [bind fst].
  destruct (find_t keq w i k I) as [E|(a & q & b & E & El)]; rewrite E; cbn [bind].
  - destruct (e_grow v); [|eexists _, _, _, _, _; split; [reflexivity|right; right; auto]].
    unfold construct_from. rewrite Ha, Z.eqb_refl. cbn [bind]. eexists _, _, _, _, _. split; [reflexivity|]. right. left. do 4 (split; [reflexivity|]).
    intros h Hh. unfold add. apply from_handle; [exact I|exact Ha|exact Hp|exact Hh|]. apply Permutation_sym, Permutation_cons_append.
  - unfold h_moved. eexists _, _, _, _, _. split; [reflexivity|]. left. auto.
Qed.

Lemma ex_insert_node : forall v (w : nworld) i j, winv w -> nblocked v w (NInsertNode i j) \/ exists w' b, nexec v w (NInsertNode i j) = Ok (w', b) /\ winv w'.
Proof.
  intros v w i j I. destruct (Z.eq_dec (h_ptr (w_h w j)) 0) as [Hp|Hp]; [left; left; exact Hp|]. destruct (Z.eq_dec (h_alloc (w_h w j)) (t_alloc (w_c w i))) as [Ha|Ha]; [|left; right; exact Ha].
  right. cbn [NodeModel.nexec]. destruct (insert_node_ok v w i j I Hp Ha) as (m1 & t1 & h1 & n & b & E & D). rewrite E. cbn [bind].
  destruct D as [(-> & -> & -> & -> & ->)|[(-> & -> & -> & -> & Hi)|(-> & -> & -> & -> & ->)]].
  - destruct (free_h w j I) as (m1 & E1 & I1 & _). rewrite E1. cbn [bind]. eexists _, _. split; [reflexivity|]. apply to_none; [exact I1|reflexivity].
  - unfold h_destroy, destroy. cbn [h_ptr NodeModel.no_handle Z.eqb bind]. eexists _, _. split; [reflexivity|]. apply Hi. reflexivity.
  - unfold h_destroy, destroy. cbn [h_ptr NodeModel.no_handle Z.eqb bind]. eexists _, _. split; [reflexivity|]. apply same_w. exact I.
Qed.
Lemma ex_insert_back : forall v (w : nworld) i j, winv w -> nblocked v w (NInsertBack i j) \/ exists w' b, nexec v w (NInsertBack i j) = Ok (w', b) /\ winv w'.
Proof.
  intros v w i j I. destruct (Z.eq_dec (h_ptr (w_h w j)) 0) as [Hp|Hp]; [left; left; exact Hp|]. destruct (Z.eq_dec (h_alloc (w_h w j)) (t_alloc (w_c w i))) as [Ha|Ha]; [|left; right; left; exact Ha].
  destruct (bool_dec pocma true) as [Ep|Ep]; [|apply not_true_is_false in Ep; destruct (Z.eq_dec (h_alloc (w_h w j)) dflt) as [Hd|Hd]; [|left; right; right; split; [exact Ep|exact Hd]]].
  - right. cbn [NodeModel.nexec]. destruct (insert_node_ok v w i j I Hp Ha) as (m1 & t1 & h1 & n & b & E & D). rewrite E. cbn [bind].
    destruct D as [(-> & -> & -> & -> & ->)|[(-> & -> & -> & -> & Hi)|(-> & -> & -> & -> & ->)]]; [| |eexists _, _; split; [reflexivity|apply same_w; exact I]];
      unfold h_assign, h_destroy, destroy; cbn [h_ptr h_alloc NodeModel.no_handle Z.eqb bind]; rewrite Ep, Z.eqb_refl; cbn [guard bind h_ptr Z.eqb]; eexists _, _; (split; [reflexivity|]).
    + apply (g_ext _ _ _ _ _ I); pt.
    + apply Hi. reflexivity.
  - right. cbn [NodeModel.nexec]. destruct (insert_node_ok v w i j I Hp Ha) as (m1 & t1 & h1 & n & b & E & D). rewrite E. cbn [bind].
    destruct D as [(-> & -> & -> & -> & ->)|[(-> & -> & -> & -> & Hi)|(-> & -> & -> & -> & ->)]]; [| |eexists _, _; split; [reflexivity|apply same_w; exact I]];
      unfold h_assign, h_destroy, destroy; cbn [h_ptr h_alloc NodeModel.no_handle Z.eqb bind]; rewrite Ep; rewrite ?Hd, Z.eqb_refl; cbn [guard bind h_ptr Z.eqb]; eexists _, _; (split; [reflexivity|]).
    + apply (g_ext _ _ _ _ _ I); pt.
    + apply Hi. reflexivity.
Qed.
Lemma ex_assign_node : forall v (w : nworld) i j, winv w -> nblocked v w (NAssignNode i j) \/ exists w' b, nexec v w (NAssignNode i j) = Ok (w', b) /\ winv w'.
Proof.
  intros v w i j I. destruct (Z.eq_dec (h_ptr (w_h w j)) 0) as [Hp|Hp]; [left; left; exact Hp|]. destruct (Z.eq_dec (h_alloc (w_h w j)) (t_alloc (w_c w i))) as [Ha|Ha]; [|left; right; exact Ha].
  right. cbn [NodeModel.nexec]. unfold assign_node. destruct (handle_read w j I Hp) as (k & x & Er). rewrite Er. cbn [bind fst].
  destruct (find_t keq w i k I) as [E|(a & q & b & E & El)]; rewrite E; cbn [bind].
  - destruct (insert_node_ok v w i j I Hp Ha) as (m1 & t1 & h1 & n & b & E1 & D). rewrite E1. cbn [bind].
    destruct D as [(-> & -> & -> & -> & ->)|[(-> & -> & -> & -> & Hi)|(-> & -> & -> & -> & ->)]]; eexists _, _; (split; [reflexivity|]).
    + exfalso. unfold insert_node in E1. rewrite Er in E1. cbn [bind fst] in E1. rewrite E in E1. cbn [bind] in E1. destruct (e_grow v); [|injection E1; intros; discriminate].
      unfold construct_from in E1. rewrite Ha, Z.eqb_refl in E1. cbn [bind] in E1. injection E1 as E2 _. apply (f_equal t_nodes) in E2. unfold add in E2. cbn [t_nodes] in E2. apply (f_equal (@length Z)) in E2. rewrite app_length in E2. cbn [length] in E2. lia.
    + apply Hi. reflexivity.
    + apply same_w. exact I.
  - destruct (g_free _ _ _ (HC i) q I) as (m1 & E1 & _ & H1); [cbn [held]; rewrite El; apply in_elt|]. cbn [alloc_of] in E1. rewrite E1. cbn [bind].
    unfold construct_from. rewrite Ha, Z.eqb_refl. cbn [bind]. eexists _, _. split; [reflexivity|].
    pose (w1 := mkw m1 (setn (w_c w) i (mkt (t_alloc (w_c w i)) (a ++ b))) (w_h w)).
    assert (I1 : winv w1).
    { apply (g_ext _ (held w1) (alloc_of w)); [|reflexivity|unfold w1; pt]. apply H1; [unfold w1; pt|]. unfold w1. cbn [held w_c]. rewrite setn_same. cbn [t_nodes]. rewrite El. apply Permutation_sym, Permutation_middle. }
    apply (g_ext _ (held (mkw (w_m w1) (setn (w_c w1) i (mkt (t_alloc (w_c w1 i)) (a ++ h_ptr (w_h w j) :: b))) (setn (w_h w1) j (mkh (t_alloc (w_c w i)) 0))))
      (alloc_of (mkw (w_m w1) (setn (w_c w1) i (mkt (t_alloc (w_c w1 i)) (a ++ h_ptr (w_h w j) :: b))) (setn (w_h w1) j (mkh (t_alloc (w_c w i)) 0))))).
    + apply (from_handle w1 i j); [exact I1|unfold w1; cbn [w_c w_h]; rewrite setn_same; exact Ha|exact Hp|reflexivity|]. unfold w1. cbn [w_c w_h]. rewrite setn_same. cbn [t_nodes]. apply Permutation_sym, Permutation_middle.
    + unfold w1. pt.
    + unfold w1. pt.
Qed.

(** ** Handles. *)
Lemma hh_move : forall (w : nworld) m1 j k a, inv (K := K) (V := V) m1 (emptied (held w) (HH j)) (alloc_of w) -> j <> k -> a = h_alloc (w_h w k) ->
  winv (mkw m1 (w_c w) (setn (setn (w_h w) j (mkh a (h_ptr (w_h w k)))) k (mkh (h_alloc (w_h w k)) 0))).
Proof.
  intros w m1 j k a I N ->. apply (g_move _ _ _ _ _ (HH j) (HH k) (h_alloc (w_h w k)) I).
  - congruence.
  - rewrite emptied_same, emptied_other by congruence. cbn [held w_h]. rewrite setn_same, (setn_other _ _ _ _ _ N), setn_same. cbn [h_ptr Z.eqb app]. rewrite app_nil_r. apply Permutation_refl.
  - intros y N1 N2. rewrite emptied_other by exact N1. split; pt.
  - rewrite emptied_same. intros H. contradiction H. reflexivity.
  - reflexivity.
  - cbn [alloc_of w_h]. rewrite (setn_other _ _ _ _ _ N), setn_same. reflexivity.
  - cbn [alloc_of w_h]. rewrite setn_same. reflexivity.
Qed.
Lemma ex_handle_move : forall v (w : nworld) j k, winv w -> nblocked v w (NHandleMove j k) \/ exists w' b, nexec v w (NHandleMove j k) = Ok (w', b) /\ winv w'.
Proof.
  intros v w j k I. cbn [NodeModel.nexec]. destruct (Nat.eqb_spec j k) as [E|N]; [right; eauto|]. unfold h_assign. destruct (free_h w j I) as (m1 & E1 & I1 & _). rewrite E1. cbn [bind].
  destruct pocma eqn:Ep.
  - right. rewrite Z.eqb_refl. cbn [guard bind]. eexists _, _. split; [reflexivity|]. apply hh_move; auto.
  - destruct (Z.eq_dec (h_alloc (w_h w j)) (h_alloc (w_h w k))) as [A|A]; [|left; split; [reflexivity|exact A]].
    right. rewrite A, Z.eqb_refl. cbn [guard bind]. eexists _, _. split; [reflexivity|]. apply hh_move; auto.
Qed.
Lemma ex_handle_new : forall v (w : nworld) j k, winv w -> exists w' b, nexec v w (NHandleNew j k) = Ok (w', b) /\ winv w'.
Proof.
  intros v w j k I. cbn [NodeModel.nexec]. destruct (Nat.eqb_spec j k) as [E|N]; [eauto|]. destruct (free_h w j I) as (m1 & E1 & I1 & _). rewrite E1. cbn [bind h_moved].
  eexists _, _. split; [reflexivity|]. pose proof (hh_move w m1 j k _ I1 N eq_refl) as H. destruct (w_h w k); exact H.
Qed.
Lemma ex_handle_drop : forall v (w : nworld) j, winv w -> exists w' b, nexec v w (NHandleDrop j) = Ok (w', b) /\ winv w'.
Proof.
  intros v w j I. cbn [NodeModel.nexec]. destruct (free_h w j I) as (m1 & E1 & I1 & _). rewrite E1. cbn [bind]. eexists _, _. split; [reflexivity|].
  apply (g_ext _ _ _ _ _ (to_none w m1 O j no_handle I1 eq_refl)); pt.
Qed.
Lemma ex_handle_swap : forall v (w : nworld) j k, winv w -> nblocked v w (NHandleSwap j k) \/ exists w' b, nexec v w (NHandleSwap j k) = Ok (w', b) /\ winv w'.
Proof.
  intros v w j k I. cbn [NodeModel.nexec]. unfold h_swap. destruct (Z.eq_dec (h_alloc (w_h w j)) (h_alloc (w_h w k))) as [A|A]; [|left; exact A]. right. rewrite A, Z.eqb_refl. cbn [guard bind fst snd].
  eexists _, _. split; [reflexivity|]. destruct (Nat.eq_dec j k) as [->|N]; [apply (g_ext _ _ _ _ _ I); pt|].
  apply (g_move _ _ _ _ _ (HH j) (HH k) (h_alloc (w_h w k)) I).
  - congruence.
  - cbn [held w_h]. rewrite setn_same, (setn_other _ _ _ _ _ N), setn_same. cbn [h_ptr]. apply Permutation_app_comm.
  - intros y N1 N2. split; pt.
  - intros _. exact A.
  - reflexivity.
  - cbn [alloc_of w_h]. rewrite (setn_other _ _ _ _ _ N), setn_same. reflexivity.
  - cbn [alloc_of w_h]. rewrite setn_same. reflexivity.
Qed.

(** ** Whole containers. *)
Lemma ex_merge : forall v (w : nworld) i j, winv w -> nblocked v w (NMerge i j) \/ exists w' b, nexec v w (NMerge i j) = Ok (w', b) /\ winv w'.
Proof.
  intros v w i j I. cbn [NodeModel.nexec]. destruct (Nat.eqb_spec i j) as [E|N]; [right; eauto|]. destruct (Z.eq_dec (t_alloc (w_c w i)) (t_alloc (w_c w j))) as [A|A]; [|left; exact A].
  right. unfold merge. destruct (e_grow v).
  - destruct (transfer_ok keq v (t_nodes (w_c w j)) (w_m w) (held w) (alloc_of w) (w_c w i) i j [] I N eq_refl eq_refl eq_refl (eq_sym A)) as (t' & l' & E & Ha & I1).
    rewrite <- A, E. cbn [bind]. eexists _, _. split; [reflexivity|]. apply (g_ext _ _ _ _ _ I1).
    + intros [y|y]; cbn [held w_c w_h]; [|destruct (holder_dec (HH y) (HC i)); [discriminate|]; destruct (holder_dec (HH y) (HC j)); [discriminate|reflexivity]].
      unfold setn. destruct (Nat.eqb_spec y j) as [->|Nj]; [|destruct (Nat.eqb_spec y i) as [->|Ni]].
      * destruct (holder_dec (HC j) (HC i)) as [H|_]; [congruence|]. destruct (holder_dec (HC j) (HC j)); [reflexivity|contradiction].
      * destruct (holder_dec (HC i) (HC i)); [reflexivity|contradiction].
      * destruct (holder_dec (HC y) (HC i)) as [H|_]; [congruence|]. destruct (holder_dec (HC y) (HC j)) as [H|_]; [congruence|reflexivity].
    + intros [y|y] _; cbn [alloc_of w_c w_h]; [|reflexivity]. unfold setn. destruct (Nat.eqb_spec y j) as [->|Nj]; [exact A|]. destruct (Nat.eqb_spec y i) as [->|Ni]; [exact Ha|reflexivity].
  - cbn [bind]. eexists _, _. split; [reflexivity|]. apply (g_ext _ _ _ _ _ I); pt.
Qed.

Lemma ex_clear : forall (w : nworld) i t, winv w -> t_nodes t = [] -> exists m1, erase_nodes (w_m w) (w_c w i) = Ok (m1, mkt (t_alloc (w_c w i)) []) /\ winv (with_t w m1 i t).
Proof.
  intros w i t I Ht. destruct (erase_all w i I) as (m1 & E & I1). exists m1. split; [exact E|]. apply (g_ext _ _ _ _ _ I1).
  - intros [y|y]; [|rewrite emptied_other by discriminate; reflexivity]. cbn [held with_t w_c]. unfold setn. destruct (Nat.eqb_spec y i) as [->|N]; [rewrite emptied_same; exact Ht|rewrite emptied_other by congruence; reflexivity].
  - intros [y|y] H; [|reflexivity]. cbn [alloc_of with_t w_c]. unfold setn. destruct (Nat.eqb_spec y i) as [->|N]; [rewrite emptied_same in H; contradiction H; reflexivity|reflexivity].
Qed.

(** A copy of c_j for the emptied c_i with the allocator [a]. *)
Lemma copied : forall (w : nworld) i j a, winv w -> i <> j ->
  exists m1 m2 t2, erase_nodes (w_m w) (w_c w i) = Ok (m1, mkt (t_alloc (w_c w i)) []) /\ copy_data m1 (mkt a []) (w_c w j) = Ok (m2, t2) /\ winv (with_t w m2 i t2).
Proof.
  intros w i j a I N. destruct (ex_clear w i (mkt a []) I eq_refl) as (m1 & E1 & I1).
  destruct (copy_ok (t_nodes (w_c w j)) m1 _ _ a i [] I1) as (m2 & acc & E2 & I2).
  - cbn [held with_t w_c]. rewrite setn_same. reflexivity.
  - cbn [alloc_of with_t w_c]. rewrite setn_same. reflexivity.
  - intros p Hp. exists (HC j). split; [congruence|]. cbn [held with_t w_c]. rewrite setn_other by congruence. exact Hp.
  - exists m1, m2, (mkt a acc). split; [exact E1|]. split; [unfold copy_data; cbn [t_nodes t_alloc guard bind]; rewrite E2; reflexivity|].
    apply (g_ext _ _ _ _ _ I2).
    + intros [y|y]; [|destruct (holder_dec (HH y) (HC i)); [discriminate|reflexivity]]. cbn [held with_t w_c]. unfold setn. destruct (Nat.eqb_spec y i) as [->|Ny].
      * destruct (holder_dec (HC i) (HC i)); [reflexivity|contradiction].
      * destruct (holder_dec (HC y) (HC i)) as [H|_]; [congruence|reflexivity].
    + intros [y|y] _; [|reflexivity]. cbn [alloc_of with_t w_c]. unfold setn. destruct (Nat.eqb y i); reflexivity.
Qed.

(** The emptied c_i with the allocator [a] takes what c_j has. *)
Lemma moved : forall (w : nworld) i j a, winv w -> i <> j -> a = t_alloc (w_c w j) \/ t_nodes (w_c w j) = [] ->
  exists m1 z, erase_nodes (w_m w) (w_c w i) = Ok (m1, mkt (t_alloc (w_c w i)) []) /\ move_from (mkt a []) (w_c w j) = Ok z /\ winv (mkw m1 (setn (setn (w_c w) i (fst z)) j (snd z)) (w_h w)).
Proof.
  intros w i j a I N H. destruct (ex_clear w i (mkt a []) I eq_refl) as (m1 & E1 & I1).
  exists m1. unfold move_from. cbn [t_alloc t_nodes]. destruct (Z.eqb_spec a (t_alloc (w_c w j))) as [Ea|Na].
  - eexists. split; [exact E1|]. split; [reflexivity|]. apply (g_move _ _ _ _ _ (HC i) (HC j) a I1); cbn [fst snd].
    + congruence.
    + cbn [held with_t w_c]. rewrite setn_same, !(setn_other _ _ _ _ j), setn_same, (setn_other _ _ _ _ _ N), setn_same by congruence. cbn [t_nodes app]. rewrite app_nil_r. apply Permutation_refl.
    + intros y N1 N2. split; pt.
    + cbn [alloc_of with_t w_c]. rewrite setn_same. reflexivity.
    + cbn [alloc_of with_t w_c]. rewrite (setn_other _ _ _ _ j) by congruence. auto.
    + cbn [alloc_of w_c]. rewrite (setn_other _ _ _ _ _ N), setn_same. reflexivity.
    + cbn [alloc_of w_c]. rewrite setn_same. auto.
  - destruct H as [H|H]; [contradiction|]. cbn [guard bind]. eexists. split; [exact E1|]. split; [reflexivity|]. rewrite H. cbn [fst snd]. apply (g_ext _ _ _ _ _ I1); pt.
Qed.
Lemma ex_swap : forall v (w : nworld) i j, winv w -> nblocked v w (NSwap i j) \/ exists w' b, nexec v w (NSwap i j) = Ok (w', b) /\ winv w'.
Proof.
  intros v w i j I. cbn [NodeModel.nexec]. destruct (Nat.eqb_spec i j) as [E|N]; [right; eauto|]. destruct (Z.eq_dec (t_alloc (w_c w i)) (t_alloc (w_c w j))) as [A|A]; [|left; exact A].
  right. rewrite A, Z.eqb_refl. cbn [guard bind]. eexists _, _. split; [reflexivity|]. apply (g_move _ _ _ _ _ (HC i) (HC j) (t_alloc (w_c w j)) I).
  - congruence.
  - cbn [held w_c]. rewrite setn_same, (setn_other _ _ _ _ _ N), setn_same. cbn [t_nodes]. apply Permutation_app_comm.
  - intros y N1 N2. split; pt.
  - intros _. exact A.
  - reflexivity.
  - cbn [alloc_of w_c]. rewrite (setn_other _ _ _ _ _ N), setn_same. reflexivity.
  - cbn [alloc_of w_c]. rewrite setn_same. reflexivity.
Qed.

Lemma step : forall v (w : nworld) c, winv w -> nblocked v w c \/ exists w' b, nexec v w c = Ok (w', b) /\ winv w'.
Proof.
  intros v w c I. destruct c as [i k x|i k x|i k x|i k|i|i a|i k j|i k j|i j|i j|i j|j k|j k|j|j k|i j|i j|i j a|i j|i j|i j a|i j|i j].
  - assert (X : nblocked v w (NInsert i k x) \/ exists m1 t1 b, do_insert keq v (w_m w) (w_c w i) k x = Ok (m1, t1, b) /\ winv (with_t w m1 i t1)).
    { destruct (find_t keq w i k I) as [E|(a & q & b & E & El)].
      - destruct (e_grow v) eqn:Eg; [destruct (e_alloc v) eqn:Ea; [destruct (e_ctor v) eqn:Ec|]|]; try (right; apply insert_ok; [exact I|exact E|intros; congruence]). left. cbn. do 3 (split; [assumption|]). apply absent_iff; assumption.
      - right. unfold do_insert. rewrite E. cbn [bind]. eexists _, _, _. split; [reflexivity|apply same_t; exact I]. }
    destruct X as [X|(m1 & t1 & b & E & I1)]; [left; exact X|right]. cbn [NodeModel.nexec on_table]. unfold on_table. rewrite E. cbn [bind]. eauto.
  - destruct (ex_emplace v w i k x I) as [X|(m1 & t1 & b & E & I1)]; [left; exact X|right]. cbn [NodeModel.nexec]. unfold on_table. rewrite E. cbn [bind]. eauto.
  - destruct (ex_assign v w i k x I) as [X|(m1 & t1 & b & E & I1)]; [left; exact X|right]. cbn [NodeModel.nexec]. unfold on_table. rewrite E. cbn [bind]. eauto.
  - right. destruct (ex_erase w i k I) as (m1 & t1 & E & I1). cbn [NodeModel.nexec]. rewrite E. cbn [bind fst snd]. eauto.
  - right. destruct (ex_clear w i (mkt (t_alloc (w_c w i)) []) I eq_refl) as (m1 & E & I1). cbn [NodeModel.nexec]. rewrite E. cbn [bind fst snd]. eauto.
  - right. destruct (ex_clear w i (mkt a []) I eq_refl) as (m1 & E & I1). cbn [NodeModel.nexec]. rewrite E. cbn [bind fst snd]. eauto.
  - apply ex_extract. exact I.
  - right. apply ex_extract_new. exact I.
  - apply ex_insert_node. exact I.
  - apply ex_insert_back. exact I.
  - apply ex_assign_node. exact I.
  - apply ex_handle_move. exact I.
  - right. apply ex_handle_new. exact I.
  - right. apply ex_handle_drop. exact I.
  - apply ex_handle_swap. exact I.
  - apply ex_merge. exact I.
  - right. cbn [NodeModel.nexec]. destruct (Nat.eqb_spec i j) as [E|N]; [eauto|]. destruct (copied w i j (t_alloc (w_c w j)) I N) as (m1 & m2 & t2 & E1 & E2 & I2). rewrite E1. cbn [bind fst snd]. rewrite E2. cbn [bind fst snd]. eauto.
  - right. cbn [NodeModel.nexec]. destruct (Nat.eqb_spec i j) as [E|N]; [eauto|]. destruct (copied w i j a I N) as (m1 & m2 & t2 & E1 & E2 & I2). rewrite E1. cbn [bind fst snd]. rewrite E2. cbn [bind fst snd]. eauto.
  - right. cbn [NodeModel.nexec]. destruct (Nat.eqb_spec i j) as [E|N]; [eauto|]. destruct (copied w i j (if pocca then t_alloc (w_c w j) else t_alloc (w_c w i)) I N) as (m1 & m2 & t2 & E1 & E2 & I2). rewrite E1. cbn [bind fst snd t_nodes]. rewrite E2. cbn [bind fst snd]. eauto.
  - right. cbn [NodeModel.nexec]. destruct (Nat.eqb_spec i j) as [E|N]; [eauto|]. destruct (moved w i j (t_alloc (w_c w j)) I N (or_introl eq_refl)) as (m1 & z & E1 & E2 & I2). rewrite E1. cbn [bind fst snd]. rewrite E2. cbn [bind fst snd]. eauto.
  - cbn [NodeModel.nexec]. destruct (Nat.eqb_spec i j) as [E|N]; [right; eauto|].
    assert (X : nblocked v w (NMoveNewIn i j a) \/ (a = t_alloc (w_c w j) \/ t_nodes (w_c w j) = [])).
    { destruct (Z.eq_dec a (t_alloc (w_c w j))) as [A|A]; [right; left; exact A|]. destruct (t_nodes (w_c w j)) eqn:El; [right; right; reflexivity|]. left. cbn. rewrite El. split; [exact A|discriminate]. }
    destruct X as [X|X]; [left; exact X|right]. destruct (moved w i j a I N X) as (m1 & z & E1 & E2 & I2). rewrite E1. cbn [bind fst snd]. rewrite E2. cbn [bind fst snd]. eauto.
  - cbn [NodeModel.nexec]. destruct (Nat.eqb_spec i j) as [E|N]; [right; eauto|].
    assert (X : nblocked v w (NMove i j) \/ ((if pocma then t_alloc (w_c w j) else t_alloc (w_c w i)) = t_alloc (w_c w j) \/ t_nodes (w_c w j) = [])).
    { cbn [NodeSpec.nblocked]. destruct pocma; [right; left; reflexivity|]. destruct (Z.eq_dec (t_alloc (w_c w i)) (t_alloc (w_c w j))) as [A|A]; [right; left; exact A|]. destruct (t_nodes (w_c w j)) eqn:El; [right; right; reflexivity|]. left. split; [reflexivity|]. split; [exact A|discriminate]. }
    destruct X as [X|X]; [left; exact X|right]. destruct (moved w i j _ I N X) as (m1 & z & E1 & E2 & I2). rewrite E1. cbn [bind fst snd t_nodes]. rewrite E2. cbn [bind fst snd]. eauto.
  - apply ex_swap. exact I.
Qed.

Lemma winv_owned : forall w : nworld, winv w -> owned w.
Proof. intros w I. split; [apply (g_leak _ _ _ I)|]. split; [apply (g_live _ _ _ I)|]. split; [apply (g_nd _ _ _ I)|apply (g_one _ _ _ I)]. Qed.

Lemma nrun_split : forall h1 h2 (w : nworld) w1 bs, nrun w h1 = Ok (w1, bs) -> nrun w (h1 ++ h2) = (let* y := nrun w1 h2 in Ok (fst y, bs ++ snd y)).
Proof.
  induction h1 as [|(v, c) h1 IH]; intros h2 w w1 bs E; cbn [NodeModel.nrun app] in *.
  - injection E as <- <-. destruct (nrun w h2) as [(w2, b2)|]; reflexivity.
  - destruct (nexec v w c) as [(w', b)|]; [|discriminate]. cbn [bind] in *. destruct (nrun w' h1) as [(w2, b2)|] eqn:E2; [|discriminate]. cbn [bind] in E. injection E as <- <-.
    rewrite (IH h2 _ _ _ E2). destruct (nrun w2 h2) as [(w3, b3)|]; reflexivity.
Qed.
Lemma run_ok : forall h (w : nworld), winv w ->
  (exists w' bs, nrun w h = Ok (w', bs) /\ winv w') \/
  (exists h1 v c h2 w1 bs, h = h1 ++ (v, c) :: h2 /\ nrun w h1 = Ok (w1, bs) /\ winv w1 /\ nblocked v w1 c).
Proof.
  induction h as [|(v, c) h IH]; intros w I; cbn [NodeModel.nrun].
  - left. eauto.
  - destruct (step v w c I) as [B|(w1 & b & E & I1)].
    + right. exists [], v, c, h, w, []. cbn. auto.
    + rewrite E. cbn [bind]. destruct (IH w1 I1) as [(w2 & bs & E2 & I2)|(h1 & v1 & c1 & h2 & w2 & bs & -> & E2 & I2 & B)].
      * left. rewrite E2. cbn [bind]. eauto.
      * right. exists ((v, c) :: h1), v1, c1, h2, w2, (b :: bs). cbn [app NodeModel.nrun]. rewrite E. cbn [bind]. rewrite E2. cbn [bind]. auto.
Qed.
Lemma start_winv : forall al, winv (K := K) (V := V) (nstart dflt al).
Proof.
  intros al. constructor; cbn.
  - lia.
  - reflexivity.
  - intros; discriminate.
  - intros [i|i] p H; contradiction.
  - intros [i|i]; constructor.
  - intros [i|i] o' p H; contradiction.
Qed.
End Run.
