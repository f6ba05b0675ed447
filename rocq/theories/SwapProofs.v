(** Proofs about swaps of tables with unequal allocators. *)
From Coq Require Import ZArith List Bool Lia.
From Verif Require Import Base BufferModel BufferProofs SwapModel.
Import ListNotations.
Open Scope Z_scope.

Lemma books_settled {T} (w : tworld T) own : books (tw_l w) (fun i => own (tw_t w i)) -> own None = [] -> settled w.
Proof.
  intros (_ & _ & _ & C) E N p. destruct (l_live (tw_l w) p) eqn:El; [|reflexivity].
  destruct (C p) as [i Hi]; [rewrite El; discriminate|]. rewrite N, E in Hi. destruct Hi.
Qed.
Lemma take_same t : mksb (sb_a t) (sb_meta t) (sb_nodes t) (sb_cap t) = t. Proof. destruct t; reflexivity. Qed.
Lemma dtake_same t : mkdt (dt_a t) (dt_elems t) (dt_ecap t) (dt_bucks t) (dt_bcap t) (dt_size t) = t. Proof. destruct t; reflexivity. Qed.
Lemma guard_true e : guard true e = Ok tt. Proof. reflexivity. Qed.
Lemma guard_false e : guard false e = Err e. Proof. reflexivity. Qed.

Section Swap.
Variable pocs : bool.

Section Sparse.
Variables (wd sz : Z) (combined pocca pocma : bool).
Hypothesis Hcopy : combined = true -> pocca = false.
Hypothesis Hmove : combined = true -> pocma = false.
Notation sbooks := (sw_books wd sz combined).
Notation pexec c := (swiss_pexec pocs c wd sz combined pocca pocma).
Notation prun c := (swiss_prun pocs c wd sz combined pocca pocma).

Lemma swiss_swap_eq checked t u : sb_a (st_b t) = sb_a (st_b u) -> swiss_swap checked t u = Ok (u, t).
Proof.
  intros E. unfold swiss_swap. rewrite E, Z.eqb_refl, orb_true_r, guard_true. cbn [bind].
  f_equal. destruct t as [bt zt], u as [bu zu]. cbn [st_b st_size] in *. f_equal; f_equal; [|rewrite <- E]; apply take_same.
Qed.
Lemma sparse_step checked v w c : sbooks w -> swiss_pfine (v, c) ->
  (swiss_uneq pocs w c) \/ exists w', pexec checked v w c = Ok w' /\ sbooks w'.
Proof.
  intros B F. destruct c as [c|i j].
  - right. destruct (swiss_step wd sz combined pocca pocma Hcopy Hmove v w c B F) as (w' & ok & R & B'). exists w'. cbn. rewrite R. auto.
  - cbn [swiss_pexec]. destruct (tw_t w i) as [t|] eqn:Ei; [|right; eauto]. destruct (tw_t w j) as [u|] eqn:Ej; [|right; eauto].
    destruct (may_swap pocs (sb_a (st_b t)) (sb_a (st_b u))) eqn:Em; [|right; eauto].
    destruct (Z.eq_dec (sb_a (st_b t)) (sb_a (st_b u))) as [E|E].
    + right. rewrite (swiss_swap_eq checked t u E). cbn [bind fst snd]. eexists. split; [reflexivity|].
      destruct (swiss_step wd sz combined pocca pocma Hcopy Hmove (mktenv [] true) w (TSwap i j) B) as (w' & ok & R & B').
      * split; [intros b []|reflexivity].
      * cbn [swiss_exec] in R. rewrite Ei, Ej, E, Z.eqb_refl in R. injection R as <- _. exact B'.
    + left. exists i, j, t, u. split; [reflexivity|]. split; [|split; [exact Ei|split; [exact Ej|exact E]]].
      unfold may_swap in Em. destruct pocs; [reflexivity|]. apply Z.eqb_eq in Em. contradiction.
Qed.
Lemma sparse_uneq_checked v w c : swiss_uneq pocs w c -> pexec true v w c = Err AssertFailed.
Proof.
  intros (i & j & t & u & -> & Hp & Ei & Ej & Hn). cbn [swiss_pexec]. rewrite Ei, Ej. unfold may_swap. rewrite Hp. cbn [orb].
  unfold swiss_swap. cbn [negb orb]. rewrite (proj2 (Z.eqb_neq _ _) Hn). reflexivity.
Qed.
Lemma sparse_run h : forall w, sbooks w -> Forall swiss_pfine h ->
  (exists w', prun true w h = Ok w' /\ sbooks w') \/
  prun true w h = Err AssertFailed /\ exists h1 v c h2 w1, h = h1 ++ (v, c) :: h2 /\ prun true w h1 = Ok w1 /\ sbooks w1 /\ swiss_uneq pocs w1 c.
Proof.
  induction h as [|[v c] h IH]; intros w B F; [left; exists w; auto|]. inversion F as [|? ? F1 F2]. subst.
  cbn [swiss_prun]. destruct (sparse_step true v w c B F1) as [U|(w1 & R & B1)].
  - right. rewrite (sparse_uneq_checked v w c U). split; [reflexivity|]. exists [], v, c, h, w. split; [reflexivity|]. split; [reflexivity|auto].
  - rewrite R. cbn [bind]. destruct (IH w1 B1 F2) as [H|(E & h1 & v1 & c1 & h2 & w2 & -> & R2 & B2 & U2)]; [left; exact H|right].
    split; [exact E|]. exists ((v, c) :: h1), v1, c1, h2, w2. split; [reflexivity|]. split; [|auto]. cbn [swiss_prun]. rewrite R. exact R2.
Qed.
Lemma sbooks_nothing : sbooks nothing.
Proof. split; [exact books_nothing|discriminate]. Qed.
Theorem sparse_all h : Forall swiss_pfine h ->
  (exists w, prun true nothing h = Ok w /\ settled w) \/
  prun true nothing h = Err AssertFailed /\ exists h1 v c h2 w1, h = h1 ++ (v, c) :: h2 /\ prun true nothing h1 = Ok w1 /\ settled w1 /\ swiss_uneq pocs w1 c.
Proof.
  intros F. destruct (sparse_run h nothing sbooks_nothing F) as [(w & R & B)|(E & h1 & v & c & h2 & w1 & -> & R & B & U)].
  - left. exists w. split; [exact R|]. apply (books_settled w (sw_owned wd sz combined) (proj1 B) eq_refl).
  - right. split; [exact E|]. exists h1, v, c, h2, w1. split; [reflexivity|]. split; [exact R|]. split; [apply (books_settled w1 (sw_owned wd sz combined) (proj1 B) eq_refl)|exact U].
Qed.

(** Ignoring the assertion: the table holds blocks of the other allocator. *)
Lemma block_ne a b k k' n n' : a <> b -> block_eqb (mkb a k n) (mkb b k' n') = false.
Proof. intros H. unfold block_eqb. cbn. rewrite (proj2 (Z.eqb_neq _ _) H). reflexivity. Qed.
Lemma wrong_back L p b b' : p <> 0 -> l_live L p = Some b' -> b_alloc b <> b_alloc b' -> give_back false L p b = Err BadFree.
Proof.
  intros Hp Hl Hn. unfold give_back. rewrite (proj2 (Z.eqb_neq _ _) Hp), Hl. destruct b, b'. cbn in Hn. rewrite block_ne by exact Hn. reflexivity.
Qed.
Theorem sparse_wrong w i j t u : sbooks w -> pocs = true -> i <> j -> tw_t w i = Some t -> tw_t w j = Some u -> sb_a (st_b t) <> sb_a (st_b u) -> sb_cap (st_b u) <> 0 ->
  forall v, pexec true v w (PSwap i j) = Err AssertFailed /\
  exists w', pexec false v w (PSwap i j) = Ok w' /\ forall v', pexec false v' w' (PStmt (TDestroy i)) = Err BadFree.
Proof.
  intros B Hp Hij Ei Ej Hn Hc v. split; [apply sparse_uneq_checked; exists i, j, t, u; auto|].
  cbn [swiss_pexec]. rewrite Ei, Ej. unfold may_swap. rewrite Hp. cbn [orb]. unfold swiss_swap. cbn [negb orb]. rewrite guard_true. cbn [bind fst snd].
  eexists. split; [reflexivity|]. intros v'. cbn [swiss_exec tw_t tw_l]. rewrite putt_ne by exact Hij. rewrite putt_eq. cbn [st_b].
  destruct (sw_own wd sz combined w j u B Ej) as (_ & [_ Hu] & Sh). unfold st_owned, st_shape in *. clear Hcopy Hmove. destruct combined.
  - assert (sb_nodes (st_b u) <> 0) as Nz by (destruct Sh as [[? ?]|[? ?]]; lia).
    unfold com_owned in Hu. rewrite (proj2 (Z.eqb_neq _ _) Nz) in Hu. specialize (Hu _ _ (or_introl eq_refl)).
    unfold com_deallocate. cbn [sb_nodes sb_a sb_cap]. rewrite (wrong_back _ _ _ _ Nz Hu) by exact Hn. reflexivity.
  - assert (sb_meta (st_b u) <> 0) as Nz by (destruct Sh as [(? & ? & ?)|(? & ? & ?)]; lia).
    unfold sep_owned in Hu. rewrite (proj2 (Z.eqb_neq _ _) Nz) in Hu. specialize (Hu _ _ (or_introl eq_refl)).
    unfold sep_deallocate. cbn [sb_nodes sb_meta sb_a sb_cap]. rewrite (wrong_back _ _ _ _ Nz Hu) by exact Hn. reflexivity.
Qed.
(** For every state that a program reaches. *)
Theorem sparse_wrong_reach h w i j t u : Forall swiss_pfine h -> prun true nothing h = Ok w -> pocs = true -> i <> j ->
  tw_t w i = Some t -> tw_t w j = Some u -> sb_a (st_b t) <> sb_a (st_b u) -> sb_cap (st_b u) <> 0 ->
  forall v, pexec true v w (PSwap i j) = Err AssertFailed /\
  exists w', pexec false v w (PSwap i j) = Ok w' /\ forall v', pexec false v' w' (PStmt (TDestroy i)) = Err BadFree.
Proof.
  intros F R. destruct (sparse_run h nothing sbooks_nothing F) as [(w' & R' & B)|(E & _)]; [|congruence].
  assert (w' = w) as -> by congruence. intros. apply (sparse_wrong w i j t u); assumption.
Qed.
End Sparse.

Section Dense.
Variables (pocca pocma : bool).
Notation pexec c := (dense_pexec pocs c pocca pocma).
Notation prun c := (dense_prun pocs c pocca pocma).

Lemma dense_swap_eq checked t u : dt_a t = dt_a u -> dense_swap pocs checked t u = Ok (u, t).
Proof.
  intros E. unfold dense_swap. destruct pocs; rewrite E, Z.eqb_refl, orb_true_r, guard_true; cbn [bind]; rewrite dtake_same, <- E, dtake_same; reflexivity.
Qed.
Lemma dense_swap_free t u : pocs = true -> dense_swap pocs false t u = Ok (u, t).
Proof. intros ->. unfold dense_swap. cbn [negb orb]. rewrite guard_true. cbn [bind]. rewrite !dtake_same. reflexivity. Qed.
Lemma exchange_books w i j t u : dn_books w -> tw_t w i = Some t -> tw_t w j = Some u -> dn_books (mktw (tw_l w) (putt (putt (tw_t w) i (Some u)) j (Some t))).
Proof.
  intros B Ei Ej. destruct (Nat.eq_dec i j) as [->|Hij].
  - assert (u = t) as -> by congruence. apply (books_ext _ _ _ B). cbn. intros k. unfold putt. destruct (Nat.eqb k j) eqn:Ek; [|reflexivity]. apply Nat.eqb_eq in Ek. subst k. rewrite Ej. reflexivity.
  - apply dswap_books; [exact B|exact Hij|rewrite Ej; reflexivity|rewrite Ei; reflexivity].
Qed.
Lemma dense_pstep checked v w c : dn_books w -> dense_pfine (v, c) ->
  (checked = true /\ dense_uneq pocs w c) \/ exists w', pexec checked v w c = Ok w' /\ dn_books w'.
Proof.
  intros B F. destruct c as [c|i j].
  - right. destruct (dense_step pocca pocma v w c B F) as (w' & ok & R & B'). exists w'. cbn. rewrite R. auto.
  - cbn [dense_pexec]. destruct (tw_t w i) as [t|] eqn:Ei; [|right; eauto]. destruct (tw_t w j) as [u|] eqn:Ej; [|right; eauto].
    destruct (may_swap pocs (dt_a t) (dt_a u)) eqn:Em; [|right; eauto].
    destruct (Z.eq_dec (dt_a t) (dt_a u)) as [E|E].
    + right. rewrite (dense_swap_eq checked t u E). cbn [bind fst snd]. eexists. split; [reflexivity|]. apply exchange_books; assumption.
    + assert (pocs = true) as Hp by (unfold may_swap in Em; destruct pocs; [reflexivity|]; apply Z.eqb_eq in Em; contradiction).
      destruct checked; [left; split; [reflexivity|]; exists i, j, t, u; auto|]. right. rewrite dense_swap_free by exact Hp. cbn [bind fst snd].
      eexists. split; [reflexivity|]. apply exchange_books; assumption.
Qed.
Lemma dense_uneq_checked v w c : dense_uneq pocs w c -> pexec true v w c = Err AssertFailed.
Proof.
  intros (i & j & t & u & -> & Hp & Ei & Ej & Hn). cbn [dense_pexec]. rewrite Ei, Ej. unfold may_swap. rewrite Hp. cbn [orb].
  unfold dense_swap. cbn [negb orb]. rewrite (proj2 (Z.eqb_neq _ _) (not_eq_sym Hn)). reflexivity.
Qed.
Lemma dense_prun_ok h : forall w, dn_books w -> Forall dense_pfine h ->
  (exists w', prun true w h = Ok w' /\ dn_books w') \/
  prun true w h = Err AssertFailed /\ exists h1 v c h2 w1, h = h1 ++ (v, c) :: h2 /\ prun true w h1 = Ok w1 /\ dn_books w1 /\ dense_uneq pocs w1 c.
Proof.
  induction h as [|[v c] h IH]; intros w B F; [left; exists w; auto|]. inversion F as [|? ? F1 F2]. subst.
  cbn [dense_prun]. destruct (dense_pstep true v w c B F1) as [[_ U]|(w1 & R & B1)].
  - right. rewrite (dense_uneq_checked v w c U). split; [reflexivity|]. exists [], v, c, h, w. split; [reflexivity|]. split; [reflexivity|auto].
  - rewrite R. cbn [bind]. destruct (IH w1 B1 F2) as [H|(E & h1 & v1 & c1 & h2 & w2 & -> & R2 & B2 & U2)]; [left; exact H|right].
    split; [exact E|]. exists ((v, c) :: h1), v1, c1, h2, w2. split; [reflexivity|]. split; [|auto]. cbn [dense_prun]. rewrite R. exact R2.
Qed.
Theorem dense_all h : Forall dense_pfine h ->
  (exists w, prun true nothing h = Ok w /\ settled w) \/
  prun true nothing h = Err AssertFailed /\ exists h1 v c h2 w1, h = h1 ++ (v, c) :: h2 /\ prun true nothing h1 = Ok w1 /\ settled w1 /\ dense_uneq pocs w1 c.
Proof.
  intros F. destruct (dense_prun_ok h nothing books_nothing F) as [(w & R & B)|(E & h1 & v & c & h2 & w1 & -> & R & B & U)].
  - left. exists w. split; [exact R|]. apply (books_settled w dn_owned B eq_refl).
  - right. split; [exact E|]. exists h1, v, c, h2, w1. split; [reflexivity|]. split; [exact R|]. split; [apply (books_settled w1 dn_owned B eq_refl)|exact U].
Qed.
(** Ignoring the assertions nothing goes wrong. *)
Lemma dense_free_run h : forall w, dn_books w -> Forall dense_pfine h -> exists w', prun false w h = Ok w' /\ dn_books w'.
Proof.
  induction h as [|[v c] h IH]; intros w B F; [exists w; auto|]. inversion F as [|? ? F1 F2]. subst. cbn [dense_prun].
  destruct (dense_pstep false v w c B F1) as [[D _]|(w1 & R & B1)]; [discriminate|]. rewrite R. cbn [bind]. apply IH; assumption.
Qed.
Theorem dense_free h : Forall dense_pfine h -> exists w, prun false nothing h = Ok w /\ settled w /\
  forall i j t u v, pocs = true -> i <> j -> tw_t w i = Some t -> tw_t w j = Some u -> exists w', pexec false v w (PSwap i j) = Ok w' /\ tw_t w' i = Some u /\ tw_t w' j = Some t.
Proof.
  intros F. destruct (dense_free_run h nothing books_nothing F) as (w & R & B). exists w. split; [exact R|]. split; [apply (books_settled w dn_owned B eq_refl)|].
  intros i j t u v Hp Hij Ei Ej. cbn [dense_pexec]. rewrite Ei, Ej. rewrite (dense_swap_free t u Hp). unfold may_swap. rewrite Hp. cbn [orb bind fst snd].
  eexists. split; [reflexivity|]. cbn [tw_t]. rewrite putt_ne by exact Hij. rewrite !putt_eq. auto.
Qed.
End Dense.
End Swap.
