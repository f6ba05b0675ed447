(** Proofs about throwing user functions on dense tables. *)
From Coq Require Import ZArith List Bool Lia.
From Verif Require Import Base BaseLemmas MapSpec Float32 DenseSpec DenseModel DenseRun DenseChain DenseInv DenseOps DenseEdit DenseErase DenseRefine ThrowSpec ThrowModel.
Import ListNotations.
Open Scope Z_scope.

Section Throw.
Context {E K : Type}.
Variable nk : nat.
Variable key_of : nat -> E -> K.
Variable hash : K -> Z.
Variable keq : K -> K -> bool.
Variable rep : E -> E -> E.
Hypothesis KL : key_laws hash keq.
Hypothesis rep_key : forall x e, key_of 0 (rep x e) = key_of 0 x.
Notation dense := (dense E).
Notation dwf := (dwf nk key_of hash keq).
Notation dexec := (dexec nk key_of hash keq rep).
Notation texec := (texec nk key_of hash keq rep).
Notation trun := (trun nk key_of hash keq rep).
Notation tblocked := (tblocked nk key_of hash keq rep).
Notation has_room := (has_room nk).
Notation dspec := (dspec nk key_of keq rep).
Notation tspec := (tspec nk key_of keq rep).
Notation dnew := (dnew nk key_of keq).

(** The room that make_room leaves, with its invariant. *)
Lemma room_cases : forall v (s : dense), dwf s -> denv_ok v ->
  (exists s1, make_room nk (dv_dlim v) (dv_slim v) s = Ok (s1, None) /\ elems_same s s1 /\ (dwf s1 \/ (0 < d_bc s /\ broken s1))) \/
  (exists s1, make_room nk (dv_dlim v) (dv_slim v) s = Ok (s1, Some tt) /\ elems_same s s1 /\ dwf s1 /\ d_size s1 < d_cap s1 /\ 0 < d_bc s1).
Proof.
  intros v s W (Hd & Hs). destruct (make_room_ok nk key_of hash keq (dv_dlim v) (dv_slim v) s W Hd Hs) as (s1 & o & H1 & (He & H2) & H3).
  destruct o as [[]|]; [right|left]; exists s1; (split; [exact H1|split; [exact He|]]).
  - destruct (H3 ltac:(discriminate)) as (Hc & Hb). auto.
  - exact H2.
Qed.

(** A clash makes the fault of the constructor irrelevant. *)
Lemma insert_ctor : forall v (s : dense) e, dwf s -> denv_ok v ->
  (exists s1, make_room nk (dv_dlim v) (dv_slim v) s = Ok (s1, None) /\ do_insert nk key_of hash keq (dv_dlim v) (dv_slim v) false s e = Ok (s1, None) /\ elems_same s s1 /\ (dwf s1 \/ (0 < d_bc s /\ broken s1))) \/
  (exists s1, make_room nk (dv_dlim v) (dv_slim v) s = Ok (s1, Some tt) /\ elems_same s s1 /\ dwf s1 /\ d_size s1 < d_cap s1 /\ 0 < d_bc s1 /\
    ((exists i n, do_insert nk key_of hash keq (dv_dlim v) (dv_slim v) false s e = Ok (s1, Some (i, false)) /\ d_nodes s1 i = Some n /\ dclash nk key_of keq e (delems s) (n_val n)) \/
     (dnew e (delems s) /\ do_insert nk key_of hash keq (dv_dlim v) (dv_slim v) false s e = Ok (set_size s1 (d_size s1 + 1), None)))).
Proof.
  intros v s e W Hv. unfold do_insert. destruct (room_cases v s W Hv) as [(s1 & H & He & H2)|(s1 & H & He & W1 & Hc & Hb)]; rewrite H; cbn [bind].
  - left. exists s1. auto.
  - right. exists s1. split; [reflexivity|]. split; [exact He|]. split; [exact W1|]. split; [exact Hc|]. split; [exact Hb|]. pose proof (delems_same _ _ He) as Hde.
    destruct (wf_lookup nk key_of hash keq rep KL s1 e W1 Hb) as (xs & Hxs & [(i & n & Hcl & Hn & Hcc)|(Hcl & Hno & sl & Hsl & _)]); rewrite Hxs; cbn [bind]; rewrite Hcl; cbn [bind].
    + left. exists i, n. split; [reflexivity|]. split; [exact Hn|]. rewrite <- Hde. exact Hcc.
    + right. rewrite Hsl. cbn [bind]. split; [rewrite <- Hde; apply (new_of nk key_of hash keq); assumption|]. reflexivity.
Qed.
Lemma emplace_ctor : forall v (s : dense) e, dwf s -> denv_ok v ->
  (exists s1, make_room nk (dv_dlim v) (dv_slim v) s = Ok (s1, None) /\ do_emplace nk key_of hash keq (dv_dlim v) (dv_slim v) false s e = Ok (s1, None) /\ elems_same s s1 /\ (dwf s1 \/ (0 < d_bc s /\ broken s1))) \/
  (exists s1, make_room nk (dv_dlim v) (dv_slim v) s = Ok (s1, Some tt) /\ elems_same s s1 /\ dwf s1 /\ d_size s1 < d_cap s1 /\ 0 < d_bc s1 /\
    do_emplace nk key_of hash keq (dv_dlim v) (dv_slim v) false s e = Ok (set_size s1 (d_size s1 + 1), None)).
Proof.
  intros v s e W Hv. unfold do_emplace. destruct (room_cases v s W Hv) as [(s1 & H & He & H2)|(s1 & H & He & W1 & Hc & Hb)]; rewrite H; cbn [bind].
  - left. exists s1. auto.
  - right. exists s1. repeat (split; [assumption || reflexivity|]). reflexivity.
Qed.
Lemma assign_ctor : forall v (s : dense) e, dwf s -> denv_ok v -> nk = 1%nat ->
  (exists s1, make_room nk (dv_dlim v) (dv_slim v) s = Ok (s1, None) /\ do_insert_or_assign nk key_of hash keq rep (dv_dlim v) (dv_slim v) false s e = Ok (s1, None) /\ elems_same s s1 /\ (dwf s1 \/ (0 < d_bc s /\ broken s1))) \/
  (exists s1, make_room nk (dv_dlim v) (dv_slim v) s = Ok (s1, Some tt) /\ elems_same s s1 /\ dwf s1 /\ d_size s1 < d_cap s1 /\ 0 < d_bc s1 /\
    ((exists s2 i, do_insert_or_assign nk key_of hash keq rep (dv_dlim v) (dv_slim v) false s e = Ok (s2, Some (i, false)) /\
        do_insert_or_assign nk key_of hash keq rep (dv_dlim v) (dv_slim v) true s e = Ok (s2, Some (i, false))) \/
     (dnew e (delems s) /\ do_insert_or_assign nk key_of hash keq rep (dv_dlim v) (dv_slim v) false s e = Ok (set_size s1 (d_size s1 + 1), None)))).
Proof.
  intros v s e W Hv Hnk. unfold do_insert_or_assign. destruct (room_cases v s W Hv) as [(s1 & H & He & H2)|(s1 & H & He & W1 & Hc & Hb)]; rewrite H; cbn [bind].
  - left. exists s1. auto.
  - right. exists s1. split; [reflexivity|]. split; [exact He|]. split; [exact W1|]. split; [exact Hc|]. split; [exact Hb|]. pose proof (delems_same _ _ He) as Hde. pose proof (w_mem _ _ _ _ _ W1) as Hm.
    destruct (find_node_gen key_of hash keq KL s1 (live s1) 0%nat (key_of 0 e) Hm Hb) as (b & l & Hbb & Hbe & Hs1 & Hnd & Hin & Hlen & Hcase).
    { apply (w_size _ _ _ _ _ W1). }
    { intros i Hi. split; [exact Hi|]. destruct (w_live _ _ _ _ _ W1 i Hi) as (n & Hn). exists n. split; [exact Hn|]. apply (w_hash _ _ _ _ _ W1 i n 0%nat Hn). lia. }
    { apply (w_chain _ _ _ _ _ W1). lia. }
    assert (Hlv : forall x, In x l -> exists n, d_nodes s1 x = Some n) by (intros x Hx; apply (w_live _ _ _ _ _ W1); apply (Hin x); exact Hx).
    destruct Hcase as [(a & i & r & -> & (n & Hn & Hk) & Hf & _)|(Hno & Hf)]; rewrite Hf; cbn [bind].
    + rewrite (load_ok s1 0%nat _ Hm) by (apply vptr_at; [exact Hbb|]; intros x Hx; apply Hlv; apply in_or_app; left; exact Hx). cbn [bind].
      rewrite (ldp_at _ _ b a (i :: r) Hs1). cbv iota. destruct (Z.eqb_spec i npos) as [Hi|Hi]; [exfalso; apply (seg_npos _ _ _ i Hs1); [apply in_or_app; right; left; reflexivity|exact Hi]|].
      rewrite (get_node_ok s1 i n Hm Hn). cbn [bind]. rewrite (put_node_ok s1 i n _ Hm Hn). cbn [bind]. left. eexists _, _. split; reflexivity.
    + rewrite (load_ok s1 0%nat _ Hm) by (apply vptr_at; [exact Hbb|exact Hlv]). cbn [bind]. rewrite (ldp_at _ _ b l []) by (rewrite app_nil_r; exact Hs1). rewrite Z.eqb_refl. cbn [deref bind].
      right. split; [|reflexivity]. rewrite <- Hde. apply (new_of nk key_of hash keq); [exact W1|]. intros j Hj. apply js_in in Hj. assert (j = 0%nat) by lia. subst j. exact Hno.
Qed.

(** ** One call *)
Lemma blocked_fine : forall f v (s : dense) c, f <> SearchThrows -> texec f v s c = dexec v s c -> blocked nk key_of hash keq rep v s c -> tblocked f v s c.
Proof.
  intros f v s c Hf He [H|[(H1 & H2)|(H1 & s' & H2 & H3)]]; [left; exact H|right; left; auto|right; right; left]. split; [exact H1|]. exists s'. rewrite He. auto.
Qed.

Lemma tstep_ok : forall f v (s : dense) c, dwf s -> denv_ok v -> dcall_ok nk c ->
  tblocked f v s c \/ exists s' r, texec f v s c = Ok (s', r) /\ dwf s' /\ tspec f c (delems s) (delems s') r.
Proof.
  intros f v s c W Hv Hc.
  assert (Hgen : texec f v s c = dexec v s c -> (f = SearchThrows -> searches c = false /\ forall j k, c <> DErase j k) -> (f = CtorThrows -> forall s' r, dexec v s c = Ok (s', r) -> forall e, r <> QInserted e true) ->
    tblocked f v s c \/ exists s' r, texec f v s c = Ok (s', r) /\ dwf s' /\ tspec f c (delems s) (delems s') r).
  { intros He Hs Hcf. destruct (step_ok nk key_of hash keq rep KL rep_key v s c W Hv Hc) as [Hb|(s' & r & H1 & H2 & H3)].
    - left. destruct f; [apply blocked_fine; auto; discriminate| |apply blocked_fine; auto; discriminate].
      destruct Hb as [H|[(H1 & j & k & H2)|(H1 & s' & H2 & H3)]]; [left; exact H|exfalso; exact (proj2 (Hs eq_refl) j k H2)|right; right; left]. split; [exact H1|]. exists s'. rewrite He. auto.
    - right. exists s', r. rewrite He. split; [exact H1|]. split; [exact H2|]. destruct f; [apply ts_fine; auto; discriminate|apply ts_call; auto; apply Hs; reflexivity|apply ts_fine; auto; [discriminate|]].
      intros _. exact (Hcf eq_refl s' r H1). }
  assert (Hthrow : forall s1 e', c = e' -> texec f v s c = Ok (s1, QThrow) -> elems_same s s1 -> (dwf s1 \/ (0 < d_bc s /\ broken s1)) -> tspec f c (delems s) (delems s) QThrow ->
    tblocked f v s c \/ exists s' r, texec f v s c = Ok (s', r) /\ dwf s' /\ tspec f c (delems s) (delems s') r).
  { intros s1 _ _ He Hs [H|(Hb & H)] Ht; [right|left].
    - exists s1, QThrow. split; [exact He|]. split; [exact H|]. rewrite (delems_same _ _ Hs). exact Ht.
    - right. right. left. split; [exact Hb|]. exists s1. split; [exact He|exact H]. }
  destruct f.
  - apply Hgen; try discriminate. destruct c; reflexivity.
  - destruct c; try (apply Hgen; [reflexivity|intros _; split; [reflexivity|discriminate]|discriminate]);
      try (right; exists s, QThrow; split; [reflexivity|]; split; [exact W|]; apply ts_search; reflexivity).
    + destruct (room_cases v s W Hv) as [(s1 & H & He & H2)|(s1 & H & He & W1 & _)];
        (eapply (Hthrow s1 _ eq_refl); [cbn [ThrowModel.texec t_insert]; rewrite H; reflexivity|exact He| |apply ts_search; reflexivity]); auto.
    + destruct (room_cases v s W Hv) as [(s1 & H & He & H2)|(s1 & H & _)].
      * eapply (Hthrow s1 _ eq_refl); [cbn [ThrowModel.texec t_emplace]; rewrite H; reflexivity|exact He|exact H2|apply ts_search; reflexivity].
      * left. right. right. right. right. split; [reflexivity|]. split; [exists s1; exact H|]. eexists. reflexivity.
    + destruct (room_cases v s W Hv) as [(s1 & H & He & H2)|(s1 & H & He & W1 & _)];
        (eapply (Hthrow s1 _ eq_refl); [cbn [ThrowModel.texec t_assign]; rewrite H; reflexivity|exact He| |apply ts_search; reflexivity]); auto.
  - destruct c as [e|e|e| | | | | | | | | | |]; try (apply Hgen; [reflexivity|discriminate|]; intros _ s' r He x Hr; subst r; cbn [DenseRun.dexec] in He;
      repeat match type of He with
      | bind ?m _ = _ => let a := fresh "a" in destruct m as [a|]; [cbn [bind] in He|discriminate]
      | give_next ?p = _ => destruct p; cbn [give_next] in He
      | give_unit ?p = _ => destruct p as [? []]; cbn [give_unit] in He
      end; discriminate).
    + destruct (insert_ctor v s e W Hv) as [(s1 & _ & H & He & H2)|(s1 & Hr & He & W1 & _ & _ & [(i & n & H & Hn & Hcl)|(Hnew & H)])].
      * eapply (Hthrow s1 _ eq_refl); [cbn [ThrowModel.texec t_insert]; rewrite H; reflexivity|exact He|exact H2|apply ts_ctor].
      * right. exists s1, (QInserted (n_val n) false). cbn [ThrowModel.texec t_insert]. rewrite H. cbn [bind give_inserted]. rewrite (get_node_ok s1 i n (w_mem _ _ _ _ _ W1) Hn). split; [reflexivity|]. split; [exact W1|].
        apply ts_fine; [discriminate|intros _ x; discriminate|]. rewrite (delems_same _ _ He). constructor. exact Hcl.
      * left. right. right. right. left. split; [reflexivity|]. split; [exists s1; exact Hr|]. left. exists e. auto.
    + destruct (emplace_ctor v s e W Hv) as [(s1 & _ & H & He & H2)|(s1 & Hr & _)].
      * eapply (Hthrow s1 _ eq_refl); [cbn [ThrowModel.texec t_emplace]; rewrite H; reflexivity|exact He|exact H2|apply ts_ctor].
      * left. right. right. right. left. split; [reflexivity|]. split; [exists s1; exact Hr|]. right. eexists. reflexivity.
    + destruct (assign_ctor v s e W Hv Hc) as [(s1 & _ & H & He & H2)|(s1 & Hr & He & W1 & _ & _ & [(s2 & i & H & H')|(Hnew & H)])].
      * eapply (Hthrow s1 _ eq_refl); [cbn [ThrowModel.texec t_assign]; rewrite H; reflexivity|exact He|exact H2|apply ts_ctor].
      * destruct (step_ok nk key_of hash keq rep KL rep_key v s (DAssign e) W Hv Hc) as [[Hb|[(_ & j & k & Hb)|(_ & s' & Hb & _)]]|(s' & r & H1 & H2 & H3)]; [exfalso; apply Hb; exact I|discriminate| |].
        { exfalso. cbn [DenseRun.dexec] in Hb. rewrite H' in Hb. cbn [bind give_inserted] in Hb. destruct (get_node s2 i); discriminate. }
        right. exists s', r. cbn [DenseRun.dexec ThrowModel.texec t_assign] in *. rewrite H' in H1. rewrite H. split; [exact H1|]. split; [exact H2|]. apply ts_fine; [discriminate| |exact H3].
        intros _ x Hr'. subst r. cbn [bind give_inserted] in H1. destruct (get_node s2 i); discriminate.
      * left. right. right. right. left. split; [reflexivity|]. split; [exists s1; exact Hr|]. left. exists e. auto.
Qed.

(** ** Histories *)
Notation tspec_run := (tspec_run nk key_of keq rep).
Lemma trun_ok : forall h (s : dense), dwf s -> thistory_ok nk h ->
  (exists s' rs, trun s h = Ok (s', rs) /\ dwf s' /\ tspec_run (calls_of h) (delems s) (delems s') rs) \/
  (exists h1 f v c h2 s1 rs1, h = h1 ++ (f, v, c) :: h2 /\ trun s h1 = Ok (s1, rs1) /\ dwf s1 /\ tspec_run (calls_of h1) (delems s) (delems s1) rs1 /\ tblocked f v s1 c).
Proof.
  induction h as [|((f, v), c) h IH]; intros s W Hh.
  - left. exists s, []. split; [reflexivity|]. split; [exact W|]. constructor.
  - inversion Hh as [|? ? (Hv & Hc) Hh']; subst. cbn [fst snd] in *.
    destruct (tstep_ok f v s c W Hv Hc) as [Hb|(s1 & r & H1 & W1 & Hs1)].
    + right. exists [], f, v, c, h, s, []. split; [reflexivity|]. split; [reflexivity|]. split; [exact W|]. split; [constructor|exact Hb].
    + destruct (IH s1 W1 Hh') as [(s' & rs & H2 & W2 & Hs2)|(h1 & f' & v' & c' & h2 & s2 & rs1 & -> & H2 & W2 & Hs2 & Hb)].
      * left. exists s', (r :: rs). split; [cbn [ThrowModel.trun]; rewrite H1; cbn [bind]; rewrite H2; reflexivity|]. split; [exact W2|]. cbn [calls_of map fst snd]. econstructor; eassumption.
      * right. exists ((f, v, c) :: h1), f', v', c', h2, s2, (r :: rs1). split; [reflexivity|]. split; [cbn [ThrowModel.trun]; rewrite H1; cbn [bind]; rewrite H2; reflexivity|]. split; [exact W2|]. split; [cbn [calls_of map fst snd]; econstructor; eassumption|exact Hb].
Qed.
Lemma thistories : forall h, thistory_ok nk h -> trefines nk key_of hash keq rep empty_dense [] h.
Proof.
  intros h Hh. destruct (trun_ok h empty_dense (empty_wf nk key_of hash keq) Hh) as [(s' & rs & H1 & W & H2)|(h1 & f & v & c & h2 & s1 & rs1 & H1 & H2 & _ & H3 & H4)].
  - left. exists s', rs. split; [exact H1|]. split; [exact H2|]. apply (wf_distinct nk key_of hash keq rep rep_key). exact W.
  - right. exists h1, f, v, c, h2, s1, rs1. auto.
Qed.
Lemma treachable_wf : forall s : dense, treachable nk key_of hash keq rep s -> dwf s.
Proof.
  intros s (h & rs & Hh & Hr & Hb). destruct (trun_ok h empty_dense (empty_wf nk key_of hash keq) Hh) as [(s' & rs' & H1 & W & _)|(h1 & f & v & c & h2 & s1 & rs1 & He & H1 & _ & _ & Hbl)].
  - rewrite Hr in H1. injection H1 as <- <-. exact W.
  - exfalso. exact (Hb h1 f v c h2 s1 rs1 He H1 Hbl).
Qed.

(** ** A constructor that throws: the container counts an element that does not exist. *)
Lemma iterate_from_app : forall (s : dense) a b, iterate_from s (a ++ b) = (let* x := iterate_from s a in let* y := iterate_from s b in Ok (x ++ y)).
Proof.
  intros s a b. induction a as [|i a IH]; cbn [app iterate_from].
  - cbn [bind]. destruct (iterate_from s b); reflexivity.
  - destruct (get_node s i); cbn [bind]; [|reflexivity]. rewrite IH. destruct (iterate_from s a); cbn [bind]; [|reflexivity]. destruct (iterate_from s b); reflexivity.
Qed.
Lemma iterate_from_same : forall (s s' : dense) l, d_cap s' = d_cap s -> d_dok s' = d_dok s -> (forall i, In i l -> d_nodes s' i = d_nodes s i) -> iterate_from s' l = iterate_from s l.
Proof.
  intros s s' l Hc Hd. induction l as [|i l IH]; intros Hn; [reflexivity|]. cbn [iterate_from]. rewrite IH by (intros x Hx; apply Hn; right; exact Hx).
  assert (H : get_node s' i = get_node s i) by (unfold get_node; rewrite Hc, Hd, (Hn i (or_introl eq_refl)); reflexivity). rewrite H. reflexivity.
Qed.

Lemma ghost : forall s : dense, dwf s -> d_size s < d_cap s ->
  let s' := set_size s (d_size s + 1) in
  size s' = size s + 1 /\ iterate s' = Err DeadObject /\ clear_data s' = Err DeadObject.
Proof.
  intros s W Hc s'. pose proof (w_size _ _ _ _ _ W) as Hsz. pose proof (w_mem _ _ _ _ _ W) as Hm.
  assert (Hg : forall t : dense, d_dok t = true -> d_cap t = d_cap s -> d_nodes t (d_size s) = None -> get_node t (d_size s) = Err DeadObject).
  { intros t A2 B1 B2. unfold get_node. rewrite A2, B1, B2. destruct (Z.eqb_spec (d_cap s) 0); [lia|]. cbn [negb guard bind].
    destruct (Z.leb_spec 0 (d_size s)); [|lia]. destruct (Z.ltb_spec (d_size s) (d_cap s)); [|lia]. reflexivity. }
  assert (Hdead : d_nodes s (d_size s) = None) by (apply (w_dead _ _ _ _ _ W); unfold live; lia).
  split; [reflexivity|]. split.
  - unfold iterate, s'. cbn [set_size d_size]. rewrite zrange_succ by lia. rewrite iterate_from_app.
    rewrite (iterate_from_same s) by reflexivity. pose proof (iterate_ok nk key_of hash keq s W) as Hi. unfold iterate in Hi. rewrite Hi. cbn [bind iterate_from].
    rewrite Hg; [reflexivity|exact (om_dok _ Hm)|reflexivity|exact Hdead].
  - destruct (clear_data_ok s Hm ltac:(lia) (w_live _ _ _ _ _ W)) as (s2 & H & _ & H2 & _ & _ & H3 & _ & _ & H4). unfold clear_data in *.
    unfold s' at 1. cbn [set_size d_size]. rewrite zrange_succ by lia. rewrite foldM_app. change (set_size s' 0) with (set_size s 0). rewrite H. cbn [bind foldM]. unfold kill_node.
    rewrite Hg; [reflexivity|exact H3|exact H2|]. rewrite H4, Hdead. destruct (_ && _); reflexivity.
Qed.

(** The table after a throwing constructor. *)
Definition ghostly (s s' : dense) : Prop := size s' = size s + 1 /\ iterate s' = Err DeadObject /\ clear_data s' = Err DeadObject.
Lemma ghost_same : forall s s1 : dense, dwf s1 -> d_size s1 < d_cap s1 -> elems_same s s1 -> ghostly s (set_size s1 (d_size s1 + 1)).
Proof. intros s s1 W Hc (He & _). destruct (ghost s1 W Hc) as (H1 & H2 & H3). split; [|split; assumption]. rewrite H1. unfold size. rewrite He. reflexivity. Qed.

Lemma ctor_throws : forall v (s : dense) e, dwf s -> denv_ok v -> has_room v s ->
  (dnew e (delems s) -> exists s', texec CtorThrows v s (DInsert e) = Ok (s', QThrow) /\ ghostly s s') /\
  (dnew e (delems s) -> nk = 1%nat -> exists s', texec CtorThrows v s (DAssign e) = Ok (s', QThrow) /\ ghostly s s') /\
  exists s', texec CtorThrows v s (DEmplace e) = Ok (s', QThrow) /\ ghostly s s'.
Proof.
  intros v s e W Hv (s0 & Hr). split; [intros Hn|split; [intros Hn Hnk|]]; cbn [ThrowModel.texec t_insert t_assign t_emplace].
  - destruct (insert_ctor v s e W Hv) as [(s1 & Hr1 & _)|(s1 & Hr1 & He & W1 & Hc & _ & [(i & n & _ & _ & (j & Hj & Hin & Hk & _))|(_ & H)])]; [congruence| |].
    + rewrite (Hn j Hj _ Hin) in Hk. discriminate.
    + rewrite H. eexists. split; [reflexivity|]. apply ghost_same; assumption.
  - destruct (assign_ctor v s e W Hv Hnk) as [(s1 & Hr1 & _)|(s1 & Hr1 & He & W1 & Hc & _ & [(s2 & i & _ & H)|(_ & H)])]; [congruence| |].
    + exfalso. destruct Hv as (Hd & Hs). destruct (do_assign_ok nk key_of hash keq rep KL rep_key (dv_dlim v) (dv_slim v) s e W Hd Hs Hnk) as (x & Hx & Ha). rewrite H in Hx. injection Hx as <-. cbn [assign_ok] in Ha.
      destruct Ha as (_ & n & a & y & b & _ & _ & (Hl & Hk) & _). rewrite (Hn 0%nat ltac:(lia) y) in Hk; [discriminate|]. rewrite Hl. apply in_or_app. right. left. reflexivity.
    + rewrite H. eexists. split; [reflexivity|]. apply ghost_same; assumption.
  - destruct (emplace_ctor v s e W Hv) as [(s1 & Hr1 & _)|(s1 & Hr1 & He & W1 & Hc & _ & H)]; [congruence|]. rewrite H. eexists. split; [reflexivity|]. apply ghost_same; assumption.
Qed.

(** ** A search that throws in emplace: an element that is counted and iterated but not found. *)
Lemma emplace_search : forall v (s : dense) e, dwf s -> denv_ok v -> has_room v s ->
  exists s', texec SearchThrows v s (DEmplace e) = Ok (s', QThrow) /\ size s' = size s + 1 /\ iterate s' = Ok (delems s ++ [e]) /\
    forall v' j k, (j < nk)%nat -> exists o, texec Fine v' s (DFind j k) = Ok (s, QFound o) /\ texec Fine v' s' (DFind j k) = Ok (s', QFound o).
Proof.
  intros v s e W Hv (s0 & Hr). cbn [ThrowModel.texec t_emplace]. destruct (room_cases v s W Hv) as [(s1 & Hr1 & _)|(s1 & Hr1 & He & W1 & Hc & Hb)]; [congruence|].
  rewrite Hr1. cbn [bind]. rewrite (push_node_ok nk key_of hash keq s1 e W1 Hc). cbn [bind give_inserted fst]. exists (pushed s1 e). split; [reflexivity|].
  pose proof (delems_same _ _ He) as Hde. pose proof (w_size _ _ _ _ _ W1) as Hsz. pose proof (pushed_okm nk key_of hash keq s1 e W1 Hc) as Hm.
  split; [unfold size; change (d_size (pushed s1 e)) with (d_size s1 + 1); destruct He as (He & _); rewrite He; reflexivity|]. split.
  - unfold iterate. change (d_size (pushed s1 e)) with (d_size s1 + 1). rewrite zrange_succ by lia. rewrite iterate_from_app.
    rewrite (iterate_from_same s1); [|reflexivity|reflexivity|intros i Hi; apply pushed_nodes; apply zrange_In in Hi; lia].
    pose proof (iterate_ok nk key_of hash keq s1 W1) as Hi. unfold iterate in Hi. rewrite Hi. cbn [bind iterate_from]. rewrite (get_node_ok _ _ _ Hm (pushed_new s1 e)). cbn [bind n_val]. rewrite Hde. reflexivity.
  - intros v' j k Hj. cbn [ThrowModel.texec DenseRun.dexec]. unfold find.
    (* the answer of s and of s1 *)
    assert (Hval : forall i n, d_nodes s i = Some n -> exists n', d_nodes s1 i = Some n' /\ n_val n' = n_val n).
    { intros i n Hn. destruct He as (_ & He). specialize (He i). unfold vh in He. rewrite Hn in He. destruct (d_nodes s1 i) as [n'|]; [|discriminate]. cbn [option_map] in He. exists n'. split; [reflexivity|]. congruence. }
    assert (Hval' : forall i n, d_nodes s1 i = Some n -> exists n', d_nodes s i = Some n' /\ n_val n' = n_val n).
    { intros i n Hn. destruct He as (_ & He). specialize (He i). unfold vh in He. rewrite Hn in He. destruct (d_nodes s i) as [n'|]; [|discriminate]. cbn [option_map] in He. exists n'. split; [reflexivity|]. congruence. }
    destruct (find_node_gen key_of hash keq KL (pushed s1 e) (live s1) j k Hm Hb) as (b & l & _ & _ & _ & _ & Hin & _ & Hcase).
    { change (d_size (pushed s1 e)) with (d_size s1 + 1). lia. }
    { intros i Hi. split; [change (d_size (pushed s1 e)) with (d_size s1 + 1); unfold live in Hi; lia|]. destruct (w_live _ _ _ _ _ W1 i Hi) as (n & Hn). exists n.
      rewrite pushed_nodes by (unfold live in Hi; lia). split; [exact Hn|]. apply (w_hash _ _ _ _ _ W1 i n j Hn Hj). }
    { apply (pushed_chain nk key_of hash keq); assumption. }
    assert (Hmt : forall i, live s1 i -> matches key_of keq (pushed s1 e) j k i -> exists n, d_nodes s i = Some n /\ d_nodes (pushed s1 e) i = d_nodes s1 i /\ keq (key_of j (n_val n)) k = true).
    { intros i Hi (n & Hn & Hk). rewrite pushed_nodes in Hn by (unfold live in Hi; lia). destruct (Hval' i n Hn) as (n' & Hn' & Hv'). exists n'. split; [exact Hn'|]. split; [apply pushed_nodes; unfold live in Hi; lia|]. rewrite Hv'. exact Hk. }
    destruct (find_node_ok nk key_of hash keq KL s j k W Hj) as [(i & n & p & Hn & Hk & Hf & _)|(Hno & o & Hf)]; rewrite Hf; cbn [bind fst].
    + pose proof (node_live nk key_of hash keq s i n W Hn) as Hl. destruct (Z.eqb_spec i (d_size s)); [unfold live in Hl; lia|]. rewrite (get_node_ok s i n (w_mem _ _ _ _ _ W) Hn). cbn [bind]. exists (Some (n_val n)). split; [reflexivity|].
      destruct Hcase as [(a & i' & r & -> & Hm' & Hf' & _)|(Hno & _)].
      * rewrite Hf'. cbn [bind fst]. assert (Hi' : live s1 i') by (apply (Hin i'); apply in_or_app; right; left; reflexivity).
        destruct (Hmt i' Hi' Hm') as (n' & Hn' & Hp & Hk').
        assert (i' = i) by (apply (w_uniq _ _ _ _ _ W i' i n' n j Hj Hn' Hn); apply (kl_trans _ _ KL) with k; [exact Hk'|apply (kl_sym _ _ KL); exact Hk]). subst i'.
        destruct (Hval i n Hn) as (n1 & Hn1 & Hv1). change (d_size (pushed s1 e)) with (d_size s1 + 1). destruct (Z.eqb_spec i (d_size s1 + 1)); [unfold live in Hi'; lia|].
        rewrite Hn1 in Hp. rewrite (get_node_ok _ i n1 Hm Hp). cbn [bind]. rewrite Hv1. reflexivity.
      * exfalso. destruct (Hval i n Hn) as (n1 & Hn1 & Hv1). pose proof (node_live nk key_of hash keq s1 i n1 W1 Hn1) as Hl1. apply (Hno i Hl1). exists n1. split; [rewrite pushed_nodes by (unfold live in Hl1; lia); exact Hn1|]. rewrite Hv1. exact Hk.
    + rewrite Z.eqb_refl. cbn [bind]. exists None. split; [reflexivity|]. destruct Hcase as [(a & i' & r & -> & Hm' & _)|(_ & Hf')].
      * exfalso. assert (Hi' : live s1 i') by (apply (Hin i'); apply in_or_app; right; left; reflexivity). destruct (Hmt i' Hi' Hm') as (n' & Hn' & _ & Hk').
        apply (Hno i'); [apply (node_live nk key_of hash keq s i' n' W Hn')|]. exists n'. auto.
      * rewrite Hf'. cbn [bind fst]. rewrite Z.eqb_refl. reflexivity.
Qed.
End Throw.
