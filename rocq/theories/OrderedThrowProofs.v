(** Proofs about throwing user functions on ordered dense tables. *)
From Coq Require Import ZArith List Bool Lia Permutation.
From Verif Require Import Base BaseLemmas MapSpec Float32 DenseSpec DenseModel DenseRun DenseChain DenseInv DenseOps DenseEdit DenseErase DenseRefine ThrowSpec ThrowModel ThrowProofs
  LinkModel LinkProofs OrderedSpec OrderedDense OrderedRun OrderedLinks OrderedProofs OrderedRefine OrderedThrowSpec OrderedThrowModel.
Import ListNotations.
Open Scope Z_scope.

Section OThrow.
Context {E K : Type}.
Variable sz : Z.
Variable nk : nat.
Variable key_of : nat -> E -> K.
Variable hash : K -> Z.
Variable keq : K -> K -> bool.
Variable rep : E -> E -> E.
Hypothesis Hsz : 0 < sz.
Hypothesis KL : key_laws hash keq.
Hypothesis rep_key : forall x e, key_of 0%nat (rep x e) = key_of 0%nat x.
Notation odense := (odense E).
Notation dense := (dense E).
Notation dwf := (dwf nk key_of hash keq).
Notation lnk := (lnk sz). Notation ofr := (ofr sz). Notation slot := (slot sz).
Notation oinv := (oinv sz nk key_of hash keq).
Notation oexec := (oexec sz nk key_of hash keq rep). Notation otexec := (otexec sz nk key_of hash keq rep). Notation otrun := (otrun sz nk key_of hash keq rep).
Notation oblocked := (oblocked sz nk key_of hash keq rep). Notation otblocked := (otblocked sz nk key_of hash keq rep).
Notation ospec := (ospec nk key_of keq rep). Notation otspec := (otspec nk key_of keq rep). Notation otspec_run := (otspec_run nk key_of keq rep).
Notation o_has_room := (o_has_room sz nk). Notation o_make_room := (o_make_room sz nk).
Notation dnew := (dnew nk key_of keq).

Lemma oroom_cases : forall v h (s : odense) ord, oinv h s ord -> denv_ok (ov_d v) ->
  o_make_room v h s 0 = Err BadPlacement \/
  (exists h1 s1 p, o_make_room v h s 0 = Ok (h1, s1, p, None) /\ elems_same (o_d s) (o_d s1) /\ lnk h1 s1 ord /\ ofr h s h1 s1 /\ (dwf (o_d s1) \/ (0 < d_bc (o_d s) /\ broken (o_d s1)))) \/
  (exists h1 s1 p, o_make_room v h s 0 = Ok (h1, s1, p, Some tt) /\ elems_same (o_d s) (o_d s1) /\ oinv h1 s1 ord /\ ofr h s h1 s1 /\ d_size (o_d s1) < d_cap (o_d s1) /\ 0 < d_bc (o_d s1)).
Proof. clear KL rep rep_key.
  intros v h s ord (W & L) V.
  destruct (o_make_room_sim sz nk key_of hash keq Hsz v h s ord 0 ord [] W V L (eq_sym (app_nil_r _)) (or_introl (conj eq_refl eq_refl)) (or_introl eq_refl)) as [->|(h1 & s1 & p & o & -> & Hm & L1 & F1 & _)]; [left; reflexivity|right].
  destruct (room_cases nk key_of hash keq (ov_d v) (o_d s) W V) as [(d1 & H & He & H2)|(d1 & H & He & W1 & Hc & Hb)]; rewrite Hm in H; injection H as <- ->; [left|right]; exists h1, s1, p; (split; [reflexivity|]); (split; [exact He|]).
  - auto.
  - split; [split; assumption|]. auto.
Qed.

Lemma cont_same : forall (s s1 : odense) ord, elems_same (o_d s) (o_d s1) -> ocont s1 ord = ocont s ord.
Proof. intros s s1 ord He. unfold ocont. rewrite (delems_same _ _ He). reflexivity. Qed.
Lemma new_cont_of : forall h (s : odense) ord e, oinv h s ord -> dnew e (delems (o_d s)) -> dnew e (ocont s ord).
Proof. clear KL rep rep_key. intros h s ord e H Hn. apply (new_perm nk key_of keq e (delems (o_d s))); [|exact Hn]. apply Permutation_sym. apply (inv_perm sz nk key_of hash keq h s ord H). Qed.

(** Insertions whose constructor throws, when there is room: nothing is constructed if a key
    clashes. *)
Lemma oinsert_ctor : forall v h (s : odense) ord e h1 s1 p, oinv h1 s1 ord -> 0 < d_bc (o_d s1) -> o_make_room v h s 0 = Ok (h1, s1, p, Some tt) ->
  (exists i n, o_do_insert sz nk key_of hash keq v false h s 0 e = Ok (h1, s1, Some (slot s1 i, false)) /\ d_nodes (o_d s1) i = Some n /\ dclash nk key_of keq e (delems (o_d s1)) (n_val n)) \/
  (dnew e (delems (o_d s1)) /\ o_do_insert sz nk key_of hash keq v false h s 0 e = Ok (h1, with_d s1 (set_size (o_d s1) (d_size (o_d s1) + 1)), None)).
Proof. clear rep_key.
  intros v h s ord e h1 s1 p (W1 & L1) Hb Hr. unfold o_do_insert. rewrite Hr. cbn [bind].
  destruct (wf_lookup nk key_of hash keq rep KL (o_d s1) e W1 Hb) as (xs & Hxs & [(i & n & Hcl & Hn & Hcc)|(Hcl & Hno & sl & Hsl & _)]); rewrite Hxs; cbn [bind]; rewrite Hcl; cbn [bind].
  - left. exists i, n. split; [|auto]. unfold iter_of. pose proof (node_live nk key_of hash keq _ i n W1 Hn) as X. unfold live in X. destruct (Z.eqb_spec i (d_size (o_d s1))); [lia|reflexivity].
  - right. rewrite Hsl. cbn [bind]. split; [apply (new_of nk key_of hash keq); assumption|]. reflexivity.
Qed.
Lemma oemplace_ctor : forall v h (s : odense) e h1 s1 p, o_make_room v h s 0 = Ok (h1, s1, p, Some tt) ->
  o_do_emplace sz nk key_of hash keq v false h s 0 e = Ok (h1, with_d s1 (set_size (o_d s1) (d_size (o_d s1) + 1)), None).
Proof. intros v h s e h1 s1 p Hr. unfold o_do_emplace. rewrite Hr. reflexivity. Qed.
Lemma oassign_ctor : forall v h (s : odense) ord e h1 s1 p, oinv h1 s1 ord -> 0 < d_bc (o_d s1) -> nk = 1%nat -> o_make_room v h s 0 = Ok (h1, s1, p, Some tt) ->
  (exists s2 a, o_do_insert_or_assign sz nk key_of hash keq rep v false h s 0 e = Ok (h1, s2, Some (a, false)) /\ o_do_insert_or_assign sz nk key_of hash keq rep v true h s 0 e = Ok (h1, s2, Some (a, false)) /\ ~ dnew e (delems (o_d s1))) \/
  (dnew e (delems (o_d s1)) /\ o_do_insert_or_assign sz nk key_of hash keq rep v false h s 0 e = Ok (h1, with_d s1 (set_size (o_d s1) (d_size (o_d s1) + 1)), None)).
Proof.
  intros v h s ord e h1 s1 p (W1 & L1) Hb Hnk Hr. unfold o_do_insert_or_assign. rewrite Hr. cbn [bind]. pose proof (w_mem _ _ _ _ _ W1) as Hm.
  destruct (find_node_gen key_of hash keq KL (o_d s1) (live (o_d s1)) 0%nat (key_of 0%nat e) Hm Hb) as (b & l & Hbb & Hbe & Hs1 & Hnd & Hin & Hlen & Hcase).
  { apply (w_size _ _ _ _ _ W1). }
  { intros i Hi. split; [exact Hi|]. destruct (w_live _ _ _ _ _ W1 i Hi) as (n & Hn). exists n. split; [exact Hn|]. apply (w_hash _ _ _ _ _ W1 i n 0%nat Hn). lia. }
  { apply (w_chain _ _ _ _ _ W1). lia. }
  assert (Hlv : forall x, In x l -> exists n, d_nodes (o_d s1) x = Some n) by (intros x Hx; apply (w_live _ _ _ _ _ W1); apply (Hin x); exact Hx).
  destruct Hcase as [(a & i & r & -> & (n & Hn & Hk) & Hf & _)|(Hno & Hf)]; rewrite Hf; cbn [bind].
  - rewrite (load_ok (o_d s1) 0%nat _ Hm) by (apply vptr_at; [exact Hbb|]; intros x Hx; apply Hlv; apply in_or_app; left; exact Hx). cbn [bind].
    rewrite (ldp_at _ _ b a (i :: r) Hs1). cbv iota. destruct (Z.eqb_spec i npos) as [Hi|Hi]; [exfalso; apply (seg_npos _ _ _ i Hs1); [apply in_or_app; right; left; reflexivity|exact Hi]|].
    rewrite (get_node_ok (o_d s1) i n Hm Hn). cbn [bind]. rewrite (put_node_ok (o_d s1) i n _ Hm Hn). cbn [bind]. left. eexists _, _. split; [reflexivity|]. split; [reflexivity|].
    intros Hnew. specialize (Hnew 0%nat ltac:(lia) (n_val n)). rewrite Hk in Hnew. assert (true = false); [|discriminate]. apply Hnew. apply (delems_in nk key_of hash keq); [exact W1|]. exists i, n. auto.
  - rewrite (load_ok (o_d s1) 0%nat _ Hm) by (apply vptr_at; [exact Hbb|exact Hlv]). cbn [bind]. rewrite (ldp_at _ _ b l []) by (rewrite app_nil_r; exact Hs1). rewrite Z.eqb_refl. cbn [deref bind].
    right. split; [|reflexivity]. apply (new_of nk key_of hash keq); [exact W1|]. intros j Hj. apply js_in in Hj. assert (j = 0%nat) by lia. subst j. exact Hno.
Qed.

(** ** One call *)
Definition tstepped (f : fault) (h : heap) (s : odense) (ord : list Z) (c : ocall E K) (h' : heap) (s' : odense) (r : dret E) : Prop :=
  exists ord', oinv h' s' ord' /\ ofr h s h' s' /\ otspec f c (ocont s ord) (ocont s' ord') r.

Lemma otstep_ok : forall f v h s ord c, oinv h s ord -> denv_ok (ov_d v) -> ocall_ok nk c ->
  otblocked f v (h, s) c \/ exists h' s' r, otexec f v (h, s) c = Ok (h', s', r) /\ tstepped f h s ord c h' s' r.
Proof.
  intros f v h s ord c H V Hc.
  assert (Hgen : otexec f v (h, s) c = oexec v (h, s) c -> (f = SearchThrows -> osearches c = false) -> (f = CtorThrows -> forall hs' r, oexec v (h, s) c = Ok (hs', r) -> forall e, r <> QInserted e true) ->
    otblocked f v (h, s) c \/ exists h' s' r, otexec f v (h, s) c = Ok (h', s', r) /\ tstepped f h s ord c h' s' r).
  { intros He Hs Hcf. destruct (ostep_ok sz nk key_of hash keq rep Hsz KL rep_key v h s ord c H V Hc) as [Hb|(h' & s' & r & H1 & ord' & H2 & H3 & H4)].
    - left. destruct Hb as [Hb|[(H1 & j & k & H2)|[(H1 & s' & H2 & H3)|Hb]]]; [left; exact Hb| |right; right; left; split; [exact H1|]; exists s'; rewrite He; auto|right; right; right; left; rewrite He; exact Hb].
      right. left. split; [exact H1|]. split; [|exists j, k; exact H2]. intros ->. specialize (Hs eq_refl). rewrite H2 in Hs. discriminate Hs.
    - right. exists h', s', r. rewrite He. split; [exact H1|]. exists ord'. split; [exact H2|]. split; [exact H3|]. destruct f; [apply ots_fine; auto; discriminate|apply ots_call; auto|apply ots_fine; auto; [discriminate|]].
      intros _. exact (Hcf eq_refl (h', s') r H1). }
  assert (Hthrow : forall h1 s1, otexec f v (h, s) c = Ok (h1, s1, QThrow) -> elems_same (o_d s) (o_d s1) -> lnk h1 s1 ord -> ofr h s h1 s1 -> (dwf (o_d s1) \/ (0 < d_bc (o_d s) /\ broken (o_d s1))) ->
    otspec f c (ocont s ord) (ocont s ord) QThrow -> otblocked f v (h, s) c \/ exists h' s' r, otexec f v (h, s) c = Ok (h', s', r) /\ tstepped f h s ord c h' s' r).
  { intros h1 s1 He Hs L1 F1 [W1|(Hb & Hbr)] Ht; [right|left].
    - exists h1, s1, QThrow. split; [exact He|]. exists ord. split; [split; assumption|]. split; [exact F1|]. rewrite (cont_same s s1 ord Hs). exact Ht.
    - right. right. left. split; [exact Hb|]. exists (h1, s1). split; [exact He|exact Hbr]. }
  assert (Hself : otexec f v (h, s) c = Ok (h, s, QThrow) -> otspec f c (ocont s ord) (ocont s ord) QThrow -> otblocked f v (h, s) c \/ exists h' s' r, otexec f v (h, s) c = Ok (h', s', r) /\ tstepped f h s ord c h' s' r).
  { intros He Ht. right. exists h, s, QThrow. split; [exact He|]. exists ord. split; [exact H|]. split; [apply ofr_refl|exact Ht]. }
  destruct (oroom_cases v h s ord H V) as [HR|[(h1 & s1 & p & HR & He & L1 & F1 & H2)|(h1 & s1 & p & HR & He & H1 & F1 & Hlt & Hb)]].
  - destruct f.
    + apply Hgen; try discriminate. destruct c; reflexivity.
    + destruct c; try (apply Hgen; [reflexivity|reflexivity|discriminate]); try (apply Hself; [reflexivity|apply ots_search; reflexivity]);
        left; right; right; right; left; cbn [OrderedThrowModel.otexec ot_insert ot_emplace ot_assign fst snd]; unfold ot_room; rewrite HR; reflexivity.
    + destruct c; try (apply Hgen; [reflexivity|discriminate|]; intros _ hs' r Hx e0 Hr; subst r; cbn [OrderedRun.oexec] in Hx;
        repeat match type of Hx with
        | bind ?m _ = _ => let a := fresh "a" in destruct m as [a|]; [cbn [bind] in Hx|discriminate]
        | o_unit ?p = _ => destruct p as ((? & ?) & []); cbn [o_unit] in Hx
        end; discriminate);
        left; right; right; right; left; cbn [OrderedThrowModel.otexec ot_insert ot_emplace ot_assign fst snd]; unfold o_do_insert, o_do_emplace, o_do_insert_or_assign; rewrite HR; reflexivity.
  - destruct f.
    + apply Hgen; try discriminate. destruct c; reflexivity.
    + destruct c; try (apply Hgen; [reflexivity|reflexivity|discriminate]); try (apply Hself; [reflexivity|apply ots_search; reflexivity]);
        (apply (Hthrow h1 s1); [cbn [OrderedThrowModel.otexec ot_insert ot_emplace ot_assign fst snd]; unfold ot_room; rewrite HR; reflexivity|exact He|exact L1|exact F1|exact H2|apply ots_search; reflexivity]).
    + destruct c; try (apply Hgen; [reflexivity|discriminate|]; intros _ hs' r Hx e0 Hr; subst r; cbn [OrderedRun.oexec] in Hx;
        repeat match type of Hx with
        | bind ?m _ = _ => let a := fresh "a" in destruct m as [a|]; [cbn [bind] in Hx|discriminate]
        | o_unit ?p = _ => destruct p as ((? & ?) & []); cbn [o_unit] in Hx
        end; discriminate);
        (apply (Hthrow h1 s1); [cbn [OrderedThrowModel.otexec ot_insert ot_emplace ot_assign fst snd]; unfold o_do_insert, o_do_emplace, o_do_insert_or_assign; rewrite HR; reflexivity|exact He|exact L1|exact F1|exact H2|apply ots_ctor; reflexivity]).
  - destruct f.
    + apply Hgen; try discriminate. destruct c; reflexivity.
    + destruct c; try (apply Hgen; [reflexivity|reflexivity|discriminate]); try (apply Hself; [reflexivity|apply ots_search; reflexivity]).
      * apply (Hthrow h1 s1); [cbn [OrderedThrowModel.otexec ot_insert fst snd]; unfold ot_room; rewrite HR; reflexivity|exact He|exact (proj2 H1)|exact F1|left; exact (proj1 H1)|apply ots_search; reflexivity].
      * left. do 5 right. split; [reflexivity|]. split; [exists h1, s1, p; exact HR|]. eexists. reflexivity.
      * apply (Hthrow h1 s1); [cbn [OrderedThrowModel.otexec ot_assign fst snd]; unfold ot_room; rewrite HR; reflexivity|exact He|exact (proj2 H1)|exact F1|left; exact (proj1 H1)|apply ots_search; reflexivity].
    + destruct c; try (apply Hgen; [reflexivity|discriminate|]; intros _ hs' r Hx e0 Hr; subst r; cbn [OrderedRun.oexec] in Hx;
        repeat match type of Hx with
        | bind ?m _ = _ => let a := fresh "a" in destruct m as [a|]; [cbn [bind] in Hx|discriminate]
        | o_unit ?p = _ => destruct p as ((? & ?) & []); cbn [o_unit] in Hx
        end; discriminate).
      * destruct (oinsert_ctor v h s ord e h1 s1 p H1 Hb HR) as [(i & n & Hx & Hn & Hcl)|(Hnew & Hx)].
        { right. exists h1, s1, (QInserted (n_val n) false). cbn [OrderedThrowModel.otexec ot_insert fst snd]. rewrite Hx. cbn [bind o_give]. rewrite (o_at_slot sz nk key_of hash keq Hsz h1 s1 ord i n H1 Hn). cbn [bind]. split; [reflexivity|].
          exists ord. split; [exact H1|]. split; [exact F1|]. rewrite (cont_same s s1 ord He). apply ots_fine; [discriminate|intros _ x; discriminate|]. apply os_insert_old. rewrite <- (cont_same s s1 ord He).
          apply (clash_perm nk key_of keq e (delems (o_d s1))); [|exact Hcl]. apply Permutation_sym. apply (inv_perm sz nk key_of hash keq h1 s1 ord H1). }
        { left. do 4 right. left. split; [reflexivity|]. split; [exists h1, s1, p; exact HR|]. left. exists e, (ocont s ord). split; [left; reflexivity|]. split; [apply (o_iterate_ok sz nk key_of hash keq Hsz); exact H|].
          apply (new_cont_of h s ord e H). rewrite <- (delems_same _ _ He). exact Hnew. }
      * left. do 4 right. left. split; [reflexivity|]. split; [exists h1, s1, p; exact HR|]. right. eexists. reflexivity.
      * destruct (oassign_ctor v h s ord e h1 s1 p H1 Hb Hc HR) as [(s2 & a & Hx & Hy & _)|(Hnew & Hx)].
        { assert (Hsame : otexec CtorThrows v (h, s) (OAssign e) = oexec v (h, s) (OAssign e)) by (cbn [OrderedThrowModel.otexec ot_assign OrderedRun.oexec fst snd]; rewrite Hx, Hy; reflexivity).
          apply Hgen; [exact Hsame|discriminate|]. intros _ hs' r Hq x Hr. subst r. cbn [OrderedRun.oexec] in Hq. rewrite Hy in Hq. cbn [bind o_give] in Hq.
          destruct (o_at sz s2 a) as [[y|]|]; cbn [bind] in Hq; discriminate. }
        { left. do 4 right. left. split; [reflexivity|]. split; [exists h1, s1, p; exact HR|]. left. exists e, (ocont s ord). split; [right; reflexivity|]. split; [apply (o_iterate_ok sz nk key_of hash keq Hsz); exact H|].
          apply (new_cont_of h s ord e H). rewrite <- (delems_same _ _ He). exact Hnew. }
Qed.

(** ** Histories *)
Lemma otrun_ok : forall hist h s ord, oinv h s ord -> othistory_ok nk hist ->
  (exists h' s' ord' rs, otrun (h, s) hist = Ok (h', s', rs) /\ oinv h' s' ord' /\ ofr h s h' s' /\ otspec_run (ocalls_of hist) (ocont s ord) (ocont s' ord') rs) \/
  (exists h1 f v c h2 hs1 rs1 l1, hist = h1 ++ (f, v, c) :: h2 /\ otrun (h, s) h1 = Ok (hs1, rs1) /\ otspec_run (ocalls_of h1) (ocont s ord) l1 rs1 /\ otblocked f v hs1 c).
Proof.
  induction hist as [|((f, v), c) hist IH]; intros h s ord H Hh.
  - left. exists h, s, ord, []. split; [reflexivity|]. split; [exact H|]. split; [apply ofr_refl|]. constructor.
  - inversion Hh as [|? ? (Hv & Hc) Hh']; subst. cbn [fst snd] in *. destruct (otstep_ok f v h s ord c H Hv Hc) as [Hb|(h1 & s1 & r & He & ord1 & H1 & F1 & S1)].
    + right. exists [], f, v, c, hist, (h, s), [], (ocont s ord). split; [reflexivity|]. split; [reflexivity|]. split; [constructor|exact Hb].
    + destruct (IH h1 s1 ord1 H1 Hh') as [(h' & s' & ord' & rs & Hr & H' & F' & S')|(p1 & f' & v' & c' & p2 & hs1 & rs1 & l1 & -> & Hr & S' & Hb)].
      * left. exists h', s', ord', (r :: rs). cbn [OrderedThrowModel.otrun]. rewrite He. cbn [bind]. rewrite Hr. cbn [bind]. split; [reflexivity|]. split; [exact H'|]. split; [apply (ofr_trans sz _ _ _ _ _ _ F1 F')|]. cbn [ocalls_of map fst snd]. econstructor; eassumption.
      * right. exists ((f, v, c) :: p1), f', v', c', p2, hs1, (r :: rs1), l1. split; [reflexivity|]. cbn [OrderedThrowModel.otrun]. rewrite He. cbn [bind]. rewrite Hr. cbn [bind]. split; [reflexivity|]. split; [cbn [ocalls_of map fst snd]; econstructor; eassumption|exact Hb].
Qed.
Lemma othistories : forall h0 s ord hist, oinv h0 s ord -> othistory_ok nk hist -> otrefines sz nk key_of hash keq rep (h0, s) (ocont s ord) hist.
Proof.
  intros h0 s ord hist Ha Hh. destruct (otrun_ok hist h0 s ord Ha Hh) as [(h' & s' & ord' & rs & Hr & H' & F' & S')|Hb]; [left|right; exact Hb].
  exists (h', s'), rs, (ocont s' ord'). cbn [fst snd]. split; [exact Hr|]. split; [exact S'|]. split; [apply (o_iterate_ok sz nk key_of hash keq Hsz); exact H'|]. split; [apply (o_backwards_ok sz nk key_of hash keq Hsz); exact H'|]. split.
  - apply (distinct_perm nk key_of keq (keq_comm hash keq KL) (delems (o_d s'))); [apply Permutation_sym; apply (inv_perm sz nk key_of hash keq _ _ _ H')|]. apply (wf_distinct nk key_of hash keq rep rep_key). apply H'.
  - intros b Ha1 Ha2 Ha3. destruct F' as (_ & F'). apply (F' b); [split; assumption|exact Ha3].
Qed.
End OThrow.
