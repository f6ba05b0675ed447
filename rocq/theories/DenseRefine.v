(** Call histories on the dense table refine the list specification. *)
From Coq Require Import ZArith List Bool Lia.
From Verif Require Import Base BaseLemmas MapSpec Float32 Float32Facts DenseSpec DenseModel DenseRun DenseChain DenseInv DenseOps DenseEdit DenseErase.
Import ListNotations.
Open Scope Z_scope.

Section Refine.
Context {E K : Type}.
Variable nk : nat.
Variable key_of : nat -> E -> K.
Variable hash : K -> Z.
Variable keq : K -> K -> bool.
Variable rep : E -> E -> E.
Hypothesis KL : key_laws hash keq.
Notation dense := (dense E).
Notation dwf := (dwf nk key_of hash keq).
Notation matches := (matches key_of keq).
Notation dabsent := (dabsent key_of keq).

Lemma empty_wf : dwf empty_dense.
Proof.
  constructor; cbn; try lia.
  - constructor; cbn; try reflexivity. discriminate.
  - intros i Hi. unfold live in Hi. cbn in Hi. lia.
  - reflexivity.
  - discriminate.
  - intros j _ b Hb. lia.
  - discriminate.
Qed.

(** ** Insertion *)
Definition ins_ok (s : dense) (e : E) (x : dense * ins_result) : Prop :=
  let '(s', o) := x in
  match o with
  | None => elems_same s s' /\ (dwf s' \/ (0 < d_bc s /\ broken s'))
  | Some (p, true) => dwf s' /\ dnew nk key_of keq e (delems s) /\ delems s' = delems s ++ [e] /\ exists n, d_nodes s' p = Some n /\ n_val n = e
  | Some (p, false) => dwf s' /\ delems s' = delems s /\ exists n, d_nodes s' p = Some n /\ dclash nk key_of keq e (delems s) (n_val n)
  end.

Lemma new_of : forall (s : dense) e, dwf s -> (forall j, In j (js nk) -> forall i, live s i -> ~ matches s j (key_of j e) i) -> dnew nk key_of keq e (delems s).
Proof. intros s e W H j Hj. apply (absent_iff nk key_of hash keq s j _ W). apply H. apply js_in. exact Hj. Qed.
Lemma clash_of : forall (s : dense) e pre j post i n, dwf s -> js nk = pre ++ j :: post -> d_nodes s i = Some n -> keq (key_of j (n_val n)) (key_of j e) = true ->
  (forall j', In j' pre -> forall x, live s x -> ~ matches s j' (key_of j' e) x) -> dclash nk key_of keq e (delems s) (n_val n).
Proof.
  intros s e pre j post i n W Hjs Hn Hk Hpre. exists j. split; [apply js_in; rewrite Hjs; apply in_or_app; right; left; reflexivity|].
  split; [apply (delems_in nk key_of hash keq s _ W); exists i, n; auto|]. split; [exact Hk|]. intros j' Hj'. apply (absent_iff nk key_of hash keq s j' _ W). apply Hpre.
  assert (Hlen : (length pre = j)%nat).
  { assert (Hnth : nth_error (js nk) (length pre) = Some j) by (rewrite Hjs, nth_error_app2, Nat.sub_diag by lia; reflexivity).
    assert (Hlt : (length pre < nk)%nat) by (assert (length (js nk) = nk) by (unfold js; apply seq_length); rewrite Hjs, app_length in H; cbn [length] in H; lia).
    unfold js in Hnth. apply nth_error_nth with (d := 0%nat) in Hnth. rewrite seq_nth in Hnth by exact Hlt. lia. }
  assert (Hnth : nth_error (js nk) j' = Some j').
  { assert (Hlt : (j' < nk)%nat) by (assert (Hjn : In j (js nk)) by (rewrite Hjs; apply in_or_app; right; left; reflexivity); apply js_in in Hjn; lia).
    rewrite (nth_error_nth' (js nk) 0%nat) by (unfold js; rewrite seq_length; exact Hlt). unfold js. rewrite seq_nth by exact Hlt. reflexivity. }
  rewrite Hjs, nth_error_app1 in Hnth by lia. apply nth_error_In in Hnth. exact Hnth.
Qed.

Lemma wf_lookup : forall (s : dense) e, dwf s -> 0 < d_bc s -> exists xs, find_all key_of hash keq s e (js nk) = Ok xs /\
    ((exists i n, first_clash s xs = Ok (Some i) /\ d_nodes s i = Some n /\ dclash nk key_of keq e (delems s) (n_val n)) \/
     (first_clash s xs = Ok None /\ (forall j, In j (js nk) -> forall x, live s x -> ~ matches s j (key_of j e) x) /\
      exists sl, slices xs = Ok sl /\ map fst sl = js nk /\ forall j p, In (j, p) sl -> slot_free key_of hash s (live s) e j p)).
Proof.
  intros s e W Hbc. destruct (lookup_all key_of hash keq KL s (live s) e (js nk) (w_mem _ _ _ _ _ W) Hbc) as (xs & Hxs & H).
  - apply (w_size _ _ _ _ _ W).
  - intros i j Hi Hj. split; [exact Hi|]. destruct (w_live _ _ _ _ _ W i Hi) as (n & Hn). exists n. split; [exact Hn|]. apply (w_hash _ _ _ _ _ W i n j Hn). apply js_in. exact Hj.
  - intros j Hj. apply (w_chain _ _ _ _ _ W). apply js_in. exact Hj.
  - exists xs. split; [exact Hxs|]. destruct H as [(pre & j & post & i & Hjs & H1 & H2 & (n & Hn & Hk) & H4)|H]; [left|right; exact H].
    exists i, n. split; [exact H1|]. split; [exact Hn|]. eapply clash_of; eassumption.
Qed.

Lemma do_insert_ok : forall dlim slim (s : dense) e, dwf s -> dlim < 2 ^ 59 -> slim < 2 ^ 60 ->
  exists x, do_insert nk key_of hash keq dlim slim true s e = Ok x /\ ins_ok s e x.
Proof.
  intros dlim slim s e W Hd Hs. unfold do_insert. destruct (make_room_ok nk key_of hash keq dlim slim s W Hd Hs) as (s1 & o & H1 & (He & H2) & H3).
  rewrite H1. cbn [bind]. destruct o as [u|]; [|exists (s1, None); split; [reflexivity|split; assumption]].
  destruct (H3 ltac:(discriminate)) as (Hcap & Hbc). pose proof (delems_same _ _ He) as Hde.
  destruct (wf_lookup s1 e H2 Hbc) as (xs & Hxs & Hcase). rewrite Hxs. cbn [bind]. destruct Hcase as [(i & n & Hc & Hn & Hcl)|(Hc & Hno & sl & Hsl & Hm & Hfree)]; rewrite Hc; cbn [bind].
  - eexists. split; [reflexivity|]. cbn [ins_ok]. split; [exact H2|]. split; [exact Hde|]. exists n. split; [exact Hn|]. rewrite <- Hde. exact Hcl.
  - rewrite Hsl. cbn [bind]. unfold emplace_node. rewrite (push_node_ok nk key_of hash keq s1 e H2 Hcap). cbn [bind].
    destruct (commit_ok nk key_of hash keq KL s1 e sl H2 Hcap Hbc) as (s2 & n & Hcm & W2 & Hn & Hv & Hde2 & _).
    + intros j Hj. apply Hno. apply js_in. exact Hj.
    + exact Hm.
    + intros j p Hjp. apply pushed_free. apply Hfree. exact Hjp.
    + rewrite Hcm. cbn [bind]. eexists. split; [reflexivity|]. cbn [ins_ok]. split; [exact W2|]. split; [rewrite <- Hde; apply new_of; assumption|]. split; [rewrite Hde2, Hde; reflexivity|]. exists n. auto.
Qed.

Lemma do_emplace_ok : forall dlim slim (s : dense) e, dwf s -> dlim < 2 ^ 59 -> slim < 2 ^ 60 ->
  exists x, do_emplace nk key_of hash keq dlim slim true s e = Ok x /\ ins_ok s e x.
Proof.
  intros dlim slim s e W Hd Hs. unfold do_emplace. destruct (make_room_ok nk key_of hash keq dlim slim s W Hd Hs) as (s1 & o & H1 & (He & H2) & H3).
  rewrite H1. cbn [bind]. destruct o as [u|]; [|exists (s1, None); split; [reflexivity|split; assumption]].
  destruct (H3 ltac:(discriminate)) as (Hcap & Hbc). pose proof (delems_same _ _ He) as Hde. pose proof (w_size _ _ _ _ _ H2) as Hsz.
  rewrite (push_node_ok nk key_of hash keq s1 e H2 Hcap). cbn [bind]. pose proof (pushed_okm nk key_of hash keq s1 e H2 Hcap) as Hm.
  rewrite (get_node_ok _ _ _ Hm (pushed_new s1 e)). cbn [bind n_val].
  assert (Hmt : forall j k i, live s1 i -> (matches (pushed s1 e) j k i <-> matches s1 j k i)).
  { intros j k i Hi. unfold DenseInv.matches. rewrite pushed_nodes by (unfold live in Hi; lia). reflexivity. }
  destruct (lookup_all key_of hash keq KL (pushed s1 e) (live s1) e (js nk) Hm Hbc) as (xs & Hxs & Hcase).
  - change (d_size (pushed s1 e)) with (d_size s1 + 1). lia.
  - intros i j Hi Hj. split; [change (d_size (pushed s1 e)) with (d_size s1 + 1); unfold live in Hi; lia|]. destruct (w_live _ _ _ _ _ H2 i Hi) as (n & Hn). exists n.
    rewrite pushed_nodes by (unfold live in Hi; lia). split; [exact Hn|]. apply (w_hash _ _ _ _ _ H2 i n j Hn). apply js_in. exact Hj.
  - intros j Hj. apply (pushed_chain nk key_of hash keq); [exact H2|apply js_in; exact Hj].
  - rewrite Hxs. cbn [bind]. destruct Hcase as [(pre & j & post & i & Hjs & Hc & Hi & Hmi & Hpre)|(Hc & Hno & sl & Hsl & Hmap & Hfree)]; rewrite Hc; cbn [bind].
    + unfold pop_node. cbn [set_size d_size]. change (d_size (pushed s1 e) - 1) with (d_size s1 + 1 - 1). replace (d_size s1 + 1 - 1) with (d_size s1) by lia.
      erewrite kill_node_ok; [|destruct Hm as [A B C]; constructor; [exact A|exact B|exact C]|exact (pushed_new s1 e)]. cbn [bind].
      set (s2 := set_nodes _ _). assert (Hnodes : forall x, d_nodes s2 x = d_nodes s1 x).
      { intros x. unfold s2. cbn [set_nodes set_size d_nodes]. unfold upd. destruct (Z.eqb_spec x (d_size s1)) as [->|Hx]; [symmetry; apply (w_dead _ _ _ _ _ H2); unfold live; lia|apply pushed_nodes; exact Hx]. }
      assert (Hes : elems_same s1 s2) by (split; [reflexivity|]; intros x; unfold vh; rewrite Hnodes; reflexivity).
      assert (W2 : dwf s2).
      { constructor; try exact (w_size _ _ _ _ _ H2); try exact (w_cap _ _ _ _ _ H2); try exact (w_bc _ _ _ _ _ H2); try exact (w_bucket _ _ _ _ _ H2); try exact (w_mlf _ _ _ _ _ H2).
        - destruct Hm as [A B C]. constructor; [exact A|exact B|]. intros x n. rewrite Hnodes. apply (om_in _ (w_mem _ _ _ _ _ H2)).
        - intros x Hx. rewrite Hnodes. exact (w_live _ _ _ _ _ H2 x Hx).
        - intros x Hx. rewrite Hnodes. exact (w_dead _ _ _ _ _ H2 x Hx).
        - intros x n j' Hx. rewrite Hnodes in Hx. exact (w_hash _ _ _ _ _ H2 x n j' Hx).
        - intros j' Hj'. apply (chains_ext (hdj s1 j') (nxj s1 j') (live s1) (bkj s1 j')); [exact (w_chain _ _ _ _ _ H2 j' Hj')|reflexivity| |].
          + intros x _ _. unfold nxj. rewrite Hnodes. reflexivity.
          + intros x b _. unfold bkj, hsj. rewrite Hnodes. reflexivity.
        - intros x x' n n' j' Hj' Hx Hx'. rewrite Hnodes in Hx, Hx'. exact (w_uniq _ _ _ _ _ H2 x x' n n' j' Hj' Hx Hx'). }
      eexists. split; [reflexivity|]. cbn [ins_ok]. split; [exact W2|]. split; [rewrite (delems_same _ _ Hes); exact Hde|].
      apply (Hmt j (key_of j e) i Hi) in Hmi. destruct Hmi as (n & Hn & Hk). exists n. split; [rewrite Hnodes; exact Hn|]. rewrite <- Hde.
      apply (clash_of s1 e pre j post i n); auto. intros j' Hj' x Hx Hmx. apply (Hpre j' Hj' x Hx). apply Hmt; assumption.
    + rewrite Hsl. cbn [bind].
      assert (Hno' : forall j, In j (js nk) -> forall x, live s1 x -> ~ matches s1 j (key_of j e) x) by (intros j Hj x Hx Hmx; apply (Hno j Hj x Hx); apply Hmt; assumption).
      destruct (commit_ok nk key_of hash keq KL s1 e sl H2 Hcap Hbc) as (s2 & n & Hcm & W2 & Hn & Hv & Hde2 & _); auto.
      * intros j Hj. apply Hno'. apply js_in. exact Hj.
      * rewrite Hcm. cbn [bind]. eexists. split; [reflexivity|]. cbn [ins_ok]. split; [exact W2|]. split; [rewrite <- Hde; apply new_of; assumption|]. split; [rewrite Hde2, Hde; reflexivity|]. exists n. auto.
Qed.

(** Change of the value of a node that keeps its keys. *)
Lemma replace_ok : forall (s : dense) i n v, dwf s -> d_nodes s i = Some n -> (forall j, (j < nk)%nat -> key_of j v = key_of j (n_val n)) ->
  let s' := set_nodes s (upd (d_nodes s) i (Some (mkn v (n_hash n) (n_next n)))) in
  dwf s' /\ exists a b, delems s = a ++ n_val n :: b /\ delems s' = a ++ v :: b.
Proof.
  intros s i n v W Hn Hk s'. pose proof (w_size _ _ _ _ _ W) as Hsz. pose proof (node_live nk key_of hash keq s i n W Hn) as Hi.
  assert (Hno : forall x, x <> i -> d_nodes s' x = d_nodes s x) by (intros x Hx; unfold s'; cbn [set_nodes d_nodes]; apply upd_other; exact Hx).
  assert (Hni : d_nodes s' i = Some (mkn v (n_hash n) (n_next n))) by (unfold s'; cbn [set_nodes d_nodes]; apply upd_same).
  assert (Hsrc : forall x m, d_nodes s' x = Some m -> exists m', d_nodes s x = Some m' /\ n_hash m' = n_hash m /\ n_next m' = n_next m /\ forall j, (j < nk)%nat -> key_of j (n_val m') = key_of j (n_val m)).
  { intros x m Hx. destruct (Z.eq_dec x i) as [->|Hne]; [|rewrite Hno in Hx by exact Hne; exists m; auto].
    rewrite Hni in Hx. injection Hx as <-. exists n. split; [exact Hn|]. split; [reflexivity|]. split; [reflexivity|]. intros j Hj. symmetry. apply Hk. exact Hj. }
  assert (W' : dwf s').
  { constructor; try exact (w_size _ _ _ _ _ W); try exact (w_cap _ _ _ _ _ W); try exact (w_bc _ _ _ _ _ W); try exact (w_bucket _ _ _ _ _ W); try exact (w_mlf _ _ _ _ _ W).
    - destruct (w_mem _ _ _ _ _ W) as [A B C]. constructor; [exact A|exact B|]. intros x m Hx. destruct (Hsrc x m Hx) as (m' & Hm' & _). exact (C x m' Hm').
    - intros x Hx. destruct (w_live _ _ _ _ _ W x Hx) as (m & Hm). destruct (Z.eq_dec x i) as [->|Hne]; [eexists; exact Hni|]. exists m. rewrite Hno; assumption.
    - intros x Hx. destruct (d_nodes s' x) as [m|] eqn:Em; [|reflexivity]. destruct (Hsrc x m Em) as (m' & Hm' & _). rewrite (w_dead _ _ _ _ _ W x Hx) in Hm'. discriminate.
    - intros x m j Hx Hj. destruct (Hsrc x m Hx) as (m' & Hm' & <- & _ & Hkk). rewrite <- (Hkk j Hj). exact (w_hash _ _ _ _ _ W x m' j Hm' Hj).
    - intros j Hj. apply (chains_ext (hdj s j) (nxj s j) (live s) (bkj s j)); [exact (w_chain _ _ _ _ _ W j Hj)|reflexivity| |].
      + intros x _ _. unfold nxj. destruct (Z.eq_dec x i) as [->|Hne]; [rewrite Hni, Hn; reflexivity|rewrite Hno by exact Hne; reflexivity].
      + intros x b _. assert (bkj s' j x = bkj s j x). { unfold bkj, hsj. destruct (Z.eq_dec x i) as [->|Hne]; [rewrite Hni, Hn; reflexivity|rewrite Hno by exact Hne; reflexivity]. } rewrite H. reflexivity.
    - intros x x' m m' j Hj Hx Hx' Hkk. destruct (Hsrc x m Hx) as (a & Ha & _ & _ & Hka). destruct (Hsrc x' m' Hx') as (a' & Ha' & _ & _ & Hka').
      apply (w_uniq _ _ _ _ _ W x x' a a' j Hj Ha Ha'). rewrite (Hka j Hj), (Hka' j Hj). exact Hkk. }
  split; [exact W'|]. destruct (delems_split nk key_of hash keq s i n W Hn) as (a & b & Hd & Ha). exists a, b. split; [exact Hd|].
  pose proof (delems_len nk key_of hash keq s W) as Hlen. pose proof (delems_len nk key_of hash keq s' W') as Hlen'. change (d_size s') with (d_size s) in Hlen'. rewrite Hd, app_length in Hlen. cbn [length] in Hlen.
  unfold live in Hi. apply list_ext. intros x. destruct (Nat.lt_ge_cases x (Z.to_nat (d_size s))) as [Hx|Hx].
  - pose proof (delems_nth nk key_of hash keq s' (Z.of_nat x) W') as H1. rewrite Nat2Z.id in H1. rewrite H1 by (unfold live; change (d_size s') with (d_size s); lia).
    pose proof (delems_nth nk key_of hash keq s (Z.of_nat x) W) as H2. rewrite Nat2Z.id in H2. rewrite Hd in H2. unfold val in *.
    destruct (Z.eq_dec (Z.of_nat x) i) as [He|Hne].
    + rewrite He, Hni. cbn [option_map n_val]. replace x with (length a) by lia. rewrite nth_error_app2, Nat.sub_diag by lia. reflexivity.
    + rewrite Hno by exact Hne. rewrite <- H2 by (unfold live; lia). destruct (Nat.lt_ge_cases x (length a)) as [Hlt|Hge]; [rewrite !nth_error_app1 by exact Hlt; reflexivity|].
      rewrite !nth_error_app2 by exact Hge. replace (x - length a)%nat with (S (x - length a - 1)) by lia. reflexivity.
  - assert (H1 : nth_error (delems s') x = None) by (apply nth_error_None; lia). assert (H2 : nth_error (a ++ v :: b) x = None) by (apply nth_error_None; rewrite app_length; cbn [length]; lia). congruence.
Qed.

Definition assign_ok (s : dense) (e : E) (x : dense * ins_result) : Prop :=
  let '(s', o) := x in
  match o with
  | None => elems_same s s' /\ (dwf s' \/ (0 < d_bc s /\ broken s'))
  | Some (p, true) => dwf s' /\ dabsent 0 (key_of 0 e) (delems s) /\ delems s' = delems s ++ [e] /\ exists n, d_nodes s' p = Some n /\ n_val n = e
  | Some (p, false) => dwf s' /\ exists n a x b, d_nodes s' p = Some n /\ n_val n = rep x e /\ dlocated key_of keq 0 (key_of 0 e) (delems s) a x b /\ delems s' = a ++ rep x e :: b
  end.

Hypothesis rep_key : forall x e, key_of 0 (rep x e) = key_of 0 x.

Lemma do_assign_ok : forall dlim slim (s : dense) e, dwf s -> dlim < 2 ^ 59 -> slim < 2 ^ 60 -> nk = 1%nat ->
  exists x, do_insert_or_assign nk key_of hash keq rep dlim slim true s e = Ok x /\ assign_ok s e x.
Proof.
  intros dlim slim s e W Hd Hs Hnk. unfold do_insert_or_assign. destruct (make_room_ok nk key_of hash keq dlim slim s W Hd Hs) as (s1 & o & H1 & (He & H2) & H3).
  rewrite H1. cbn [bind]. destruct o as [u|]; [|exists (s1, None); split; [reflexivity|split; assumption]].
  destruct (H3 ltac:(discriminate)) as (Hcap & Hbc). pose proof (delems_same _ _ He) as Hde. pose proof (w_mem _ _ _ _ _ H2) as Hm.
  destruct (find_node_gen key_of hash keq KL s1 (live s1) 0%nat (key_of 0 e) Hm Hbc) as (b & l & Hb & Hbe & Hs1 & Hnd & Hin & Hlen & Hcase).
  { apply (w_size _ _ _ _ _ H2). }
  { intros i Hi. split; [exact Hi|]. destruct (w_live _ _ _ _ _ H2 i Hi) as (n & Hn). exists n. split; [exact Hn|]. apply (w_hash _ _ _ _ _ H2 i n 0%nat Hn). lia. }
  { apply (w_chain _ _ _ _ _ H2). lia. }
  assert (Hlv : forall x, In x l -> exists n, d_nodes s1 x = Some n) by (intros x Hx; apply (w_live _ _ _ _ _ H2); apply (Hin x); exact Hx).
  destruct Hcase as [(a & i & r & -> & (n & Hn & Hk) & Hf & _)|(Hno & Hf)]; rewrite Hf; cbn [bind].
  - rewrite (load_ok s1 0%nat _ Hm) by (apply vptr_at; [exact Hb|]; intros x Hx; apply Hlv; apply in_or_app; left; exact Hx). cbn [bind].
    rewrite (ldp_at _ _ b a (i :: r) Hs1). cbv iota. destruct (Z.eqb_spec i npos) as [Hi|Hi]; [exfalso; apply (seg_npos _ _ _ i Hs1); [apply in_or_app; right; left; reflexivity|exact Hi]|].
    rewrite (get_node_ok s1 i n Hm Hn). cbn [bind]. rewrite (put_node_ok s1 i n _ Hm Hn). cbn [bind]. eexists. split; [reflexivity|]. cbn [assign_ok].
    destruct (replace_ok s1 i n (rep (n_val n) e) H2 Hn) as (W' & a' & b' & Hd1 & Hd2); [intros j Hj; assert (j = 0%nat) by lia; subst j; apply rep_key|].
    split; [exact W'|]. exists (mkn (rep (n_val n) e) (n_hash n) (n_next n)), a', (n_val n), b'. split; [cbn [set_nodes d_nodes]; apply upd_same|]. split; [reflexivity|]. split; [|exact Hd2].
    rewrite <- Hde. split; [exact Hd1|exact Hk].
  - rewrite (load_ok s1 0%nat _ Hm) by (apply vptr_at; [exact Hb|exact Hlv]). cbn [bind]. rewrite (ldp_at _ _ b l []) by (rewrite app_nil_r; exact Hs1). rewrite Z.eqb_refl. cbn [deref bind].
    unfold emplace_node. rewrite (push_node_ok nk key_of hash keq s1 e H2 Hcap). cbn [bind].
    destruct (commit_ok nk key_of hash keq KL s1 e [(0%nat, ptr_at b l)] H2 Hcap Hbc) as (s2 & n & Hcm & W2 & Hn & Hv & Hde2 & _).
    + intros j Hj. assert (j = 0%nat) by lia. subst j. exact Hno.
    + rewrite Hnk. reflexivity.
    + intros j p [Hjp|[]]. injection Hjp as <- <-. apply pushed_free. exists l. rewrite <- Hbe. auto.
    + rewrite Hcm. cbn [bind]. eexists. split; [reflexivity|]. cbn [assign_ok]. split; [exact W2|]. split; [rewrite <- Hde; apply (absent_iff nk key_of hash keq s1 0%nat _ H2); exact Hno|].
      split; [rewrite Hde2, Hde; reflexivity|]. exists n. auto.
Qed.

(** ** Clearing, ranges, iteration *)
Lemma clear_data_ok : forall s : dense, okm s -> 0 <= d_size s -> (forall i, live s i -> exists n, d_nodes s i = Some n) ->
  exists s', clear_data s = Ok s' /\ d_size s' = 0 /\ d_cap s' = d_cap s /\ d_bc s' = d_bc s /\ d_sok s' = true /\ d_dok s' = true /\ d_sparse s' = d_sparse s /\ d_mlf s' = d_mlf s /\
    forall i, d_nodes s' i = if (0 <=? i) && (i <? d_size s) then None else d_nodes s i.
Proof.
  intros s Hm Hsz Hl. unfold clear_data.
  destruct (foldM_zrange_inv _ kill_node (fun k t => okm t /\ d_size t = 0 /\ d_cap t = d_cap s /\ d_bc t = d_bc s /\ d_sparse t = d_sparse s /\ d_mlf t = d_mlf s /\ forall i, d_nodes t i = if (0 <=? i) && (i <? k) then None else d_nodes s i) (d_size s) (set_size s 0)) as (s' & Hf & H1 & H2 & H3 & H4 & H5 & H6 & H7).
  - exact Hsz.
  - split; [destruct Hm as [A B C]; constructor; assumption|]. repeat (split; [reflexivity|]). intros i. destruct (Z.leb_spec 0 i), (Z.ltb_spec i 0); cbn [andb]; try reflexivity; lia.
  - intros k t Hk (Hmt & A1 & A2 & A3 & A4 & A5 & A6). destruct (Hl k Hk) as (n & Hn).
    assert (Hnt : d_nodes t k = Some n) by (rewrite A6; destruct (Z.leb_spec 0 k), (Z.ltb_spec k k); cbn [andb]; try exact Hn; lia).
    rewrite (kill_node_ok t k n Hmt Hnt). eexists. split; [reflexivity|]. split; [|repeat (split; [assumption|])].
    + destruct Hmt as [A B C]. constructor; [exact A|exact B|]. intros i m. cbn [set_nodes d_nodes d_cap]. unfold upd. destruct (i =? k); [discriminate|apply C].
    + intros i. cbn [set_nodes d_nodes]. unfold upd. destruct (Z.eqb_spec i k) as [->|Hi].
      * destruct (Z.leb_spec 0 k), (Z.ltb_spec k (k + 1)); cbn [andb]; try reflexivity; lia.
      * rewrite A6. destruct (Z.leb_spec 0 i), (Z.ltb_spec i k), (Z.ltb_spec i (k + 1)); cbn [andb]; try reflexivity; lia.
  - exists s'. split; [exact Hf|]. split; [exact H2|]. split; [exact H3|]. split; [exact H4|]. split; [exact (om_sok _ H1)|]. split; [exact (om_dok _ H1)|]. split; [exact H5|]. split; [exact H6|exact H7].
Qed.

Lemma size0_delems : forall s : dense, d_size s = 0 -> delems s = [].
Proof. intros s H. unfold delems. rewrite H. reflexivity. Qed.

Lemma clear_ok : forall s : dense, dwf s -> exists s', clear s = Ok s' /\ dwf s' /\ delems s' = [] /\ d_cap s' = d_cap s /\ d_bc s' = d_bc s.
Proof.
  intros s W. pose proof (w_mem _ _ _ _ _ W) as Hm. pose proof (w_size _ _ _ _ _ W) as Hsz. pose proof (w_cap _ _ _ _ _ W) as Hcp. pose proof (w_bc _ _ _ _ _ W) as Hbc.
  assert (Hgen : forall s1 : dense, okm s1 -> d_size s1 = d_size s -> d_cap s1 = d_cap s -> d_bc s1 = d_bc s -> d_mlf s1 = d_mlf s -> d_nodes s1 = d_nodes s -> (0 < d_bc s -> forall b j, d_sparse s1 b j = npos) ->
    exists s', clear_data s1 = Ok s' /\ dwf s' /\ delems s' = [] /\ d_cap s' = d_cap s /\ d_bc s' = d_bc s).
  { intros s1 Hm1 A1 A2 A3 A4 A5 A6. destruct (clear_data_ok s1 Hm1) as (s' & Hf & H1 & H2 & H3 & H4 & H5 & H6 & H7 & H8); [lia|intros i Hi; rewrite A5; apply (w_live _ _ _ _ _ W); unfold live in *; lia|].
    exists s'. split; [exact Hf|]. split; [|split; [apply size0_delems; exact H1|split; congruence]].
    assert (Hnone : forall i, d_nodes s' i = None).
    { intros i. rewrite H8, A5, A1. destruct (Z.leb_spec 0 i), (Z.ltb_spec i (d_size s)); cbn [andb]; try reflexivity; apply (w_dead _ _ _ _ _ W); unfold live; lia. }
    constructor; rewrite ?H1, ?H2, ?H3, ?H7, ?A2, ?A3, ?A4; try lia.
    - constructor; [exact H4|exact H5|]. intros i n Hi. rewrite Hnone in Hi. discriminate.
    - intros i Hi. unfold live in Hi. lia.
    - intros i _. apply Hnone.
    - intros i n j Hi. rewrite Hnone in Hi. discriminate.
    - intros j Hj. apply chains_empty; [|intros i Hi; unfold live in Hi; lia]. intros b Hb. unfold hdj. rewrite H6. apply A6. lia.
    - intros i i' n n' j _ Hi. rewrite Hnone in Hi. discriminate.
    - apply (w_mlf _ _ _ _ _ W). }
  unfold clear, fill_sparse. destruct (Z.eqb_spec (d_bc s) 0) as [Hz|Hz]; cbn [bind].
  - apply Hgen; auto. lia.
  - rewrite (om_sok _ Hm). cbn [guard bind]. apply Hgen; try reflexivity. destruct Hm as [A B C]. constructor; assumption.
Qed.

Lemma iterate_ok : forall s : dense, dwf s -> iterate s = Ok (delems s).
Proof.
  intros s W. unfold iterate, delems. assert (Hl : forall i, In i (zrange (d_size s)) -> exists n, d_nodes s i = Some n) by (intros i Hi; apply (w_live _ _ _ _ _ W); apply zrange_In; exact Hi).
  induction (zrange (d_size s)) as [|i l IH]; [reflexivity|]. cbn [iterate_from flat_map]. destruct (Hl i (or_introl eq_refl)) as (n & Hn).
  rewrite (get_node_ok s i n (w_mem _ _ _ _ _ W) Hn). cbn [bind]. rewrite IH by (intros x Hx; apply Hl; right; exact Hx). rewrite Hn. reflexivity.
Qed.

Lemma erase_range_ok : forall n (s : dense) a result, dwf s -> 0 <= a -> a + Z.of_nat n <= d_size s ->
  exists s', erase_range_loop nk n s a result = Ok (s', if Nat.eqb n 0 then result else a) /\ dwf s' /\
    delems s' = remove_range (Z.to_nat a) n (delems s) /\ d_size s' = d_size s - Z.of_nat n.
Proof.
  induction n as [|n IH]; intros s a result W Ha Hn.
  - exists s. split; [reflexivity|]. split; [exact W|]. split; [reflexivity|lia].
  - cbn [erase_range_loop]. destruct (erase_at_ok nk key_of hash keq s (a + Z.of_nat n) W) as (s1 & l1 & x & l2 & He & W1 & Hd & Hlen & Hd1 & Hsz & _); [unfold live; lia|].
    rewrite He. cbn [bind fst snd]. destruct (IH s1 a (a + Z.of_nat n) W1 Ha ltac:(lia)) as (s2 & Hr & W2 & Hd2 & Hsz2).
    exists s2. split; [|split; [exact W2|split; [|lia]]].
    + rewrite Hr. cbn [Nat.eqb]. destruct (Nat.eqb_spec n 0) as [Hn0|]; [|reflexivity]. repeat f_equal. lia.
    + rewrite Hd2, Hd1. cbn [remove_range]. f_equal. assert (Hl : (length l1 = Z.to_nat a + n)%nat) by lia. rewrite <- Hl, Hd. rewrite firstn_app, Nat.sub_diag, firstn_all. cbn [firstn]. rewrite app_nil_r.
      f_equal. replace (S (length l1)) with (length (l1 ++ [x])) by (rewrite app_length; cbn [length]; lia). replace (l1 ++ x :: l2) with ((l1 ++ [x]) ++ l2) by (rewrite <- app_assoc; reflexivity).
      rewrite skipn_app, skipn_all, Nat.sub_diag. reflexivity.
Qed.

Lemma at_pos_ok : forall (s : dense) p, dwf s -> 0 <= p <= d_size s -> at_pos s p = Ok (nth_error (delems s) (Z.to_nat p)).
Proof.
  intros s p W Hp. unfold at_pos. destruct (Z.eqb_spec p (d_size s)) as [->|Hne].
  - assert (H : nth_error (delems s) (Z.to_nat (d_size s)) = None) by (apply nth_error_None; rewrite (delems_len nk key_of hash keq s W); lia). rewrite H. reflexivity.
  - destruct (w_live _ _ _ _ _ W p) as (n & Hn); [unfold live; lia|]. rewrite (get_node_ok s p n (w_mem _ _ _ _ _ W) Hn). cbn [bind].
    rewrite (delems_nth nk key_of hash keq s p W) by (unfold live; lia). unfold val. rewrite Hn. reflexivity.
Qed.

(** ** One call *)
Notation dspec := (dspec nk key_of keq rep).
Notation dexec := (dexec nk key_of hash keq rep).
Notation blocked := (blocked nk key_of hash keq rep).

Lemma step_ok : forall v (s : dense) c, dwf s -> denv_ok v -> dcall_ok nk c ->
  blocked v s c \/ exists s' r, dexec v s c = Ok (s', r) /\ dwf s' /\ dspec c (delems s) (delems s') r.
Proof.
  intros v s c W (Hd & Hs) Hc. pose proof (w_size _ _ _ _ _ W) as Hsz. pose proof (w_bc _ _ _ _ _ W) as Hbc0.
  destruct c; cbn [dexec dcall_ok] in *.
  - destruct (do_insert_ok (dv_dlim v) (dv_slim v) s e W Hd Hs) as ((s', o) & H & Hi). cbn [ins_ok] in Hi. destruct o as [(p, [|])|].
    + right. destruct Hi as (W' & Hnew & Hde & n & Hn & Hv). rewrite H. cbn [bind give_inserted]. rewrite (get_node_ok s' p n (w_mem _ _ _ _ _ W') Hn). cbn [bind]. rewrite Hv. eexists _, _. split; [reflexivity|]. split; [exact W'|]. rewrite Hde. constructor. exact Hnew.
    + right. destruct Hi as (W' & Hde & n & Hn & Hcl). rewrite H. cbn [bind give_inserted]. rewrite (get_node_ok s' p n (w_mem _ _ _ _ _ W') Hn). cbn [bind]. eexists _, _. split; [reflexivity|]. split; [exact W'|]. rewrite Hde. constructor. exact Hcl.
    + destruct Hi as (He & [W'|(Hb & Hbr)]).
      * right. rewrite H. cbn [bind give_inserted]. eexists _, _. split; [reflexivity|]. split; [exact W'|]. rewrite (delems_same _ _ He). constructor. reflexivity.
      * left. right. right. split; [exact Hb|]. exists s'. cbn [DenseRun.dexec]. rewrite H. split; [reflexivity|exact Hbr].
  - destruct (do_emplace_ok (dv_dlim v) (dv_slim v) s e W Hd Hs) as ((s', o) & H & Hi). cbn [ins_ok] in Hi. destruct o as [(p, [|])|].
    + right. destruct Hi as (W' & Hnew & Hde & n & Hn & Hv). rewrite H. cbn [bind give_inserted]. rewrite (get_node_ok s' p n (w_mem _ _ _ _ _ W') Hn). cbn [bind]. rewrite Hv. eexists _, _. split; [reflexivity|]. split; [exact W'|]. rewrite Hde. constructor. exact Hnew.
    + right. destruct Hi as (W' & Hde & n & Hn & Hcl). rewrite H. cbn [bind give_inserted]. rewrite (get_node_ok s' p n (w_mem _ _ _ _ _ W') Hn). cbn [bind]. eexists _, _. split; [reflexivity|]. split; [exact W'|]. rewrite Hde. constructor. exact Hcl.
    + destruct Hi as (He & [W'|(Hb & Hbr)]).
      * right. rewrite H. cbn [bind give_inserted]. eexists _, _. split; [reflexivity|]. split; [exact W'|]. rewrite (delems_same _ _ He). constructor. reflexivity.
      * left. right. right. split; [exact Hb|]. exists s'. cbn [DenseRun.dexec]. rewrite H. split; [reflexivity|exact Hbr].
  - destruct (do_assign_ok (dv_dlim v) (dv_slim v) s e W Hd Hs Hc) as ((s', o) & H & Hi). cbn [assign_ok] in Hi. destruct o as [(p, [|])|].
    + right. destruct Hi as (W' & Hnew & Hde & n & Hn & Hv). rewrite H. cbn [bind give_inserted]. rewrite (get_node_ok s' p n (w_mem _ _ _ _ _ W') Hn). cbn [bind]. rewrite Hv. eexists _, _. split; [reflexivity|]. split; [exact W'|]. rewrite Hde. constructor. exact Hnew.
    + right. destruct Hi as (W' & n & a & x & b & Hn & Hv & Hloc & Hde). rewrite H. cbn [bind give_inserted]. rewrite (get_node_ok s' p n (w_mem _ _ _ _ _ W') Hn). cbn [bind]. rewrite Hv. eexists _, _. split; [reflexivity|]. split; [exact W'|]. rewrite Hde. constructor. exact Hloc.
    + destruct Hi as (He & [W'|(Hb & Hbr)]).
      * right. rewrite H. cbn [bind give_inserted]. eexists _, _. split; [reflexivity|]. split; [exact W'|]. rewrite (delems_same _ _ He). constructor. reflexivity.
      * left. right. right. split; [exact Hb|]. exists s'. cbn [DenseRun.dexec]. rewrite H. split; [reflexivity|exact Hbr].
  - destruct (Z.eq_dec (d_bc s) 0) as [Hz|Hz]; [left; right; left; split; [exact Hz|exists j, k; reflexivity]|right].
    destruct (erase_key_ok nk key_of hash keq KL s j k W Hc ltac:(lia)) as [(Hno & He)|(s' & pos & a & x & b & He & W' & Hde & Hk & Ha & Hl & Hd' & Hsz' & _)]; rewrite He; cbn [bind give_next].
    + rewrite (at_pos_ok s (d_size s) W) by lia. cbn [bind]. assert (Hn : nth_error (delems s) (Z.to_nat (d_size s)) = None) by (apply nth_error_None; rewrite (delems_len nk key_of hash keq s W); lia). rewrite Hn.
      eexists _, _. split; [reflexivity|]. split; [exact W|]. constructor. apply (absent_iff nk key_of hash keq s j k W). exact Hno.
    + unfold live in Hl. rewrite (at_pos_ok s' pos W') by lia. cbn [bind]. rewrite <- Ha, Hd'. eexists _, _. split; [reflexivity|]. split; [exact W'|]. rewrite Hd'. apply (ds_erase _ _ _ _ _ _ _ _ x). split; assumption.
  - destruct (Z_lt_ge_dec i 0) as [Hi|Hi]; [left; left; cbn [dcall_pre]; lia|]. destruct (Z_lt_ge_dec i (d_size s)) as [Hi'|Hi']; [right|left; left; cbn [dcall_pre]; rewrite (delems_len nk key_of hash keq s W); lia].
    destruct (erase_at_ok nk key_of hash keq s i W) as (s' & a & x & b & He & W' & Hde & Ha & Hd' & Hsz' & _); [unfold live; lia|]. rewrite He. cbn [bind give_next]. rewrite (at_pos_ok s' i W') by lia. cbn [bind].
    rewrite <- Ha, Hd'. eexists _, _. split; [reflexivity|]. split; [exact W'|]. rewrite Hd', Hde. replace i with (Z.of_nat (length a)) by lia. constructor.
  - destruct (Z_lt_ge_dec a 0) as [Ha|Ha]; [left; left; cbn [dcall_pre]; lia|]. destruct (Z_lt_ge_dec b a) as [Hab|Hab]; [left; left; cbn [dcall_pre]; lia|].
    destruct (Z_lt_ge_dec (d_size s) b) as [Hb|Hb]; [left; left; cbn [dcall_pre]; rewrite (delems_len nk key_of hash keq s W); lia|right].
    unfold erase_range. set (n := Z.to_nat (b - a)). destruct (erase_range_ok n s a (d_size s) W ltac:(lia) ltac:(lia)) as (s' & He & W' & Hd' & Hsz'). rewrite He. cbn [bind give_next].
    rewrite (at_pos_ok s' _ W') by (destruct (Nat.eqb_spec n 0); lia). cbn [bind]. eexists _, _. split; [reflexivity|]. split; [exact W'|]. rewrite Hd'.
    assert (Hspec : dspec (DEraseRange (Z.of_nat (Z.to_nat a)) (Z.of_nat (Z.to_nat a + n))) (delems s) (remove_range (Z.to_nat a) n (delems s)) (QNext (if Nat.eqb n 0 then None else nth_error (remove_range (Z.to_nat a) n (delems s)) (Z.to_nat a)))).
    { constructor. rewrite (delems_len nk key_of hash keq s W). lia. }
    replace (Z.of_nat (Z.to_nat a)) with a in Hspec by lia. replace (Z.of_nat (Z.to_nat a + n)) with b in Hspec by lia.
    destruct (Nat.eqb_spec n 0) as [Hn0|Hn0]; [|exact Hspec]. rewrite Hn0 in *. cbn [remove_range] in *. assert (Hn : nth_error (delems s) (Z.to_nat (d_size s)) = None) by (apply nth_error_None; rewrite (delems_len nk key_of hash keq s W); lia). rewrite Hn. exact Hspec.
  - right. unfold find. destruct (find_node_ok nk key_of hash keq KL s j k W Hc) as [(i & n & p & Hn & Hk & Hf & _)|(Hno & o & Hf)]; rewrite Hf; cbn [bind fst].
    + pose proof (node_live nk key_of hash keq s i n W Hn) as Hl. unfold live in Hl. destruct (Z.eqb_spec i (d_size s)); [lia|]. rewrite (get_node_ok s i n (w_mem _ _ _ _ _ W) Hn). cbn [bind].
      eexists _, _. split; [reflexivity|]. split; [exact W|]. destruct (delems_split nk key_of hash keq s i n W Hn) as (a & b & Hde & _). apply (ds_find _ _ _ _ _ _ _ a (n_val n) b). split; assumption.
    + rewrite Z.eqb_refl. cbn [bind]. eexists _, _. split; [reflexivity|]. split; [exact W|]. constructor. apply (absent_iff nk key_of hash keq s j k W). exact Hno.
  - right. unfold contains. destruct (find_node_ok nk key_of hash keq KL s j k W Hc) as [(i & n & p & Hn & Hk & Hf & _)|(Hno & o & Hf)]; rewrite Hf; cbn [bind fst].
    + pose proof (node_live nk key_of hash keq s i n W Hn) as Hl. unfold live in Hl. destruct (Z.eqb_spec i (d_size s)); [lia|]. cbn [negb bind].
      eexists _, _. split; [reflexivity|]. split; [exact W|]. destruct (delems_split nk key_of hash keq s i n W Hn) as (a & b & Hde & _). apply (ds_contains _ _ _ _ _ _ _ a (n_val n) b). split; assumption.
    + rewrite Z.eqb_refl. cbn [bind negb]. eexists _, _. split; [reflexivity|]. split; [exact W|]. constructor. apply (absent_iff nk key_of hash keq s j k W). exact Hno.
  - right. destruct (clear_ok s W) as (s' & Hcl & W' & Hde & _). rewrite Hcl. cbn [bind]. eexists _, _. split; [reflexivity|]. split; [exact W'|]. rewrite Hde. constructor.
  - destruct (reserve_ok nk key_of hash keq (dv_dlim v) (dv_slim v) s n W Hd Hs Hc) as (s' & o & H & (He & Hr) & _). destruct o as [u|].
    + right. rewrite H. cbn [bind give_unit]. eexists _, _. split; [reflexivity|]. split; [exact Hr|]. rewrite (delems_same _ _ He). constructor.
    + destruct Hr as [W'|(Hb & Hbr)].
      * right. rewrite H. cbn [bind give_unit]. eexists _, _. split; [reflexivity|]. split; [exact W'|]. rewrite (delems_same _ _ He). constructor. reflexivity.
      * left. right. right. split; [exact Hb|]. exists s'. cbn [DenseRun.dexec]. rewrite H. split; [reflexivity|exact Hbr].
  - destruct (rehash_ok nk key_of hash keq (dv_slim v) s n W Hs ltac:(lia)) as (s' & o & H & (He & Hr) & _). destruct o as [u|].
    + right. rewrite H. cbn [bind give_unit]. eexists _, _. split; [reflexivity|]. split; [exact Hr|]. rewrite (delems_same _ _ He). constructor.
    + destruct Hr as [W'|(Hb & Hbr)].
      * right. rewrite H. cbn [bind give_unit]. eexists _, _. split; [reflexivity|]. split; [exact W'|]. rewrite (delems_same _ _ He). constructor. reflexivity.
      * left. right. right. split; [exact Hb|]. exists s'. cbn [DenseRun.dexec]. rewrite H. split; [reflexivity|exact Hbr].
  - right. eexists _, _. split; [reflexivity|]. split.
    + destruct W as [[A1 A2 A3] A4 A5 A6 A7 A8 A9 A10 A11 A12 A13]. constructor; cbn [set_mlf d_size d_cap d_bc d_mlf fst snd]; auto. constructor; assumption.
    + constructor.
  - right. eexists _, _. split; [reflexivity|]. split; [exact W|]. unfold size. replace (d_size s) with (Z.of_nat (length (delems s))) by (rewrite (delems_len nk key_of hash keq s W); lia). constructor.
  - right. rewrite (iterate_ok s W). cbn [bind]. eexists _, _. split; [reflexivity|]. split; [exact W|]. constructor.
Qed.

(** ** Histories *)
Notation drun := (drun nk key_of hash keq rep).
Notation dspec_run := (dspec_run nk key_of keq rep).
Lemma run_ok : forall h (s : dense), dwf s -> dhistory_ok nk h ->
  (exists s' rs, drun s h = Ok (s', rs) /\ dwf s' /\ dspec_run (map snd h) (delems s) (delems s') rs) \/
  (exists h1 v c h2 s1 rs1, h = h1 ++ (v, c) :: h2 /\ drun s h1 = Ok (s1, rs1) /\ dwf s1 /\ dspec_run (map snd h1) (delems s) (delems s1) rs1 /\ blocked v s1 c).
Proof.
  induction h as [|(v, c) h IH]; intros s W Hh.
  - left. exists s, []. split; [reflexivity|]. split; [exact W|]. constructor.
  - inversion Hh as [|? ? (Hv & Hc) Hh']; subst. cbn [fst snd] in *.
    destruct (step_ok v s c W Hv Hc) as [Hb|(s1 & r & H1 & W1 & Hs1)].
    + right. exists [], v, c, h, s, []. split; [reflexivity|]. split; [reflexivity|]. split; [exact W|]. split; [constructor|exact Hb].
    + destruct (IH s1 W1 Hh') as [(s' & rs & H2 & W2 & Hs2)|(h1 & v' & c' & h2 & s2 & rs1 & -> & H2 & W2 & Hs2 & Hb)].
      * left. exists s', (r :: rs). split; [cbn [DenseRun.drun]; rewrite H1; cbn [bind]; rewrite H2; reflexivity|]. split; [exact W2|]. cbn [map snd]. econstructor; eassumption.
      * right. exists ((v, c) :: h1), v', c', h2, s2, (r :: rs1). split; [reflexivity|]. split; [cbn [DenseRun.drun]; rewrite H1; cbn [bind]; rewrite H2; reflexivity|]. split; [exact W2|]. split; [cbn [map snd]; econstructor; eassumption|exact Hb].
Qed.

Lemma run_app : forall h1 h2 (s : dense), drun s (h1 ++ h2) = (let* x := drun s h1 in let '(s1, r1) := x in let* y := drun s1 h2 in let '(s2, r2) := y in Ok (s2, r1 ++ r2)).
Proof.
  induction h1 as [|(v, c) h1 IH]; intros h2 s; cbn [app DenseRun.drun].
  - cbn [bind]. destruct (drun s h2) as [(s2, r2)|]; reflexivity.
  - destruct (dexec v s c) as [(s1, o)|]; cbn [bind]; [|reflexivity]. rewrite IH. destruct (drun s1 h1) as [(s2, r2)|]; cbn [bind]; [|reflexivity]. destruct (drun s2 h2) as [(s3, r3)|]; reflexivity.
Qed.

Lemma reachable_wf : forall s : dense, dreachable nk key_of hash keq rep s -> dwf s.
Proof.
  intros s (h & rs & Hh & Hr & _ & Hb). destruct (run_ok h empty_dense empty_wf Hh) as [(s' & rs' & H1 & W & _)|(h1 & v & c & h2 & s1 & rs1 & He & H1 & W & _ & Hbl)].
  - rewrite Hr in H1. injection H1 as <- <-. exact W.
  - exfalso. exact (Hb h1 v c h2 s1 rs1 He H1 Hbl).
Qed.

(** The keys are pairwise different under every index. *)
Lemma wf_distinct : forall s : dense, dwf s -> dkeys_distinct nk key_of keq (delems s).
Proof.
  intros s W j Hj. pose proof (w_size _ _ _ _ _ W) as Hsz.
  assert (H : forall i i', 0 <= i -> i < i' -> i' < d_size s -> forall x y, val s i = Some x -> val s i' = Some y -> keq (key_of j x) (key_of j y) = false).
  { intros i i' H0 H1 H2 x y Hx Hy. unfold val in Hx, Hy. destruct (d_nodes s i) as [n|] eqn:En; [|discriminate]. destruct (d_nodes s i') as [n'|] eqn:En'; [|discriminate].
    cbn [option_map] in *. injection Hx as <-. injection Hy as <-. destruct (keq (key_of j (n_val n)) (key_of j (n_val n'))) eqn:Ek; [|reflexivity].
    exfalso. pose proof (w_uniq _ _ _ _ _ W i i' n n' j Hj En En' Ek). lia. }
  assert (Hn : forall l : list E, (forall a b x y, (a < b)%nat -> nth_error l a = Some x -> nth_error l b = Some y -> keq (key_of j x) (key_of j y) = false) -> ForallOrdPairs (fun a b => keq (key_of j a) (key_of j b) = false) l).
  { induction l as [|x l IH]; intros Hl; [constructor|]. constructor.
    - apply Forall_forall. intros y Hy. apply In_nth_error in Hy. destruct Hy as (k & Hk). apply (Hl 0%nat (S k)); [lia|reflexivity|exact Hk].
    - apply IH. intros a b u w Hab Ha Hb. apply (Hl (S a) (S b)); [lia|exact Ha|exact Hb]. }
  apply Hn. intros a b x y Hab Hx Hy. pose proof (delems_len nk key_of hash keq s W) as Hlen.
  assert (Hbl : (b < length (delems s))%nat) by (apply nth_error_Some; congruence).
  pose proof (delems_nth nk key_of hash keq s (Z.of_nat a) W) as H1. pose proof (delems_nth nk key_of hash keq s (Z.of_nat b) W) as H2. rewrite Nat2Z.id in H1, H2.
  apply (H (Z.of_nat a) (Z.of_nat b)); try lia; [rewrite <- H1|rewrite <- H2]; auto; unfold live; lia.
Qed.
End Refine.
