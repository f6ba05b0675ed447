(** Calls with other key types on dense tables refine the list specification. *)
From Coq Require Import ZArith List Bool Lia.
From Verif Require Import Base BaseLemmas MapSpec Float32 DenseSpec DenseModel DenseRun DenseChain DenseInv DenseOps DenseEdit DenseErase DenseRefine
  TransparentDenseSpec TransparentDenseModel.
Import ListNotations.
Open Scope Z_scope.

(** The searches compare only the key argument with the keys of nodes. *)
Lemma dfind_node_ext : forall E K1 K2 (key1 : nat -> E -> K1) (eq1 : K1 -> K1 -> bool) (key2 : nat -> E -> K2) (eq2 : K2 -> K2 -> bool) (s : dense E) j k1 k2 h,
  (forall e, eq1 k1 (key1 j e) = eq2 k2 (key2 j e)) -> find_node key1 eq1 s j k1 h = find_node key2 eq2 s j k2 h.
Proof.
  intros E K1 K2 key1 eq1 key2 eq2 s j k1 k2 h H. unfold find_node. destruct (get_chain s h) as [p|]; [|reflexivity].
  assert (El : forall fu p, find_loop key1 eq1 fu s j k1 h p = find_loop key2 eq2 fu s j k2 h p).
  { induction fu as [|fu IH]; intros q; [reflexivity|]. cbn [find_loop]. destruct (load s j q) as [w|]; [|reflexivity]. cbn [bind].
    destruct (w =? npos); [reflexivity|]. destruct (get_node s w) as [n|]; [|reflexivity]. cbn [bind]. rewrite H, IH. reflexivity. }
  rewrite El. reflexivity.
Qed.
Lemma derase_loop_ext : forall E K1 K2 nk (key1 : nat -> E -> K1) (eq1 : K1 -> K1 -> bool) (key2 : nat -> E -> K2) (eq2 : K2 -> K2 -> bool) fu (s : dense E) j k1 k2 h p,
  (forall e, eq1 k1 (key1 j e) = eq2 k2 (key2 j e)) -> erase_loop nk key1 eq1 fu s j k1 h p = erase_loop nk key2 eq2 fu s j k2 h p.
Proof.
  intros E K1 K2 nk key1 eq1 key2 eq2 fu s j k1 k2 h p H. revert p. induction fu as [|fu IH]; intros p; [reflexivity|]. cbn [erase_loop].
  destruct (load s j p) as [w|]; [|reflexivity]. cbn [bind]. destruct (w =? npos); [reflexivity|]. destruct (get_node s w) as [n|]; [|reflexivity].
  cbn [bind]. rewrite H, IH. reflexivity.
Qed.

Section Proofs.
Context {E K T V : Type}.
Variable nk : nat.
Variable key_of : nat -> E -> K.
Variable hash : K -> Z.
Variable keq : K -> K -> bool.
Variable rep : E -> E -> E.
Hypothesis KL : key_laws hash keq.
Hypothesis rep_key : forall x e, key_of 0%nat (rep x e) = key_of 0%nat x.
Variable hasht : T -> Z.
Variable eqt : K -> T -> bool.
Variable make : (nat -> T) -> V -> E.
Hypothesis TL : utransparent_laws nk key_of hash keq hasht eqt make.

Local Notation dense := (dense E).
Local Notation dwf := (dwf nk key_of hash keq).
Local Notation uexec := (uexec nk key_of hash keq rep hasht eqt make).
Local Notation urun := (urun nk key_of hash keq rep hasht eqt make).
Local Notation ublocked := (ublocked nk key_of hash keq rep hasht eqt make).
Local Notation uspec := (uspec nk key_of keq rep eqt make).
Local Notation uspec_run := (uspec_run nk key_of keq rep eqt make).
Local Notation ueither_eq := (ueither_eq keq eqt).
Local Notation ueither_hash := (ueither_hash hash hasht).
Local Notation ueither_key := (@ueither_key E K T key_of).

Section One.
Variable t : T.
Definition okey (j : nat) (e : E) : K + unit := inl (key_of j e).
Definition ohash (k : K + unit) : Z := match k with inl k => hash k | inr _ => hasht t end.
Definition oeq (a b : K + unit) : bool :=
  match a, b with inl a, inl b => keq a b | inl a, inr _ => eqt a t | inr _, inl b => eqt b t | inr _, inr _ => true end.
Lemma olaws : key_laws ohash oeq.
Proof.
  constructor.
  - intros [a|[]]; cbn; [apply (kl_refl _ _ KL)|reflexivity].
  - intros [a|[]] [b|[]]; cbn; auto. apply (kl_sym _ _ KL).
  - intros [a|[]] [b|[]] [c|[]]; cbn; auto.
    + apply (kl_trans _ _ KL).
    + apply (ul_resp _ _ _ _ _ _ _ TL).
    + apply (ul_same _ _ _ _ _ _ _ TL).
    + intros H1 H2. apply (ul_resp _ _ _ _ _ _ _ TL c b); [apply (kl_sym _ _ KL); exact H2|exact H1].
  - intros [a|[]] [b|[]]; cbn; auto.
    + apply (kl_hash _ _ KL).
    + apply (ul_hash _ _ _ _ _ _ _ TL).
    + intros H. symmetry. apply (ul_hash _ _ _ _ _ _ _ TL). exact H.
  - intros [a|[]]; cbn; [apply (kl_range _ _ KL)|apply (ul_range _ _ _ _ _ _ _ TL)].
Qed.
Lemma owf : forall s : dense, dwf s -> DenseInv.dwf nk okey ohash oeq s.
Proof. intros s H. destruct H. constructor; assumption. Qed.
Lemma owf_back : forall s : dense, DenseInv.dwf nk okey ohash oeq s -> dwf s.
Proof. intros s H. destruct H. constructor; assumption. Qed.
Lemma find_o : forall (s : dense) j h, find_node ueither_key ueither_eq s j (inr t) h = find_node okey oeq s j (inr tt) h.
Proof. intros s j h. apply dfind_node_ext. reflexivity. Qed.
Lemma erase_o : forall (s : dense) j, erase_key nk ueither_key ueither_hash ueither_eq s j (inr t) = erase_key nk okey ohash oeq s j (inr tt).
Proof.
  intros s j. unfold erase_key. cbn [TransparentDenseModel.ueither_hash ohash]. destruct (deref (get_chain s (hasht t))) as [p|]; [|reflexivity].
  cbn [bind]. apply derase_loop_ext. reflexivity.
Qed.
Lemma orep : forall x e, okey 0%nat (rep x e) = okey 0%nat x.
Proof. intros x e. unfold okey. rewrite rep_key. reflexivity. Qed.
End One.

Lemma eqt_made : forall j ts v x, (j < nk)%nat -> eqt (key_of j x) (ts j) = keq (key_of j x) (key_of j (make ts v)).
Proof.
  intros j ts v x Hj. pose proof (ul_make _ _ _ _ _ _ _ TL j ts v Hj) as Hm. destruct (eqt (key_of j x) (ts j)) eqn:Et; symmetry.
  - apply (ul_same _ _ _ _ _ _ _ TL _ _ (ts j)); assumption.
  - destruct (keq (key_of j x) (key_of j (make ts v))) eqn:Ek; [|reflexivity].
    rewrite (ul_resp _ _ _ _ _ _ _ TL _ _ (ts j) Ek Hm) in Et. discriminate.
Qed.
Lemma hash_made : forall j ts v, (j < nk)%nat -> hasht (ts j) = hash (key_of j (make ts v)).
Proof. intros j ts v Hj. symmetry. apply (ul_hash _ _ _ _ _ _ _ TL). apply (ul_make _ _ _ _ _ _ _ TL). exact Hj. Qed.
Lemma keq_comm : forall a b, keq a b = keq b a.
Proof. intros a b. destruct (keq a b) eqn:H1, (keq b a) eqn:H2; auto; apply (kl_sym _ _ KL) in H1 || apply (kl_sym _ _ KL) in H2; congruence. Qed.
Lemma find_made : forall (s : dense) j ts v, (j < nk)%nat ->
  find_node ueither_key ueither_eq s j (inr (ts j)) (hasht (ts j)) = find_node key_of keq s j (key_of j (make ts v)) (hash (key_of j (make ts v))).
Proof.
  intros s j ts v Hj. rewrite (hash_made j ts v Hj). apply dfind_node_ext. intros e. cbn [TransparentDenseModel.ueither_eq TransparentDenseModel.ueither_key].
  rewrite (eqt_made j ts v e Hj). apply keq_comm.
Qed.
Lemma find_all_made : forall (s : dense) ts v l, (forall j, In j l -> (j < nk)%nat) -> u_find_all key_of keq hasht eqt s ts l = find_all key_of hash keq s (make ts v) l.
Proof.
  intros s ts v l. induction l as [|j l IH]; intros Hl; [reflexivity|]. cbn [u_find_all find_all]. rewrite (find_made s j ts v) by (apply Hl; left; reflexivity).
  destruct (find_node key_of keq s j (key_of j (make ts v)) (hash (key_of j (make ts v)))) as [x|]; [|reflexivity]. cbn [bind]. rewrite IH by (intros i Hi; apply Hl; right; exact Hi). reflexivity.
Qed.
(** With buckets, the chain pointers are not null. *)
Lemma clash_same : forall (s : dense) e l xs, 0 < d_bc s -> find_all key_of hash keq s e l = Ok xs -> u_first_clash s xs = first_clash s xs.
Proof.
  intros s e l. induction l as [|j l IH]; intros xs Hb H; cbn [find_all] in H; [injection H as <-; reflexivity|].
  unfold find_node, get_chain in H. destruct (Z.eqb_spec (d_bc s) 0) as [|_]; [lia|].
  destruct (find_loop _ _ _ _ _ _ _ _) as [[i p]|]; [|discriminate]. cbn [bind fst snd] in H.
  destruct (find_all key_of hash keq s e l) as [ys|] eqn:Ey; [|discriminate]. cbn [bind] in H. injection H as <-.
  cbn [u_first_clash first_clash deref bind]. destruct (load s j p) as [w|]; [|reflexivity]. cbn [bind]. rewrite (IH ys Hb eq_refl). reflexivity.
Qed.

Lemma u_try_ok : forall dlim slim (s : dense) ts v, dwf s -> dlim < 2 ^ 59 -> slim < 2 ^ 60 ->
  exists x, u_try nk key_of keq hasht eqt make dlim slim s ts v = Ok x /\ ins_ok nk key_of hash keq s (make ts v) x.
Proof.
  intros dlim slim s ts v W Hd Hs. unfold u_try. set (e := make ts v) in *. destruct (make_room_ok nk key_of hash keq dlim slim s W Hd Hs) as (s1 & o & H1 & (He & H2) & H3).
  rewrite H1. cbn [bind]. destruct o as [u|]; [|exists (s1, None); split; [reflexivity|split; assumption]].
  destruct (H3 ltac:(discriminate)) as (Hcap & Hbc). pose proof (delems_same _ _ He) as Hde.
  rewrite (find_all_made s1 ts v (js nk)) by (intros j Hj; apply js_in; exact Hj). fold e.
  destruct (wf_lookup nk key_of hash keq rep KL s1 e H2 Hbc) as (xs & Hxs & Hcase). rewrite Hxs. cbn [bind]. rewrite (clash_same s1 e (js nk) xs Hbc Hxs).
  destruct Hcase as [(i & n & Hc & Hn & Hcl)|(Hc & Hno & sl & Hsl & Hm & Hfree)]; rewrite Hc; cbn [bind].
  - eexists. split; [reflexivity|]. cbn [ins_ok]. split; [exact H2|]. split; [exact Hde|]. exists n. split; [exact Hn|]. rewrite <- Hde. exact Hcl.
  - rewrite Hsl. cbn [bind]. unfold emplace_node. rewrite (push_node_ok nk key_of hash keq s1 e H2 Hcap). cbn [bind].
    destruct (commit_gen nk key_of hash keq KL s1 e sl (fun j => hasht (ts j))) as (s2 & n & Hcm & W2 & Hn & Hv & Hde2 & _); auto.
    + intros j Hj. apply hash_made. exact Hj.
    + intros j Hj. apply Hno. apply js_in. exact Hj.
    + intros j p Hjp. apply pushed_free. apply Hfree. exact Hjp.
    + rewrite Hcm. cbn [bind]. eexists. split; [reflexivity|]. cbn [ins_ok]. split; [exact W2|]. split; [rewrite <- Hde; apply (new_of nk key_of hash keq); assumption|]. split; [rewrite Hde2, Hde; reflexivity|]. exists n. auto.
Qed.

Lemma u_assign_ok : forall dlim slim (s : dense) t v, dwf s -> dlim < 2 ^ 59 -> slim < 2 ^ 60 -> nk = 1%nat ->
  exists x, u_assign nk key_of keq rep hasht eqt make dlim slim s t v = Ok x /\ assign_ok nk key_of hash keq rep s (make (fun _ => t) v) x.
Proof.
  intros dlim slim s t v W Hd Hs Hnk. unfold u_assign. set (e := make (fun _ => t) v) in *. destruct (make_room_ok nk key_of hash keq dlim slim s W Hd Hs) as (s1 & o & H1 & (He & H2) & H3).
  rewrite H1. cbn [bind]. destruct o as [u|]; [|exists (s1, None); split; [reflexivity|split; assumption]].
  destruct (H3 ltac:(discriminate)) as (Hcap & Hbc). pose proof (delems_same _ _ He) as Hde. pose proof (w_mem _ _ _ _ _ H2) as Hm.
  assert (H01 : (0 < nk)%nat) by lia. pose proof (find_made s1 0%nat (fun _ => t) v H01) as Hfm. cbv beta in Hfm. rewrite Hfm. fold e. clear Hfm.
  destruct (find_node_gen key_of hash keq KL s1 (live s1) 0%nat (key_of 0%nat e) Hm Hbc) as (b & l & Hb & Hbe & Hs1 & Hnd & Hin & Hlen & Hcase).
  { apply (w_size _ _ _ _ _ H2). }
  { intros i Hi. split; [exact Hi|]. destruct (w_live _ _ _ _ _ H2 i Hi) as (n & Hn). exists n. split; [exact Hn|]. apply (w_hash _ _ _ _ _ H2 i n 0%nat Hn). lia. }
  { apply (w_chain _ _ _ _ _ H2). lia. }
  assert (Hlv : forall x, In x l -> exists n, d_nodes s1 x = Some n) by (intros x Hx; apply (w_live _ _ _ _ _ H2); apply (Hin x); exact Hx).
  destruct Hcase as [(a & i & r & -> & (n & Hn & Hk) & Hf & _)|(Hno & Hf)]; rewrite Hf; cbn [bind].
  - rewrite (load_ok s1 0%nat _ Hm) by (apply vptr_at; [exact Hb|]; intros x Hx; apply Hlv; apply in_or_app; left; exact Hx). cbn [bind].
    rewrite (ldp_at _ _ b a (i :: r) Hs1). cbv iota. destruct (Z.eqb_spec i npos) as [Hi|Hi]; [exfalso; apply (seg_npos _ _ _ i Hs1); [apply in_or_app; right; left; reflexivity|exact Hi]|].
    rewrite (get_node_ok s1 i n Hm Hn). cbn [bind]. rewrite (put_node_ok s1 i n _ Hm Hn). cbn [bind]. eexists. split; [reflexivity|]. cbn [assign_ok].
    destruct (replace_ok nk key_of hash keq rep s1 i n (rep (n_val n) e) H2 Hn) as (W' & a' & b' & Hd1 & Hd2); [intros j Hj; assert (j = 0%nat) by lia; subst j; apply rep_key|].
    split; [exact W'|]. exists (mkn (rep (n_val n) e) (n_hash n) (n_next n)), a', (n_val n), b'. split; [cbn [set_nodes d_nodes]; apply upd_same|]. split; [reflexivity|]. split; [|exact Hd2].
    rewrite <- Hde. split; [exact Hd1|exact Hk].
  - rewrite (load_ok s1 0%nat _ Hm) by (apply vptr_at; [exact Hb|exact Hlv]). cbn [bind]. rewrite (ldp_at _ _ b l []) by (rewrite app_nil_r; exact Hs1). rewrite Z.eqb_refl. cbn [deref bind].
    unfold emplace_node. rewrite (push_node_ok nk key_of hash keq s1 e H2 Hcap). cbn [bind].
    destruct (commit_gen nk key_of hash keq KL s1 e [(0%nat, ptr_at b l)] (fun _ => hasht t)) as (s2 & n & Hcm & W2 & Hn & Hv & Hde2 & _); auto.
    + intros j Hj. exact (hash_made j (fun _ => t) v Hj).
    + intros j Hj. assert (j = 0%nat) by lia. subst j. exact Hno.
    + rewrite Hnk. reflexivity.
    + intros j p [Hjp|[]]. injection Hjp as <- <-. apply pushed_free. exists l. rewrite <- Hbe. auto.
    + rewrite Hcm. cbn [bind]. eexists. split; [reflexivity|]. cbn [assign_ok]. split; [exact W2|]. split; [rewrite <- Hde; apply (absent_iff nk key_of hash keq s1 0%nat _ H2); exact Hno|].
      split; [rewrite Hde2, Hde; reflexivity|]. exists n. auto.
Qed.

Lemma ustep_ok : forall v (s : dense) c, dwf s -> denv_ok v -> ucall_ok nk c ->
  ublocked v s c \/ exists s' r, uexec v s c = Ok (s', r) /\ dwf s' /\ uspec c (delems s) (delems s') r.
Proof.
  intros v s c W Hv Hc. destruct c as [c|j t|j t|j t|ts u|t u]; cbn [ucall_ok] in Hc.
  - destruct (step_ok nk key_of hash keq rep KL rep_key v s c W Hv Hc) as [Hb|(s' & r & E1 & W1 & Hs)]; [left; exact Hb|right].
    exists s', r. split; [exact E1|]. split; [exact W1|]. apply us_on. exact Hs.
  - right. assert (E0 : uexec v s (UFind j t) = dexec nk okey (ohash t) (oeq t) rep v s (DFind j (inr tt))).
    { cbn [TransparentDenseModel.uexec dexec]. unfold find. rewrite (find_o t). reflexivity. }
    rewrite E0. destruct (step_ok nk okey (ohash t) (oeq t) rep (olaws t) orep v s (DFind j (inr tt)) (owf t s W) Hv Hc) as [[Hp|[(_ & j' & k' & Hx)|(_ & s' & Hx & _)]]|(s' & r & E1 & W1 & Hs)].
    + exfalso. apply Hp. exact I.
    + discriminate.
    + cbn [dexec] in Hx. destruct (find _ _ _ _ _ _); discriminate.
    + exists s', r. split; [exact E1|]. split; [apply (owf_back t); exact W1|]. inversion Hs; subst; [apply us_find_absent; assumption| |discriminate].
      match goal with Hl : dlocated _ _ _ _ _ _ _ _ |- _ => destruct Hl as [Lc Lk] end. eapply us_find. split; [exact Lc|exact Lk].
  - right. assert (E0 : uexec v s (UContains j t) = dexec nk okey (ohash t) (oeq t) rep v s (DContains j (inr tt))).
    { cbn [TransparentDenseModel.uexec dexec]. unfold contains. rewrite (find_o t). reflexivity. }
    rewrite E0. destruct (step_ok nk okey (ohash t) (oeq t) rep (olaws t) orep v s (DContains j (inr tt)) (owf t s W) Hv Hc) as [[Hp|[(_ & j' & k' & Hx)|(_ & s' & Hx & _)]]|(s' & r & E1 & W1 & Hs)].
    + exfalso. apply Hp. exact I.
    + discriminate.
    + cbn [dexec] in Hx. destruct (contains _ _ _ _ _ _); discriminate.
    + exists s', r. split; [exact E1|]. split; [apply (owf_back t); exact W1|]. inversion Hs; subst; [apply us_contains_absent; assumption| |discriminate].
      match goal with Hl : dlocated _ _ _ _ _ _ _ _ |- _ => destruct Hl as [Lc Lk] end. eapply us_contains. split; [exact Lc|exact Lk].
  - assert (E0 : uexec v s (UErase j t) = dexec nk okey (ohash t) (oeq t) rep v s (DErase j (inr tt))).
    { cbn [TransparentDenseModel.uexec dexec]. rewrite (erase_o t). reflexivity. }
    rewrite E0. destruct (step_ok nk okey (ohash t) (oeq t) rep (olaws t) orep v s (DErase j (inr tt)) (owf t s W) Hv Hc) as [[Hp|[(Hb & _)|(_ & s' & Hx & _)]]|(s' & r & E1 & W1 & Hs)].
    + exfalso. apply Hp. exact I.
    + left. exact Hb.
    + exfalso. cbn [dexec] in Hx. destruct (erase_key _ _ _ _ _ _ _) as [[s1 p]|]; [|discriminate]. cbn [bind give_next] in Hx. destruct (at_pos s1 p); discriminate.
    + right. exists s', r. split; [exact E1|]. split; [apply (owf_back t); exact W1|]. inversion Hs; subst; [apply us_erase_absent; assumption| |discriminate].
      match goal with Hl : dlocated _ _ _ _ _ _ _ _ |- _ => destruct Hl as [Lc Lk] end. eapply us_erase. split; [exact Lc|exact Lk].
  - destruct Hv as [Hd Hs]. cbn [TransparentDenseModel.uexec]. destruct (u_try_ok (dv_dlim v) (dv_slim v) s ts u W Hd Hs) as ((s', o) & H & Hi). cbn [ins_ok] in Hi.
    assert (Ha : forall i, (i < nk)%nat -> dabsent key_of keq i (key_of i (make ts u)) (delems s) -> uabsent key_of eqt i (ts i) (delems s)).
    { intros i Hi0 Ha x Hx. rewrite (eqt_made i ts u x Hi0). apply Ha. exact Hx. }
    destruct o as [(p, [|])|].
    + right. destruct Hi as (W' & Hnew & Hde & n & Hn & Hnv). rewrite H. cbn [bind give_inserted]. rewrite (get_node_ok s' p n (w_mem _ _ _ _ _ W') Hn). cbn [bind]. rewrite Hnv. eexists _, _. split; [reflexivity|]. split; [exact W'|]. rewrite Hde.
      apply us_try_new. intros j Hj. apply Ha; [exact Hj|apply Hnew; exact Hj].
    + right. destruct Hi as (W' & Hde & n & Hn & (j & Hj & Hin & Hk & Hpre)). rewrite H. cbn [bind give_inserted]. rewrite (get_node_ok s' p n (w_mem _ _ _ _ _ W') Hn). cbn [bind]. eexists _, _. split; [reflexivity|]. split; [exact W'|]. rewrite Hde.
      apply us_try_old. exists j. split; [exact Hj|]. split; [exact Hin|]. split; [rewrite (eqt_made j ts u _ Hj); exact Hk|]. intros i Hij. apply Ha; [lia|apply Hpre; exact Hij].
    + destruct Hi as (He & [W'|(Hb & Hbr)]).
      * right. rewrite H. cbn [bind give_inserted]. eexists _, _. split; [reflexivity|]. split; [exact W'|]. rewrite (delems_same _ _ He). apply us_try_throw.
      * left. cbn [TransparentDenseModel.ublocked]. split; [exact Hb|]. exists s'. cbn [TransparentDenseModel.uexec]. rewrite H. split; [reflexivity|exact Hbr].
  - destruct Hv as [Hd Hs]. cbn [TransparentDenseModel.uexec]. destruct (u_assign_ok (dv_dlim v) (dv_slim v) s t u W Hd Hs Hc) as ((s', o) & H & Hi). cbn [assign_ok] in Hi.
    assert (H01 : (0 < nk)%nat) by lia.
    destruct o as [(p, [|])|].
    + right. destruct Hi as (W' & Hnew & Hde & n & Hn & Hnv). rewrite H. cbn [bind give_inserted]. rewrite (get_node_ok s' p n (w_mem _ _ _ _ _ W') Hn). cbn [bind]. rewrite Hnv. eexists _, _. split; [reflexivity|]. split; [exact W'|]. rewrite Hde.
      apply us_assign_new. intros x Hx. pose proof (eqt_made 0%nat (fun _ => t) u x H01) as Heq. cbv beta in Heq. rewrite Heq. apply Hnew. exact Hx.
    + right. destruct Hi as (W' & n & a & x & b & Hn & Hnv & [Lc Lk] & Hde). rewrite H. cbn [bind give_inserted]. rewrite (get_node_ok s' p n (w_mem _ _ _ _ _ W') Hn). cbn [bind]. rewrite Hnv. eexists _, _. split; [reflexivity|]. split; [exact W'|]. rewrite Hde.
      apply us_assign_old. split; [exact Lc|]. pose proof (eqt_made 0%nat (fun _ => t) u x H01) as Heq. cbv beta in Heq. rewrite Heq. exact Lk.
    + destruct Hi as (He & [W'|(Hb & Hbr)]).
      * right. rewrite H. cbn [bind give_inserted]. eexists _, _. split; [reflexivity|]. split; [exact W'|]. rewrite (delems_same _ _ He). apply us_assign_throw.
      * left. cbn [TransparentDenseModel.ublocked]. split; [exact Hb|]. exists s'. cbn [TransparentDenseModel.uexec]. rewrite H. split; [reflexivity|exact Hbr].
Qed.

Lemma urun_ok : forall h (s : dense), dwf s -> uhistory_ok nk h ->
  (exists s' rs, urun s h = Ok (s', rs) /\ dwf s' /\ uspec_run (map snd h) (delems s) (delems s') rs) \/
  (exists h1 v c h2 s1 rs1, h = h1 ++ (v, c) :: h2 /\ urun s h1 = Ok (s1, rs1) /\ dwf s1 /\ uspec_run (map snd h1) (delems s) (delems s1) rs1 /\ ublocked v s1 c).
Proof.
  induction h as [|(v, c) h IH]; intros s W Hh.
  - left. exists s, []. split; [reflexivity|]. split; [exact W|]. constructor.
  - inversion Hh as [|? ? (Hv & Hc) Hh']; subst. cbn [fst snd] in *.
    destruct (ustep_ok v s c W Hv Hc) as [Hb|(s1 & r & H1 & W1 & Hs1)].
    + right. exists [], v, c, h, s, []. split; [reflexivity|]. split; [reflexivity|]. split; [exact W|]. split; [constructor|exact Hb].
    + destruct (IH s1 W1 Hh') as [(s' & rs & H2 & W2 & Hs2)|(h1 & v' & c' & h2 & s2 & rs1 & -> & H2 & W2 & Hs2 & Hb)].
      * left. exists s', (r :: rs). split; [cbn [TransparentDenseModel.urun]; rewrite H1; cbn [bind]; rewrite H2; reflexivity|]. split; [exact W2|]. cbn [map snd]. econstructor; eassumption.
      * right. exists ((v, c) :: h1), v', c', h2, s2, (r :: rs1). split; [reflexivity|]. split; [cbn [TransparentDenseModel.urun]; rewrite H1; cbn [bind]; rewrite H2; reflexivity|]. split; [exact W2|]. split; [cbn [map snd]; econstructor; eassumption|exact Hb].
Qed.
Lemma utransparent_all : forall h, uhistory_ok nk h ->
  (exists s rs, urun empty_dense h = Ok (s, rs) /\ uspec_run (map snd h) [] (delems s) rs) \/
  (exists h1 v c h2 s1 rs1, h = h1 ++ (v, c) :: h2 /\ urun empty_dense h1 = Ok (s1, rs1) /\ uspec_run (map snd h1) [] (delems s1) rs1 /\ ublocked v s1 c).
Proof.
  intros h Hh. destruct (urun_ok h empty_dense (empty_wf nk key_of hash keq) Hh) as [(s & rs & E1 & _ & Hr)|(h1 & v & c & h2 & s1 & rs1 & E0 & E1 & _ & Hr & Hb)].
  - left. exists s, rs. split; [exact E1|exact Hr].
  - right. exists h1, v, c, h2, s1, rs1. split; [exact E0|]. split; [exact E1|]. split; [exact Hr|exact Hb].
Qed.
End Proofs.
