(** insert_or_assign with the steps of replace on the dense tables. *)
From Coq Require Import ZArith List Bool Lia Permutation.
From Verif Require Import Base BaseLemmas MapSpec DenseSpec DenseModel DenseRun DenseChain DenseInv DenseOps DenseEdit DenseRefine DenseWorldSpec DenseWorld DenseFinal AssignSpec AssignModel.
From Verif Require AssignProofs.
Import ListNotations.
Open Scope Z_scope.

Section Dense.
Context {K V : Type}.
Variable hash : K -> Z.
Variable keq : K -> K -> bool.
Variable clone : K * option V -> K * option V.
Variables pocca pocma : bool.
Hypothesis KL : key_laws hash keq.
Hypothesis Hclone : forall e, fst (clone e) = fst e.
Local Notation elt := (K * option V)%type.
Local Notation dense := (dense elt).
Local Notation key := (@key0 K V).
Local Notation takes := (@takes K V).
Notation dwf := (dwf 1 key hash keq).
Notation doccurs := (doccurs 1 key hash keq takes clone pocca pocma).
Lemma rep_key : forall x e : elt, key 0 (takes x e) = key 0 x.
Proof. reflexivity. Qed.
Lemma clone_key : forall j e, (j < 1)%nat -> key j (clone e) = key j e.
Proof. intros j e _. apply Hclone. Qed.

Definition isnew (s : dense) (o : option _) : res bool := match o with None => Ok false | Some p => let* x := load s 0%nat p in Ok (x =? npos) end.
(** The search of do_insert_or_assign. *)
Lemma lookup1 : forall (s : dense) k, dwf s -> 0 < d_bc s ->
  (exists i n o, find_node key keq s 0 k (hash k) = Ok (i, o) /\ isnew s o = Ok false /\ d_nodes s i = Some n /\ keq (fst (n_val n)) k = true) \/
  (dabsent key keq 0 k (delems s) /\ exists i p, find_node key keq s 0 k (hash k) = Ok (i, Some p) /\ isnew s (Some p) = Ok true).
Proof.
  intros s k W Hbc. pose proof (w_mem _ _ _ _ _ W) as Hm.
  destruct (find_node_gen key hash keq KL s (live s) 0%nat k Hm Hbc) as (b & l & Hb & Hbe & Hs1 & Hnd & Hin & Hlen & Hcase).
  { apply (w_size _ _ _ _ _ W). }
  { intros i Hi. split; [exact Hi|]. destruct (w_live _ _ _ _ _ W i Hi) as (n & Hn). exists n. split; [exact Hn|]. apply (w_hash _ _ _ _ _ W i n 0%nat Hn). lia. }
  { apply (w_chain _ _ _ _ _ W). lia. }
  assert (Hlv : forall x, In x l -> exists n, d_nodes s x = Some n) by (intros x Hx; apply (w_live _ _ _ _ _ W); apply (Hin x); exact Hx).
  destruct Hcase as [(a & i & r & -> & (n & Hn & Hk) & Hf & _)|(Hno & Hf)]; [left|right].
  - eexists i, n, _. split; [exact Hf|]. split; [|split; [exact Hn|exact Hk]]. cbn [isnew].
    rewrite (load_ok s 0%nat _ Hm) by (apply vptr_at; [exact Hb|]; intros x Hx; apply Hlv; apply in_or_app; left; exact Hx). cbn [bind].
    rewrite (ldp_at _ _ b a (i :: r) Hs1). cbv iota. destruct (Z.eqb_spec i npos) as [Hi|Hi]; [exfalso; apply (seg_npos _ _ _ i Hs1); [apply in_or_app; right; left; reflexivity|exact Hi]|reflexivity].
  - split; [apply (absent_iff 1 key hash keq s 0%nat _ W); exact Hno|]. eexists _, _. split; [exact Hf|]. cbn [isnew].
    rewrite (load_ok s 0%nat _ Hm) by (apply vptr_at; [exact Hb|exact Hlv]). cbn [bind]. rewrite (ldp_at _ _ b l []) by (rewrite app_nil_r; exact Hs1). rewrite Z.eqb_refl. reflexivity.
Qed.

Lemma node_at : forall (s : dense) i e, dwf s -> 0 <= i -> nth_error (delems s) (Z.to_nat i) = Some e -> exists n, d_nodes s i = Some n /\ n_val n = e.
Proof.
  intros s i e W Hi Hx. assert (Hlt : (Z.to_nat i < length (delems s))%nat) by (apply nth_error_Some; congruence). rewrite (delems_len 1 key hash keq s W) in Hlt.
  assert (Hl : live s i) by (pose proof (w_size _ _ _ _ _ W); unfold live; lia). destruct (w_live _ _ _ _ _ W _ Hl) as (n & Hn). exists n. split; [exact Hn|].
  rewrite (delems_nth 1 key hash keq s i W Hl) in Hx. unfold val in Hx. rewrite Hn in Hx. cbn [option_map] in Hx. congruence.
Qed.
Lemma whole_node : forall (s : dense) i n, dwf s -> whole (delems s) -> d_nodes s i = Some n -> exists x, snd (n_val n) = Some x.
Proof.
  intros s i n W Hw Hn. destruct (snd (n_val n)) as [x|] eqn:Ex; [eauto|]. exfalso. apply (Hw (n_val n)); [|exact Ex]. apply (delems_in 1 key hash keq s _ W). exists i, n. auto.
Qed.
Lemma put_at : forall (s : dense) i n o, dwf s -> d_nodes s i = Some n ->
  d_put s i n o = Ok (set_nodes s (upd (d_nodes s) i (Some (mkn (fst (n_val n), o) (n_hash n) (n_next n))))).
Proof. intros s i n o W Hn. unfold d_put. apply (put_node_ok s i n _ (w_mem _ _ _ _ _ W) Hn). Qed.

Lemma assign_same : forall triv v (s : dense) k a x, dwf s -> denv_ok v -> whole (delems s) -> ddenotes s a x ->
  match a with Outside _ => True | Slot i => d_size s < d_cap s /\ (triv = true \/ forall e, nth_error (delems s) (Z.to_nat i) = Some e -> keq (fst e) k = false) end ->
  d_assign hash keq triv true v s k a = do_insert_or_assign 1 key hash keq takes (dv_dlim v) (dv_slim v) true s (k, Some x).
Proof.
  intros triv v s k a x W (Hv1 & Hv2) Hw Hx Ha. unfold d_assign, do_insert_or_assign.
  destruct (make_room_ok 1 key hash keq (dv_dlim v) (dv_slim v) s W Hv1 Hv2) as (s1 & o & Em & (He & Hr) & Hc). rewrite Em. cbn [bind fst snd]. destruct o as [u|]; [|reflexivity].
  destruct (Hc ltac:(discriminate)) as (_ & Hbc). pose proof (delems_same _ _ He) as Hde. rewrite <- Hde in Hw.
  assert (Hfr : match a with Outside _ => false | Slot _ => negb (d_cap s1 =? d_cap s) end = false).
  { destruct a as [z|i]; [reflexivity|]. destruct Ha as (Hroom & _). unfold make_room, maybe_resize in Em. destruct (Z.eqb_spec (d_cap s) (d_size s)); [lia|]. cbn [bind] in Em.
    destruct (maybe_rehash_ok 1 key hash keq (dv_slim v) s W Hv2) as (s2 & o2 & E2 & _ & Hc2). rewrite E2 in Em. injection Em as -> ->. destruct (Hc2 ltac:(discriminate)) as (-> & _). rewrite Z.eqb_refl. reflexivity. }
  rewrite Hfr.
  assert (Hval : forall t p n, dwf s1 -> (t = s1 \/ (triv = false /\ keq (fst (n_val n)) k = true /\ d_nodes s1 p = Some n /\ t = set_nodes s1 (upd (d_nodes s1) p (Some (mkn (fst (n_val n), None) (n_hash n) (n_next n)))))) -> d_value t a = Ok x).
  { intros t p n _ Ht. destruct a as [z|i]; cbn [d_value ddenotes] in *; [congruence|]. destruct Hx as (Hi & k0 & Hx). rewrite <- Hde in Hx. destruct (node_at s1 i _ Hr Hi Hx) as (m & Hm & Hmv).
    destruct Ht as [->|(Htr & Hk & Hn & ->)].
    - rewrite (get_node_ok s1 i m (w_mem _ _ _ _ _ Hr) Hm). cbn [bind]. rewrite Hmv. reflexivity.
    - assert (Hip : i <> p). { intros ->. rewrite Hn in Hm. injection Hm as ->. destruct Ha as (_ & [Ht|Hk']); [congruence|]. rewrite <- Hde in Hk'. rewrite (Hk' _ Hx) in Hk || (rewrite Hmv in Hk; rewrite (Hk' _ Hx) in Hk). discriminate. }
      destruct (replace_ok 1 key hash keq takes s1 p n (fst (n_val n), None) Hr Hn) as (W' & _); [reflexivity|].
      rewrite (get_node_ok _ i m (w_mem _ _ _ _ _ W')) by (cbn [set_nodes d_nodes]; rewrite upd_other by exact Hip; exact Hm). cbn [bind]. rewrite Hmv. reflexivity. }
  change (key 0 (k, Some x)) with k.
  destruct (lookup1 s1 k Hr Hbc) as [(i & n & o & Ef & En & Hn & Hk)|(_ & i & p & Ef & En)]; rewrite Ef; cbn [bind fst snd]; [fold (isnew s1 o)|fold (isnew s1 (Some p))]; rewrite En; cbn [bind].
  - unfold d_replace. rewrite (get_node_ok s1 i n (w_mem _ _ _ _ _ Hr) Hn). cbn [bind]. rewrite (put_node_ok s1 i n _ (w_mem _ _ _ _ _ Hr) Hn). cbn [bind].
    destruct (whole_node s1 i n Hr Hw Hn) as (y & Hy). destruct triv; cbn [bind].
    + rewrite (Hval s1 i n Hr (or_introl eq_refl)). cbn [bind]. rewrite (put_at s1 i n _ Hr Hn). reflexivity.
    + unfold mapped at 1. rewrite Hy. cbn [bind]. rewrite (put_at s1 i n None Hr Hn). cbn [bind]. rewrite (Hval _ i n Hr (or_intror (conj eq_refl (conj Hk (conj Hn eq_refl))))). cbn [bind]. rewrite (put_at s1 i n _ Hr Hn). reflexivity.
  - cbn [deref bind]. rewrite (Hval s1 0 (mkn (k, None) (fun _ => 0) (fun _ => 0)) Hr (or_introl eq_refl)). cbn [bind].
    destruct (emplace_node true s1 [(0%nat, p)] (fun _ => hash k) (k, Some x)) as [[s2 o2]|] eqn:Ee; unfold key0; cbn [fst]; rewrite Ee; reflexivity.
Qed.

Lemma destroy_wf : forall s : dense, dwf s ->
  (whole (delems s) -> d_destroy s = Ok tt) /\ ((exists e, In e (delems s) /\ snd e = None) -> d_destroy s = Err DeadObject).
Proof.
  intros s W. unfold d_destroy. set (g := fun i => let* n := get_node s i in let* _ := mapped (n_val n) in Ok tt).
  assert (Hg : forall i, live s i -> exists n, d_nodes s i = Some n /\ g i = let* _ := mapped (n_val n) in Ok tt).
  { intros i Hi. destruct (w_live _ _ _ _ _ W i Hi) as (n & Hn). exists n. split; [exact Hn|]. unfold g. rewrite (get_node_ok s i n (w_mem _ _ _ _ _ W) Hn). reflexivity. }
  split.
  - intros Hw. apply (AssignProofs.foldM_fine g). intros i Hi. apply zrange_In in Hi. destruct (Hg i Hi) as (n & Hn & ->). destruct (whole_node s i n W Hw Hn) as (x & Hx). unfold mapped. rewrite Hx. reflexivity.
  - intros (e & He & Hd). apply (AssignProofs.foldM_dead g).
    + intros i Hi. apply zrange_In in Hi. destruct (Hg i Hi) as (n & Hn & ->). unfold mapped. destruct (snd (n_val n)); cbn [bind]; auto.
    + apply (delems_in 1 key hash keq s _ W) in He. destruct He as (i & n & Hn & Hv). pose proof (node_live 1 key hash keq s i n W Hn) as Hl. exists i. split; [apply zrange_In; exact Hl|].
      destruct (Hg i Hl) as (n' & Hn' & ->). rewrite Hn in Hn'. injection Hn' as <-. rewrite Hv. unfold mapped. rewrite Hd. reflexivity.
Qed.

Lemma step_whole : forall k x l l' r, dspec 1 key keq takes (DAssign (k, Some x)) l l' r -> whole l -> whole l'.
Proof.
  intros k x l l' r Hst Hw e He. inversion Hst; subst.
  - apply in_app_iff in He. destruct He as [He|[<-|[]]]; [apply Hw; exact He|discriminate].
  - match goal with P : dlocated _ _ _ _ _ _ _ _ |- _ => destruct P as (-> & _) end. apply in_app_iff in He. destruct He as [He|[<-|He]]; [|discriminate|]; apply Hw; apply in_app_iff; [left|right; right]; exact He.
  - apply Hw. exact He.
Qed.

Lemma assign_final : forall triv v (s : dense) k a x, doccurs s -> denv_ok v -> whole (delems s) -> ddenotes s a x ->
  match a with Outside _ => True | Slot i => d_size s < d_cap s /\ (triv = true \/ forall e, nth_error (delems s) (Z.to_nat i) = Some e -> keq (fst e) k = false) end ->
  exists s' r, (let* y := d_assign hash keq triv true v s k a in give_inserted y) = Ok (s', r) /\
    dspec 1 key keq takes (DAssign (k, Some x)) (delems s) (delems s') r /\ whole (delems s') /\ (r <> QThrow -> d_destroy s' = Ok tt).
Proof.
  intros triv v s k a x Hs Hv Hw Hx Ha. apply (occurs_wf 1 key hash keq takes clone pocca pocma KL rep_key clone_key) in Hs. rewrite (assign_same triv v s k a x) by assumption.
  destruct Hv as (Hv1 & Hv2). destruct (do_assign_ok 1 key hash keq takes KL rep_key (dv_dlim v) (dv_slim v) s (k, Some x) Hs Hv1 Hv2 eq_refl) as ((s' & o) & -> & Hok). cbn [bind give_inserted].
  destruct o as [(p, [|])|]; cbn [assign_ok] in Hok.
  - destruct Hok as (W' & Hab & Hde & n & Hn & Hvn). rewrite (get_node_ok s' p n (w_mem _ _ _ _ _ W') Hn). cbn [bind]. rewrite Hvn. eexists _, _. split; [reflexivity|].
    assert (Hst : dspec 1 key keq takes (DAssign (k, Some x)) (delems s) (delems s') (QInserted (k, Some x) true)) by (rewrite Hde; constructor; exact Hab).
    split; [exact Hst|]. pose proof (step_whole _ _ _ _ _ Hst Hw) as Hw'. split; [exact Hw'|]. intros _. apply (destroy_wf s' W'). exact Hw'.
  - destruct Hok as (W' & n & a' & x' & b' & Hn & Hvn & Hl & Hde). rewrite (get_node_ok s' p n (w_mem _ _ _ _ _ W') Hn). cbn [bind]. rewrite Hvn. eexists _, _. split; [reflexivity|].
    assert (Hst : dspec 1 key keq takes (DAssign (k, Some x)) (delems s) (delems s') (QInserted (takes x' (k, Some x)) false)) by (rewrite Hde; econstructor; exact Hl).
    split; [exact Hst|]. pose proof (step_whole _ _ _ _ _ Hst Hw) as Hw'. split; [exact Hw'|]. intros _. apply (destroy_wf s' W'). exact Hw'.
  - destruct Hok as (He & _). eexists _, _. split; [reflexivity|]. rewrite (delems_same _ _ He). split; [constructor; reflexivity|]. split; [exact Hw|]. congruence.
Qed.

(** The slot of a present key. *)
Lemma found_slot : forall (s : dense) i k0 o k, dwf s -> 0 <= i -> nth_error (delems s) (Z.to_nat i) = Some (k0, o) -> keq k0 k = true -> 0 < d_bc s ->
  exists n q, find_node key keq s 0 k (hash k) = Ok (i, q) /\ isnew s q = Ok false /\ d_nodes s i = Some n /\ n_val n = (k0, o) /\ get_node s i = Ok n.
Proof.
  intros s i k0 o k W Hi Hx Hk Hbc. destruct (node_at s i _ W Hi Hx) as (n & Hn & Hv). pose proof (w_mem _ _ _ _ _ W) as Hm.
  destruct (lookup1 s k W Hbc) as [(j & m & q & Ef & En & Hmn & Hkm)|(Hab & _)].
  - assert (j = i). { apply (w_uniq _ _ _ _ _ W j i m n 0%nat); try assumption; [lia|]. unfold key0. rewrite Hv. cbn [fst]. apply (kl_trans _ _ KL _ k); [exact Hkm|]. apply (kl_sym _ _ KL). exact Hk. }
    subst j. exists n, q. repeat split; try assumption. apply get_node_ok; assumption.
  - exfalso. specialize (Hab (k0, o)). unfold key0 in Hab. cbn [fst] in Hab. rewrite Hab in Hk; [discriminate|]. apply (delems_in 1 key hash keq s _ W). exists i, n. auto.
Qed.

(** Any call whose argument refers to the element it replaces. *)
Lemma assign_self : forall ctor v (s : dense) i k0 o k, doccurs s -> denv_ok v -> 0 <= i -> nth_error (delems s) (Z.to_nat i) = Some (k0, o) -> keq k0 k = true ->
  d_assign hash keq false ctor v s k (Slot i) = Err DeadObject \/ d_assign hash keq false ctor v s k (Slot i) = Err UseAfterFree \/
  exists s', d_assign hash keq false ctor v s k (Slot i) = Ok (s', None) /\ make_room 1 (dv_dlim v) (dv_slim v) s = Ok (s', None).
Proof.
  intros ctor v s i k0 o k Hs (Hv1 & Hv2) Hi Hx Hk. apply (occurs_wf 1 key hash keq takes clone pocca pocma KL rep_key clone_key) in Hs. unfold d_assign.
  destruct (make_room_ok 1 key hash keq (dv_dlim v) (dv_slim v) s Hs Hv1 Hv2) as (s1 & q & Em & (He & Hr) & Hc). rewrite Em. cbn [bind fst snd]. destruct q as [u|]; [|right; right; exists s1; auto].
  destruct (Hc ltac:(discriminate)) as (_ & Hbc). rewrite <- (delems_same _ _ He) in Hx. destruct (found_slot s1 i k0 o k Hr Hi Hx Hk Hbc) as (n & q & Ef & En & Hn & Hvn & Eg).
  rewrite Ef. cbn [bind fst snd]. fold (isnew s1 q). rewrite En. cbn [bind]. unfold d_replace. rewrite Eg. cbn [bind]. unfold mapped at 1. rewrite Hvn. cbn [snd]. destruct o as [x|]; cbn [bind]; [|auto].
  rewrite (put_at s1 i n None Hr Hn). cbn [bind]. destruct (negb (d_cap s1 =? d_cap s)); cbn [bind]; [auto|]. left. cbn [d_value].
  destruct (replace_ok 1 key hash keq takes s1 i n (fst (n_val n), None) Hr Hn) as (W' & _); [reflexivity|].
  rewrite (get_node_ok _ i (mkn (fst (n_val n), None) (n_hash n) (n_next n)) (w_mem _ _ _ _ _ W')); [reflexivity|]. cbn [set_nodes d_nodes]. apply upd_same.
Qed.

(** Any call with a reference argument while the element array is full. *)
Lemma assign_freed : forall triv ctor v (s : dense) i k, doccurs s -> denv_ok v -> whole (delems s) -> d_size s = d_cap s ->
  d_assign hash keq triv ctor v s k (Slot i) = Err UseAfterFree \/
  exists s', d_assign hash keq triv ctor v s k (Slot i) = Ok (s', None) /\ make_room 1 (dv_dlim v) (dv_slim v) s = Ok (s', None).
Proof.
  intros triv ctor v s i k Hs (Hv1 & Hv2) Hw Hfull. apply (occurs_wf 1 key hash keq takes clone pocca pocma KL rep_key clone_key) in Hs. unfold d_assign.
  destruct (make_room_ok 1 key hash keq (dv_dlim v) (dv_slim v) s Hs Hv1 Hv2) as (s1 & q & Em & (He & Hr) & Hc). rewrite Em. cbn [bind fst snd]. destruct q as [u|]; [|right; exists s1; auto]. left.
  destruct (Hc ltac:(discriminate)) as (Hcap & Hbc). rewrite <- (delems_same _ _ He) in Hw. destruct He as (Hsz & _).
  destruct (Z.eqb_spec (d_cap s1) (d_cap s)) as [Eq|_]; [lia|]. cbn [negb].
  destruct (lookup1 s1 k Hr Hbc) as [(j & n & o & Ef & En & Hn & Hk)|(_ & j & p & Ef & En)]; rewrite Ef; cbn [bind fst snd]; [fold (isnew s1 o)|fold (isnew s1 (Some p))]; rewrite En; cbn [bind deref]; [|reflexivity].
  unfold d_replace. rewrite (get_node_ok s1 j n (w_mem _ _ _ _ _ Hr) Hn). cbn [bind]. destruct (whole_node s1 j n Hr Hw Hn) as (y & Hy). destruct triv; cbn [bind]; [reflexivity|].
  unfold mapped. rewrite Hy. cbn [bind]. rewrite (put_at s1 j n None Hr Hn). reflexivity.
Qed.

(** A throwing constructor of the new mapped value. *)
Lemma assign_throws : forall v (s : dense) i k0 x k y, doccurs s -> denv_ok v -> 0 <= i -> nth_error (delems s) (Z.to_nat i) = Some (k0, Some x) -> keq k0 k = true ->
  (exists s' u, make_room 1 (dv_dlim v) (dv_slim v) s = Ok (s', Some u)) ->
  exists s', d_assign hash keq false false v s k (Outside y) = Ok (s', None) /\ nth_error (delems s') (Z.to_nat i) = Some (k0, None) /\
    d_destroy s' = Err DeadObject /\ d_read hash keq s' k = Err DeadObject.
Proof.
  intros v s i k0 x k y Hs (Hv1 & Hv2) Hi Hx Hk (s0 & u0 & Em0). apply (occurs_wf 1 key hash keq takes clone pocca pocma KL rep_key clone_key) in Hs. unfold d_assign.
  destruct (make_room_ok 1 key hash keq (dv_dlim v) (dv_slim v) s Hs Hv1 Hv2) as (s1 & q & Em & (He & Hr) & Hc). rewrite Em0 in Em. injection Em as -> <-. rewrite Em0. cbn [bind fst snd].
  destruct (Hc ltac:(discriminate)) as (_ & Hbc). rewrite <- (delems_same _ _ He) in Hx. destruct (found_slot s1 i k0 (Some x) k Hr Hi Hx Hk Hbc) as (n & q & Ef & En & Hn & Hvn & Eg).
  rewrite Ef. cbn [bind fst snd]. fold (isnew s1 q). rewrite En. cbn [bind]. unfold d_replace. rewrite Eg. cbn [bind]. unfold mapped at 1. rewrite Hvn. cbn [snd bind].
  rewrite (put_at s1 i n None Hr Hn). cbn [bind d_value fst snd]. eexists. split; [reflexivity|]. rewrite Hvn. cbn [fst].
  destruct (replace_ok 1 key hash keq takes s1 i n (k0, None) Hr Hn) as (W' & _); [intros; unfold key0; rewrite Hvn; reflexivity|]. set (s' := set_nodes s1 _) in *.
  assert (Hn' : d_nodes s' i = Some (mkn (k0, None) (n_hash n) (n_next n))) by (unfold s'; cbn [set_nodes d_nodes]; apply upd_same).
  assert (Hx' : nth_error (delems s') (Z.to_nat i) = Some (k0, None)).
  { rewrite (delems_nth 1 key hash keq s' i W' (node_live 1 key hash keq s' i _ W' Hn')). unfold val. rewrite Hn'. reflexivity. }
  split; [exact Hx'|]. split; [apply (destroy_wf s' W'); exists (k0, None); split; [apply nth_error_In with (Z.to_nat i); exact Hx'|reflexivity]|].
  assert (Hbc' : 0 < d_bc s') by exact Hbc. destruct (found_slot s' i k0 None k W' Hi Hx' Hk Hbc') as (m & q' & Ef' & _ & Hm & Hvm & Eg').
  unfold d_read, find. rewrite Ef'. cbn [bind fst]. pose proof (node_live 1 key hash keq s' i m W' Hm) as Hl. unfold live in Hl. destruct (Z.eqb_spec i (d_size s')); [lia|]. rewrite Eg'. cbn [bind]. rewrite Hvm. reflexivity.
Qed.
End Dense.
