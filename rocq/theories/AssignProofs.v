(** insert_or_assign with the steps of replace on the sparse tables. *)
From Coq Require Import ZArith List Bool Lia Permutation.
From Verif Require Import Base BaseLemmas Bits MapSpec WorldSpec SwissModel SwissInv SwissOps SwissIter SwissRoom SwissRun SwissRefine SwissFinal World WorldProofs WorldFinal AssignSpec AssignModel.
Import ListNotations.
Open Scope Z_scope.

(** A loop none of whose steps fails otherwise than by the use of a dead object. *)
Lemma foldM_dead : forall {A} (g : A -> res unit) l, (forall x, In x l -> g x = Ok tt \/ g x = Err DeadObject) ->
  (exists x, In x l /\ g x = Err DeadObject) -> foldM (fun _ x => g x) l tt = Err DeadObject.
Proof.
  intros A g l. induction l as [|y l IH]; intros Hs (x & Hx & Hd); [contradiction|]. cbn [foldM].
  destruct (Hs y (or_introl eq_refl)) as [Hy|Hy]; rewrite Hy; cbn [bind]; [|reflexivity].
  apply IH; [intros z Hz; apply Hs; right; exact Hz|]. destruct Hx as [->|Hx]; [congruence|]. exists x. auto.
Qed.
Lemma foldM_fine : forall {A} (g : A -> res unit) l, (forall x, In x l -> g x = Ok tt) -> foldM (fun _ x => g x) l tt = Ok tt.
Proof.
  intros A g l. induction l as [|y l IH]; intros Hs; [reflexivity|]. cbn [foldM]. rewrite (Hs y (or_introl eq_refl)). cbn [bind]. apply IH. intros z Hz. apply Hs. right. exact Hz.
Qed.

Section Sparse.
Context {K V : Type}.
Variable f : simd.
Variable hash : K -> Z.
Variable keq : K -> K -> bool.
Hypothesis KL : key_laws hash keq.
Local Notation elt := (K * option V)%type.
Local Notation swiss := (@swiss elt).
Local Notation wf := (SwissInv.wf f (@fst K (option V)) hash keq).
Local Notation takes := (@takes K V).
Lemma Rep : forall a b : elt, keq (fst a) (fst b) = true -> fst (takes a b) = fst a.
Proof. reflexivity. Qed.

Lemma whole_at : forall (s : swiss) i e, whole (elems s) -> holds s i e -> exists x, snd e = Some x.
Proof.
  intros s i e Hw (Hi & h & Hn). destruct (snd e) as [x|] eqn:Ex; [eauto|]. exfalso. apply (Hw e); [|exact Ex]. apply elems_In. exists i. split; [exact Hi|]. exists h. exact Hn.
Qed.

Lemma assign_same : forall triv v (s : swiss) k a x, wf s -> env_ok v -> whole (elems s) -> denotes s a x ->
  (ev_ctor v = true \/ absent fst keq k (elems s)) ->
  match a with Outside _ => True | Slot i => (0 < s_nempty s \/ ~ absent fst keq k (elems s)) /\ (triv = true \/ forall e, holds s i e -> keq (fst e) k = false) end ->
  s_assign f hash keq triv v s k a = do_insert_or_assign f fst hash keq takes (ev_lim v) (ev_ctor v) s (k, Some x).
Proof.
  intros triv v s k a x Hs Hv Hw Hx Hc Ha. unfold s_assign, do_insert_or_assign. cbn [fst].
  destruct (find_located f fst hash keq KL s k Hs) as (r & -> & Hr). cbn [bind].
  destruct Hr as [(e & h & W1 & Hr & En & Eg & Hav & Hl)|(-> & Habs)].
  - destruct (Z.eqb_spec r (s_cap s)); [lia|]. unfold s_replace. rewrite Eg. cbn [bind fst snd].
    assert (Hhr : holds s r e) by (split; [exact Hr|exists h; exact En]).
    destruct (whole_at s r e Hw Hhr) as (y & Hy).
    assert (Hctor : ev_ctor v = true). { destruct Hc as [Hc|Hc]; [exact Hc|]. exfalso. destruct Hl as (Hl & Hk). rewrite (Hc e) in Hk; [discriminate|]. rewrite Hl. apply in_or_app. right. left. reflexivity. }
    rewrite Hctor.
    assert (Hval : forall t : swiss, t = s \/ (triv = false /\ t = s_put s r (e, h) None) -> s_value t a = Ok x).
    { intros t Ht. destruct a as [z|i]; cbn [s_value denotes] in *; [congruence|]. destruct Hx as (k0 & Hi & h0 & Hn).
      pose proof (mw_buf f s (w_m _ _ _ _ s W1)) as Hb. destruct Ht as [->|(Htr & ->)].
      - rewrite (get_node_ok s i _ Hb Hi Hn). reflexivity.
      - assert (Hir : i <> r). { intros ->. rewrite En in Hn. injection Hn as -> ->. destruct Ha as (_ & [Ht|Hk]); [congruence|]. destruct Hl as (_ & Hk'). rewrite (Hk _ Hhr) in Hk'. discriminate. }
        rewrite (get_node_ok (s_put s r (e, h) None) i ((k0, Some x), h0) Hb Hi); [reflexivity|]. cbn [s_put s_nodes]. rewrite upd_other by exact Hir. exact Hn. }
    destruct triv; cbn [bind].
    + rewrite (Hval s (or_introl eq_refl)). reflexivity.
    + unfold mapped at 1. rewrite Hy. cbn [bind]. rewrite (Hval _ (or_intror (conj eq_refl eq_refl))). reflexivity.
  - rewrite Z.eqb_refl. destruct (make_room_ok f fst hash keq KL (ev_lim v) s (hash k) Hs Hv) as (s1 & o & E1 & _ & Hroom). rewrite E1. cbn [bind fst snd]. destruct o as [[p tr]|].
    + assert (Hval : (match a with Outside x => Ok x | Slot _ => if s_cap s1 =? s_cap s then s_value s1 a else Err UseAfterFree end) = Ok x).
      { destruct a as [z|i]; cbn [denotes s_value] in *; [congruence|]. destruct Ha as ([Hn|Hn] & _); [|contradiction]. destruct Hx as (k0 & Hi & h0 & Hn0).
        destruct (Hroom ltac:(lia) Hn) as (-> & _). rewrite Z.eqb_refl.
        assert (Hb : s_buf s = Live) by (destruct Hs as [H0|H1]; [pose proof (w0_cap s H0); lia|apply (mw_buf f s (w_m _ _ _ _ s H1))]).
        rewrite (get_node_ok s i _ Hb Hi Hn0). reflexivity. }
      rewrite Hval. cbn [bind]. destruct (emplace_node f (ev_lim v) (ev_ctor v) s (hash k) (k, Some x)) as [[s2 o2]|]; reflexivity.
    + unfold emplace_node. rewrite E1. reflexivity.
Qed.

Lemma destroy_wf : forall s : swiss, wf s ->
  (whole (elems s) -> s_destroy f s = Ok tt) /\ ((exists e, In e (elems s) /\ snd e = None) -> s_destroy f s = Err DeadObject).
Proof.
  intros s Hs. unfold s_destroy. destruct (wf_size f fst hash keq s Hs) as (Hl & _). destruct (Z.eqb_spec (s_size s) 0) as [Hz|Hz].
  - split; [reflexivity|]. intros (e & He & _). exfalso. destruct (elems s); [contradiction|]. cbn [length] in Hl. lia.
  - destruct Hs as [H0|W1]; [exfalso; apply Hz; apply (w0_size _ H0)|]. pose proof (w_m _ _ _ _ s W1) as M. pose proof (w_n _ _ _ _ s W1) as N. pose proof (mw_buf f s M) as Hb.
    set (g := fun i => let* b := get_meta f s i in if is_occupied b then let* n := get_node s i in let* _ := mapped (fst n) in Ok tt else Ok tt).
    assert (Hg : forall i, 0 <= i < s_cap s -> g i = match s_nodes s i with Some n => let* _ := mapped (fst n) in Ok tt | None => Ok tt end).
    { intros i Hi. unfold g. rewrite (get_meta_ok f s i Hb) by (pose proof (W_pos f); lia). cbn [bind]. pose proof (proj1 N i Hi) as Hni. destruct (s_nodes s i) as [[e h]|] eqn:En.
      - destruct Hni as (_ & ->). rewrite occ_h2. rewrite (get_node_ok s i _ Hb Hi En). reflexivity.
      - unfold is_available in Hni. unfold is_occupied. apply Z.ltb_lt in Hni. destruct (Z.ltb_spec m_sentinel (s_meta s i)); [lia|reflexivity]. }
    split.
    + intros Hw. apply (foldM_fine g). intros i Hi. apply zrange_In in Hi. rewrite (Hg i Hi). destruct (s_nodes s i) as [[e h]|] eqn:En; [|reflexivity].
      destruct (whole_at s i e Hw ltac:(split; [exact Hi|exists h; exact En])) as (x & Hx). unfold mapped. cbn [fst]. rewrite Hx. reflexivity.
    + intros (e & He & Hd). apply (foldM_dead g).
      * intros i Hi. apply zrange_In in Hi. rewrite (Hg i Hi). destruct (s_nodes s i) as [[[k o] h]|]; [|auto]. unfold mapped. cbn [fst snd]. destruct o; cbn [bind]; auto.
      * apply elems_In in He. destruct He as (i & Hi & h & En). exists i. split; [apply zrange_In; exact Hi|]. rewrite (Hg i Hi), En. unfold mapped. cbn [fst]. rewrite Hd. reflexivity.
Qed.

Lemma step_whole : forall k x l l' r, spec_step fst keq takes (CAssign (k, Some x)) l l' r -> whole l -> whole l'.
Proof.
  intros k x l l' r Hst Hw e He. inversion Hst; subst.
  - match goal with P : Permutation _ _ |- _ => apply (Permutation_in e P) in He end. destruct He as [<-|He]; [discriminate|apply Hw; exact He].
  - match goal with P : located _ _ _ _ _ _ _ |- _ => destruct P as (-> & _) end. apply in_app_iff in He. destruct He as [He|[<-|He]]; [|discriminate|]; apply Hw; apply in_app_iff; [left|right; right]; exact He.
  - match goal with P : Permutation _ _ |- _ => apply (Permutation_in e P) in He end. apply Hw. exact He.
Qed.

Lemma assign_final : forall triv v (s : swiss) k a x, occurs f fst hash keq takes s -> env_ok v -> whole (elems s) -> denotes s a x ->
  (ev_ctor v = true \/ absent fst keq k (elems s)) ->
  match a with Outside _ => True | Slot i => (0 < s_nempty s \/ ~ absent fst keq k (elems s)) /\ (triv = true \/ forall e, holds s i e -> keq (fst e) k = false) end ->
  exists s' r, (let* y := s_assign f hash keq triv v s k a in give_inserted f y) = Ok (s', r) /\
    spec_step fst keq takes (CAssign (k, Some x)) (elems s) (elems s') r /\ whole (elems s') /\ s_destroy f s' = Ok tt.
Proof.
  intros triv v s k a x Hs Hv Hw Hx Hc Ha. apply (occ_wf f fst hash keq KL takes Rep) in Hs. rewrite (assign_same triv v s k a x) by assumption.
  destruct (exec_ok f fst hash keq KL takes Rep v s (CAssign (k, Some x)) Hs Hv I) as [(s' & r & E1 & (W' & _) & Hst)|(_ & Hno & _)]; [|contradiction Hno].
  exists s', r. split; [exact E1|]. split; [exact Hst|]. pose proof (step_whole k x _ _ _ Hst Hw) as Hw'. split; [exact Hw'|]. apply (destroy_wf s' W'). exact Hw'.
Qed.

(** The slot of a present key. *)
Lemma found_slot : forall (s : swiss) i k0 o k, wf s -> holds s i (k0, o) -> keq k0 k = true ->
  find_node f fst keq s k (hash k) = Ok i /\ wf1 f fst hash keq s /\ i <> s_cap s /\ exists h, s_nodes s i = Some ((k0, o), h) /\ get_node s i = Ok ((k0, o), h).
Proof.
  intros s i k0 o k Hs (Hi & h & Hn) Hk. destruct (wf_some f fst hash keq s i _ Hs Hn) as [W1 _].
  destruct (find_located f fst hash keq KL s k Hs) as (r & Er & Hr). destruct Hr as [(e & h' & _ & Hr & En & Eg & _ & (_ & Hk'))|(_ & Habs)].
  - assert (r = i). { apply (w_u _ _ _ _ s W1 r i _ _ _ _ En Hn). cbn [fst]. apply (kl_trans _ _ KL _ k); [exact Hk'|]. apply (kl_sym _ _ KL). exact Hk. }
    subst r. split; [exact Er|]. split; [exact W1|]. split; [lia|]. exists h. split; [exact Hn|]. apply get_node_ok; [apply (mw_buf f s (w_m _ _ _ _ s W1))|exact Hi|exact Hn].
  - exfalso. specialize (Habs (k0, o)). cbn [fst] in Habs. rewrite Habs in Hk; [discriminate|]. apply elems_In. exists i. split; [exact Hi|]. exists h. exact Hn.
Qed.

Lemma assign_self_wf : forall v (s : swiss) i k0 o k, wf s -> holds s i (k0, o) -> keq k0 k = true ->
  s_assign f hash keq false v s k (Slot i) = Err DeadObject.
Proof.
  intros v s i k0 o k Hs Hi Hk. destruct (found_slot s i k0 o k Hs Hi Hk) as (Ef & W1 & Hc & h & Hn & Eg).
  unfold s_assign. rewrite Ef. cbn [bind]. destruct (Z.eqb_spec i (s_cap s)); [contradiction|]. unfold s_replace. rewrite Eg. cbn [bind]. unfold mapped at 1. cbn [fst snd]. destruct o as [x|]; cbn [bind]; [|reflexivity].
  cbn [s_value]. destruct Hi as (Hi & _). rewrite (get_node_ok _ i ((k0, None), h)); [reflexivity|apply (mw_buf f s (w_m _ _ _ _ s W1))|exact Hi|]. cbn [s_put s_nodes fst snd]. apply upd_same.
Qed.
Lemma assign_self : forall v (s : swiss) i k0 o k, occurs f fst hash keq takes s -> holds s i (k0, o) -> keq k0 k = true ->
  s_assign f hash keq false v s k (Slot i) = Err DeadObject.
Proof. intros v s i k0 o k Hs Hi Hk. apply (occ_wf f fst hash keq KL takes Rep) in Hs. apply (assign_self_wf v s i k0 o k); assumption. Qed.

Lemma assign_throws_wf : forall v (s : swiss) i k0 x k y, wf s -> ev_ctor v = false -> holds s i (k0, Some x) -> keq k0 k = true ->
  exists s', s_assign f hash keq false v s k (Outside y) = Ok (s', None) /\ holds s' i (k0, None) /\
    s_destroy f s' = Err DeadObject /\ s_read f hash keq s' k = Err DeadObject /\ forall w z, s_assign f hash keq false w s' k (Outside z) = Err DeadObject.
Proof.
  intros v s i k0 x k y Hs Hv Hi Hk. destruct (found_slot s i k0 (Some x) k Hs Hi Hk) as (Ef & W1 & Hc & h & Hn & Eg).
  unfold s_assign at 1. rewrite Ef. cbn [bind]. destruct (Z.eqb_spec i (s_cap s)); [contradiction|]. unfold s_replace. rewrite Eg. cbn [bind]. unfold mapped at 1. cbn [fst snd bind s_value]. rewrite Hv.
  eexists. split; [reflexivity|]. set (s' := s_put s i _ None). cbn [fst].
  assert (W' : wf s') by (right; apply (replace_ok f fst hash keq s i _ h (k0, None) W1 Hn); reflexivity).
  assert (H' : holds s' i (k0, None)) by (split; [exact (proj1 Hi)|exists h; unfold s'; cbn [s_put s_nodes fst snd]; apply upd_same]).
  split; [exact H'|]. split; [apply (destroy_wf s' W'); exists (k0, None); split; [apply elems_In; exists i; exact H'|reflexivity]|].
  destruct (found_slot s' i k0 None k W' H' Hk) as (Ef' & _ & Hc' & h' & _ & Eg'). split.
  - unfold s_read. destruct (lookup_defined f fst hash keq KL s' k W') as (_ & (o & Eo & Ho) & _). rewrite Eo. cbn [bind]. destruct o as [e|].
    + destruct Ho as (He & Hke). apply elems_In in He. destruct He as (j & Hj). destruct e as [k1 o1]. cbn [fst] in Hke.
      destruct (found_slot s' j k1 o1 k W' Hj Hke) as (Ej & _ & _ & hj & Hnj & _). rewrite Ej in Ef'. injection Ef' as ->. destruct H' as (_ & hi & Hni). rewrite Hni in Hnj. injection Hnj as <- <- _. reflexivity.
    + exfalso. specialize (Ho (k0, None)). cbn [fst] in Ho. rewrite Ho in Hk; [discriminate|]. apply elems_In. exists i. exact H'.
  - intros w z. unfold s_assign. rewrite Ef'. cbn [bind]. destruct (Z.eqb_spec i (s_cap s')); [contradiction|]. unfold s_replace. rewrite Eg'. reflexivity.
Qed.
Lemma assign_throws : forall v (s : swiss) i k0 x k y, occurs f fst hash keq takes s -> ev_ctor v = false -> holds s i (k0, Some x) -> keq k0 k = true ->
  exists s', s_assign f hash keq false v s k (Outside y) = Ok (s', None) /\ holds s' i (k0, None) /\
    s_destroy f s' = Err DeadObject /\ s_read f hash keq s' k = Err DeadObject /\ forall w z, s_assign f hash keq false w s' k (Outside z) = Err DeadObject.
Proof. intros v s i k0 x k y Hs Hv Hi Hk. apply (occ_wf f fst hash keq KL takes Rep) in Hs. apply (assign_throws_wf v s i k0 x k y); assumption. Qed.

Lemma assign_freed_wf : forall triv v (s : swiss) i k, wf s -> absent fst keq k (elems s) ->
  (exists s' p tr, make_room f (ev_lim v) s (hash k) = Ok (s', Some (p, tr)) /\ s_cap s' <> s_cap s) ->
  s_assign f hash keq triv v s k (Slot i) = Err UseAfterFree.
Proof.
  intros triv v s i k Hs Ha (s' & p & tr & E1 & Hc). unfold s_assign.
  destruct (find_located f fst hash keq KL s k Hs) as (r & -> & Hr). cbn [bind]. destruct Hr as [(x & h & W1 & Hr & En & Eg & _ & Hl)|(-> & _)].
  { exfalso. destruct Hl as (Hl & Hk). rewrite (Ha x) in Hk; [discriminate|]. rewrite Hl. apply in_or_app. right. left. reflexivity. }
  rewrite Z.eqb_refl, E1. cbn [bind fst snd]. destruct (Z.eqb_spec (s_cap s') (s_cap s)); [contradiction|reflexivity].
Qed.
Lemma assign_freed : forall triv v (s : swiss) i k, occurs f fst hash keq takes s -> absent fst keq k (elems s) ->
  (exists s' p tr, make_room f (ev_lim v) s (hash k) = Ok (s', Some (p, tr)) /\ s_cap s' <> s_cap s) ->
  s_assign f hash keq triv v s k (Slot i) = Err UseAfterFree.
Proof. intros triv v s i k Hs Ha HX. apply (occ_wf f fst hash keq KL takes Rep) in Hs. apply (assign_freed_wf triv v s i k); assumption. Qed.
End Sparse.
