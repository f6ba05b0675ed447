(** insert_or_assign with the steps of replace on ordered sparse and stable maps. *)
From Coq Require Import ZArith List Bool Lia Permutation.
From Verif Require Import Base BaseLemmas Bits MapSpec WorldSpec LinkModel SwissModel SwissInv SwissOps SwissIter SwissRoom SwissRun SwissRefine SwissFinal SwissOrderedSpec SwissOrdered SwissOrderedRun SwissOrderedProofs SwissOrderedStep
  SwissOrderedRefine SwissOrderedWorld SwissOrderedWorldProofs SwissOrderedFinal RangeModel AssignSpec AssignModel AssignProofs AssignOrderedModel.
Import ListNotations.
Open Scope Z_scope.

Section Sparse.
Context {K V : Type}.
Variable f : simd.
Variable sz : Z.
Variable hash : K -> Z.
Variable keq : K -> K -> bool.
Local Notation elt := (K * option V)%type.
Variable clone : elt -> elt.
Variables pocca pocma : bool.
Hypothesis Hsz : 0 < sz.
Hypothesis KL : key_laws hash keq.
Hypothesis Hclone : forall e, fst (clone e) = fst e.
Local Notation oswiss := (oswiss elt).
Local Notation zinv := (zinv f sz (@fst K (option V)) hash keq).
Local Notation wf := (SwissInv.wf f (@fst K (option V)) hash keq).
Local Notation takes := (@takes K V).
Local Notation xoccurs := (xoccurs f sz (@fst K (option V)) hash keq takes clone pocca pocma).
Local Notation Rep := (Rep keq).

Lemma node_placed : forall (t : @swiss elt) i, get_node t i <> Err BadPlacement.
Proof.
  intros t i. unfold get_node, check_buf, guard. destruct (s_buf t); cbn [bind]; try congruence. destruct ((0 <=? i) && (i <? s_cap t)); cbn [bind]; [|congruence]. destruct (s_nodes t i); congruence.
Qed.
(** With a present key the links play no role. *)
Lemma z_present : forall triv v h (s : oswiss) k a p, find_node f fst keq (os_t s) k (hash k) = Ok p -> p <> s_cap (os_t s) ->
  z_assign f sz hash keq triv v h s k a = let* y := s_assign f hash keq triv (sv_e v) (os_t s) k a in Ok (h, with_t s (fst y), match snd y with Some (q, b, _) => Some (s_iter sz s q, b) | None => None end).
Proof.
  intros triv v h s k a p Hf Hp. unfold z_assign, s_assign. rewrite Hf. cbn [bind]. destruct (Z.eqb_spec p (s_cap (os_t s))) as [|_]; [contradiction|].
  destruct (s_replace triv (ev_ctor (sv_e v)) (os_t s) p a) as [[t b]|]; cbn [bind fst snd]; [|reflexivity]. destruct b; reflexivity.
Qed.

Lemma z_same : forall triv v h (s : oswiss) k a x, wf (os_t s) -> env_ok (sv_e v) -> whole (elems (os_t s)) -> denotes (os_t s) a x ->
  (ev_ctor (sv_e v) = true \/ absent fst keq k (elems (os_t s))) ->
  match a with Outside _ => True | Slot i => (0 < s_nempty (os_t s) \/ ~ absent fst keq k (elems (os_t s))) /\ (triv = true \/ forall e, holds (os_t s) i e -> keq (fst e) k = false) end ->
  z_assign f sz hash keq triv v h s k a = s_do_insert_or_assign f sz fst hash keq takes v h s 0 (k, Some x).
Proof.
  intros triv v h s k a x Hs Hv Hw Hx Hc Ha. unfold s_do_insert_or_assign. cbn [fst].
  destruct (find_located f fst hash keq KL (os_t s) k Hs) as (r & Er & Hr). rewrite Er. cbn [bind].
  destruct Hr as [(e & hh & W1 & Hr & En & Eg & Hav & Hl)|(-> & Habs)].
  - rewrite (z_present triv v h s k a r Er) by lia. rewrite (assign_same f hash keq KL triv (sv_e v) (os_t s) k a x) by assumption. unfold do_insert_or_assign. cbn [fst]. rewrite Er. cbn [bind].
    destruct (Z.eqb_spec r (s_cap (os_t s))) as [|_]; [lia|]. rewrite Eg.
    assert (Hctor : ev_ctor (sv_e v) = true). { destruct Hc as [Hc|Hc]; [exact Hc|]. exfalso. destruct Hl as (Hl & Hk). rewrite (Hc e) in Hk; [discriminate|]. rewrite Hl. apply in_or_app. right. left. reflexivity. }
    try rewrite Hctor. cbn [bind fst snd]. reflexivity.
  - unfold z_assign. rewrite Er. cbn [bind]. rewrite Z.eqb_refl. unfold s_emplace_node.
    destruct (make_room_ok f fst hash keq KL (ev_lim (sv_e v)) (os_t s) (hash k) Hs Hv) as (s1 & o & E1 & _ & Hroom). rewrite E1. cbn [bind fst snd]. destruct o as [[p tr]|]; [|reflexivity].
    assert (Hval : (match a with Outside x => Ok x | Slot _ => if s_cap s1 =? s_cap (os_t s) then AssignModel.s_value s1 a else Err UseAfterFree end) = Ok x).
    { destruct a as [z|i]; cbn [denotes AssignModel.s_value] in *; [congruence|]. destruct Ha as ([Hn|Hn] & _); [|contradiction]. destruct Hx as (k0 & Hi & h0 & Hn0).
      destruct (Hroom ltac:(lia) Hn) as (-> & _). rewrite Z.eqb_refl.
      assert (Hb : s_buf (os_t s) = Live) by (destruct Hs as [H0|H1]; [pose proof (w0_cap _ H0); lia|apply (mw_buf f _ (w_m _ _ _ _ _ H1))]).
      rewrite (get_node_ok (os_t s) i _ Hb Hi Hn0). reflexivity. }
    rewrite Hval. cbn [bind]. reflexivity.
Qed.

Lemma zstep_whole : forall k x (l l' : list elt) r, zspec fst keq takes (ZAssign (k, Some x)) l l' r -> whole l -> whole l'.
Proof.
  intros k x l l' r Hst Hw e He. inversion Hst; subst.
  - apply in_app_iff in He. destruct He as [He|[<-|[]]]; [apply Hw; exact He|discriminate].
  - match goal with P : located _ _ _ _ _ _ _ |- _ => destruct P as (-> & _) end. apply in_app_iff in He. destruct He as [He|[<-|He]]; [|discriminate|]; apply Hw; apply in_app_iff; [left|right; right]; exact He.
  - apply Hw. exact He.
Qed.
Lemma whole_perm : forall l l' : list elt, Permutation l l' -> whole l -> whole l'.
Proof. intros l l' P Hw e He. apply Hw. apply (Permutation_in e (Permutation_sym P)). exact He. Qed.
Lemma absent_perm : forall k (l l' : list elt), Permutation l l' -> absent fst keq k l -> absent fst keq k l'.
Proof. intros k l l' P Ha e He. apply Ha. apply (Permutation_in e (Permutation_sym P)). exact He. Qed.
Lemma zinv_holds : forall h (s : oswiss) ord, zinv h s ord -> s_holds f sz fst hash keq takes h s (cont s ord).
Proof.
  intros h s ord H. split; [apply (zi_lists f sz fst hash keq Hsz); exact H|]. intros hist Hh. apply (zinv_refines f sz fst hash keq takes KL Rep Hsz); assumption.
Qed.

Lemma z_final : forall triv v (w : xworld elt) j l0 k a x, xoccurs w -> let h := xw_m w in let s := xw_c w j in
  s_iterate sz h s = Ok l0 -> env_ok (sv_e v) -> whole l0 -> denotes (os_t s) a x -> (ev_ctor (sv_e v) = true \/ absent fst keq k l0) ->
  match a with Outside _ => True | Slot i => (0 < s_nempty (os_t s) \/ ~ absent fst keq k l0) /\ (triv = true \/ forall e, holds (os_t s) i e -> keq (fst e) k = false) end ->
  ~ zblocked f sz fst hash keq takes v (h, s) (ZAssign (k, Some x)) ->
  exists h' s' l' r, (let* y := z_assign f sz hash keq triv v h s k a in z_give sz y) = Ok (h', s', r) /\ zspec fst keq takes (ZAssign (k, Some x)) l0 l' r /\
    s_holds f sz fst hash keq takes h' s' l' /\ whole l' /\ s_destroy f (os_t s') = Ok tt.
Proof.
  intros triv v w j l0 k a x Ho h s Hi Hv Hw Hx Hc Ha Hnb. destruct (occurs_zinv f sz fst hash keq takes clone pocca pocma Hsz KL Rep Hclone w j l0 Ho Hi) as (ord & H & ->). fold h s in H, Hw, Hc, Ha |- *.
  pose proof (zi_perm f sz fst hash keq _ _ _ H) as P. pose proof (zi_wf _ _ _ _ _ _ _ _ H) as W.
  rewrite (z_same triv v h s k a x W Hv (whole_perm _ _ P Hw) Hx).
  - destruct (zstep_ok f sz fst hash keq takes Hsz KL Rep v h s ord (ZAssign (k, Some x)) H Hv I) as [Hb|(h' & s' & r & ord' & E1 & H' & _ & _ & S')]; [contradiction|].
    exists h', s', (cont s' ord'), r. split; [exact E1|]. split; [exact S'|]. split; [apply zinv_holds; exact H'|]. pose proof (zstep_whole k x _ _ _ S' Hw) as Hw'. split; [exact Hw'|].
    apply (destroy_wf f hash keq (os_t s') (zi_wf _ _ _ _ _ _ _ _ H')). apply (whole_perm _ _ (zi_perm f sz fst hash keq _ _ _ H')). exact Hw'.
  - destruct Hc as [Hc|Hc]; [left; exact Hc|right]. apply (absent_perm _ _ _ P). exact Hc.
  - destruct a as [z|i]; [exact I|]. destruct Ha as (Ha & Hb). split; [|exact Hb]. destruct Ha as [Ha|Ha]; [left; exact Ha|right]. intros X. apply Ha. apply (absent_perm _ _ _ (Permutation_sym P)). exact X.
Qed.

Lemma z_wf : forall (w : xworld elt) j, xoccurs w -> exists ord, zinv (xw_m w) (xw_c w j) ord.
Proof. intros w j Ho. destruct (xoccurs_inv f sz fst hash keq takes clone pocca pocma Hsz KL Rep Hclone w Ho) as (ords & Hi). exists (ords j). apply Hi. Qed.

Lemma z_self : forall v (w : xworld elt) j i k0 o k, xoccurs w -> holds (os_t (xw_c w j)) i (k0, o) -> keq k0 k = true ->
  z_assign f sz hash keq false v (xw_m w) (xw_c w j) k (Slot i) = Err DeadObject.
Proof.
  intros v w j i k0 o k Ho Hi Hk. destruct (z_wf w j Ho) as (ord & H). pose proof (zi_wf _ _ _ _ _ _ _ _ H) as W. destruct (found_slot f hash keq KL _ i k0 o k W Hi Hk) as (Ef & _ & Hc & _).
  rewrite (z_present _ _ _ _ _ _ i Ef Hc). rewrite (assign_self_wf f hash keq KL _ _ i k0 o k W Hi Hk). reflexivity.
Qed.

Lemma z_freed : forall triv v (w : xworld elt) j i k, xoccurs w -> let s := os_t (xw_c w j) in absent fst keq k (elems s) ->
  (exists s' p tr, make_room f (ev_lim (sv_e v)) s (hash k) = Ok (s', Some (p, tr)) /\ s_cap s' <> s_cap s) ->
  z_assign f sz hash keq triv v (xw_m w) (xw_c w j) k (Slot i) = Err UseAfterFree.
Proof.
  intros triv v w j i k Ho s Ha (s' & p & tr & E1 & Hc). destruct (z_wf w j Ho) as (ord & H). pose proof (zi_wf _ _ _ _ _ _ _ _ H) as W. unfold z_assign.
  destruct (find_located f fst hash keq KL _ k W) as (r & Er & Hr). rewrite Er. cbn [bind]. destruct Hr as [(x & h & W1 & Hr & En & Eg & _ & Hl)|(-> & _)].
  { exfalso. destruct Hl as (Hl & Hk). rewrite (Ha x) in Hk; [discriminate|]. unfold s. rewrite Hl. apply in_or_app. right. left. reflexivity. }
  rewrite Z.eqb_refl. fold s. rewrite E1. cbn [bind fst snd]. destruct (Z.eqb_spec (s_cap s') (s_cap s)); [contradiction|reflexivity].
Qed.

Lemma z_throws : forall v (w : xworld elt) j l0 i k0 x k y, xoccurs w -> let h := xw_m w in let s := xw_c w j in s_iterate sz h s = Ok l0 ->
  ev_ctor (sv_e v) = false -> holds (os_t s) i (k0, Some x) -> keq k0 k = true ->
  exists s' l1 l2, z_assign f sz hash keq false v h s k (Outside y) = Ok (h, s', None) /\ l0 = l1 ++ (k0, Some x) :: l2 /\ s_iterate sz h s' = Ok (l1 ++ (k0, None) :: l2) /\
    s_destroy f (os_t s') = Err DeadObject /\ s_read f hash keq (os_t s') k = Err DeadObject /\ forall u z, z_assign f sz hash keq false u h s' k (Outside z) = Err DeadObject.
Proof.
  intros v w j l0 i k0 x k y Ho h s Hi Hv Hh Hk. destruct (occurs_zinv f sz fst hash keq takes clone pocca pocma Hsz KL Rep Hclone w j l0 Ho Hi) as (ord & H & ->). fold h s in H |- *.
  pose proof (zi_wf _ _ _ _ _ _ _ _ H) as W. destruct (found_slot f hash keq KL _ i k0 (Some x) k W Hh Hk) as (Ef & W1 & Hc & hh & Hn & Eg).
  destruct (assign_throws_wf f hash keq KL (sv_e v) (os_t s) i k0 x k y W Hv Hh Hk) as (t' & Et & Hh' & Hd & Hr & Hagain).
  assert (Ht' : t' = s_put (os_t s) i ((k0, Some x), hh) None).
  { unfold s_assign in Et. rewrite Ef in Et. cbn [bind] in Et. destruct (Z.eqb_spec i (s_cap (os_t s))) as [|_]; [contradiction|]. unfold s_replace in Et. rewrite Eg in Et. cbn [bind fst snd mapped AssignModel.s_value] in Et. rewrite Hv in Et. injection Et as <-. reflexivity. }
  set (v1 := mksv (mkenv 0 true) 0 (fun _ => (0, 0))).
  destruct (zstep_ok f sz fst hash keq takes Hsz KL Rep v1 h s ord (ZAssign (k, None)) H ltac:(unfold env_ok; cbn; lia) I) as [Hb|(h' & s' & r & ord' & E1 & H' & _ & _ & S')].
  { exfalso. destruct Hb as [(Hb & _)|Hb]; cbn [snd fst] in Hb; [rewrite Ef in Hb; injection Hb as Hb; contradiction|].
    cbn [zexec] in Hb. unfold s_do_insert_or_assign in Hb. cbn [fst] in Hb. rewrite Ef in Hb. cbn [bind] in Hb. destruct (Z.eqb_spec i (s_cap (os_t s))) as [|_]; [contradiction|]. rewrite Eg in Hb. cbn [bind fst snd z_give] in Hb.
    destruct (SwissOrdered.s_value sz _ _) as [e|e] eqn:Ev; cbn [bind] in Hb; [discriminate|]. injection Hb as ->. unfold SwissOrdered.s_value in Ev. destruct (s_index sz _ _) as [i'|e] eqn:Ei; cbn [bind] in Ev.
    - destruct (get_node _ i') as [n|e] eqn:En; cbn [bind] in Ev; [congruence|]. injection Ev as ->. revert En. apply node_placed.
    - unfold s_index in Ei. destruct (slot_ix _ _ _ _); congruence. }
  cbn [zexec] in E1. unfold s_do_insert_or_assign in E1. cbn [fst] in E1. rewrite Ef in E1. cbn [bind] in E1. destruct (Z.eqb_spec i (s_cap (os_t s))) as [|_]; [contradiction|]. rewrite Eg in E1. cbn [bind fst snd z_give] in E1.
  destruct (SwissOrdered.s_value sz _ _) as [e|]; cbn [bind] in E1; [|discriminate]. injection E1 as <- <- <-.
  set (s' := with_t s _) in *. assert (Hs' : with_t s t' = s') by (unfold s'; rewrite Ht'; reflexivity).
  inversion S' as [| |e0 l1 Hab X1 X2 X3|e0 l1 a1 x1 b1 Hl X1 X2 X3| | | | | | | | | | | | | | | | | | | | |]; subst.
  cbn [fst] in Hl. pose proof Hl as (Hl1 & Hl2).
  assert (Hx1 : x1 = (k0, Some x)).
  { assert (He : In x1 (elems (os_t s))) by (apply (Permutation_in x1 (zi_perm f sz fst hash keq _ _ _ H)); rewrite Hl1; apply in_or_app; right; left; reflexivity).
    apply elems_In in He. destruct He as (i1 & Hi1 & h1 & Hn1). assert (i1 = i); [|subst i1; congruence].
    apply (w_u _ _ _ _ _ W1 i1 i _ _ _ _ Hn1 Hn). cbn [fst]. apply (kl_trans _ _ KL _ k); [exact Hl2|]. apply (kl_sym _ _ KL). exact Hk. }
  subst x1. exists s', a1, b1. split.
  - rewrite (z_present _ _ _ _ _ _ i Ef Hc), Et. cbn [bind fst snd]. rewrite Hs'. reflexivity.
  - split; [exact Hl1|]. split; [rewrite (iterate_ok f sz fst hash keq Hsz _ _ _ H'); f_equal; symmetry; assumption|].
    assert (Hos : os_t s' = s_put (os_t s) i ((k0, Some x), hh) None) by reflexivity. rewrite Hos. split; [exact Hd|]. split; [exact Hr|]. intros u z.
    destruct (found_slot f hash keq KL (os_t s') i k0 None k (zi_wf _ _ _ _ _ _ _ _ H') Hh' Hk) as (Ef' & _ & Hc' & _). rewrite (z_present _ u h s' k (Outside z) i Ef' Hc'). rewrite Hos, Hagain. reflexivity.
Qed.
End Sparse.
