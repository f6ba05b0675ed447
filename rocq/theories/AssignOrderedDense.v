(** insert_or_assign with the steps of replace on ordered dense maps. *)
From Coq Require Import ZArith List Bool Lia Permutation.
From Verif Require Import Base BaseLemmas MapSpec DenseSpec DenseModel DenseRun DenseChain DenseInv DenseOps DenseEdit DenseRefine LinkModel OrderedSpec OrderedDense OrderedRun OrderedLinks OrderedProofs OrderedRefine OrderedWorldSpec OrderedWorld OrderedFinal
  RangeModel AssignSpec AssignModel AssignDense AssignOrderedModel OwnRangeOrderedDense.
Import ListNotations.
Open Scope Z_scope.

Section Dense.
Context {K V : Type}.
Variable sz : Z.
Variable hash : K -> Z.
Variable keq : K -> K -> bool.
Variable clone : K * option V -> K * option V.
Variables pocca pocma : bool.
Hypothesis Hsz : 0 < sz.
Hypothesis KL : key_laws hash keq.
Hypothesis Hclone : forall e, fst (clone e) = fst e.
Local Notation elt := (K * option V)%type.
Local Notation odense := (odense elt).
Local Notation key := (@key0 K V).
Local Notation takes := (@takes K V).
Notation dwf := (dwf 1 key hash keq).
Notation oinv := (oinv sz 1 key hash keq).
Notation yoccurs := (yoccurs sz 1 key hash keq takes clone pocca pocma).
Notation o_holds := (o_holds sz 1 key hash keq takes).
Notation rep_key := (@rep_key K V).
Notation clone_key := (clone_key clone Hclone).

(** make_room in an ordered table. *)
Lemma o_room : forall v h (s : odense) ord, oinv h s ord -> denv_ok (ov_d v) ->
  o_make_room sz 1 v h s 0 = Err BadPlacement \/
  exists h1 s1 hint1 o, o_make_room sz 1 v h s 0 = Ok (h1, s1, hint1, o) /\ make_room 1 (dv_dlim (ov_d v)) (dv_slim (ov_d v)) (o_d s) = Ok (o_d s1, o) /\
    delems (o_d s1) = delems (o_d s) /\ ocont s1 ord = ocont s ord /\ (o <> None -> oinv h1 s1 ord /\ d_size (o_d s1) = d_size (o_d s) /\ d_size (o_d s1) < d_cap (o_d s1) /\ 0 < d_bc (o_d s1)).
Proof.
  intros v h s ord H V0. assert (Hh : hint_at sz s 0 ord []) by (left; auto). assert (Hk : hint_kept v s 0 ord) by (left; reflexivity). assert (Hord : ord = ord ++ []) by (rewrite app_nil_r; reflexivity).
  destruct (o_make_room_sim sz 1 key hash keq Hsz v h s ord 0 ord [] (proj1 H) V0 (proj2 H) Hord Hh Hk) as [->|(h1 & s1 & hint1 & o & E1 & Hm & L1 & _ & _)]; [left; reflexivity|right].
  destruct (make_room_ok 1 key hash keq _ _ (o_d s) (proj1 H) (proj1 V0) (proj2 V0)) as (d1 & o' & Hm' & (Hes & Hr) & Hcap). rewrite Hm in Hm'. injection Hm' as <- <-.
  exists h1, s1, hint1, o. split; [exact E1|]. split; [exact Hm|]. split; [apply delems_same; exact Hes|]. split; [unfold ocont; rewrite (delems_same _ _ Hes); reflexivity|].
  intros Ho. destruct o as [u|]; [|congruence]. destruct (Hcap ltac:(discriminate)) as (Hc & Hb). split; [split; assumption|]. split; [apply Hes|]. split; assumption.
Qed.

Lemma o_same : forall triv v h (s : odense) ord k a x, oinv h s ord -> denv_ok (ov_d v) -> whole (delems (o_d s)) -> ddenotes (o_d s) a x ->
  match a with Outside _ => True | Slot i => d_size (o_d s) < d_cap (o_d s) /\ (triv = true \/ forall e, nth_error (delems (o_d s)) (Z.to_nat i) = Some e -> keq (fst e) k = false) end ->
  o_assign sz hash keq triv true v h s k a = o_do_insert_or_assign sz 1 key hash keq takes v true h s 0 (k, Some x).
Proof.
  intros triv v h s ord k a x H V0 Hw Hx Ha. unfold o_assign, o_do_insert_or_assign.
  destruct (o_room v h s ord H V0) as [->|(h1 & s1 & hint1 & o & E1 & Em & Hde & _ & Ho)]; [reflexivity|]. rewrite E1. cbn [bind]. destruct o as [u|]; [|reflexivity].
  destruct (Ho ltac:(discriminate)) as ((Hr & _) & Hs1 & Hcap & Hbc). rewrite <- Hde in Hw.
  assert (Hfr : match a with Outside _ => false | Slot _ => negb (d_cap (o_d s1) =? d_cap (o_d s)) end = false).
  { destruct a as [z|i]; [reflexivity|]. destruct Ha as (Hroom & _). unfold make_room, maybe_resize in Em. destruct (Z.eqb_spec (d_cap (o_d s)) (d_size (o_d s))); [lia|]. cbn [bind] in Em.
    destruct (maybe_rehash_ok 1 key hash keq (dv_slim (ov_d v)) (o_d s) (proj1 H) (proj2 V0)) as (s2 & o2 & E2 & _ & Hc2). rewrite E2 in Em. injection Em as -> ->. destruct (Hc2 ltac:(discriminate)) as (-> & _). rewrite Z.eqb_refl. reflexivity. }
  rewrite Hfr. set (d1 := o_d s1) in *.
  assert (Hval : forall t p n, dwf d1 -> (t = d1 \/ (triv = false /\ keq (fst (n_val n)) k = true /\ d_nodes d1 p = Some n /\ t = set_nodes d1 (upd (d_nodes d1) p (Some (mkn (fst (n_val n), None) (n_hash n) (n_next n)))))) -> d_value t a = Ok x).
  { intros t p n _ Ht. destruct a as [z|i]; cbn [d_value ddenotes] in *; [congruence|]. destruct Hx as (Hi & k0 & Hx). rewrite <- Hde in Hx. destruct (node_at hash keq clone Hclone d1 i _ Hr Hi Hx) as (m & Hm & Hmv).
    destruct Ht as [->|(Htr & Hk & Hn & ->)].
    - rewrite (get_node_ok d1 i m (w_mem _ _ _ _ _ Hr) Hm). cbn [bind]. rewrite Hmv. reflexivity.
    - assert (Hip : i <> p). { intros ->. rewrite Hn in Hm. injection Hm as ->. destruct Ha as (_ & [Ht|Hk']); [congruence|]. rewrite <- Hde in Hk'. rewrite (Hk' _ Hx) in Hk || (rewrite Hmv in Hk; rewrite (Hk' _ Hx) in Hk). discriminate. }
      destruct (replace_ok 1 key hash keq takes d1 p n (fst (n_val n), None) Hr Hn) as (W' & _); [reflexivity|].
      rewrite (get_node_ok _ i m (w_mem _ _ _ _ _ W')) by (cbn [set_nodes d_nodes]; rewrite upd_other by exact Hip; exact Hm). cbn [bind]. rewrite Hmv. reflexivity. }
  change (key 0 (k, Some x)) with k.
  destruct (lookup1 hash keq KL d1 k Hr Hbc) as [(i & n & o & Ef & En & Hn & Hk)|(_ & i & p & Ef & En)]; rewrite Ef; cbn [bind fst snd]; [fold (isnew d1 o)|fold (isnew d1 (Some p))]; rewrite En; cbn [bind].
  - unfold d_replace. rewrite (get_node_ok d1 i n (w_mem _ _ _ _ _ Hr) Hn). cbn [bind]. rewrite (put_node_ok d1 i n _ (w_mem _ _ _ _ _ Hr) Hn). cbn [bind].
    destruct (whole_node hash keq d1 i n Hr Hw Hn) as (y & Hy). destruct triv; cbn [bind].
    + rewrite (Hval d1 i n Hr (or_introl eq_refl)). cbn [bind]. rewrite (put_at hash keq d1 i n _ Hr Hn). reflexivity.
    + unfold mapped at 1. rewrite Hy. cbn [bind]. rewrite (put_at hash keq d1 i n None Hr Hn). cbn [bind]. rewrite (Hval _ i n Hr (or_intror (conj eq_refl (conj Hk (conj Hn eq_refl))))). cbn [bind]. rewrite (put_at hash keq d1 i n _ Hr Hn). reflexivity.
  - cbn [deref bind]. rewrite (Hval d1 0 (mkn (k, None) (fun _ => 0) (fun _ => 0)) Hr (or_introl eq_refl)). cbn [bind]. unfold key0. cbn [fst]. reflexivity.
Qed.

Lemma ostep_whole : forall k x (l l' : list elt) r, ospec 1 key keq takes (OAssign (k, Some x)) l l' r -> whole l -> whole l'.
Proof.
  intros k x l l' r Hst Hw e He. inversion Hst; subst.
  - apply in_app_iff in He. destruct He as [He|[<-|[]]]; [apply Hw; exact He|discriminate].
  - match goal with P : dlocated _ _ _ _ _ _ _ _ |- _ => destruct P as (-> & _) end. apply in_app_iff in He. destruct He as [He|[<-|He]]; [|discriminate|]; apply Hw; apply in_app_iff; [left|right; right]; exact He.
  - apply Hw. exact He.
Qed.
Lemma whole_perm : forall l l' : list elt, Permutation l l' -> whole l -> whole l'.
Proof. intros l l' P Hw e He. apply Hw. apply (Permutation_in e (Permutation_sym P)). exact He. Qed.
Lemma o_start : forall hw j l0, yoccurs hw -> o_iterate sz (fst hw) (snd hw j) = Ok l0 -> exists ord, oinv (fst hw) (snd hw j) ord /\ l0 = ocont (snd hw j) ord.
Proof.
  intros hw j l0 Ho Hi. destruct (occurs_oinv sz 1 key hash keq takes clone pocca pocma Hsz KL rep_key clone_key hw j Ho) as (ord & H & Hc). exists ord. split; [exact H|]. congruence.
Qed.

Lemma o_final : forall triv v hw j l0 k a x, yoccurs hw -> let h := fst hw in let s := snd hw j in o_iterate sz h s = Ok l0 -> denv_ok (ov_d v) -> whole l0 -> ddenotes (o_d s) a x ->
  match a with Outside _ => True | Slot i => d_size (o_d s) < d_cap (o_d s) /\ (triv = true \/ forall e, nth_error (delems (o_d s)) (Z.to_nat i) = Some e -> keq (fst e) k = false) end ->
  ~ oblocked sz 1 key hash keq takes v (h, s) (OAssign (k, Some x)) ->
  exists h' s' l' r, (let* y := o_assign sz hash keq triv true v h s k a in o_give sz y) = Ok (h', s', r) /\ ospec 1 key keq takes (OAssign (k, Some x)) l0 l' r /\
    o_holds h' s' l' /\ whole l' /\ d_destroy (o_d s') = Ok tt.
Proof.
  intros triv v hw j l0 k a x Ho h s Hi V0 Hw Hx Ha Hnb. destruct (o_start hw j l0 Ho Hi) as (ord & H & ->). fold h s in H, Hw |- *. pose proof (inv_perm sz 1 key hash keq _ _ _ H) as P.
  rewrite (o_same triv v h s ord k a x H V0 (whole_perm _ _ P Hw) Hx Ha).
  destruct (ostep_ok sz 1 key hash keq takes Hsz KL rep_key v h s ord (OAssign (k, Some x)) H V0 eq_refl) as [Hb|(h' & s' & r & E1 & ord' & H' & _ & S')]; [contradiction|].
  exists h', s', (ocont s' ord'), r. split; [exact E1|]. split; [exact S'|]. split; [apply (oinv_holds sz 1 key hash keq takes Hsz KL rep_key); exact H'|]. pose proof (ostep_whole k x _ _ _ S' Hw) as Hw'. split; [exact Hw'|].
  apply (destroy_wf hash keq (o_d s') (proj1 H')). apply (whole_perm _ _ (inv_perm sz 1 key hash keq _ _ _ H')). exact Hw'.
Qed.

Lemma o_self : forall ctor v hw j l0 i k0 o k, yoccurs hw -> let h := fst hw in let s := snd hw j in o_iterate sz h s = Ok l0 -> denv_ok (ov_d v) ->
  0 <= i -> nth_error (delems (o_d s)) (Z.to_nat i) = Some (k0, o) -> keq k0 k = true ->
  let r := o_assign sz hash keq false ctor v h s k (Slot i) in
  r = Err DeadObject \/ r = Err UseAfterFree \/ r = Err BadPlacement \/ exists h' s', r = Ok (h', s', None) /\ make_room 1 (dv_dlim (ov_d v)) (dv_slim (ov_d v)) (o_d s) = Ok (o_d s', None).
Proof.
  intros ctor v hw j l0 i k0 o k Ho h s Hit V0 Hi Hx Hk r. destruct (o_start hw j l0 Ho Hit) as (ord & H & _). fold h s in H. unfold r, o_assign.
  destruct (o_room v h s ord H V0) as [->|(h1 & s1 & hint1 & q & E1 & Em & Hde & _ & Hq)]; [right; right; left; reflexivity|]. rewrite E1. cbn [bind]. destruct q as [u|]; [|right; right; right; exists h1, s1; auto].
  destruct (Hq ltac:(discriminate)) as ((Hr & _) & _ & _ & Hbc). rewrite <- Hde in Hx. destruct (found_slot hash keq clone KL Hclone (o_d s1) i k0 o k Hr Hi Hx Hk Hbc) as (n & q & Ef & En & Hn & Hvn & Eg).
  rewrite Ef. cbn [bind fst snd]. fold (isnew (o_d s1) q). rewrite En. cbn [bind]. unfold d_replace. rewrite Eg. cbn [bind]. unfold mapped at 1. rewrite Hvn. cbn [snd]. destruct o as [x|]; cbn [bind]; [|auto].
  rewrite (put_at hash keq (o_d s1) i n None Hr Hn). cbn [bind]. destruct (negb (d_cap (o_d s1) =? d_cap (o_d s))); cbn [bind]; [auto|]. left. cbn [d_value].
  destruct (replace_ok 1 key hash keq takes (o_d s1) i n (fst (n_val n), None) Hr Hn) as (W' & _); [reflexivity|].
  rewrite (get_node_ok _ i (mkn (fst (n_val n), None) (n_hash n) (n_next n)) (w_mem _ _ _ _ _ W')); [reflexivity|]. cbn [set_nodes d_nodes]. apply upd_same.
Qed.

Lemma o_freed : forall triv ctor v hw j l0 i k, yoccurs hw -> let h := fst hw in let s := snd hw j in o_iterate sz h s = Ok l0 -> denv_ok (ov_d v) -> whole l0 -> d_size (o_d s) = d_cap (o_d s) ->
  let r := o_assign sz hash keq triv ctor v h s k (Slot i) in
  r = Err UseAfterFree \/ r = Err BadPlacement \/ exists h' s', r = Ok (h', s', None) /\ make_room 1 (dv_dlim (ov_d v)) (dv_slim (ov_d v)) (o_d s) = Ok (o_d s', None).
Proof.
  intros triv ctor v hw j l0 i k Ho h s Hit V0 Hw Hfull r. destruct (o_start hw j l0 Ho Hit) as (ord & H & ->). fold h s in H, Hw. pose proof (whole_perm _ _ (inv_perm sz 1 key hash keq _ _ _ H) Hw) as Hw1. unfold r, o_assign.
  destruct (o_room v h s ord H V0) as [->|(h1 & s1 & hint1 & q & E1 & Em & Hde & _ & Hq)]; [right; left; reflexivity|]. rewrite E1. cbn [bind]. destruct q as [u|]; [|right; right; exists h1, s1; auto]. left.
  destruct (Hq ltac:(discriminate)) as ((Hr & _) & Hs1 & Hcap & Hbc). rewrite <- Hde in Hw1. destruct (Z.eqb_spec (d_cap (o_d s1)) (d_cap (o_d s))) as [Eq|_]; [lia|]. cbn [negb].
  destruct (lookup1 hash keq KL (o_d s1) k Hr Hbc) as [(p & n & o & Ef & En & Hn & Hk)|(_ & p & c & Ef & En)]; rewrite Ef; cbn [bind fst snd]; [fold (isnew (o_d s1) o)|fold (isnew (o_d s1) (Some c))]; rewrite En; cbn [bind deref]; [|reflexivity].
  unfold d_replace. rewrite (get_node_ok (o_d s1) p n (w_mem _ _ _ _ _ Hr) Hn). cbn [bind]. destruct (whole_node hash keq (o_d s1) p n Hr Hw1 Hn) as (y & Hy). destruct triv; cbn [bind]; [reflexivity|].
  unfold mapped. rewrite Hy. cbn [bind]. rewrite (put_at hash keq (o_d s1) p n None Hr Hn). reflexivity.
Qed.

Lemma o_throws : forall v hw j l0 i k0 x k y, yoccurs hw -> let h := fst hw in let s := snd hw j in o_iterate sz h s = Ok l0 -> denv_ok (ov_d v) ->
  0 <= i -> nth_error (delems (o_d s)) (Z.to_nat i) = Some (k0, Some x) -> keq k0 k = true -> (exists h1 s1 hint1 u, o_make_room sz 1 v h s 0 = Ok (h1, s1, hint1, Some u)) ->
  exists h' s' l1 l2, o_assign sz hash keq false false v h s k (Outside y) = Ok (h', s', None) /\ l0 = l1 ++ (k0, Some x) :: l2 /\ o_iterate sz h' s' = Ok (l1 ++ (k0, None) :: l2) /\
    d_destroy (o_d s') = Err DeadObject /\ d_read hash keq (o_d s') k = Err DeadObject.
Proof.
  intros v hw j l0 i k0 x k y Ho h s Hit V0 Hi Hx Hk (h0 & s0 & hint0 & u0 & Em0). destruct (o_start hw j l0 Ho Hit) as (ord & H & ->). fold h s in H |- *. unfold o_assign.
  destruct (o_room v h s ord H V0) as [Hb|(h1 & s1 & hint1 & q & E1 & Em & Hde & Hoc & Hq)]; [congruence|]. rewrite Em0 in E1. injection E1 as -> -> -> <-. rewrite Em0. cbn [bind].
  destruct (Hq ltac:(discriminate)) as (H1 & _ & _ & Hbc). pose proof (proj1 H1) as Hr. rewrite <- Hde in Hx. destruct (found_slot hash keq clone KL Hclone (o_d s1) i k0 (Some x) k Hr Hi Hx Hk Hbc) as (n & q & Ef & En & Hn & Hvn & Eg).
  rewrite Ef. cbn [bind fst snd]. fold (isnew (o_d s1) q). rewrite En. cbn [bind]. unfold d_replace. rewrite Eg. cbn [bind]. unfold mapped at 1. rewrite Hvn. cbn [snd bind].
  rewrite (put_at hash keq (o_d s1) i n None Hr Hn). cbn [bind d_value fst snd]. rewrite Hvn. cbn [fst].
  destruct (replace_ok 1 key hash keq takes (o_d s1) i n (k0, None) Hr Hn) as (W' & a & b & Ha & Hb); [intros; unfold key0; rewrite Hvn; reflexivity|]. set (d' := set_nodes (o_d s1) _) in *. rewrite Hvn in Ha.
  destruct (cont_replace sz 1 key hash keq takes rep_key h1 s1 ord a (k0, Some x) (k0, None) b H1 Ha) as (p & r & Hp & Hp'). rewrite Hoc in Hp.
  assert (H' : oinv h1 (with_d s1 d') ord) by (split; [exact W'|apply lnk_dims; [exact (proj2 H1)|reflexivity|reflexivity]]).
  exists h1, (with_d s1 d'), p, r. split; [reflexivity|]. split; [exact Hp|]. split; [rewrite (o_iterate_ok sz 1 key hash keq Hsz _ _ _ H'); unfold ocont; cbn [with_d o_d]; rewrite Hb, Hp'; reflexivity|]. cbn [with_d o_d].
  assert (Hn' : d_nodes d' i = Some (mkn (k0, None) (n_hash n) (n_next n))) by (unfold d'; cbn [set_nodes d_nodes]; apply upd_same).
  assert (Hx' : nth_error (delems d') (Z.to_nat i) = Some (k0, None)).
  { rewrite (delems_nth 1 key hash keq d' i W' (node_live 1 key hash keq d' i _ W' Hn')). unfold val. rewrite Hn'. reflexivity. }
  split; [apply (destroy_wf hash keq d' W'); exists (k0, None); split; [apply nth_error_In with (Z.to_nat i); exact Hx'|reflexivity]|].
  assert (Hbc' : 0 < d_bc d') by exact Hbc. destruct (found_slot hash keq clone KL Hclone d' i k0 None k W' Hi Hx' Hk Hbc') as (m & q' & Ef' & _ & Hm & Hvm & Eg').
  unfold d_read, find. rewrite Ef'. cbn [bind fst]. pose proof (node_live 1 key hash keq d' i m W' Hm) as Hl. unfold live in Hl. destruct (Z.eqb_spec i (d_size d')); [lia|]. rewrite Eg'. cbn [bind]. rewrite Hvm. reflexivity.
Qed.
End Dense.
