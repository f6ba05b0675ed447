(** Calls with other key types on ordered dense tables refine the list. *)
From Coq Require Import ZArith List Bool Lia Permutation.
From Verif Require Import Base BaseLemmas MapSpec Float32 DenseSpec DenseModel DenseRun DenseChain DenseInv DenseOps DenseEdit DenseErase DenseRefine
  LinkModel LinkProofs OrderedSpec OrderedDense OrderedRun OrderedLinks OrderedProofs OrderedRefine OrderedWorldSpec OrderedWorld OrderedFinal
  TransparentDenseSpec TransparentDenseModel TransparentDenseProofs TransparentOrderedSpec TransparentOrderedDenseModel.
Import ListNotations.
Open Scope Z_scope.

Lemma o_erase_loop_ext : forall E K1 K2 sz nk (key1 : nat -> E -> K1) (eq1 : K1 -> K1 -> bool) (key2 : nat -> E -> K2) (eq2 : K2 -> K2 -> bool) fu h (s : odense E) j k1 k2 hk p,
  (forall e, eq1 k1 (key1 j e) = eq2 k2 (key2 j e)) -> o_erase_loop sz nk key1 eq1 fu h s j k1 hk p = o_erase_loop sz nk key2 eq2 fu h s j k2 hk p.
Proof.
  intros E K1 K2 sz nk key1 eq1 key2 eq2 fu h s j k1 k2 hk p H. revert p. induction fu as [|fu IH]; intros p; [reflexivity|]. cbn [o_erase_loop].
  destruct (load (o_d s) j p) as [w|]; [|reflexivity]. cbn [bind]. destruct (w =? npos); [reflexivity|]. destruct (get_node (o_d s) w) as [n|]; [|reflexivity].
  cbn [bind]. rewrite H, IH. reflexivity.
Qed.

Section Proofs.
Context {E K T V : Type}.
Variable sz : Z.
Variable nk : nat.
Variable key_of : nat -> E -> K.
Variable hash : K -> Z.
Variable keq : K -> K -> bool.
Variable rep : E -> E -> E.
Hypothesis Hsz : 0 < sz.
Hypothesis KL : key_laws hash keq.
Hypothesis rep_key : forall x e, key_of 0%nat (rep x e) = key_of 0%nat x.
Variable hasht : T -> Z.
Variable eqt : K -> T -> bool.
Variable make : (nat -> T) -> V -> E.
Hypothesis TL : utransparent_laws nk key_of hash keq hasht eqt make.
Notation odense := (odense E).
Notation dense := (dense E).
Notation dwf := (dwf nk key_of hash keq).
Notation oinv := (OrderedRefine.oinv sz nk key_of hash keq).
Notation lnk := (lnk sz). Notation ofr := (ofr sz).
Notation otexec := (otexec sz nk key_of hash keq rep hasht eqt make).
Notation otrun := (otrun sz nk key_of hash keq rep hasht eqt make).
Notation otblocked := (otblocked sz nk key_of hash keq rep hasht eqt make).
Notation otspec := (otspec nk key_of keq rep eqt make).
Notation otspec_run := (otspec_run nk key_of keq rep eqt make).
Notation kt := (@okey E K key_of).
Notation ht := (ohash hash hasht).
Notation et := (oeq keq eqt).

Definition otok (v : oenv) (h : heap) (s : odense) (ord : list Z) (c : otcall E K T V) : Prop :=
  exists h' s' r ord', otexec v (h, s) c = Ok ((h', s'), r) /\ oinv h' s' ord' /\ ofr h s h' s' /\ otspec c (ocont s ord) (ocont s' ord') r.

Lemma ou : forall t h s ord, oinv h s ord -> OrderedRefine.oinv sz nk kt (ht t) (et t) h s ord.
Proof. intros t h s ord (W & L). split; [apply (owf nk key_of hash keq hasht eqt t); exact W|exact L]. Qed.
Lemma ou_back : forall t h s ord, OrderedRefine.oinv sz nk kt (ht t) (et t) h s ord -> oinv h s ord.
Proof. intros t h s ord (W & L). split; [apply (owf_back nk key_of hash keq hasht eqt t); exact W|exact L]. Qed.

(** Calls that only compare with [t]. *)
Lemma by_unit : forall v h s ord j t c oc, oinv h s ord -> denv_ok (ov_d v) -> (j < nk)%nat ->
  (oc = OFind j (inr tt) /\ c = OTFind j t) \/ (oc = OContains j (inr tt) /\ c = OTContains j t) \/ (oc = OErase j (inr tt) /\ c = OTErase j t) ->
  otexec v (h, s) c = oexec sz nk kt (ht t) (et t) rep v (h, s) oc ->
  (forall l l' r, ospec nk kt (et t) rep oc l l' r -> otspec c l l' r) -> otblocked v (h, s) c \/ otok v h s ord c.
Proof.
  intros v h s ord j t c oc H Hv Hj Hc He Hs.
  destruct (ostep_ok sz nk kt (ht t) (et t) rep Hsz (olaws nk key_of hash keq KL hasht eqt make TL t) (orep key_of rep rep_key) v h s ord oc (ou t h s ord H) Hv) as [Hb|(h' & s' & r & E1 & ord' & I1 & F1 & S1)].
  - destruct Hc as [(-> & _)|[(-> & _)|(-> & _)]]; exact Hj.
  - left. unfold oblocked in Hb. rewrite <- He in Hb.
    destruct Hc as [(-> & ->)|[(-> & ->)|(-> & ->)]]; cbn [TransparentOrderedDenseModel.otblocked]; (destruct Hb as [(i & Hx & _)|[(Hb & j' & k' & Hx)|[(_ & hs' & Hx & _)|Hb]]]; [discriminate|try discriminate| |]).
    + exfalso. cbn [TransparentOrderedDenseModel.otexec] in Hx. destruct (find_node _ _ _ _ _ _) as [r|]; [|discriminate]. cbn [bind] in Hx. destruct (o_at _ _ _); discriminate.
    + exact Hb.
    + exfalso. cbn [TransparentOrderedDenseModel.otexec] in Hx. destruct (find_node _ _ _ _ _ _) as [r|]; discriminate.
    + exact Hb.
    + left. exact Hb.
    + exfalso. cbn [TransparentOrderedDenseModel.otexec] in Hx. destruct (o_erase_key _ _ _ _ _ _ _ _ _) as [r|]; discriminate.
    + right. exact Hb.
  - right. exists h', s', r, ord'. split; [rewrite He; exact E1|]. split; [apply (ou_back t); exact I1|]. split; [exact F1|apply Hs; exact S1].
Qed.

(** Insertions follow those of the table without links. *)
Lemma ot_try_sim : forall v h s ord ts u d' r, dwf (o_d s) -> denv_ok (ov_d v) -> lnk h s ord ->
  u_try nk key_of keq hasht eqt make (dv_dlim (ov_d v)) (dv_slim (ov_d v)) (o_d s) ts u = Ok (d', r) -> (forall p, r = Some (p, false) -> p <> d_size d') ->
  ins_sim sz h s ord [] d' r (ot_try sz nk key_of keq hasht eqt make v h s 0 ts u).
Proof.
  intros v h s ord ts u d' r W V0 L H Hr. unfold ot_try. assert (Hord : ord = ord ++ []) by (rewrite app_nil_r; reflexivity).
  destruct (o_make_room_sim sz nk key_of hash keq Hsz v h s ord 0 ord [] W V0 L Hord (or_introl (conj eq_refl eq_refl)) (or_introl eq_refl)) as [->|(h1 & s1 & hint1 & o & -> & Hm & L1 & F1 & H1)]; [left; reflexivity|right]. cbn [bind].
  unfold u_try in H. rewrite Hm in H. cbn [bind] in H.
  destruct (make_room_ok nk key_of hash keq _ _ (o_d s) W (proj1 V0) (proj2 V0)) as (d1' & o' & Hm' & (Hes & _) & Hcap). rewrite Hm in Hm'. injection Hm' as <- <-.
  rewrite Hord in L1. destruct o as [x|]; [|injection H as <- <-; exists h1, s1; auto].
  specialize (H1 ltac:(discriminate)). destruct (Hcap ltac:(discriminate)) as (Hlt & _). apply bind_Ok in H. destruct H as (l & Hl & H). rewrite Hl. cbn [bind]. apply bind_Ok in H. destruct H as (c & Hc & H). rewrite Hc. cbn [bind].
  destruct c as [i|].
  - injection H as <- <-. exists h1, s1. split; [|auto]. unfold iter_of. destruct (Z.eqb_spec i (d_size (o_d s1))) as [He|He]; [exfalso; apply (Hr i eq_refl He)|reflexivity].
  - apply bind_Ok in H. destruct H as (sl & Hsl & H). rewrite Hsl. cbn [bind].
    destruct (o_emplace_sim sz Hsz h1 s1 _ hint1 ord [] sl _ d' r L1 H1 Hlt H) as (h2 & E2 & -> & L2 & F2). rewrite E2. exists h2, (with_d s1 d'). split; [reflexivity|]. split; [reflexivity|].
    split; [apply (ofr_trans sz _ _ _ _ _ _ F1 F2)|]. destruct Hes as (Hes & _). rewrite <- Hes. exact L2.
Qed.
Lemma ot_assign_sim : forall v h s ord t u d' r, dwf (o_d s) -> denv_ok (ov_d v) -> lnk h s ord ->
  u_assign nk key_of keq rep hasht eqt make (dv_dlim (ov_d v)) (dv_slim (ov_d v)) (o_d s) t u = Ok (d', r) ->
  ins_sim sz h s ord [] d' r (ot_assign sz nk key_of keq rep hasht eqt make v h s 0 t u).
Proof.
  intros v h s ord t u d' r W V0 L H. unfold ot_assign. assert (Hord : ord = ord ++ []) by (rewrite app_nil_r; reflexivity).
  destruct (o_make_room_sim sz nk key_of hash keq Hsz v h s ord 0 ord [] W V0 L Hord (or_introl (conj eq_refl eq_refl)) (or_introl eq_refl)) as [->|(h1 & s1 & hint1 & o & -> & Hm & L1 & F1 & H1)]; [left; reflexivity|right]. cbn [bind].
  unfold u_assign in H. rewrite Hm in H. cbn [bind] in H.
  destruct (make_room_ok nk key_of hash keq _ _ (o_d s) W (proj1 V0) (proj2 V0)) as (d1' & o' & Hm' & (Hes & _) & Hcap). rewrite Hm in Hm'. injection Hm' as <- <-. destruct Hes as (Hes & _).
  rewrite Hord in L1. destruct o as [x|]; [|injection H as <- <-; exists h1, s1; auto].
  specialize (H1 ltac:(discriminate)). destruct (Hcap ltac:(discriminate)) as (Hlt & _). apply bind_Ok in H. destruct H as ((i, op) & Hf & H). rewrite Hf. cbn [bind].
  apply bind_Ok in H. destruct H as (isnew & Hn & H). rewrite Hn. cbn [bind]. destruct isnew.
  - apply bind_Ok in H. destruct H as (p & Hp & H). rewrite Hp. cbn [bind].
    destruct (o_emplace_sim sz Hsz h1 s1 _ hint1 ord [] _ _ d' r L1 H1 Hlt H) as (h2 & E2 & -> & L2 & F2). rewrite E2. exists h2, (with_d s1 d'). split; [reflexivity|]. split; [reflexivity|].
    split; [apply (ofr_trans sz _ _ _ _ _ _ F1 F2)|]. rewrite <- Hes. exact L2.
  - apply bind_Ok in H. destruct H as (n & Hg & H). rewrite Hg. cbn [bind]. apply bind_Ok in H. destruct H as (d2 & Hd2 & H). rewrite Hd2. cbn [bind]. injection H as <- <-.
    assert (Hq : d_size d2 = d_size (o_d s1) /\ d_cap d2 = d_cap (o_d s1)) by (unfold put_node in Hd2; apply bind_Ok in Hd2; destruct Hd2 as (? & _ & Hd2); injection Hd2 as <-; split; reflexivity). destruct Hq as (Q1 & Q2).
    exists h1, (with_d s1 d2). split; [reflexivity|]. split; [reflexivity|]. split; [apply (ofr_trans sz _ _ _ _ _ _ F1); apply ofr_dims; exact Q2|]. apply lnk_dims; assumption.
Qed.
Lemma insert_step : forall c v h s ord d' r x,
  oinv h s ord -> (exists ts u, c = OTTry ts u) \/ (exists t u, c = OTAssign t u) -> ins_sim sz h s ord [] d' r x ->
  (match r with
   | None => elems_same (o_d s) d' /\ (dwf d' \/ (0 < d_bc (o_d s) /\ broken d'))
   | Some (p, true) => dwf d' /\ exists e n, delems d' = delems (o_d s) ++ [e] /\ d_nodes d' p = Some n /\ n_val n = e /\ forall l, Permutation (delems (o_d s)) l -> otspec c l (l ++ [e]) (QInserted e true)
   | Some (p, false) => dwf d' /\ exists n, d_nodes d' p = Some n /\
       ((delems d' = delems (o_d s) /\ forall l, Permutation (delems (o_d s)) l -> otspec c l l (QInserted (n_val n) false)) \/
        (exists a y b, delems (o_d s) = a ++ y :: b /\ delems d' = a ++ n_val n :: b /\ forall p q, otspec c (p ++ y :: q) (p ++ n_val n :: q) (QInserted (n_val n) false)))
   end) -> otexec v (h, s) c = (let* y := x in o_give sz y) -> otblocked v (h, s) c \/ otok v h s ord c.
Proof.
  intros c v h s ord d' r x H Hc [->|(h' & s' & -> & Hd & F & L)] Hr He.
  { left. destruct Hc as [(ts & u & ->)|(t & u & ->)]; right; rewrite He; reflexivity. }
  rewrite app_nil_r in L. destruct r as [(p, [|])|]; cbn [bind o_give] in He.
  - destruct Hr as (W' & e & n & Hde & Hn & Hv & Hs). right. assert (H' : oinv h' s' (ord ++ [d_size (o_d s)])) by (split; [rewrite Hd; exact W'|exact L]).
    unfold otok. rewrite He. rewrite <- Hd in Hn. rewrite (o_at_slot sz nk key_of hash keq Hsz h' s' _ p n H' Hn). cbn [bind]. eexists _, _, _, _. split; [reflexivity|]. split; [exact H'|]. split; [exact F|].
    unfold ocont at 2. rewrite Hd, (cont_append sz nk key_of hash keq rep rep_key h s ord d' e H Hde), Hv. apply Hs. apply Permutation_sym. apply (inv_perm sz nk key_of hash keq _ _ _ H).
  - destruct Hr as (W' & n & Hn & Hs). right. assert (H' : oinv h' s' ord) by (split; [rewrite Hd; exact W'|exact L]).
    unfold otok. rewrite He. rewrite <- Hd in Hn. rewrite (o_at_slot sz nk key_of hash keq Hsz h' s' _ p n H' Hn). cbn [bind]. eexists _, _, _, _. split; [reflexivity|]. split; [exact H'|]. split; [exact F|].
    unfold ocont at 2. rewrite Hd. destruct Hs as [(Hde & Hs)|(a & y & b & Hd1 & Hd2 & Hs)].
    + rewrite Hde. apply Hs. apply Permutation_sym. apply (inv_perm sz nk key_of hash keq _ _ _ H).
    + destruct (cont_replace sz nk key_of hash keq rep rep_key h s ord a y (n_val n) b H Hd1) as (p' & q' & -> & Hq). rewrite Hd2, Hq. apply Hs.
  - destruct Hr as (Hes & [W'|(Hb & Hbr)]).
    + right. unfold otok. rewrite He. eexists _, _, _, _. split; [reflexivity|]. split; [split; [rewrite Hd; exact W'|exact L]|]. split; [exact F|]. unfold ocont. rewrite Hd, (delems_same _ _ Hes).
      destruct Hc as [(ts & u & ->)|(t & u & ->)]; constructor.
    + left. assert (X : 0 < d_bc (o_d s) /\ exists hs', otexec v (h, s) c = Ok (hs', QThrow) /\ d_sok (o_d (snd hs')) = false) by (split; [exact Hb|]; exists (h', s'); split; [exact He|]; cbn [snd]; rewrite Hd; exact Hbr).
      destruct Hc as [(ts & u & ->)|(t & u & ->)]; left; exact X.
Qed.

Lemma otstep_ok : forall v h s ord c, oinv h s ord -> denv_ok (ov_d v) -> otcall_ok nk c -> otblocked v (h, s) c \/ otok v h s ord c.
Proof.
  intros v h s ord c H Hv Hc. pose proof H as (W & L). destruct c as [c|j t|j t|j t|ts u|t u]; cbn [otcall_ok] in Hc.
  - destruct (ostep_ok sz nk key_of hash keq rep Hsz KL rep_key v h s ord c H Hv Hc) as [Hb|(h' & s' & r & E1 & ord' & I1 & F1 & S1)]; [left; exact Hb|right].
    exists h', s', r, ord'. split; [exact E1|]. split; [exact I1|]. split; [exact F1|apply ot_on; exact S1].
  - apply (by_unit v h s ord j t _ (OFind j (inr tt)) H Hv Hc); [auto| |].
    + cbn [TransparentOrderedDenseModel.otexec oexec]. rewrite (find_o key_of keq eqt t). reflexivity.
    + intros l l' r S. inversion S; subst; [apply ot_find_absent; assumption| |discriminate]. match goal with X : dlocated _ _ _ _ _ _ _ _ |- _ => destruct X as [Lc Lk] end. eapply ot_find. split; [exact Lc|exact Lk].
  - apply (by_unit v h s ord j t _ (OContains j (inr tt)) H Hv Hc); [auto| |].
    + cbn [TransparentOrderedDenseModel.otexec oexec]. rewrite (find_o key_of keq eqt t). reflexivity.
    + intros l l' r S. inversion S; subst; [apply ot_contains_absent; assumption| |discriminate]. match goal with X : dlocated _ _ _ _ _ _ _ _ |- _ => destruct X as [Lc Lk] end. eapply ot_contains. split; [exact Lc|exact Lk].
  - apply (by_unit v h s ord j t _ (OErase j (inr tt)) H Hv Hc); [auto 6| |].
    + cbn [TransparentOrderedDenseModel.otexec oexec]. unfold o_erase_key. cbn [ueither_hash ohash]. destruct (deref (get_chain (o_d s) (hasht t))) as [p|]; [|reflexivity]. cbn [bind].
      rewrite (o_erase_loop_ext E (K + T) (K + unit) sz nk (@ueither_key E K T key_of) (ueither_eq keq eqt) kt (et t) _ h s j (inr t) (inr tt)) by reflexivity. reflexivity.
    + intros l l' r S. inversion S; subst; [apply ot_erase_absent; assumption| |discriminate]. match goal with X : dlocated _ _ _ _ _ _ _ _ |- _ => destruct X as [Lc Lk] end. eapply ot_erase. split; [exact Lc|exact Lk].
  - destruct (u_try_ok nk key_of hash keq rep KL rep_key hasht eqt make TL (dv_dlim (ov_d v)) (dv_slim (ov_d v)) (o_d s) ts u W (proj1 Hv) (proj2 Hv)) as ((d', r) & Hd & Hi). cbn [ins_ok] in Hi.
    assert (Ha : forall l i, (i < nk)%nat -> dabsent key_of keq i (key_of i (make ts u)) l -> uabsent key_of eqt i (ts i) l).
    { intros l i Hi0 Ha x Hx. rewrite (eqt_made nk key_of hash keq hasht eqt make TL i ts u x Hi0). apply Ha. exact Hx. }
    refine (insert_step (OTTry ts u) v h s ord d' r _ H (or_introl (ex_intro _ ts (ex_intro _ u eq_refl))) (ot_try_sim v h s ord ts u d' r W Hv L Hd _) _ eq_refl).
    + intros p ->. destruct Hi as (W' & _ & n & Hn & _). pose proof (node_live nk key_of hash keq _ p n W' Hn) as X. unfold live in X. lia.
    + destruct r as [(p, [|])|]; [| |exact Hi].
      * destruct Hi as (W' & Hnew & Hde & n & Hn & Hnv). split; [exact W'|]. exists (make ts u), n. repeat split; auto. intros l Hl. apply ot_try_new. intros i Hi0. apply Ha; [exact Hi0|]. apply (new_perm nk key_of keq (make ts u) _ l Hl Hnew). exact Hi0.
      * destruct Hi as (W' & Hde & n & Hn & Hcl). split; [exact W'|]. exists n. split; [exact Hn|]. left. split; [exact Hde|]. intros l Hl. apply ot_try_old. destruct (clash_perm nk key_of keq (make ts u) _ l _ Hl Hcl) as (j & Hj & Hin & Hk & Hpre).
        exists j. split; [exact Hj|]. split; [exact Hin|]. split; [rewrite (eqt_made nk key_of hash keq hasht eqt make TL j ts u _ Hj); exact Hk|]. intros i Hij. apply Ha; [lia|apply Hpre; exact Hij].
  - destruct (u_assign_ok nk key_of hash keq rep KL rep_key hasht eqt make TL (dv_dlim (ov_d v)) (dv_slim (ov_d v)) (o_d s) t u W (proj1 Hv) (proj2 Hv) Hc) as ((d', r) & Hd & Hi). cbn [assign_ok] in Hi.
    assert (H01 : (0 < nk)%nat) by lia. assert (Heq : forall x, eqt (key_of 0%nat x) t = keq (key_of 0%nat x) (key_of 0%nat (make (fun _ => t) u))) by (intros x; exact (eqt_made nk key_of hash keq hasht eqt make TL 0%nat (fun _ => t) u x H01)).
    refine (insert_step (OTAssign t u) v h s ord d' r _ H (or_intror (ex_intro _ t (ex_intro _ u eq_refl))) (ot_assign_sim v h s ord t u d' r W Hv L Hd) _ eq_refl).
    destruct r as [(p, [|])|]; [| |exact Hi].
    + destruct Hi as (W' & Hnew & Hde & n & Hn & Hnv). split; [exact W'|]. exists (make (fun _ => t) u), n. repeat split; auto. intros l Hl. apply ot_assign_new. intros x Hx. rewrite Heq. apply (absent_perm key_of keq 0 _ _ l Hl Hnew). exact Hx.
    + destruct Hi as (W' & n & a & x & b & Hn & Hnv & (Hl1 & Hl2) & Hde). split; [exact W'|]. exists n. split; [exact Hn|]. right. exists a, x, b. rewrite Hnv. split; [exact Hl1|]. split; [exact Hde|].
      intros p' q'. apply ot_assign_old. split; [reflexivity|]. rewrite Heq. exact Hl2.
Qed.
Lemma otrun_ok : forall hist h s ord, oinv h s ord -> othistory_ok nk hist ->
  (exists h' s' ord' rs, otrun (h, s) hist = Ok (h', s', rs) /\ oinv h' s' ord' /\ ofr h s h' s' /\ otspec_run (map snd hist) (ocont s ord) (ocont s' ord') rs) \/
  (exists h1 v c h2 hs1 rs1 l1, hist = h1 ++ (v, c) :: h2 /\ otrun (h, s) h1 = Ok (hs1, rs1) /\ otspec_run (map snd h1) (ocont s ord) l1 rs1 /\ otblocked v hs1 c).
Proof.
  induction hist as [|(v, c) hist IH]; intros h s ord H Hh.
  - left. exists h, s, ord, []. split; [reflexivity|]. split; [exact H|]. split; [apply ofr_refl|]. constructor.
  - inversion Hh as [|? ? (Hv & Hc) Hh']; subst. cbn [fst snd] in *. destruct (otstep_ok v h s ord c H Hv Hc) as [Hb|(h1 & s1 & r & ord1 & He & H1 & F1 & S1)].
    + right. exists [], v, c, hist, (h, s), [], (ocont s ord). split; [reflexivity|]. split; [reflexivity|]. split; [constructor|exact Hb].
    + destruct (IH h1 s1 ord1 H1 Hh') as [(h' & s' & ord' & rs & Hr & H' & F' & S')|(p1 & v' & c' & p2 & hs1 & rs1 & l1 & -> & Hr & S' & Hb)].
      * left. exists h', s', ord', (r :: rs). cbn [TransparentOrderedDenseModel.otrun]. rewrite He. cbn [bind]. rewrite Hr. cbn [bind]. split; [reflexivity|]. split; [exact H'|]. split; [apply (ofr_trans sz _ _ _ _ _ _ F1 F')|]. cbn [map snd]. econstructor; eassumption.
      * right. exists ((v, c) :: p1), v', c', p2, hs1, (r :: rs1), l1. split; [reflexivity|]. cbn [TransparentOrderedDenseModel.otrun]. rewrite He. cbn [bind]. rewrite Hr. cbn [bind]. split; [reflexivity|]. split; [cbn [map snd]; econstructor; eassumption|exact Hb].
Qed.
Lemma ot_refines : forall clone pocca pocma, (forall j e, (j < nk)%nat -> key_of j (clone e) = key_of j e) ->
  forall hw i l hist, yoccurs sz nk key_of hash keq rep clone pocca pocma hw -> o_iterate sz (fst hw) (snd hw i) = Ok l -> othistory_ok nk hist ->
  otrefines sz nk key_of hash keq rep hasht eqt make (fst hw, snd hw i) l hist.
Proof.
  intros clone pocca pocma Hclone hw i l hist Hw Hl Hh. destruct (occurs_oinv sz nk key_of hash keq rep clone pocca pocma Hsz KL rep_key Hclone hw i Hw) as (ord & H & Hi). rewrite Hi in Hl. injection Hl as <-.
  destruct (otrun_ok hist _ _ ord H Hh) as [(h' & s' & ord' & rs & Hr & H' & F' & S')|Hb]; [left|right; exact Hb].
  exists (h', s'), rs, (ocont s' ord'). cbn [fst snd]. split; [exact Hr|]. split; [exact S'|]. split; [apply (o_iterate_ok sz nk key_of hash keq Hsz); exact H'|]. split; [apply (o_backwards_ok sz nk key_of hash keq Hsz); exact H'|]. split.
  - apply (distinct_perm nk key_of keq (OrderedRefine.keq_comm hash keq KL) (delems (o_d s'))); [apply Permutation_sym; apply (inv_perm sz nk key_of hash keq _ _ _ H')|]. apply (wf_distinct nk key_of hash keq rep rep_key). apply H'.
  - intros a Ha1 Ha2 Ha3. destruct F' as (_ & F'). apply (F' a); [split; assumption|exact Ha3].
Qed.
End Proofs.
