(** Ordered dense containers after the move assignment of an erasure threw. *)
From Coq Require Import ZArith List Bool Lia.
From Verif Require Import Base BaseLemmas MapSpec DenseSpec DenseModel DenseRun DenseChain DenseInv DenseOps DenseEdit DenseErase DenseRefine
  LinkModel LinkProofs OrderedDense OrderedWorld OrderedLinks OrderedProofs OrderedRefine OrderedFinal EraseThrowModel EraseThrowProofs.
Import ListNotations.
Open Scope Z_scope.

Section Proofs.
Context {E K : Type}.
Variable sz : Z.
Variable nk : nat.
Variable key_of : nat -> E -> K.
Variable hash : K -> Z.
Variable keq : K -> K -> bool.
Variable rep : E -> E -> E.
Variable clone : E -> E.
Variables pocca pocma : bool.
Hypothesis Hsz : 0 < sz.
Hypothesis KL : key_laws hash keq.
Hypothesis rep_key : forall x e, key_of 0%nat (rep x e) = key_of 0%nat x.
Hypothesis clone_key : forall j e, (j < nk)%nat -> key_of j (clone e) = key_of j e.
Notation odense := (odense E).
Notation oinv := (oinv sz nk key_of hash keq).
Notation yoccurs := (yoccurs sz nk key_of hash keq rep clone pocca pocma).

Lemma ordered_node_same : forall bad h (s : odense) pos sl, bad = false \/ pos = d_size (o_d s) - 1 ->
  o_t_erase_node sz bad h s pos sl = let* x := o_erase_node sz h s pos sl in let '(h', s', a) := x in Ok (h', s', Some a).
Proof.
  intros bad h s pos sl H. unfold o_t_erase_node, o_erase_node. destruct (next_link h (slot sz s pos)) as [nxt|]; [|reflexivity]. cbn [bind].
  destruct (unlink h (slot sz s pos)) as [h1|]; [|reflexivity]. cbn [bind]. rewrite (node_same (o_d s) pos sl bad H). unfold lift. destruct (erase_node (o_d s) pos sl) as [(d, p)|]; [|reflexivity]. cbn [bind fst snd].
  destruct (if pos =? d_size (o_d s) - 1 then Ok h1 else relink_from h1 (slot sz s pos) (slot sz s (d_size (o_d s) - 1))); reflexivity.
Qed.
Theorem ordered_safe : forall bad hw c i a, yoccurs hw -> let h := fst hw in let s := snd hw c in 0 <= i < d_size (o_d s) -> a = slot sz s i ->
  bad = false \/ i = d_size (o_d s) - 1 ->
  o_t_erase_at sz nk bad h s a = let* x := o_erase_at sz nk h s a in let '(h', s', b) := x in Ok (h', s', Some b).
Proof.
  intros bad (h, w) c i a Ho; cbn [fst snd]; cbn zeta. intros Hi -> H. destruct (occurs_oinv sz nk key_of hash keq rep clone pocca pocma Hsz KL rep_key clone_key _ c Ho) as (ord & (W & L) & _). cbn [fst snd] in *.
  destruct (slot_index sz Hsz h (w c) ord i L) as (Hne & Hix); [apply (ol_in _ _ _ _ _ _ _ L); exact Hi|].
  unfold o_t_erase_at, o_erase_at. destruct (Z.eqb_spec (slot sz (w c) i) (o_hdr (w c))) as [|_]; [contradiction|]. rewrite Hix. cbn [bind].
  destruct (get_node (o_d (w c)) i) as [n|]; [|reflexivity]. cbn [bind]. destruct (chains_to (o_d (w c)) n i (js nk)) as [sl|]; [|reflexivity]. cbn [bind]. apply ordered_node_same. exact H.
Qed.

Lemma pick_at : forall (d : dense E) o1 i o2 n, dwf nk key_of hash keq d -> live d i -> d_nodes d i = Some n -> pick (delems d) (o1 ++ i :: o2) = pick (delems d) o1 ++ n_val n :: pick (delems d) o2.
Proof.
  intros d o1 i o2 n W Hl Hn. rewrite pick_split. f_equal. apply pick_cons. rewrite (delems_nth nk key_of hash keq d i W Hl). unfold val. rewrite Hn. reflexivity.
Qed.
Theorem ordered_lost : forall hw c i, yoccurs hw -> let h := fst hw in let s := snd hw c in 0 <= i < d_size (o_d s) - 1 ->
  exists h' s' x y p q u w, o_t_erase_at sz nk true h s (slot sz s i) = Ok (h', s', None) /\ d_size (o_d s') = d_size (o_d s) /\
    d_nodes (o_d s) i = Some x /\ d_nodes (o_d s) (d_size (o_d s) - 1) = Some y /\
    o_iterate sz h s = Ok (p ++ n_val x :: q) /\ p ++ q = u ++ n_val y :: w /\ o_iterate sz h' s' = Ok (u ++ n_val x :: w) /\
    forall j, (j < nk)%nat -> apart key_of hash (o_d s) j i (d_size (o_d s) - 1) ->
      contains key_of hash keq (o_d s') j (key_of j (n_val x)) = Ok false /\ contains key_of hash keq (o_d s') j (key_of j (n_val y)) = Ok false.
Proof.
  intros (h, wd) c i Ho; cbn [fst snd]; cbn zeta. intros Hi. destruct (occurs_oinv sz nk key_of hash keq rep clone pocca pocma Hsz KL rep_key clone_key _ c Ho) as (ord & (W & L) & Hit). cbn [fst snd] in *. set (s := wd c) in *.
  set (en := d_size (o_d s) - 1) in *. assert (Hen : en = d_size (o_d s) - 1) by reflexivity.
  destruct (slot_index sz Hsz h s ord i L) as (Hne & Hix); [apply (ol_in _ _ _ _ _ _ _ L); lia|].
  assert (Hli : live (o_d s) i) by (unfold live; lia). assert (Hle : live (o_d s) en) by (unfold live; lia).
  destruct (w_live _ _ _ _ _ W i Hli) as (x & Hx). destruct (w_live _ _ _ _ _ W en Hle) as (y & Hy).
  destruct (chains_to_ok nk key_of hash keq (o_d s) i x (js nk) W Hx) as (sl & H1 & H2 & H3); [intros j; apply js_in|].
  destruct (lost_node nk key_of hash keq KL (o_d s) i sl W Hi) as (t & Ht & Hst & Hd & Hlost).
  { split; [rewrite H2; apply js_nodup|split; [intros j; rewrite H2; apply js_in|exact H3]]. }
  assert (Hin : In i ord) by (apply (ol_in _ _ _ _ _ _ _ L); exact Hli). apply in_split in Hin. destruct Hin as (o1 & o2 & ->).
  assert (Hin : In en (o1 ++ o2)).
  { assert (X : In en (o1 ++ i :: o2)) by (apply (ol_in _ _ _ _ _ _ _ L); exact Hle). apply in_app_or in X. apply in_or_app. destruct X as [X|[X|X]]; [left; exact X|lia|right; exact X]. }
  pose proof (ol_nd _ _ _ _ _ _ _ L) as Hnd. apply NoDup_remove_1 in Hnd. apply in_split in Hin. destruct Hin as (u1 & w1 & Euw).
  destruct (erase_links_ok sz Hsz h _ _ _ _ _ _ _ L) as (h1 & h2 & E1 & E2 & L2 & _ & E3). fold en in E2, L2.
  assert (Hsub : map (subst_last i en) (o1 ++ o2) = u1 ++ i :: w1).
  { rewrite Euw in *. apply NoDup_remove_2 in Hnd. rewrite map_app. cbn [map]. unfold subst_last at 2. rewrite Z.eqb_refl.
    assert (G : forall l, ~ In en l -> map (subst_last i en) l = l).
    { intros l Hl. rewrite <- (map_id l) at 2. apply map_ext_in. intros z Hz. unfold subst_last. destruct (Z.eqb_spec z en) as [->|]; [contradiction|reflexivity]. }
    rewrite !G; [reflexivity| |]; intros X; apply Hnd; apply in_or_app; auto. }
  rewrite Hsub in L2.
  exists h2, (with_d s t), x, y, (pick (delems (o_d s)) o1), (pick (delems (o_d s)) o2), (pick (delems (o_d s)) u1), (pick (delems (o_d s)) w1).
  split; [|split; [|split; [|split; [|split; [|split; [|split]]]]]].
  - unfold o_t_erase_at. destruct (Z.eqb_spec (slot sz s i) (o_hdr s)) as [|_]; [contradiction|]. rewrite Hix. cbn [bind]. rewrite (get_node_ok _ _ _ (w_mem _ _ _ _ _ W) Hx). cbn [bind]. rewrite H1. cbn [bind].
    unfold o_t_erase_node, slot. rewrite E3. cbn [bind]. rewrite E1. cbn [bind]. rewrite Ht. cbn [bind fst snd]. fold en. rewrite E2. reflexivity.
  - apply (sm_size _ _ Hst).
  - exact Hx.
  - exact Hy.
  - rewrite Hit. unfold ocont. rewrite (pick_at _ o1 i o2 x W Hli Hx). reflexivity.
  - rewrite <- pick_split, Euw. apply (pick_at _ u1 en w1 y W Hle Hy).
  - rewrite <- (pick_at (o_d s) u1 i w1 x W Hli Hx).
    pose proof (ol_ring _ _ _ _ _ _ _ L2) as R. pose proof (olinks_len _ _ _ _ _ _ _ L2) as Hlen.
    unfold o_iterate. cbn [with_d o_hdr o_d]. rewrite (sm_size _ _ Hst). destruct (ring_walk h2 (o_hdr s) _ (S (Z.to_nat (d_size (o_d s)))) R) as (b & Hb & Hw); [rewrite map_length, Hlen; lia|].
    rewrite Hb. cbn [bind]. rewrite Hw. cbn [bind]. change (fun z => o_base s + z * sz) with (slot sz s). fold (with_d s t).
    assert (Hd' : forall l, (forall z, In z l -> live (o_d s) z) -> deref_all sz (with_d s t) (map (slot sz s) l) = Ok (pick (delems (o_d s)) l)).
    { induction l as [|z l IH]; intros Hz; [reflexivity|]. cbn [map deref_all]. unfold index_of. cbn [with_d o_base o_d]. rewrite (sm_cap _ _ Hst).
      assert (Hzl : live (o_d s) z) by (apply Hz; left; reflexivity). pose proof (w_size _ _ _ _ _ W). unfold slot at 1. rewrite slot_ix_of by (unfold live in Hzl; lia). cbn [bind].
      destruct (w_live _ _ _ _ _ W z Hzl) as (n & Hn). destruct (same_node _ _ z n Hst Hn) as (n' & Hn' & Hv & _). rewrite (get_node_ok _ _ _ (same_okm _ _ Hst (w_mem _ _ _ _ _ W)) Hn'). cbn [bind].
      fold (with_d s t). rewrite IH by (intros z' Hz'; apply Hz; right; exact Hz'). cbn [bind]. rewrite Hv. rewrite (pick_cons (delems (o_d s)) z l (n_val n)); [reflexivity|]. rewrite (delems_nth nk key_of hash keq _ z W Hzl). unfold val. rewrite Hn. reflexivity. }
    apply Hd'. intros z Hz. apply (ol_in _ _ _ _ _ _ _ L2) in Hz. unfold live. lia.
  - intros j Hj Hap. exact (Hlost j x y Hj Hap Hx Hy).
Qed.
End Proofs.
