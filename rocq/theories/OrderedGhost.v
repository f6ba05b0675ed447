(** Ordered dense tables after an exception has left push_node or the search of emplace. *)
From Coq Require Import ZArith List Bool Lia Permutation.
From Verif Require Import Base BaseLemmas MapSpec Float32 DenseSpec DenseModel DenseRun DenseChain DenseInv DenseOps DenseEdit DenseErase DenseRefine ThrowSpec ThrowModel ThrowProofs
  LinkModel LinkProofs OrderedSpec OrderedDense OrderedRun OrderedLinks OrderedProofs OrderedRefine OrderedWorldSpec OrderedWorld OrderedWorldProofs OrderedFinal OrderedThrowSpec OrderedThrowModel OrderedThrowProofs.
Import ListNotations.
Open Scope Z_scope.

Section Resized.
Context {E : Type}.
Notation dense := (dense E).

(** Memory accesses do not look at the size. *)
Lemma load_size : forall (d : dense) n j p, load (set_size d n) j p = load d j p.
Proof. intros d n j [b|i]; reflexivity. Qed.
Lemma store_size : forall (d d' : dense) n j p v, store d j p v = Ok d' -> store (set_size d n) j p v = Ok (set_size d' n).
Proof.
  intros d d' n j [b|i] v H; cbn [store] in *.
  - change (check_bucket (set_size d n) b) with (check_bucket d b). destruct (check_bucket d b); [|discriminate]. cbn [bind] in *. injection H as <-. reflexivity.
  - change (get_node (set_size d n) i) with (get_node d i). unfold put_node in *. change (get_node (set_size d n) i) with (get_node d i). destruct (get_node d i); [|discriminate]. cbn [bind] in *. injection H as <-. reflexivity.
Qed.
Lemma store_dead : forall (d d' : dense) j p v i, store d j p v = Ok d' -> d_nodes d i = None -> d_nodes d' i = None.
Proof.
  intros d d' j [b|x] v i H Hi; cbn [store] in H.
  - destruct (check_bucket d b); [|discriminate]. cbn [bind] in H. injection H as <-. exact Hi.
  - unfold put_node in H. destruct (get_node d x) as [n|] eqn:Hg; [|discriminate]. cbn [bind] in H. injection H as <-. cbn [set_nodes d_nodes]. unfold upd. destruct (Z.eqb_spec i x) as [->|_]; [|exact Hi].
    exfalso. unfold get_node in Hg. rewrite Hi in Hg. destruct (guard (negb (d_cap d =? 0)) NullDeref); [|discriminate]. cbn [bind] in Hg. destruct (guard (d_dok d) UseAfterFree); [|discriminate]. cbn [bind] in Hg. destruct (guard _ OutOfBounds); discriminate.
Qed.
Lemma chain_ptr_size : forall fuel fuel' (d : dense) n j p pos q, (fuel <= fuel')%nat -> find_chain_ptr fuel d j p pos = Ok q -> find_chain_ptr fuel' (set_size d n) j p pos = Ok q.
Proof.
  induction fuel as [|fu IH]; intros fuel' d n j p pos q Hf H; [discriminate H|]. destruct fuel' as [|fu']; [lia|]. cbn [find_chain_ptr] in *. rewrite load_size.
  destruct (load d j p) as [v|]; [|discriminate]. cbn [bind] in *. destruct ((v =? npos) || (v =? pos)); [exact H|]. apply IH; [lia|exact H].
Qed.
Lemma chains_size : forall (d : dense) m n pos l sl, d_size d <= n -> chains_to d m pos l = Ok sl -> chains_to (set_size d n) m pos l = Ok sl.
Proof.
  intros d m n pos l. induction l as [|j l IH]; intros sl Hn H; [exact H|]. cbn [chains_to] in *. apply bind_Ok in H. destruct H as (p & Hp & H). apply bind_Ok in H. destruct H as (xs & Hx & H).
  unfold chain_to in *. change (get_chain (set_size d n) (n_hash m j)) with (get_chain d (n_hash m j)). destruct (get_chain d (n_hash m j)) as [g|]; [|discriminate]. cbn [deref bind] in *.
  rewrite (chain_ptr_size (chain_fuel d) (chain_fuel (set_size d n)) d n j g pos p); [|unfold chain_fuel; cbn [set_size d_size]; lia|exact Hp]. cbn [bind]. rewrite (IH xs Hn Hx). exact H.
Qed.
Lemma stores_size : forall pos sl (d d' : dense) n i, d_nodes d i = None ->
  foldM (fun t jp => let* m := get_node t pos in store t (fst jp) (snd jp) (n_next m (fst jp))) sl d = Ok d' ->
  foldM (fun t jp => let* m := get_node t pos in store t (fst jp) (snd jp) (n_next m (fst jp))) sl (set_size d n) = Ok (set_size d' n) /\ d_nodes d' i = None /\ d_size d' = d_size d /\ d_cap d' = d_cap d.
Proof.
  intros pos sl. induction sl as [|(j, p) sl IH]; intros d d' n i Hi H; cbn [foldM fst snd] in *.
  - injection H as <-. auto.
  - apply bind_Ok in H. destruct H as (d1 & H1 & H). apply bind_Ok in H1. destruct H1 as (m & Hm & H1). change (get_node (set_size d n) pos) with (get_node d pos). rewrite Hm. cbn [bind]. rewrite (store_size d d1 n j p _ H1). cbn [bind].
    destruct (store_dims _ _ _ _ _ H1) as (A & B). destruct (IH d1 d' n i (store_dead _ _ _ _ _ _ H1 Hi) H) as (C1 & C2 & C3 & C4). split; [exact C1|]. split; [exact C2|]. split; congruence.
Qed.
(** Access to a slot without an object. *)
Lemma dead_get : forall (d : dense) i, d_nodes d i = None -> exists e, get_node d i = Err e.
Proof.
  intros d i H. unfold get_node. rewrite H. destruct (guard (negb (d_cap d =? 0)) NullDeref) as [[]|e1]; cbn [bind]; [|exists e1; reflexivity].
  destruct (guard (d_dok d) UseAfterFree) as [[]|e2]; cbn [bind]; [|exists e2; reflexivity]. destruct (guard _ OutOfBounds) as [[]|e3]; cbn [bind]; [|exists e3; reflexivity]. exists DeadObject. reflexivity.
Qed.
Lemma dead_get' : forall (d : dense) i, 0 <= i < d_cap d -> d_dok d = true -> d_nodes d i = None -> get_node d i = Err DeadObject.
Proof.
  intros d i Hi Hd H. unfold get_node. rewrite H, Hd. destruct (Z.eqb_spec (d_cap d) 0); [lia|]. cbn [negb guard bind]. destruct (Z.leb_spec 0 i); [|lia]. destruct (Z.ltb_spec i (d_cap d)); [|lia]. reflexivity.
Qed.
Lemma store_dok : forall (d d' : dense) j p v, store d j p v = Ok d' -> d_dok d' = d_dok d.
Proof.
  intros d d' j [b|i] v H; cbn [store] in *.
  - destruct (check_bucket d b); [|discriminate]. cbn [bind] in H. injection H as <-. reflexivity.
  - unfold put_node in H. destruct (get_node d i); [|discriminate]. cbn [bind] in H. injection H as <-. reflexivity.
Qed.
Lemma stores_dok : forall pos sl (d d' : dense), foldM (fun t jp => let* m := get_node t pos in store t (fst jp) (snd jp) (n_next m (fst jp))) sl d = Ok d' -> d_dok d' = d_dok d.
Proof.
  intros pos sl. induction sl as [|(j, p) sl IH]; intros d d' H; cbn [foldM fst snd] in *; [injection H as <-; reflexivity|].
  apply bind_Ok in H. destruct H as (d1 & H1 & H). apply bind_Ok in H1. destruct H1 as (m & Hm & H1). rewrite (IH d1 d' H). apply (store_dok _ _ _ _ _ H1).
Qed.

(** erase_node of an element of a table that counts one more than there is: the last node is
    read. *)
Lemma ghost_erase_node : forall (d d' : dense) pos sl, erase_node d pos sl = Ok (d', pos) -> pos < d_size d -> 0 <= d_size d < d_cap d -> d_dok d = true -> d_nodes d (d_size d) = None ->
  erase_node (set_size d (d_size d + 1)) pos sl = Err DeadObject.
Proof.
  intros d d' pos sl H Hpos Hc Hok Hdead. unfold erase_node in *. apply bind_Ok in H. destruct H as (? & _ & H). apply bind_Ok in H. destruct H as (d1 & H1 & _).
  change (d_size (set_size d (d_size d + 1))) with (d_size d + 1). destruct (Z.eqb_spec pos (d_size d + 1)); [lia|]. cbn [negb guard bind].
  destruct (stores_size pos sl d d1 (d_size d + 1) (d_size d) Hdead H1) as (S1 & S2 & S3 & S4). pose proof (stores_dok pos sl d d1 H1) as S5. rewrite S1. cbn [bind].
  change (d_size (set_size d1 (d_size d + 1))) with (d_size d + 1). replace (d_size d + 1 - 1) with (d_size d) by lia. destruct (Z.eqb_spec pos (d_size d)); [lia|].
  assert (Hg : get_node (set_size d1 (d_size d + 1)) (d_size d) = Err DeadObject) by (apply dead_get'; [cbn [set_size d_cap]; lia|cbn [set_size d_dok]; congruence|exact S2]).
  destruct (map fst sl) as [|j l]; cbn [foldM]; [cbn [bind]; rewrite Hg; reflexivity|]. unfold move_chain at 1. rewrite Hg. reflexivity.
Qed.
Lemma ghost_clear : forall d : dense, okm d -> 0 <= d_size d < d_cap d -> (forall i, live d i -> exists n, d_nodes d i = Some n) -> d_nodes d (d_size d) = None ->
  clear (set_size d (d_size d + 1)) = Err DeadObject.
Proof.
  intros d Hm Hc Hl Hdead.
  assert (Hgo : forall sp, clear_data (set_size (set_sparse d sp) (d_size d + 1)) = Err DeadObject).
  { intros sp. set (d0 := set_sparse d sp). assert (Hm0 : okm d0) by (destruct Hm; constructor; assumption).
    destruct (clear_data_ok d0 Hm0 (proj1 Hc) Hl) as (s2 & H & _ & H2 & _ & _ & H3 & _ & _ & H4). unfold clear_data in *. cbn [set_size d_size]. rewrite zrange_succ by lia. rewrite foldM_app.
    change (set_size (set_size d0 (d_size d + 1)) 0) with (set_size d0 0). change (d_size d0) with (d_size d) in H. rewrite H. cbn [bind foldM]. unfold kill_node. rewrite dead_get'; [reflexivity|rewrite H2; exact Hc|exact H3|].
    rewrite H4. change (d_nodes d0 (d_size d)) with (d_nodes d (d_size d)). rewrite Hdead. destruct (_ && _); reflexivity. }
  unfold clear, fill_sparse. change (d_bc (set_size d (d_size d + 1))) with (d_bc d). destruct (d_bc d =? 0); cbn [bind].
  - specialize (Hgo (d_sparse d)). destruct d. exact Hgo.
  - change (d_sok (set_size d (d_size d + 1))) with (d_sok d). rewrite (om_sok _ Hm). cbn [guard bind]. exact (Hgo (fun _ _ => npos)).
Qed.
End Resized.

Section Ghost.
Context {E K : Type}.
Variable sz : Z.
Variable nk : nat.
Variable key_of : nat -> E -> K.
Variable hash : K -> Z.
Variable keq : K -> K -> bool.
Variable rep : E -> E -> E.
Hypothesis Hsz : 0 < sz.
Hypothesis KL : key_laws hash keq.
Hypothesis rep_key : forall x e, key_of 0%nat (rep x e) = key_of 0%nat x.
Notation odense := (odense E).
Notation dense := (dense E).
Notation dwf := (dwf nk key_of hash keq).
Notation lnk := (lnk sz). Notation ofr := (ofr sz). Notation slot := (slot sz).
Notation oinv := (oinv sz nk key_of hash keq).
Notation otexec := (otexec sz nk key_of hash keq rep).
Notation o_has_room := (o_has_room sz nk). Notation o_make_room := (o_make_room sz nk).
Notation dnew := (dnew nk key_of keq).

(** Traversal of the ring, when the dense part differs but agrees on the elements linked. *)
Lemma ring_iterate : forall h (s : odense) ord d', oinv h s ord -> d_cap d' = d_cap (o_d s) -> d_size (o_d s) <= d_size d' -> (forall i, live (o_d s) i -> get_node d' i = get_node (o_d s) i) ->
  o_iterate sz h (with_d s d') = Ok (ocont s ord) /\ o_backwards sz h (with_d s d') = Ok (rev (ocont s ord)).
Proof. clear KL rep rep_key.
  intros h s ord d' H Hc Hs Hg. pose proof H as (W & L). pose proof (ol_ring _ _ _ _ _ _ _ L) as R. pose proof (olinks_len _ _ _ _ _ _ _ L) as Hlen.
  assert (Hd : forall l, incl l ord -> deref_all sz (with_d s d') (map (slot s) l) = deref_all sz s (map (slot s) l)).
  { induction l as [|i l IH]; intros Hi; [reflexivity|]. cbn [map deref_all]. unfold index_of. cbn [with_d o_base o_d]. rewrite Hc.
    assert (Hin : In i ord) by (apply Hi; left; reflexivity). destruct (slot_index sz Hsz h s ord i L Hin) as (_ & Hix). unfold index_of in Hix. rewrite Hix. cbn [bind].
    rewrite (Hg i) by (apply (ol_in _ _ _ _ _ _ _ L); exact Hin). rewrite IH by (intros x Hx; apply Hi; right; exact Hx). reflexivity. }
  split.
  - unfold o_iterate. cbn [with_d o_hdr o_d]. destruct (ring_walk h (o_hdr s) _ (S (Z.to_nat (d_size d'))) R) as (a & Ha & Hw); [rewrite map_length, Hlen; lia|]. rewrite Ha. cbn [bind]. rewrite Hw. cbn [bind].
    change (fun i => o_base s + i * sz) with (slot s). fold (with_d s d'). rewrite (Hd ord (incl_refl _)). apply (deref_all_ok sz nk key_of hash keq Hsz h s ord ord H (incl_refl _)).
  - unfold o_backwards. cbn [with_d o_hdr o_d]. destruct (ring_walk_back h (o_hdr s) _ (S (Z.to_nat (d_size d'))) R) as (a & Ha & Hw); [rewrite map_length, Hlen; lia|]. rewrite Ha. cbn [bind]. rewrite Hw. cbn [bind].
    change (fun i => o_base s + i * sz) with (slot s). fold (with_d s d'). rewrite <- map_rev. assert (Hr : incl (rev ord) ord) by (intros x Hx; apply in_rev; exact Hx). rewrite (Hd (rev ord) Hr).
    unfold ocont. rewrite <- pick_rev. apply (deref_all_ok sz nk key_of hash keq Hsz h s ord (rev ord) H Hr).
Qed.
Lemma nth_same : forall h (s : odense) d' i, o_nth h (with_d s d') i = o_nth h s i. Proof. reflexivity. Qed.

(** What is left by a throwing constructor. *)
Definition oghostly (l : list E) (n : Z) (hs : heap * odense) : Prop :=
  size (o_d (snd hs)) = n + 1 /\ o_iterate sz (fst hs) (snd hs) = Ok l /\ o_backwards sz (fst hs) (snd hs) = Ok (rev l) /\
  o_clear (fst hs) (snd hs) = Err DeadObject /\
  forall i a, 0 <= i < Z.of_nat (length l) -> o_nth (fst hs) (snd hs) i = Ok a -> o_erase_at sz nk (fst hs) (snd hs) a = Err DeadObject.

Lemma ghosts : forall h (s : odense) ord, oinv h s ord -> d_size (o_d s) < d_cap (o_d s) -> oghostly (ocont s ord) (d_size (o_d s)) (h, with_d s (set_size (o_d s) (d_size (o_d s) + 1))).
Proof. clear KL rep rep_key.
  intros h s ord H Hc. pose proof H as (W & L). pose proof (w_size _ _ _ _ _ W) as Hs. pose proof (w_mem _ _ _ _ _ W) as Hm. cbn [fst snd]. unfold oghostly. cbn [fst snd].
  assert (Hdead : d_nodes (o_d s) (d_size (o_d s)) = None) by (apply (w_dead _ _ _ _ _ W); unfold live; lia).
  set (d' := set_size (o_d s) (d_size (o_d s) + 1)).
  destruct (ring_iterate h s ord d' H eq_refl) as (I1 & I2); [cbn [d' set_size d_size]; lia|reflexivity|].
  split; [reflexivity|]. split; [exact I1|]. split; [exact I2|]. split.
  - unfold o_clear. cbn [with_d o_hdr o_d]. destruct (reset_ok sz h _ _ _ _ _ L) as (h' & Er & _). rewrite Er. cbn [bind]. unfold d'. rewrite ghost_clear; [reflexivity|exact Hm|lia|apply (w_live _ _ _ _ _ W)|exact Hdead].
  - intros i a Hi Ha. rewrite nth_same in Ha. rewrite (inv_len sz nk key_of hash keq h s ord H) in Hi. rewrite (o_nth_ok sz h s ord i L ltac:(lia)) in Ha. injection Ha as <-.
    pose proof (olinks_len _ _ _ _ _ _ _ L) as Hlen. destruct (nth_error ord (Z.to_nat i)) as [pos|] eqn:En; [|apply nth_error_None in En; lia].
    assert (Hns : nth (Z.to_nat i) (map (slot s) ord ++ [o_hdr s]) (o_hdr s) = slot s pos) by (apply nth_error_nth; rewrite nth_error_app1 by (rewrite map_length; lia); rewrite nth_error_map, En; reflexivity).
    rewrite Hns. assert (Hin : In pos ord) by (apply (nth_error_In _ _ En)). assert (Hlv : live (o_d s) pos) by (apply (ol_in _ _ _ _ _ _ _ L); exact Hin).
    destruct (slot_index sz Hsz h s ord pos L Hin) as (Hne & Hix). assert (Hix' : index_of sz (with_d s d') (slot s pos) = Ok pos) by exact Hix.
    unfold o_erase_at. change (o_hdr (with_d s d')) with (o_hdr s). destruct (Z.eqb_spec (slot s pos) (o_hdr s)) as [|_]; [contradiction|]. rewrite Hix'. change (o_d (with_d s d')) with d'. cbn [bind].
    destruct (erase_at_ok nk key_of hash keq (o_d s) pos W Hlv) as (d1 & _ & _ & _ & He & _). unfold erase_at in He. unfold live in Hlv. destruct (Z.eqb_spec pos (d_size (o_d s))); [lia|].
    apply bind_Ok in He. destruct He as (m & Hg & He). apply bind_Ok in He. destruct He as (sl & Hsl & He). change (get_node d' pos) with (get_node (o_d s) pos). rewrite Hg. cbn [bind].
    unfold d'. rewrite (chains_size (o_d s) m (d_size (o_d s) + 1) pos _ sl ltac:(lia) Hsl). cbn [bind]. unfold o_erase_node. cbn [with_d o_d].
    apply in_split in Hin. destruct Hin as (o1 & o2 & Ho). subst ord. destruct (erase_links_ok sz Hsz h _ _ _ _ _ _ _ L) as (h1 & h2 & E1 & _ & _ & _ & E3).
    change (OrderedDense.slot sz (with_d s (set_size (o_d s) (d_size (o_d s) + 1))) pos) with (o_base s + pos * sz). rewrite E3. cbn [bind]. rewrite E1. cbn [bind].
    rewrite (ghost_erase_node (o_d s) d1 pos sl He); [reflexivity|lia|lia|exact (om_dok _ Hm)|exact Hdead].
Qed.

Lemma octor_throws : forall v h (s : odense) ord e, oinv h s ord -> denv_ok (ov_d v) -> o_has_room v (h, s) ->
  let l := ocont s ord in
  (dnew e l -> exists hs', otexec CtorThrows v (h, s) (OInsert e) = Ok (hs', QThrow) /\ oghostly l (Z.of_nat (length l)) hs') /\
  (dnew e l -> nk = 1%nat -> exists hs', otexec CtorThrows v (h, s) (OAssign e) = Ok (hs', QThrow) /\ oghostly l (Z.of_nat (length l)) hs') /\
  exists hs', otexec CtorThrows v (h, s) (OEmplace e) = Ok (hs', QThrow) /\ oghostly l (Z.of_nat (length l)) hs'.
Proof.
  intros v h s ord e H V (h0 & s0 & p0 & Hr). cbn [fst snd] in Hr. intros l.
  destruct (oroom_cases sz nk key_of hash keq Hsz v h s ord H V) as [HR|[(h1 & s1 & p & HR & _)|(h1 & s1 & p & HR & He & H1 & F1 & Hlt & Hb)]]; [congruence|congruence|].
  assert (Hl : ocont s1 ord = l) by (apply cont_same; exact He). assert (Hn : d_size (o_d s1) = Z.of_nat (length l)) by (rewrite <- Hl; symmetry; apply (inv_len sz nk key_of hash keq h1 s1 ord H1)).
  pose proof (ghosts h1 s1 ord H1 Hlt) as G. rewrite Hl in G. rewrite Hn in G at 1.
  assert (Hnew : dnew e l -> dnew e (delems (o_d s1))) by (rewrite <- Hl; apply new_perm; apply (inv_perm sz nk key_of hash keq h1 s1 ord H1)).
  split; [intros Hd|split; [intros Hd Hnk|]]; cbn [OrderedThrowModel.otexec ot_insert ot_emplace ot_assign fst snd].
  - destruct (oinsert_ctor sz nk key_of hash keq rep KL v h s ord e h1 s1 p H1 Hb HR) as [(i & n & _ & Hx & (j & Hj & Hin & Hk & _))|(_ & Hx)].
    + exfalso. specialize (Hnew Hd j Hj _ Hin). congruence.
    + rewrite Hx. eexists. split; [reflexivity|]. exact G.
  - destruct (oassign_ctor sz nk key_of hash keq rep KL rep_key v h s ord e h1 s1 p H1 Hb Hnk HR) as [(s2 & a & _ & _ & Hx)|(_ & Hx)]; [exfalso; apply Hx; apply Hnew; exact Hd|].
    rewrite Hx. eexists. split; [reflexivity|]. exact G.
  - rewrite (oemplace_ctor sz nk key_of hash keq v h s e h1 s1 p HR). eexists. split; [reflexivity|]. exact G.
Qed.

(** ** A search that throws in emplace *)
Lemma oemplace_search : forall v h (s : odense) ord e, oinv h s ord -> denv_ok (ov_d v) -> o_has_room v (h, s) ->
  let l := ocont s ord in
  exists hs', otexec SearchThrows v (h, s) (OEmplace e) = Ok (hs', QThrow) /\ size (o_d (snd hs')) = Z.of_nat (length l) + 1 /\
    o_iterate sz (fst hs') (snd hs') = Ok l /\ o_backwards sz (fst hs') (snd hs') = Ok (rev l).
Proof. clear KL rep_key.
  intros v h s ord e H V (h0 & s0 & p0 & Hr). cbn [fst snd] in Hr. intros l.
  destruct (oroom_cases sz nk key_of hash keq Hsz v h s ord H V) as [HR|[(h1 & s1 & p & HR & _)|(h1 & s1 & p & HR & He & H1 & F1 & Hlt & Hb)]]; [congruence|congruence|].
  assert (Hl : ocont s1 ord = l) by (apply cont_same; exact He). assert (Hn : d_size (o_d s1) = Z.of_nat (length l)) by (rewrite <- Hl; symmetry; apply (inv_len sz nk key_of hash keq h1 s1 ord H1)).
  cbn [OrderedThrowModel.otexec ot_emplace fst snd]. rewrite HR. cbn [bind]. rewrite (push_node_ok nk key_of hash keq (o_d s1) e (proj1 H1) Hlt). cbn [bind fst o_give]. eexists. split; [reflexivity|]. cbn [fst snd].
  split; [cbn [with_d o_d]; unfold size; change (d_size (pushed (o_d s1) e)) with (d_size (o_d s1) + 1); lia|]. rewrite <- Hl. apply (ring_iterate h1 s1 ord); [exact H1|reflexivity| |].
  - change (d_size (pushed (o_d s1) e)) with (d_size (o_d s1) + 1). lia.
  - intros i Hi. destruct (w_live _ _ _ _ _ (proj1 H1) i Hi) as (n & Hni). rewrite (get_node_ok (o_d s1) i n (w_mem _ _ _ _ _ (proj1 H1)) Hni). apply get_node_ok; [apply (pushed_okm nk key_of hash keq); [exact (proj1 H1)|exact Hlt]|].
    rewrite pushed_nodes by (unfold live in Hi; lia). exact Hni.
Qed.
End Ghost.

(** On containers that occur in programs. *)
Section Occurring.
Context {E K : Type}.
Variable sz : Z.
Variable nk : nat.
Variable key_of : nat -> E -> K.
Variable hash : K -> Z.
Variable keq : K -> K -> bool.
Variable rep : E -> E -> E.
Variable clone : E -> E.
Variables pocca pocma : bool.
Hypothesis Hsz : 0 < sz.
Hypothesis KL : key_laws hash keq.
Hypothesis rep_key : forall x e, key_of 0%nat (rep x e) = key_of 0%nat x.
Hypothesis clone_key : forall j e, (j < nk)%nat -> key_of j (clone e) = key_of j e.
Notation yoccurs := (yoccurs sz nk key_of hash keq rep clone pocca pocma).
Notation otexec := (otexec sz nk key_of hash keq rep).

Lemma occurs_cont : forall hw i l, yoccurs hw -> o_iterate sz (fst hw) (snd hw i) = Ok l -> exists ord, OrderedRefine.oinv sz nk key_of hash keq (fst hw) (snd hw i) ord /\ l = ocont (snd hw i) ord.
Proof. intros hw i l O Hi. destruct (occurs_oinv sz nk key_of hash keq rep clone pocca pocma Hsz KL rep_key clone_key hw i O) as (ord & H & Hx). exists ord. split; [exact H|]. congruence. Qed.
Lemma occurs_othistory : forall hw i l hist, yoccurs hw -> o_iterate sz (fst hw) (snd hw i) = Ok l -> othistory_ok nk hist -> otrefines sz nk key_of hash keq rep (fst hw, snd hw i) l hist.
Proof. intros hw i l hist O Hi Hh. destruct (occurs_cont hw i l O Hi) as (ord & H & ->). apply (othistories sz nk key_of hash keq rep Hsz KL rep_key _ _ ord hist H Hh). Qed.
Lemma occurs_ctor : forall hw i l v e, yoccurs hw -> o_iterate sz (fst hw) (snd hw i) = Ok l -> denv_ok (ov_d v) -> o_has_room sz nk v (fst hw, snd hw i) ->
  let hs := (fst hw, snd hw i) in
  (dnew nk key_of keq e l -> exists hs', otexec CtorThrows v hs (OInsert e) = Ok (hs', QThrow) /\ oghostly sz nk l (Z.of_nat (length l)) hs') /\
  (dnew nk key_of keq e l -> nk = 1%nat -> exists hs', otexec CtorThrows v hs (OAssign e) = Ok (hs', QThrow) /\ oghostly sz nk l (Z.of_nat (length l)) hs') /\
  exists hs', otexec CtorThrows v hs (OEmplace e) = Ok (hs', QThrow) /\ oghostly sz nk l (Z.of_nat (length l)) hs'.
Proof. intros hw i l v e O Hi V Hr. destruct (occurs_cont hw i l O Hi) as (ord & H & ->). apply (octor_throws sz nk key_of hash keq rep Hsz KL rep_key v _ _ ord e H V Hr). Qed.
Lemma occurs_search : forall hw i l v e, yoccurs hw -> o_iterate sz (fst hw) (snd hw i) = Ok l -> denv_ok (ov_d v) -> o_has_room sz nk v (fst hw, snd hw i) ->
  exists hs', otexec SearchThrows v (fst hw, snd hw i) (OEmplace e) = Ok (hs', QThrow) /\ size (o_d (snd hs')) = Z.of_nat (length l) + 1 /\
    o_iterate sz (fst hs') (snd hs') = Ok l /\ o_backwards sz (fst hs') (snd hs') = Ok (rev l).
Proof. intros hw i l v e O Hi V Hr. destruct (occurs_cont hw i l O Hi) as (ord & H & ->). apply (oemplace_search sz nk key_of hash keq rep Hsz v _ _ ord e H V Hr). Qed.
End Occurring.

(** Checking that there is room. *)
Definition has_roomb {E} sz nk (v : oenv) (hs : heap * odense E) : bool := match o_make_room sz nk v (fst hs) (snd hs) 0 with Ok (_, _, _, Some _) => true | _ => false end.
Lemma has_roomb_ok : forall E sz nk v (hs : heap * odense E), has_roomb sz nk v hs = true -> o_has_room sz nk v hs.
Proof.
  intros E sz nk v hs H. unfold has_roomb in H. unfold o_has_room. destruct (o_make_room sz nk v (fst hs) (snd hs) 0) as [(((h1, s1), p), [[]|])|]; try discriminate H. exists h1, s1, p. reflexivity.
Qed.
