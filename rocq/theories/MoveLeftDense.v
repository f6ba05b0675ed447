(** Dense tables moved element by element after moving an element threw. *)
From Coq Require Import ZArith List Bool Lia Permutation.
From Verif Require Import Base BaseLemmas Float32 DenseSpec DenseModel DenseRun DenseChain DenseInv DenseEdit DenseOps DenseErase DenseMore CopyModel CopyDense MoveLeftModel.
From Verif Require Import MapSpec DenseWorldSpec DenseWorld DenseFinal.
Import ListNotations.
Open Scope Z_scope.

Section Dense.
Context {E K : Type}.
Variable nk : nat.
Variable key_of : nat -> E -> K.
Variable hash : K -> Z.
Variable keq : K -> K -> bool.
Hypothesis KL : key_laws hash keq.
Notation dense := (dense E).
Local Notation dwf := (dwf nk key_of hash keq).
Let same (e : E) : E := e.

(** The source after the elements below slot [m] were relocated. *)
Record dgone (o o1 : dense) (m : Z) : Prop := {
  dg_sok : d_sok o1 = d_sok o;
  dg_dok : d_dok o1 = d_dok o;
  dg_size : d_size o1 = d_size o;
  dg_cap : d_cap o1 = d_cap o;
  dg_bc : d_bc o1 = d_bc o;
  dg_sparse : d_sparse o1 = d_sparse o;
  dg_nodes : forall x, d_nodes o1 x = if (0 <=? x) && (x <? m) then None else d_nodes o x
}.
Lemma dgone_0 : forall o : dense, dgone o o 0.
Proof. intros o. constructor; try reflexivity. intros k. destruct (Z.leb_spec 0 k), (Z.ltb_spec k 0); (lia || reflexivity). Qed.
Lemma dgone_get : forall (o o1 : dense) m i n, dgone o o1 m -> get_node o i = Ok n ->
  get_node o1 i = if (0 <=? i) && (i <? m) then Err DeadObject else Ok n.
Proof.
  intros o o1 m i n [G1 G2 G3 G4 G5 G6 G7] H. unfold get_node in *. rewrite G2, G4, G7.
  destruct (guard (negb (d_cap o =? 0)) NullDeref); cbn [bind] in *; [|discriminate].
  destruct (guard (d_dok o) UseAfterFree); cbn [bind] in *; [|discriminate].
  destruct (guard ((0 <=? i) && (i <? d_cap o)) OutOfBounds); cbn [bind] in *; [|discriminate].
  destruct ((0 <=? i) && (i <? m)); [reflexivity|exact H].
Qed.

(** The loop does to the target what copying does. *)
Lemma d_move_until_ok : forall (o : dense), dwf o -> forall k i n t o1 t' b, dgone o o1 (Z.of_nat i) -> Z.of_nat (i + k) = d_size o ->
  d_copy_until nk same n o (map Z.of_nat (seq i k)) t = Ok (t', b) ->
  exists o2, d_move_until nk n (map Z.of_nat (seq i k)) t o1 = Ok (t', o2, b) /\
    (b = true -> foldM (move_step nk) (map Z.of_nat (seq i k)) (t, o1) = Ok (t', o2)) /\
    (b = false -> dgone o o2 (Z.of_nat (i + n)) /\ (n = 0%nat -> o2 = o1)).
Proof.
  intros o W. induction k as [|k IH]; intros i n t o1 t' b G Hk Hc; cbn [seq map d_copy_until d_move_until foldM] in *.
  - injection Hc as <- <-. exists o1. split; [reflexivity|]. split; [reflexivity|discriminate].
  - destruct (live_get nk key_of hash keq o (Z.of_nat i) W) as (x & Hx & Hn & _); [unfold live; lia|].
    assert (Hx1 : get_node o1 (Z.of_nat i) = Ok x).
    { rewrite (dgone_get o o1 _ _ x G Hx). rewrite Z.ltb_irrefl, andb_false_r. reflexivity. }
    destruct n as [|n].
    + rewrite Hx in Hc. cbn [bind] in Hc. injection Hc as <- <-. rewrite Hx1. cbn [bind]. exists o1. split; [reflexivity|]. split; [discriminate|].
      intros _. rewrite Nat.add_0_r. split; [exact G|reflexivity].
    + unfold copy_step in Hc. rewrite Hx in Hc. cbn [bind] in Hc. unfold move_step at 1 2. rewrite Hx1. cbn [bind].
      replace (mkn (same (n_val x)) (n_hash x) (n_next x)) with x in Hc by (destruct x; reflexivity).
      destruct (new_node t (Z.of_nat i) x) as [t1|]; [|discriminate]. cbn [bind] in *.
      unfold kill_node. rewrite Hx1. cbn [bind]. destruct (insert_step nk t1 (Z.of_nat i)) as [t2|]; [|discriminate]. cbn [bind fst snd] in *.
      match goal with |- context [d_move_until nk n _ _ ?o3] => assert (G3 : dgone o o3 (Z.of_nat (S i))) end.
      { destruct G as [G1 G2 G3 G4 G5 G6 G7]. constructor; cbn [set_nodes d_sok d_dok d_size d_cap d_bc d_sparse d_nodes]; auto. intros q. unfold upd. rewrite G7.
        destruct (Z.eqb_spec q (Z.of_nat i)) as [->|];
        repeat match goal with |- context [?a <=? ?b] => destruct (Z.leb_spec a b) | |- context [?a <? ?b] => destruct (Z.ltb_spec a b) end; cbn [andb]; (lia || reflexivity). }
      destruct (IH (S i) n _ _ t' b G3 ltac:(lia) Hc) as (o2 & Em & Ht & Hf). exists o2. split; [exact Em|]. split; [exact Ht|].
      intros Hb. destruct (Hf Hb) as [Hg _]. replace (i + S n)%nat with (S i + n)%nat by lia. split; [exact Hg|discriminate].
Qed.

(** Such a source cannot be destroyed, cleared, searched for what it lost, or iterated. *)
Definition ddrained (n : nat) (o o1 : dense) : Prop :=
  size o1 = size o /\ delems o1 = skipn n (delems o) /\
  clear_data o1 = Err DeadObject /\ clear o1 = Err DeadObject /\ iterate o1 = Err DeadObject /\
  (forall j e, (j < nk)%nat -> In e (firstn n (delems o)) -> contains key_of hash keq o1 j (key_of j e) = Err DeadObject).

Lemma dgone_find : forall (o o1 : dense) m j k h, dgone o o1 m -> forall fuel p r c, find_loop key_of keq fuel o j k h p = Ok (r, c) -> r <> d_size o -> 0 <= r < m ->
  find_loop key_of keq fuel o1 j k h p = Err DeadObject.
Proof.
  intros o o1 m j k h G. induction fuel as [|fuel IH]; intros p r c H Hr Hm; cbn [find_loop] in *; [discriminate|].
  destruct (load o j p) as [v|] eqn:El; [|discriminate]. cbn [bind] in H.
  assert (Hl : load o1 j p = Err DeadObject \/ load o1 j p = Ok v).
  { unfold load, check_bucket in *. destruct p as [b|i].
    - right. rewrite (dg_bc _ _ _ G), (dg_sok _ _ _ G), (dg_sparse _ _ _ G). exact El.
    - destruct (get_node o i) as [x|] eqn:Ex; [|discriminate]. rewrite (dgone_get o o1 m i x G Ex). destruct ((0 <=? i) && (i <? m)); [left; reflexivity|right; exact El]. }
  destruct Hl as [->| ->]; [reflexivity|]. cbn [bind]. destruct (v =? npos); [injection H as <- _; contradiction|].
  destruct (get_node o v) as [x|] eqn:Ex; [|discriminate]. cbn [bind] in H. rewrite (dgone_get o o1 m v x G Ex).
  destruct ((0 <=? v) && (v <? m)) eqn:Ev; [reflexivity|]. cbn [bind].
  destruct ((n_hash x j =? h) && keq k (key_of j (n_val x))).
  - injection H as -> _. destruct (Z.leb_spec 0 r), (Z.ltb_spec r m); cbn [andb] in Ev; (lia || discriminate).
  - apply (IH _ r c H Hr Hm).
Qed.

Lemma ddrained_all : forall (o o1 : dense) n, dwf o -> dgone o o1 (Z.of_nat n) -> (0 < n)%nat -> Z.of_nat n < d_size o -> ddrained n o o1.
Proof.
  intros o o1 n W G H0 Hn. pose proof (w_mem _ _ _ _ _ W) as Hm.
  assert (Hd : get_node o1 0 = Err DeadObject).
  { destruct (live_get nk key_of hash keq o 0 W) as (x & Hx & _); [unfold live; lia|]. rewrite (dgone_get o o1 _ 0 x G Hx). destruct (Z.ltb_spec 0 (Z.of_nat n)); [reflexivity|lia]. }
  assert (Hz : exists l, zrange (d_size o) = 0 :: l).
  { unfold zrange. destruct (Z.to_nat (d_size o)) as [|q] eqn:Eq; [lia|]. cbn [seq map]. eexists. reflexivity. }
  destruct Hz as [l Hz].
  split; [apply (dg_size _ _ _ G)|]. split; [|split; [|split; [|split]]].
  - unfold delems. rewrite (dg_size _ _ _ G). unfold zrange. replace (Z.to_nat (d_size o)) with (n + (Z.to_nat (d_size o) - n))%nat by lia.
    rewrite seq_app, map_app, !flat_map_app. cbn [Nat.add].
    assert (Hlen : forall q a, Z.of_nat (a + q) <= Z.of_nat n ->
      length (flat_map (fun i => match d_nodes o i with Some x => [n_val x] | None => [] end) (map Z.of_nat (seq a q))) = q /\
      flat_map (fun i => match d_nodes o1 i with Some x => [n_val x] | None => [] end) (map Z.of_nat (seq a q)) = []).
    { induction q as [|q IH]; intros a Ha; [auto|]. cbn [seq map flat_map]. destruct (IH (S a) ltac:(lia)) as [I1 I2]. rewrite app_length, I1, I2.
      destruct (w_live _ _ _ _ _ W (Z.of_nat a)) as (x & ->); [unfold live; lia|]. split; [reflexivity|]. rewrite (dg_nodes _ _ _ G).
      destruct (Z.leb_spec 0 (Z.of_nat a)), (Z.ltb_spec (Z.of_nat a) (Z.of_nat n)); (lia || reflexivity). }
    destruct (Hlen n 0%nat ltac:(lia)) as [L1 L2]. rewrite L2. cbn [app].
    assert (Hsk : forall a b : list E, length a = n -> skipn n (a ++ b) = b) by (intros a b <-; rewrite skipn_app, Nat.sub_diag, skipn_all; reflexivity).
    rewrite Hsk by exact L1.
    apply flat_map_ext_in || (rewrite !flat_map_concat_map; f_equal; apply map_ext_in). intros i Hi. apply in_map_iff in Hi. destruct Hi as (q & <- & Hq). apply in_seq in Hq.
    rewrite (dg_nodes _ _ _ G). destruct (Z.leb_spec 0 (Z.of_nat q)), (Z.ltb_spec (Z.of_nat q) (Z.of_nat n)); (lia || reflexivity).
  - unfold clear_data. rewrite (dg_size _ _ _ G), Hz. cbn [foldM]. unfold kill_node. change (get_node (set_size o1 0) 0) with (get_node o1 0). rewrite Hd. reflexivity.
  - unfold clear, fill_sparse. rewrite (dg_bc _ _ _ G), (dg_sok _ _ _ G), (om_sok o Hm). pose proof (w_bucket _ _ _ _ _ W ltac:(lia)). destruct (Z.eqb_spec (d_bc o) 0); [lia|].
    cbn [guard bind]. unfold clear_data. cbn [set_sparse d_size]. rewrite (dg_size _ _ _ G), Hz. cbn [foldM]. unfold kill_node.
    match goal with |- context [get_node ?a 0] => change (get_node a 0) with (get_node o1 0) end. rewrite Hd. reflexivity.
  - unfold iterate. rewrite (dg_size _ _ _ G), Hz. cbn [iterate_from]. rewrite Hd. reflexivity.
  - intros j e Hj He. apply In_nth_error in He. destruct He as [q Hq].
    assert (Hqn : (q < n)%nat). { pose proof (proj1 (nth_error_Some (firstn n (delems o)) q)) as Hs. rewrite Hq in Hs. specialize (Hs ltac:(discriminate)). rewrite firstn_length in Hs. lia. }
    assert (Hq' : nth_error (delems o) q = Some e).
    { rewrite <- (firstn_skipn n (delems o)). rewrite nth_error_app1; [exact Hq|]. rewrite firstn_length, (delems_len nk key_of hash keq o W). lia. }
    destruct (live_get nk key_of hash keq o (Z.of_nat q) W) as (x & _ & Hx & Hv); [unfold live; lia|]. rewrite Nat2Z.id, Hq' in Hv. injection Hv as ->.
    unfold contains. destruct (find_node_ok nk key_of hash keq KL o j (key_of j (n_val x)) W Hj) as [(i & y & p & Hy & Hk & Hf & _)|(Hno & _)].
    + assert (i = Z.of_nat q) by (apply (w_uniq _ _ _ _ _ W i (Z.of_nat q) y x j Hj Hy Hx Hk)). subst i.
      unfold find_node, get_chain in *. rewrite (dg_bc _ _ _ G). destruct (d_bc o =? 0); [injection Hf as Hf _; lia|].
      unfold chain_fuel in *. rewrite (dg_size _ _ _ G). destruct (find_loop key_of keq (S (Z.to_nat (d_size o))) o j _ _ _) as [[r c]|] eqn:El; [|discriminate]. cbn [bind fst snd] in Hf.
      injection Hf as -> _. rewrite (dgone_find o o1 _ j _ _ G _ _ _ _ El); [reflexivity|lia|lia].
    + exfalso. apply (Hno (Z.of_nat q)); [unfold live; lia|]. exists x. split; [exact Hx|]. apply (kl_refl hash keq KL).
Qed.

Lemma dm_move_data_ok : forall n dlim slim (s o : dense), dlim < 2 ^ 59 -> slim < 2 ^ 60 -> hollow s -> dwf o -> 0 < d_size o -> d_mlf s = d_mlf o ->
  (Z.of_nat n < d_size o ->
     (exists s', move_data nk dlim slim s o = Ok (s', o, false) /\ dm_move_data nk n dlim slim s o = Ok (s', o, false)) \/
     exists t o1, dm_move_data nk n dlim slim s o = Ok (t, o1, false) /\ dwf t /\ delems t = firstn n (delems o) /\
       (n = 0%nat -> o1 = o) /\ ((0 < n)%nat -> ddrained n o o1)) /\
  (d_size o <= Z.of_nat n -> dm_move_data nk n dlim slim s o = move_data nk dlim slim s o).
Proof.
  intros n dlim slim s o Hdl Hsl Hh W Ho Hq.
  destruct (dc_copy_data_ok nk key_of hash keq same (fun _ _ _ => eq_refl) n dlim slim s o Hdl Hsl Hh W Ho Hq) as [Hthrow Hall].
  unfold dm_move_data, move_data. unfold dc_copy_data, copy_data in Hthrow. rewrite (ho_size _ Hh) in *. cbn [Z.eqb guard bind] in *. destruct (Z.eqb_spec (d_size o) 0) as [|_]; [lia|].
  split; intros Hnd.
  - specialize (Hthrow Hnd). destruct (grown_ok nk key_of hash keq dlim slim s o Hdl Hsl Hh W Ho) as [(s' & Hg)|(s1 & s2 & s3 & H1 & H2 & H3 & Hf & Hc & Hb & Hmq & Hn)].
    + left. exists s'. destruct (realloc_sparse slim s (d_bc o)) as [s1 ok1]. destruct ok1; cbn [negb] in *; [|injection Hg as ->; auto].
      rewrite Hg. cbn [negb]. auto.
    + right. rewrite H1 in *. cbn [negb] in *. rewrite H2 in *. cbn [negb] in *. rewrite H3 in *. cbn [bind] in *.
      destruct Hthrow as [(s' & Hx & _)|(t & Ht & Wt & Hd)]; [destruct (foldM (copy_step nk same o) (zrange (d_size o)) s3); discriminate|].
      destruct (d_move_until_ok o W (Z.to_nat (d_size o)) 0 n s3 o t false (dgone_0 o) ltac:(lia) Ht) as (o1 & Em & _ & Hfl). unfold zrange. rewrite Em. cbn [bind negb].
      destruct (Hfl eq_refl) as [G H0]. exists t, o1. split; [reflexivity|]. split; [exact Wt|]. split; [unfold same in Hd; rewrite map_id in Hd; exact Hd|]. split; [exact H0|].
      intros Hp. apply ddrained_all; assumption.
  - destruct (realloc_sparse slim s (d_bc o)) as [s1 ok1]. destruct ok1; cbn [negb]; [|reflexivity]. destruct (realloc_dense dlim s1 (d_size o)) as [s2 ok2].
    destruct ok2; cbn [negb]; [|reflexivity]. destruct (fill_sparse s2) as [s3|]; cbn [bind]; [|reflexivity].
    assert (Hm : forall l m (t p : dense), (length l <= m)%nat -> d_move_until nk m l t p = (let* x := foldM (move_step nk) l (t, p) in Ok (fst x, snd x, true))).
    { clear. induction l as [|i l IH]; intros m t p Hn; cbn [d_move_until foldM length] in *; [reflexivity|].
      destruct m as [|m]; [lia|]. destruct (move_step nk (t, p) i) as [[t1 p1]|]; cbn [bind fst snd]; [|reflexivity]. apply IH. lia. }
    rewrite Hm by (rewrite zrange_length; lia). destruct (foldM (move_step nk) (zrange (d_size o)) (s3, o)) as [[a b]|]; reflexivity.
Qed.
End Dense.

(** Reachable tables and later histories. *)
Section Final.
Context {E K : Type}.
Variable nk : nat.
Variable key_of : nat -> E -> K.
Variable hash : K -> Z.
Variable keq : K -> K -> bool.
Variable rep : E -> E -> E.
Variable clone : E -> E.
Variables pocca pocma : bool.
Hypothesis KL : key_laws hash keq.
Hypothesis rep_key : forall x e, key_of 0%nat (rep x e) = key_of 0%nat x.
Hypothesis clone_key : forall j e, (j < nk)%nat -> key_of j (clone e) = key_of j e.
Notation dense := (dense E).
Notation doccurs := (doccurs nk key_of hash keq rep clone pocca pocma).
Notation drefines := (drefines nk key_of hash keq rep).
Notation ddrained := (ddrained nk key_of hash keq).
Let wf_of := occurs_wf nk key_of hash keq rep clone pocca pocma KL rep_key clone_key.

Lemma fresh_hollow : forall q, hollow (set_mlf (@empty_dense E) q).
Proof. intros q. constructor; cbn [set_mlf empty_dense d_sok d_dok d_size d_nodes d_cap d_bc]; auto; lia. Qed.
Lemma leaves_false : forall A B (x : res (A * B * bool)), leaves false x = x.
Proof. intros A B [[[a b] c]|e]; reflexivity. Qed.

Lemma dense_left : forall n dlim slim (s o : dense), dlim < 2 ^ 59 -> slim < 2 ^ 60 -> hollow s -> doccurs o -> d_mlf s = d_mlf o -> (n < length (delems o))%nat ->
  (exists t, move_data nk dlim slim s o = Ok (t, o, false) /\ dm_move_data nk n dlim slim s o = Ok (t, o, false)) \/
  exists t o1, dm_move_data nk n dlim slim s o = Ok (t, o1, false) /\ delems t = firstn n (delems o) /\
    (forall h, dhistory_ok nk h -> drefines t (delems t) h) /\ (n = 0%nat -> o1 = o) /\ ((0 < n)%nat -> ddrained n o o1).
Proof.
  intros n dlim slim s o Hdl Hsl Hh Ho Hq Hn. pose proof (wf_of o Ho) as W. pose proof (delems_len nk key_of hash keq o W) as L. pose proof (w_size _ _ _ _ _ W).
  destruct (dm_move_data_ok nk key_of hash keq KL n dlim slim s o Hdl Hsl Hh W ltac:(lia) Hq) as [H1 _].
  destruct (H1 ltac:(lia)) as [H2|(t & o1 & Em & Wt & Hd & H3)]; [left; exact H2|right].
  exists t, o1. split; [exact Em|]. split; [exact Hd|]. split; [|exact H3]. intros h Hh'. apply (wf_refines nk key_of hash keq rep KL rep_key t h Wt Hh').
Qed.
Lemma dense_assign_throws : forall ne (s o : dense) v n, doccurs s -> doccurs o -> denv_ok v -> (n < length (delems o))%nat ->
  (ne = true -> dm_move_assign nk ne n (dv_dlim v) (dv_slim v) s o = Err Terminated) /\
  (ne = false -> (exists t, move_assign nk false false (dv_dlim v) (dv_slim v) s o = Ok (t, o, false) /\ dm_move_assign nk ne n (dv_dlim v) (dv_slim v) s o = Ok (t, o, false)) \/
    exists t o1, dm_move_assign nk ne n (dv_dlim v) (dv_slim v) s o = Ok (t, o1, false) /\ delems t = firstn n (delems o) /\
      (forall h, dhistory_ok nk h -> drefines t (delems t) h) /\ (n = 0%nat -> o1 = o) /\ ((0 < n)%nat -> ddrained n o o1)).
Proof.
  intros ne s o v n Hs Ho [Hdl Hsl] Hn. destruct (dc_target nk key_of hash keq clone clone_key false s (d_mlf o) (wf_of s Hs)) as (s1 & E1 & Hh & Hq). cbn [release] in Hh, Hq.
  pose proof (dense_left n _ _ s1 o Hdl Hsl Hh Ho Hq Hn) as H. unfold dm_move_assign, move_assign, move_from. rewrite E1. cbn [bind release].
  split; intros ->; [|rewrite leaves_false; exact H].
  destruct H as [(t & _ & ->)|(t & o1 & -> & _)]; reflexivity.
Qed.
Lemma dense_ctor_throws : forall ne (o : dense) v n, doccurs o -> denv_ok v -> (n < length (delems o))%nat ->
  (ne = true -> dm_move_ctor nk ne n (dv_dlim v) (dv_slim v) o = Err Terminated) /\
  (ne = false -> (exists t, move_ctor nk false (dv_dlim v) (dv_slim v) o = Ok (t, o, false) /\ dm_move_ctor nk ne n (dv_dlim v) (dv_slim v) o = Ok (t, o, false)) \/
    exists t o1, dm_move_ctor nk ne n (dv_dlim v) (dv_slim v) o = Ok (t, o1, false) /\ delems t = firstn n (delems o) /\
      (forall h, dhistory_ok nk h -> drefines t (delems t) h) /\ (n = 0%nat -> o1 = o) /\ ((0 < n)%nat -> ddrained n o o1)).
Proof.
  intros ne o v n Ho [Hdl Hsl] Hn. pose proof (dense_left n _ _ _ o Hdl Hsl (fresh_hollow (d_mlf o)) Ho eq_refl Hn) as H. unfold dm_move_ctor, move_ctor, move_from.
  split; intros ->; [|rewrite leaves_false; exact H].
  destruct H as [(t & _ & ->)|(t & o1 & -> & _)]; reflexivity.
Qed.
Lemma dense_move_same : forall (s o : dense) v n, doccurs s -> doccurs o -> denv_ok v -> (length (delems o) <= n)%nat ->
  dm_move_assign nk false n (dv_dlim v) (dv_slim v) s o = move_assign nk false false (dv_dlim v) (dv_slim v) s o /\
  dm_move_ctor nk false n (dv_dlim v) (dv_slim v) o = move_ctor nk false (dv_dlim v) (dv_slim v) o.
Proof.
  intros s o v n Hs Ho [Hdl Hsl] Hn. pose proof (wf_of o Ho) as Wo. pose proof (delems_len nk key_of hash keq o Wo) as Lo. pose proof (w_size _ _ _ _ _ Wo) as Hso.
  assert (Hall : forall t : dense, hollow t -> d_mlf t = d_mlf o -> dm_move_data nk n (dv_dlim v) (dv_slim v) t o = move_data nk (dv_dlim v) (dv_slim v) t o).
  { intros t Hh Hq. destruct (Z.eq_dec (d_size o) 0) as [H0|H0].
    - unfold dm_move_data, move_data. rewrite (ho_size _ Hh), H0. reflexivity.
    - destruct (dm_move_data_ok nk key_of hash keq KL n _ _ t o Hdl Hsl Hh Wo ltac:(lia) Hq) as [_ H]. apply H. lia. }
  unfold dm_move_assign, dm_move_ctor. rewrite !leaves_false. split; [|apply Hall; [apply fresh_hollow|reflexivity]].
  destruct (dc_target nk key_of hash keq clone clone_key false s (d_mlf o) (wf_of s Hs)) as (s1 & E1 & Hh & Hq). unfold move_assign, move_from. rewrite E1. cbn [bind release] in *. apply Hall; assumption.
Qed.
Lemma dense_partial : forall (s o : dense) v n, doccurs s -> doccurs o -> denv_ok v ->
  ((length (delems o) <= n)%nat -> dm_move_assign nk false n (dv_dlim v) (dv_slim v) s o = move_assign nk false false (dv_dlim v) (dv_slim v) s o /\
     dm_move_ctor nk false n (dv_dlim v) (dv_slim v) o = move_ctor nk false (dv_dlim v) (dv_slim v) o) /\
  ((n < length (delems o))%nat ->
     (exists t, move_assign nk false false (dv_dlim v) (dv_slim v) s o = Ok (t, o, false) /\ dm_move_assign nk false n (dv_dlim v) (dv_slim v) s o = Ok (t, o, false)) \/
     exists t o1, dm_move_assign nk false n (dv_dlim v) (dv_slim v) s o = Ok (t, o1, false) /\ delems t = firstn n (delems o) /\
       (forall h, dhistory_ok nk h -> drefines t (delems t) h) /\ (n = 0%nat -> o1 = o)).
Proof.
  intros s o v n Hs Ho Hv. split; [apply (dense_move_same s o v n Hs Ho Hv)|]. intros Hn. destruct (dense_assign_throws false s o v n Hs Ho Hv Hn) as [_ H].
  destruct (H eq_refl) as [H1|(t & o1 & A & B & C & D & _)]; [left; exact H1|right]. exists t, o1. auto.
Qed.
Lemma dense_later : forall (s o : dense) v n, doccurs s -> doccurs o -> denv_ok v -> (0 < n < length (delems o))%nat ->
  dm_move_assign nk true n (dv_dlim v) (dv_slim v) s o = Err Terminated /\
  dm_move_ctor nk true n (dv_dlim v) (dv_slim v) o = Err Terminated /\
  ((exists t, move_assign nk false false (dv_dlim v) (dv_slim v) s o = Ok (t, o, false)) \/
   exists t o1, dm_move_assign nk false n (dv_dlim v) (dv_slim v) s o = Ok (t, o1, false) /\ ddrained n o o1) /\
  ((exists t, move_ctor nk false (dv_dlim v) (dv_slim v) o = Ok (t, o, false)) \/
   exists t o1, dm_move_ctor nk false n (dv_dlim v) (dv_slim v) o = Ok (t, o1, false) /\ ddrained n o o1 /\ delems t = firstn n (delems o)).
Proof.
  intros s o v n Hs Ho Hv [H0 Hn]. split; [apply (dense_assign_throws true s o v n Hs Ho Hv Hn); reflexivity|]. split; [apply (dense_ctor_throws true o v n Ho Hv Hn); reflexivity|]. split.
  - destruct (dense_assign_throws false s o v n Hs Ho Hv Hn) as [_ H]. destruct (H eq_refl) as [(t & A & _)|(t & o1 & A & B & C & D & F)]; [left; eauto|right; eauto 6].
  - destruct (dense_ctor_throws false o v n Ho Hv Hn) as [_ H]. destruct (H eq_refl) as [(t & A & _)|(t & o1 & A & B & C & D & F)]; [left; eauto|right; eauto 8].
Qed.
(** A call that no exception leaves does not depend on the [noexcept] clause. *)
Lemma dense_quiet : forall (s o : dense) v ne n, doccurs s -> doccurs o -> denv_ok v -> (length (delems o) <= n)%nat ->
  (forall t o1, move_assign nk false false (dv_dlim v) (dv_slim v) s o = Ok (t, o1, true) -> dm_move_assign nk ne n (dv_dlim v) (dv_slim v) s o = Ok (t, o1, true)) /\
  (forall t o1, move_ctor nk false (dv_dlim v) (dv_slim v) o = Ok (t, o1, true) -> dm_move_ctor nk ne n (dv_dlim v) (dv_slim v) o = Ok (t, o1, true)).
Proof.
  intros s o v ne n Hs Ho Hv Hn. destruct (dense_move_same s o v n Hs Ho Hv Hn) as [H1 H2].
  assert (X : forall (x : res (dense * dense * bool)) t o1, leaves false x = Ok (t, o1, true) -> leaves ne x = Ok (t, o1, true)).
  { intros x t o1 Hx. unfold leaves in *. destruct x as [y|]; [|discriminate]. cbn [bind andb] in *. injection Hx as ->. cbn [snd negb]. rewrite andb_false_r. reflexivity. }
  split; intros t o1 He; apply X; rewrite <- He; [exact H1|exact H2].
Qed.
End Final.
