(** erase_if, construction, copies and moves of dense tables. *)
From Coq Require Import ZArith List Bool Lia.
From Verif Require Import Base BaseLemmas MapSpec Float32 Float32Facts DenseSpec DenseWorldSpec DenseModel DenseRun DenseChain DenseInv DenseOps DenseEdit DenseErase DenseRefine.
Import ListNotations.
Open Scope Z_scope.

Section More.
Context {E K : Type}.
Variable nk : nat.
Variable key_of : nat -> E -> K.
Variable hash : K -> Z.
Variable keq : K -> K -> bool.
Hypothesis KL : key_laws hash keq.
Notation dense := (dense E).
Notation dwf := (dwf nk key_of hash keq).

(** ** erase_if. *)
Lemma live_get : forall (s : dense) i, dwf s -> live s i -> exists n, get_node s i = Ok n /\ d_nodes s i = Some n /\ nth_error (delems s) (Z.to_nat i) = Some (n_val n).
Proof.
  intros s i W Hi. destruct (w_live _ _ _ _ _ W i Hi) as (n & Hn). exists n. split; [apply get_node_ok; [exact (w_mem _ _ _ _ _ W)|exact Hn]|].
  split; [exact Hn|]. rewrite (delems_nth nk key_of hash keq s i W Hi). unfold val. rewrite Hn. reflexivity.
Qed.

Lemma erase_if_none : forall pred (s : dense), dwf s -> (forall x, In x (delems s) -> pred x = false) -> erase_if nk pred s = Ok (s, 0).
Proof.
  intros pred s W Hp. unfold erase_if.
  assert (H : forall fuel i cnt, 0 <= i <= d_size s -> (Z.to_nat (d_size s - i) < fuel)%nat -> erase_if_loop nk fuel pred s i (d_size s) cnt = Ok (s, cnt)).
  { induction fuel as [|fu IH]; intros i cnt Hi Hf; [lia|]. cbn [erase_if_loop]. destruct (Z.eqb_spec i (d_size s)) as [|Hne]; [reflexivity|].
    destruct (live_get s i W) as (n & -> & _ & Hn); [unfold live; lia|]. cbn [bind]. rewrite Hp; [|apply nth_error_In in Hn; exact Hn]. apply IH; lia. }
  pose proof (w_size _ _ _ _ _ W). apply H; [lia|]. unfold chain_fuel. lia.
Qed.

(** After the first erasure the loop runs past the last element. *)
Lemma erase_if_past : forall fuel pred (s : dense) i last cnt, dwf s -> 0 <= i <= d_size s -> d_size s < last <= d_cap s ->
  (Z.to_nat (d_size s - i) < fuel)%nat -> erase_if_loop nk fuel pred s i last cnt = Err DeadObject.
Proof.
  induction fuel as [|fu IH]; intros pred s i last cnt W Hi Hl Hf; [lia|]. cbn [erase_if_loop]. destruct (Z.eqb_spec i last) as [|_]; [lia|].
  destruct (Z.eq_dec i (d_size s)) as [->|Hne].
  - assert (Hg : get_node s (d_size s) = Err DeadObject).
    { unfold get_node. destruct (Z.eqb_spec (d_cap s) 0); [lia|]. cbn [negb guard bind]. rewrite (om_dok _ (w_mem _ _ _ _ _ W)). cbn [guard bind].
      replace ((0 <=? d_size s) && (d_size s <? d_cap s)) with true by (symmetry; apply andb_true_iff; split; [apply Z.leb_le|apply Z.ltb_lt]; lia).
      cbn [guard bind]. rewrite (w_dead _ _ _ _ _ W) by (unfold live; lia). reflexivity. }
    rewrite Hg. reflexivity.
  - assert (HL : live s i) by (unfold live; lia). destruct (live_get s i W HL) as (n & -> & _ & _). cbn [bind]. destruct (pred (n_val n)).
    + destruct (erase_at_ok nk key_of hash keq s i W HL) as (s' & a & x & b & -> & W' & _ & _ & _ & Hs & Hc & _). cbn [bind fst snd].
      apply IH; [exact W'| | |]; lia.
    + apply IH; [exact W| | |]; lia.
Qed.
Lemma erase_if_some : forall pred (s : dense), dwf s -> (exists x, In x (delems s) /\ pred x = true) -> erase_if nk pred s = Err DeadObject.
Proof.
  intros pred s W (x & Hx & Hpx). unfold erase_if. apply In_nth_error in Hx. destruct Hx as (k & Hk).
  assert (Hk' : (k < length (delems s))%nat) by (apply nth_error_Some; congruence). rewrite (delems_len nk key_of hash keq s W) in Hk'.
  pose proof (w_size _ _ _ _ _ W) as Hsz.
  assert (H : forall fuel i cnt, 0 <= i <= Z.of_nat k -> (Z.to_nat (d_size s - i) < fuel)%nat -> erase_if_loop nk fuel pred s i (d_size s) cnt = Err DeadObject).
  { induction fuel as [|fu IH]; intros i cnt Hi Hf; [lia|]. cbn [erase_if_loop]. destruct (Z.eqb_spec i (d_size s)) as [|Hne]; [lia|].
    assert (HL : live s i) by (unfold live; lia). destruct (live_get s i W HL) as (n & -> & _ & Hn). cbn [bind]. destruct (pred (n_val n)) eqn:Ep.
    - destruct (erase_at_ok nk key_of hash keq s i W HL) as (s' & a & y & b & -> & W' & _ & _ & _ & Hs & Hc & _). cbn [bind fst snd].
      apply erase_if_past; [exact W'| | |]; lia.
    - apply IH; [|lia]. destruct (Z.eq_dec i (Z.of_nat k)) as [->|]; [|lia]. rewrite Nat2Z.id, Hk in Hn. injection Hn as ->. congruence. }
  apply H; [lia|]. unfold chain_fuel. lia.
Qed.

(** ** Filling a table from slot 0 upwards. *)
Record filling (t : dense) (i : Z) : Prop := {
  fi_mem : okm t;
  fi_size : d_size t = i;
  fi_bc : 0 < d_bc t;
  fi_live : forall x, 0 <= x < i -> exists n, d_nodes t x = Some n;
  fi_dead : forall x, ~ (0 <= x < i) -> d_nodes t x = None;
  fi_chain : forall j, (j < nk)%nat -> chains (hdj t j) (nxj t j) (fun x => 0 <= x < i) (bkj t j) (d_bc t)
}.
Lemma fill_one : forall (t : dense) i n, filling t i -> 0 <= i < d_cap t -> i < 2 ^ 59 ->
  exists t1 t2, new_node t i n = Ok t1 /\ insert_step nk t1 i = Ok t2 /\ filling (set_size t2 (d_size t2 + 1)) (i + 1) /\
    d_cap t2 = d_cap t /\ d_bc t2 = d_bc t /\ d_mlf t2 = d_mlf t /\ forall x, vh t2 x = if x =? i then Some (n_val n, n_hash n) else vh t x.
Proof.
  intros t i n [Hm Hs Hb Hlv Hd Hc] Hi Hi2. set (t1 := set_nodes t (upd (d_nodes t) i (Some n))).
  assert (Hm1 : okm t1).
  { destruct Hm as [h1 h2 h3]. constructor; [exact h1|exact h2|]. intros x m. cbn [t1 set_nodes d_nodes d_cap]. unfold upd. destruct (Z.eqb_spec x i) as [->|]; [intros _; exact Hi|apply h3]. }
  destruct (insert_step_ok nk key_of t1 i n (fun x => 0 <= x < i)) as (t2 & H2 & Hsm & Hch).
  - exact Hm1.
  - exact Hb.
  - cbn [t1 set_nodes d_nodes]. apply upd_same.
  - lia.
  - unfold npos. lia.
  - intros j Hj. apply (chains_ext (hdj t j) (nxj t j) (fun x => 0 <= x < i) (bkj t j) (d_bc t)); [apply Hc; exact Hj|reflexivity| |].
    + intros x Hx _. unfold nxj. cbn [t1 set_nodes d_nodes]. rewrite upd_other by lia. reflexivity.
    + intros x b _. unfold bkj, hsj. cbn [t1 set_nodes d_nodes d_bc]. split; intros [Hx Hbx]; (split; [exact Hx|]); rewrite upd_other in * by lia; exact Hbx.
  - exists t1, t2. split; [apply new_node_ok; [exact Hm|exact Hi|apply Hd; lia]|]. split; [exact H2|].
    assert (Hvh : forall x, vh t2 x = if x =? i then Some (n_val n, n_hash n) else vh t x).
    { intros x. rewrite (sm_vh _ _ Hsm). unfold vh. cbn [t1 set_nodes d_nodes]. unfold upd. destruct (x =? i); reflexivity. }
    assert (Hnone : forall x, d_nodes t2 x = None <-> vh t2 x = None).
    { intros x. unfold vh. destruct (d_nodes t2 x); cbn [option_map]; split; intros; congruence. }
    split; [|split; [exact (sm_cap _ _ Hsm)|split; [exact (sm_bc _ _ Hsm)|split; [exact (sm_mlf _ _ Hsm)|exact Hvh]]]].
    constructor; cbn [set_size d_size d_bc d_nodes].
    + destruct (same_okm t1 t2 Hsm Hm1) as [h1 h2 h3]. constructor; assumption.
    + rewrite (sm_size _ _ Hsm). cbn [t1 set_nodes d_size]. lia.
    + rewrite (sm_bc _ _ Hsm). exact Hb.
    + intros x Hx. destruct (d_nodes t2 x) as [m|] eqn:Em; [exists m; reflexivity|]. exfalso. apply Hnone in Em. rewrite Hvh in Em.
      destruct (Z.eqb_spec x i); [discriminate|]. destruct (Hlv x) as (m & Hm'); [lia|]. unfold vh in Em. rewrite Hm' in Em. discriminate.
    + intros x Hx. apply Hnone. rewrite Hvh. destruct (Z.eqb_spec x i); [lia|]. unfold vh. rewrite Hd by lia. reflexivity.
    + intros j Hj. apply (chains_ext (hdj t2 j) (nxj t2 j) (fun x => 0 <= x < i \/ x = i) (bkj t2 j) (d_bc t2)); [apply Hch; exact Hj|reflexivity|reflexivity|].
      intros x b _. unfold bkj, hsj. cbn [set_size d_nodes d_bc]. split; intros [Hx Hbx]; (split; [lia|exact Hbx]).
Qed.

(** A filled table with the elements of a well-formed one. *)
Lemma filled_wf : forall (clone : E -> E) (t o : dense), (forall j e, (j < nk)%nat -> key_of j (clone e) = key_of j e) -> dwf o -> filling t (d_size o) ->
  d_size o <= d_cap t < 2 ^ 59 -> d_bc t < 2 ^ 60 -> d_mlf t = d_mlf o ->
  (forall x, vh t x = option_map (fun p => (clone (fst p), snd p)) (vh o x)) -> dwf t /\ delems t = map clone (delems o).
Proof.
  intros clone t o Hcl W [Hm Hs Hb Hlv Hd Hc] Hcap Hbc Hq Hvh.
  assert (Hnode : forall x n, d_nodes t x = Some n -> exists m, d_nodes o x = Some m /\ n_val n = clone (n_val m) /\ n_hash n = n_hash m).
  { intros x n Hn. specialize (Hvh x). unfold vh in Hvh. rewrite Hn in Hvh. destruct (d_nodes o x) as [m|]; cbn [option_map fst snd] in Hvh; [|discriminate].
    exists m. injection Hvh as H1 H2. auto. }
  pose proof (w_size _ _ _ _ _ W) as Hsz.
  assert (Wt : dwf t).
  { constructor.
    - exact Hm.
    - lia.
    - lia.
    - lia.
    - intros _. exact Hb.
    - intros i Hi. apply Hlv. unfold live in Hi. lia.
    - intros i Hi. apply Hd. unfold live in Hi. lia.
    - intros i n j Hn Hj. destruct (Hnode i n Hn) as (m & Hm' & H1 & H2). rewrite H1, H2, Hcl by exact Hj. exact (w_hash _ _ _ _ _ W i m j Hm' Hj).
    - intros j Hj. apply (chains_ext (hdj t j) (nxj t j) (fun x => 0 <= x < d_size o) (bkj t j) (d_bc t)); auto. intros x b _. unfold live. rewrite Hs. tauto.
    - intros i i' n n' j Hj Hn Hn' Hk. destruct (Hnode i n Hn) as (m & Hm1 & H1 & _). destruct (Hnode i' n' Hn') as (m' & Hm2 & H2 & _).
      rewrite H1, H2, !Hcl in Hk by exact Hj. exact (w_uniq _ _ _ _ _ W i i' m m' j Hj Hm1 Hm2 Hk).
    - rewrite Hq. exact (w_mlf _ _ _ _ _ W). }
  split; [exact Wt|]. apply list_ext. intros k. rewrite nth_error_map. destruct (lt_dec k (Z.to_nat (d_size o))) as [Hk|Hk].
  - assert (Hl1 : live t (Z.of_nat k)) by (unfold live; lia). assert (Hl2 : live o (Z.of_nat k)) by (unfold live; lia).
    pose proof (delems_nth nk key_of hash keq t _ Wt Hl1) as H1. pose proof (delems_nth nk key_of hash keq o _ W Hl2) as H2. rewrite Nat2Z.id in *.
    rewrite H1, H2. unfold val. specialize (Hvh (Z.of_nat k)). unfold vh in Hvh.
    destruct (d_nodes t (Z.of_nat k)), (d_nodes o (Z.of_nat k)); cbn [option_map fst snd] in *; congruence.
  - rewrite (proj2 (nth_error_None (delems t) k)) by (rewrite (delems_len nk key_of hash keq t Wt); lia).
    rewrite (proj2 (nth_error_None (delems o) k)) by (rewrite (delems_len nk key_of hash keq o W); lia). reflexivity.
Qed.

(** An empty table whose buckets may hold anything. *)
Record hollow (s : dense) : Prop := {
  ho_sok : d_sok s = true; ho_dok : d_dok s = true; ho_size : d_size s = 0;
  ho_none : forall i, d_nodes s i = None; ho_cap : 0 <= d_cap s < 2 ^ 59; ho_bc : 0 <= d_bc s < 2 ^ 60
}.
Lemma wf_hollow : forall s : dense, dwf s -> d_size s = 0 -> hollow s.
Proof.
  intros s W H0. pose proof (w_mem _ _ _ _ _ W) as Hm. pose proof (w_size _ _ _ _ _ W). pose proof (w_cap _ _ _ _ _ W). pose proof (w_bc _ _ _ _ _ W).
  constructor; try (apply Hm); try lia. intros i. apply (w_dead _ _ _ _ _ W). unfold live. lia.
Qed.

Lemma cleared_hollow : forall (s : dense) q, dwf s -> exists s', clear_data (set_mlf s q) = Ok s' /\ hollow s' /\ d_mlf s' = q /\ d_cap s' = d_cap s /\ d_bc s' = d_bc s /\ d_sparse s' = d_sparse s.
Proof.
  intros s q W. destruct (clear_data_ok (set_mlf s q)) as (s' & H & Hs & Hc & Hb & H1 & H2 & H3 & H4 & H5).
  - destruct (w_mem _ _ _ _ _ W) as [a b c]. constructor; assumption.
  - exact (proj1 (w_size _ _ _ _ _ W)).
  - exact (w_live _ _ _ _ _ W).
  - exists s'. split; [exact H|]. cbn [set_mlf d_cap d_bc d_sparse d_mlf d_nodes d_size] in *. pose proof (w_size _ _ _ _ _ W). pose proof (w_cap _ _ _ _ _ W). pose proof (w_bc _ _ _ _ _ W).
    split; [|auto]. constructor; try assumption; try lia. intros i. rewrite H5. destruct ((0 <=? i) && (i <? d_size s)) eqn:Ei; [reflexivity|].
    apply (w_dead _ _ _ _ _ W). unfold live. apply andb_false_iff in Ei. destruct Ei as [Ei|Ei]; [apply Z.leb_gt in Ei|apply Z.ltb_ge in Ei]; lia.
Qed.

(** The buffers grown to the size of a source table, and emptied chains. *)
Lemma grown_ok : forall dlim slim (s o : dense), dlim < 2 ^ 59 -> slim < 2 ^ 60 -> hollow s -> dwf o -> 0 < d_size o ->
  (exists s', (let '(s1, ok1) := realloc_sparse slim s (d_bc o) in if negb ok1 then (s1, false) else realloc_dense dlim s1 (d_size o)) = (s', false)) \/
  (exists s1 s2 s3, realloc_sparse slim s (d_bc o) = (s1, true) /\ realloc_dense dlim s1 (d_size o) = (s2, true) /\ fill_sparse s2 = Ok s3 /\
    filling s3 0 /\ d_size o <= d_cap s3 < 2 ^ 59 /\ d_bc s3 < 2 ^ 60 /\ d_mlf s3 = d_mlf s /\ (forall x, d_nodes s3 x = None)).
Proof.
  intros dlim slim s o Hdl Hsl [h1 h2 h3 h4 h5 h6] W Ho. pose proof (w_bucket _ _ _ _ _ W Ho) as Hbo. pose proof (w_size _ _ _ _ _ W) as Hso. pose proof (w_cap _ _ _ _ _ W). pose proof (w_bc _ _ _ _ _ W).
  assert (Hrs : exists s1 okb, realloc_sparse slim s (d_bc o) = (s1, okb) /\ (okb = true -> d_sok s1 = true /\ d_dok s1 = true /\ d_size s1 = 0 /\ d_nodes s1 = d_nodes s /\ d_cap s1 = d_cap s /\ d_bc o <= d_bc s1 < 2 ^ 60 /\ d_mlf s1 = d_mlf s)).
  { unfold realloc_sparse. destruct (Z.ltb_spec (d_bc s) (d_bc o)); [destruct (Z.ltb_spec slim (d_bc o))|]; eexists; eexists; (split; [reflexivity|]); intros; try discriminate;
      cbn [d_sok d_dok d_size d_nodes d_cap d_bc d_mlf]; repeat (split; [first [assumption|reflexivity|lia]|]); first [assumption|reflexivity|lia]. }
  destruct Hrs as (s1 & okb & Hr & Hr1). rewrite Hr. destruct okb; [|left; eexists; reflexivity]. cbn [negb].
  destruct (Hr1 eq_refl) as (g1 & g2 & g3 & g4 & g5 & g6 & g7).
  assert (Hrd : exists s2 okb, realloc_dense dlim s1 (d_size o) = (s2, okb) /\ (okb = true -> d_sok s2 = true /\ d_dok s2 = true /\ d_size s2 = 0 /\ (forall x, d_nodes s2 x = None) /\ d_size o <= d_cap s2 < 2 ^ 59 /\ d_bc s2 = d_bc s1 /\ d_mlf s2 = d_mlf s)).
  { unfold realloc_dense. destruct (Z.ltb_spec (d_cap s1) (d_size o)); [destruct (Z.ltb_spec dlim (d_size o))|]; eexists; eexists; (split; [reflexivity|]); intros; try discriminate;
      cbn [d_sok d_dok d_size d_nodes d_cap d_bc d_mlf]; repeat (split; [first [assumption|reflexivity|lia|(intros; rewrite g4; apply h4)]|]); first [assumption|reflexivity|lia]. }
  destruct Hrd as (s2 & okb & Hd & Hd1). rewrite Hd. destruct okb; [|left; eexists; reflexivity]. right.
  destruct (Hd1 eq_refl) as (k1 & k2 & k3 & k4 & k5 & k6 & k7).
  exists s1, s2, (set_sparse s2 (fun _ _ => npos)). split; [reflexivity|]. split; [exact Hd|]. split.
  { unfold fill_sparse. destruct (Z.eqb_spec (d_bc s2) 0); [lia|]. rewrite k1. reflexivity. }
  split; [|cbn [set_sparse d_cap d_bc d_mlf d_nodes]; split; [lia|split; [lia|split; [exact k7|exact k4]]]].
  constructor; cbn [set_sparse d_cap d_bc d_mlf d_nodes d_size].
  - constructor; cbn [set_sparse d_sok d_dok d_nodes]; auto. intros i n Hn. rewrite k4 in Hn. discriminate.
  - exact k3.
  - lia.
  - lia.
  - intros; apply k4.
  - intros j Hj. apply chains_empty; [reflexivity|lia].
Qed.

Lemma set_mlf_wf : forall (s : dense) q, dwf s -> 0 < fst q /\ 0 < snd q /\ snd q <= 16 * fst q -> dwf (set_mlf s q).
Proof. intros s q [] Hq. constructor; try assumption. destruct w_mem as [a b c]. constructor; assumption. Qed.
Lemma set_mlf_elems : forall (s : dense) q, delems (set_mlf s q) = delems s. Proof. reflexivity. Qed.

(** An empty table with empty chains. *)
Lemma hollow_wf : forall s : dense, hollow s -> (forall b j, 0 <= b < d_bc s -> (j < nk)%nat -> d_sparse s b j = npos) ->
  0 < fst (d_mlf s) /\ 0 < snd (d_mlf s) /\ snd (d_mlf s) <= 16 * fst (d_mlf s) -> dwf s.
Proof.
  intros s [h1 h2 h3 h4 h5 h6] Hb Hq. constructor.
  - constructor; auto. intros i n Hn. rewrite h4 in Hn. discriminate.
  - lia.
  - lia.
  - exact h6.
  - lia.
  - intros i Hi. unfold live in Hi. lia.
  - intros i _. apply h4.
  - intros i n j Hn. rewrite h4 in Hn. discriminate.
  - intros j Hj. apply chains_empty; [intros b Hb'; apply Hb; auto|]. unfold live. lia.
  - intros i i' n n' j _ Hn. rewrite h4 in Hn. discriminate.
  - exact Hq.
Qed.

(** The chains of an empty well-formed table are empty. *)
Lemma empty_chains : forall s : dense, dwf s -> d_size s = 0 -> forall b j, 0 <= b < d_bc s -> (j < nk)%nat -> d_sparse s b j = npos.
Proof.
  intros s W H0 b j Hb Hj. destruct (w_chain _ _ _ _ _ W j Hj b Hb) as (l & Hs & _ & Hin). destruct l as [|x l]; [inversion Hs; auto|].
  exfalso. destruct (proj1 (Hin x) (or_introl eq_refl)) as [Hx _]. unfold live in Hx. lia.
Qed.

(** ** Copies. *)
Section Copy.
Variable clone : E -> E.
Hypothesis clone_key : forall j e, (j < nk)%nat -> key_of j (clone e) = key_of j e.

Lemma copy_data_ok : forall dlim slim (s o : dense), dlim < 2 ^ 59 -> slim < 2 ^ 60 -> hollow s -> dwf o -> 0 < d_size o -> d_mlf s = d_mlf o ->
  exists s' b, copy_data nk clone dlim slim s o = Ok (s', b) /\ (b = true -> dwf s' /\ delems s' = map clone (delems o)).
Proof.
  intros dlim slim s o Hdl Hsl Hh W Ho Hq. unfold copy_data. rewrite (ho_size _ Hh). cbn [Z.eqb guard bind]. destruct (Z.eqb_spec (d_size o) 0) as [|_]; [lia|].
  destruct (grown_ok dlim slim s o Hdl Hsl Hh W Ho) as [(s' & Hg)|(s1 & s2 & s3 & H1 & H2 & H3 & Hf & Hc & Hb & Hmq & Hn)].
  - exists s', false. split; [|discriminate]. destruct (realloc_sparse slim s (d_bc o)) as [s1 ok1]. destruct ok1; cbn [negb] in *; [|injection Hg as ->; reflexivity].
    rewrite Hg. reflexivity.
  - rewrite H1. cbn [negb]. rewrite H2. cbn [negb]. rewrite H3. cbn [bind].
    destruct (foldM_zrange_inv dense (copy_step nk clone o)
      (fun i t => filling t i /\ d_cap t = d_cap s3 /\ d_bc t = d_bc s3 /\ d_mlf t = d_mlf s3 /\
         forall x, vh t x = if (0 <=? x) && (x <? i) then option_map (fun p => (clone (fst p), snd p)) (vh o x) else None) (d_size o) s3) as (s4 & H4 & Hf4 & e1 & e2 & e3 & Hv4).
    + lia.
    + split; [exact Hf|]. repeat (split; [reflexivity|]). intros x. unfold vh at 1. rewrite Hn. replace ((0 <=? x) && (x <? 0)) with false; [reflexivity|].
      symmetry. apply andb_false_iff. destruct (Z.leb_spec 0 x); [right; apply Z.ltb_ge; lia|left; reflexivity].
    + intros i t Hi (Hft & e1 & e2 & e3 & Hv). unfold copy_step.
      destruct (live_get o i W) as (n & -> & Hno & _); [unfold live; lia|]. cbn [bind]. pose proof (w_size _ _ _ _ _ W). pose proof (w_cap _ _ _ _ _ W).
      destruct (fill_one t i (mkn (clone (n_val n)) (n_hash n) (n_next n)) Hft) as (t1 & t2 & -> & H5 & H6 & H7 & H8 & H9 & H10); [lia|lia|].
      cbn [bind]. rewrite H5. cbn [bind]. eexists. split; [reflexivity|]. split; [exact H6|]. cbn [set_size d_cap d_bc d_mlf]. split; [congruence|]. split; [congruence|]. split; [congruence|].
      intros x. change (vh (set_size t2 (d_size t2 + 1)) x) with (vh t2 x). rewrite H10. cbn [n_val n_hash]. destruct (Z.eqb_spec x i) as [->|Hx].
      * replace ((0 <=? i) && (i <? i + 1)) with true by (symmetry; apply andb_true_iff; split; [apply Z.leb_le|apply Z.ltb_lt]; lia).
        unfold vh. rewrite Hno. reflexivity.
      * rewrite Hv. replace (x <? i + 1) with (x <? i); [reflexivity|]. destruct (Z.ltb_spec x i), (Z.ltb_spec x (i + 1)); try reflexivity; lia.
    + rewrite H4. cbn [bind]. exists s4, true. split; [reflexivity|]. intros _. apply filled_wf; auto; try lia.
      * congruence.
      * intros x. rewrite Hv4. destruct ((0 <=? x) && (x <? d_size o)) eqn:Ex; [reflexivity|]. unfold vh. rewrite (w_dead _ _ _ _ _ W); [reflexivity|].
        unfold live. apply andb_false_iff in Ex. destruct Ex as [Ex|Ex]; [apply Z.leb_gt in Ex|apply Z.ltb_ge in Ex]; lia.
Qed.

Lemma copy_ctor_ok : forall dlim slim (o : dense), dlim < 2 ^ 59 -> slim < 2 ^ 60 -> dwf o ->
  exists s' b, copy_ctor nk clone dlim slim o = Ok (s', b) /\ (b = true -> dwf s' /\ delems s' = map clone (delems o)).
Proof.
  intros dlim slim o Hdl Hsl W. unfold copy_ctor. destruct (Z.eq_dec (d_size o) 0) as [H0|H0].
  - unfold copy_data. cbn [set_mlf empty_dense d_size Z.eqb guard bind]. rewrite H0. cbn [Z.eqb]. eexists. eexists. split; [reflexivity|]. intros _.
    rewrite (size0_delems o H0). cbn [map]. split; [|reflexivity].
    apply (set_mlf_wf empty_dense (d_mlf o)); [apply empty_wf|exact (w_mlf _ _ _ _ _ W)].
  - apply copy_data_ok; auto.
    + constructor; cbn [set_mlf empty_dense d_sok d_dok d_size d_nodes d_cap d_bc]; auto; lia.
    + pose proof (w_size _ _ _ _ _ W). lia.
Qed.

Lemma copy_assign_ok : forall pocca dlim slim (s o : dense), dlim < 2 ^ 59 -> slim < 2 ^ 60 -> dwf s -> dwf o ->
  pocca = true \/ 0 < d_size o \/ d_size s = 0 ->
  exists s' b, copy_assign nk clone pocca dlim slim s o = Ok (s', b) /\ (b = true -> dwf s' /\ delems s' = map clone (delems o)).
Proof.
  intros pocca dlim slim s o Hdl Hsl W Wo Hc. unfold copy_assign. destruct (cleared_hollow s (d_mlf o) W) as (s1 & -> & Hh & Hq & Hcap & Hbc & Hsp). cbn [bind].
  assert (Hh1 : hollow (release pocca s1) /\ d_mlf (release pocca s1) = d_mlf o).
  { unfold release. destruct pocca; [|auto]. destruct Hh as [h1 h2 h3 h4 h5 h6]. split; [|exact Hq]. constructor; cbn [d_sok d_dok d_size d_nodes d_cap d_bc]; auto; lia. }
  destruct Hh1 as [Hh1 Hq1]. destruct (Z.eq_dec (d_size o) 0) as [H0|H0].
  - unfold copy_data. rewrite (ho_size _ Hh1). cbn [Z.eqb guard bind]. rewrite H0. cbn [Z.eqb]. eexists. eexists. split; [reflexivity|]. intros _.
    rewrite (size0_delems o H0). split; [|apply size0_delems; reflexivity].
    assert (Hh2 : hollow (set_size (release pocca s1) 0)) by (destruct Hh1; constructor; auto).
    apply hollow_wf; [exact Hh2| |cbn [set_size d_mlf]; rewrite Hq1; exact (w_mlf _ _ _ _ _ Wo)].
    intros b j. cbn [set_size d_bc d_sparse]. destruct pocca; cbn [release d_bc]; [lia|]. intros Hb Hj. rewrite Hsp. apply empty_chains; auto; [|rewrite Hbc in Hb; exact Hb].
    destruct Hc as [|[|]]; [discriminate|lia|assumption].
  - apply copy_data_ok; auto. pose proof (w_size _ _ _ _ _ Wo). lia.
Qed.
End Copy.

(** ** Moves. *)
Lemma released_wf : forall (s : dense) q, dwf s -> 0 < fst q /\ 0 < snd q /\ snd q <= 16 * fst q ->
  exists s1, clear_data (set_mlf s q) = Ok s1 /\ dwf (release true s1) /\ delems (release true s1) = [] /\ d_mlf (release true s1) = q.
Proof.
  intros s q W Hq. destruct (cleared_hollow s q W) as (s1 & H & Hh & Hm & _). exists s1. split; [exact H|].
  destruct Hh as [h1 h2 h3 h4 h5 h6]. split; [|split; [apply size0_delems; exact h3|exact Hm]].
  apply hollow_wf; [constructor; cbn [release d_sok d_dok d_size d_nodes d_cap d_bc]; auto; lia|cbn [release d_bc]; lia|]. cbn [release d_mlf]. rewrite Hm. exact Hq.
Qed.

(** Move assignment between equal allocators: the target takes over the source; the source
    is empty and usable, if the target's buffers were released or the target was empty. *)
Lemma move_assign_ok : forall pocma dlim slim (s o : dense), dwf s -> dwf o ->
  exists s' o', move_assign nk pocma true dlim slim s o = Ok (s', o', true) /\ dwf s' /\ delems s' = delems o /\ delems o' = [] /\ d_size o' = 0 /\
    (pocma = true \/ d_size s = 0 -> dwf o').
Proof.
  intros pocma dlim slim s o W Wo. unfold move_assign. destruct (cleared_hollow s (d_mlf o) W) as (s1 & -> & Hh & Hm & Hcap & Hbc & Hsp). cbn [bind move_from swap_buffers fst snd].
  eexists. eexists. split; [reflexivity|].
  assert (Hm' : d_mlf (release pocma s1) = d_mlf o) by (destruct pocma; exact Hm).
  split; [rewrite Hm'; apply set_mlf_wf; [exact Wo|exact (w_mlf _ _ _ _ _ Wo)]|]. split; [reflexivity|].
  assert (Hz : d_size (release pocma s1) = 0) by (destruct pocma; exact (ho_size _ Hh)).
  split; [apply (size0_delems (release pocma s1)); exact Hz|]. split; [exact Hz|]. intros Hc. apply set_mlf_wf; [|exact (w_mlf _ _ _ _ _ Wo)].
  destruct Hh as [h1 h2 h3 h4 h5 h6]. apply hollow_wf.
  - destruct pocma; constructor; cbn [release d_sok d_dok d_size d_nodes d_cap d_bc]; auto; lia.
  - intros b j. destruct pocma; cbn [release d_bc d_sparse]; [lia|]. intros Hb Hj. rewrite Hsp. destruct Hc as [|Hc]; [discriminate|].
    apply empty_chains; auto. rewrite Hbc in Hb. exact Hb.
  - rewrite Hm'. exact (w_mlf _ _ _ _ _ Wo).
Qed.
Lemma move_ctor_ok : forall dlim slim (o : dense), dwf o ->
  exists s' o', move_ctor nk true dlim slim o = Ok (s', o', true) /\ dwf s' /\ delems s' = delems o /\ dwf o' /\ delems o' = [].
Proof.
  intros dlim slim o W. eexists. eexists. split; [reflexivity|]. cbn [swap_buffers fst snd set_mlf d_mlf].
  pose proof (w_mlf _ _ _ _ _ W) as Hq.
  split; [apply (set_mlf_wf o (d_mlf o)); auto|]. split; [reflexivity|]. split; [|reflexivity].
  apply (set_mlf_wf (set_mlf empty_dense (d_mlf o)) (d_mlf o)); auto. apply (set_mlf_wf empty_dense (d_mlf o)); auto. apply empty_wf.
Qed.

(** Between different allocators the elements are moved one by one. *)
Lemma move_data_ok : forall dlim slim (s o : dense), dlim < 2 ^ 59 -> slim < 2 ^ 60 -> hollow s -> dwf o -> 0 < d_size o -> d_mlf s = d_mlf o ->
  exists s' o' b, move_data nk dlim slim s o = Ok (s', o', b) /\
    (b = true -> dwf s' /\ delems s' = delems o /\ hollow o' /\ d_bc o' = d_bc o /\ d_cap o' = d_cap o /\ d_sparse o' = d_sparse o /\ d_mlf o' = d_mlf o) /\ (b = false -> o' = o).
Proof.
  intros dlim slim s o Hdl Hsl Hh W Ho Hq. unfold move_data. rewrite (ho_size _ Hh). cbn [Z.eqb guard bind]. destruct (Z.eqb_spec (d_size o) 0) as [|_]; [lia|].
  destruct (grown_ok dlim slim s o Hdl Hsl Hh W Ho) as [(s' & Hg)|(s1 & s2 & s3 & H1 & H2 & H3 & Hf & Hc & Hb & Hmq & Hn)].
  - exists s', o, false. split; [|split; [discriminate|reflexivity]]. destruct (realloc_sparse slim s (d_bc o)) as [s1 ok1]. destruct ok1; cbn [negb] in *; [|injection Hg as ->; reflexivity].
    rewrite Hg. reflexivity.
  - rewrite H1. cbn [negb]. rewrite H2. cbn [negb]. rewrite H3. cbn [bind].
    destruct (foldM_zrange_inv (dense * dense) (move_step nk)
      (fun i so => let '(t, p) := so in filling t i /\ d_cap t = d_cap s3 /\ d_bc t = d_bc s3 /\ d_mlf t = d_mlf s3 /\
         (forall x, vh t x = if (0 <=? x) && (x <? i) then vh o x else None) /\
         (forall x, d_nodes p x = if (0 <=? x) && (x <? i) then None else d_nodes o x) /\
         d_sok p = d_sok o /\ d_dok p = d_dok o /\ d_size p = d_size o /\ d_cap p = d_cap o /\ d_bc p = d_bc o /\ d_mlf p = d_mlf o /\ d_sparse p = d_sparse o) (d_size o) (s3, o))
      as ((s4 & o4) & H4 & Hf4 & e1 & e2 & e3 & Hv4 & Hp4 & p1 & p2 & p3 & p4 & p5 & p6 & p7).
    + lia.
    + assert (Hx0 : forall x, (0 <=? x) && (x <? 0) = false) by (intros x; apply andb_false_iff; destruct (Z.leb_spec 0 x); [right; apply Z.ltb_ge; lia|left; reflexivity]).
      split; [exact Hf|]. do 3 (split; [reflexivity|]). split; [intros x; unfold vh at 1; rewrite Hn, Hx0; reflexivity|]. split; [intros x; rewrite Hx0; reflexivity|]. repeat (split; [reflexivity|]). reflexivity.
    + intros i [t p] Hi (Hft & e1 & e2 & e3 & Hv & Hp & p1 & p2 & p3 & p4 & p5 & p6 & p7). unfold move_step.
      destruct (live_get o i W) as (n & _ & Hno & _); [unfold live; lia|]. pose proof (w_size _ _ _ _ _ W). pose proof (w_cap _ _ _ _ _ W).
      assert (Hmp : okm p).
      { destruct (w_mem _ _ _ _ _ W) as [a b c]. constructor; [congruence|congruence|]. intros x m Hx. rewrite p4. rewrite Hp in Hx. destruct ((0 <=? x) && (x <? i)); [discriminate|]. exact (c x m Hx). }
      assert (Hpi : d_nodes p i = Some n).
      { rewrite Hp. replace ((0 <=? i) && (i <? i)) with false; [exact Hno|]. symmetry. apply andb_false_iff. right. apply Z.ltb_irrefl. }
      rewrite (get_node_ok p i n Hmp Hpi). cbn [bind].
      destruct (fill_one t i n Hft) as (t1 & t2 & -> & H5 & H6 & H7 & H8 & H9 & H10); [lia|lia|].
      cbn [bind]. rewrite (kill_node_ok p i n Hmp Hpi). cbn [bind]. rewrite H5. cbn [bind]. eexists. split; [reflexivity|]. split; [exact H6|]. cbn [set_size set_nodes d_cap d_bc d_mlf d_sok d_dok d_size d_sparse d_nodes].
      split; [congruence|]. split; [congruence|]. split; [congruence|].
      assert (Hlt : forall x, x <> i -> (x <? i + 1) = (x <? i)) by (intros x Hx; destruct (Z.ltb_spec x i), (Z.ltb_spec x (i + 1)); try reflexivity; lia).
      assert (Hii : (0 <=? i) && (i <? i + 1) = true) by (apply andb_true_iff; split; [apply Z.leb_le|apply Z.ltb_lt]; lia).
      split; [|split; [|auto 10]].
      * intros x. change (vh (set_size t2 (d_size t2 + 1)) x) with (vh t2 x). rewrite H10. destruct (Z.eqb_spec x i) as [->|Hx]; [rewrite Hii; unfold vh; rewrite Hno; reflexivity|].
        rewrite Hv, Hlt by exact Hx. reflexivity.
      * intros x. unfold upd. destruct (Z.eqb_spec x i) as [->|Hx]; [rewrite Hii; reflexivity|]. rewrite Hp, Hlt by exact Hx. reflexivity.
    + rewrite H4. cbn [bind fst snd]. exists s4, (set_size o4 0), true. split; [reflexivity|]. split; [|discriminate]. intros _.
      destruct (filled_wf (fun e => e) s4 o) as [Ws4 He]; auto; try lia.
      * congruence.
      * intros x. rewrite Hv4. destruct ((0 <=? x) && (x <? d_size o)) eqn:Ex; [destruct (vh o x) as [[]|]; reflexivity|]. unfold vh. rewrite (w_dead _ _ _ _ _ W); [reflexivity|].
        unfold live. apply andb_false_iff in Ex. destruct Ex as [Ex|Ex]; [apply Z.leb_gt in Ex|apply Z.ltb_ge in Ex]; lia.
      * rewrite map_id in He. split; [exact Ws4|]. split; [exact He|]. cbn [set_size d_bc d_cap d_sparse d_mlf]. split; [|auto].
        destruct (w_mem _ _ _ _ _ W) as [a b c]. pose proof (w_size _ _ _ _ _ W). pose proof (w_cap _ _ _ _ _ W). pose proof (w_bc _ _ _ _ _ W).
        constructor; cbn [set_size d_sok d_dok d_size d_nodes d_cap d_bc]; try congruence; try lia.
        intros x. rewrite Hp4. destruct ((0 <=? x) && (x <? d_size o)) eqn:Ex; [reflexivity|]. apply (w_dead _ _ _ _ _ W).
        unfold live. apply andb_false_iff in Ex. destruct Ex as [Ex|Ex]; [apply Z.leb_gt in Ex|apply Z.ltb_ge in Ex]; lia.
Qed.

(** ** Construction and range insertion. *)
Lemma ctor_n_ok : forall dlim slim n s, 0 <= n -> dlim < 2 ^ 59 -> slim < 2 ^ 60 -> ctor_n dlim slim n = Some (s : dense) -> dwf s /\ delems s = [] /\ d_mlf s = (7, 8) /\ d_bc s = n /\ d_cap s = n.
Proof.
  intros dlim slim n s Hn Hdl Hsl. unfold ctor_n. destruct (Z.eqb_spec n 0) as [->|Hn0].
  - intros H. injection H as <-. split; [apply empty_wf|]. repeat split; reflexivity.
  - destruct ((dlim <? n) || (slim <? n)) eqn:El; [discriminate|]. apply orb_false_iff in El. destruct El as [E1 E2]. apply Z.ltb_ge in E1, E2.
    intros H. injection H as <-. split; [|repeat split; reflexivity]. apply hollow_wf; [constructor; cbn [d_sok d_dok d_size d_nodes d_cap d_bc]; auto; lia|reflexivity|cbn; lia].
Qed.

Notation dappended := (dappended nk key_of keq).
Lemma clash_not_new : forall e (l : list E) x, dclash nk key_of keq e l x -> ~ dnew nk key_of keq e l.
Proof. intros e l x (j & Hj & Hx & Hk & _) Hn. specialize (Hn j Hj x Hx). congruence. Qed.

Lemma insert_all_ok : forall l dlim slim (s : dense), dwf s -> dlim < 2 ^ 59 -> slim < 2 ^ 60 ->
  exists s' b, insert_all nk key_of hash keq dlim slim s l = Ok (s', b) /\
    ((b = true /\ dwf s' /\ dappended (delems s) l (delems s')) \/
     (b = false /\ (dwf s' \/ broken s') /\ exists l1 l2, l = l1 ++ l2 /\ dappended (delems s) l1 (delems s'))).
Proof.
  induction l as [|e r IH]; intros dlim slim s W Hdl Hsl; cbn [insert_all].
  - exists s, true. split; [reflexivity|]. left. split; [reflexivity|]. split; [exact W|constructor].
  - destruct (do_insert_ok nk key_of hash keq (fun a _ => a) KL dlim slim s e W Hdl Hsl) as ((s1 & o) & -> & Hi). cbn [bind].
    destruct o as [[p b]|]; cbn [ins_ok] in Hi.
    + assert (H : dwf s1 /\ forall l', dappended (delems s1) r l' -> dappended (delems s) (e :: r) l').
      { destruct b; destruct Hi as (W1 & H1 & H2).
        - destruct H2 as [H2 _]. split; [exact W1|]. intros l' H. rewrite H2 in H. constructor; assumption.
        - destruct H2 as (n & _ & Hc). split; [exact W1|]. intros l' H. rewrite H1 in H. apply da_old; [apply (clash_not_new e _ _ Hc)|exact H]. }
      destruct H as [W1 H]. destruct (IH dlim slim s1 W1 Hdl Hsl) as (s' & b' & -> & Hr). exists s', b'. split; [reflexivity|].
      destruct Hr as [(-> & W' & Ha)|(-> & Hw & l1 & l2 & -> & Ha)]; [left|right].
      * split; [reflexivity|]. split; [exact W'|]. apply H. exact Ha.
      * split; [reflexivity|]. split; [exact Hw|]. exists (e :: l1), l2. split; [reflexivity|].
        destruct b; destruct Hi as (_ & H1 & H2).
        -- destruct H2 as [H2 _]. rewrite H2 in Ha. constructor; assumption.
        -- destruct H2 as (n & _ & Hc). rewrite H1 in Ha. apply da_old; [apply (clash_not_new e _ _ Hc)|exact Ha].
    + destruct Hi as [He Hw]. exists s1, false. split; [reflexivity|]. right. split; [reflexivity|]. split; [tauto|]. exists [], (e :: r). split; [reflexivity|].
      rewrite (delems_same s s1 He). constructor.
Qed.

Lemma insert_range_ok : forall ra l dlim slim (s : dense), dwf s -> dlim < 2 ^ 59 -> slim < 2 ^ 60 -> d_size s + Z.of_nat (length l) < 2 ^ 59 ->
  exists s' b, insert_range nk key_of hash keq ra dlim slim s l = Ok (s', b) /\
    ((b = true /\ dwf s' /\ dappended (delems s) l (delems s')) \/
     (b = false /\ (dwf s' \/ broken s') /\ exists l1 l2, l = l1 ++ l2 /\ dappended (delems s) l1 (delems s'))).
Proof.
  intros ra l dlim slim s W Hdl Hsl Hn. unfold insert_range. destruct ra; [|apply insert_all_ok; assumption].
  pose proof (w_size _ _ _ _ _ W) as Hsz. rewrite Z.mod_small by (unfold two64; lia).
  destruct (reserve_ok nk key_of hash keq dlim slim s (d_size s + Z.of_nat (length l)) W Hdl Hsl) as (s1 & o & -> & [He Hw] & _); [lia|]. cbn [bind].
  destruct o as [u|].
  - rewrite <- (delems_same s s1 He). apply insert_all_ok; assumption.
  - exists s1, false. split; [reflexivity|]. right. split; [reflexivity|]. split; [tauto|]. exists [], l. split; [reflexivity|]. rewrite (delems_same s s1 He). constructor.
Qed.

Lemma insert_range_gen : forall ra l dlim slim (s : dense), dwf s -> dlim < 2 ^ 59 -> slim < 2 ^ 60 -> Z.of_nat (length l) < 2 ^ 58 ->
  exists s' b, insert_range nk key_of hash keq ra dlim slim s l = Ok (s', b) /\
    ((b = true /\ dwf s' /\ dappended (delems s) l (delems s')) \/
     (b = false /\ (dwf s' \/ broken s') /\ exists l1 l2, l = l1 ++ l2 /\ dappended (delems s) l1 (delems s'))).
Proof.
  intros ra l dlim slim s W Hdl Hsl Hl. pose proof (w_size _ _ _ _ _ W) as Hsz. pose proof (w_cap _ _ _ _ _ W) as Hc.
  destruct (Z_lt_le_dec (d_size s + Z.of_nat (length l)) (2 ^ 59)) as [H|H]; [apply insert_range_ok; assumption|].
  destruct ra; [|unfold insert_range; cbn [bind]; apply insert_all_ok; assumption].
  exists s, false. split.
  - unfold insert_range. rewrite Z.mod_small by (unfold two64; lia). unfold reserve. destruct (Z.ltb_spec (d_cap s) (d_size s + Z.of_nat (length l))) as [_|]; [|lia].
    unfold resize_data. destruct (Z.ltb_spec dlim (d_size s + Z.of_nat (length l))) as [_|]; [|lia]. reflexivity.
  - right. split; [reflexivity|]. split; [left; exact W|]. exists [], l. split; [reflexivity|constructor].
Qed.

Lemma ctor_range_ok : forall ra l n dlim slim, 0 <= n -> Z.of_nat (length l) < 2 ^ 59 -> dlim < 2 ^ 59 -> slim < 2 ^ 60 ->
  ctor_range nk key_of hash keq ra dlim slim l n = Ok None \/
  exists s b, ctor_range nk key_of hash keq ra dlim slim l n = Ok (Some (s, b)) /\ (b = true -> dwf s /\ dappended [] l (delems s)).
Proof.
  intros ra l n dlim slim Hn Hl Hdl Hsl. unfold ctor_range.
  destruct (ctor_n dlim slim (if ra then Z.max (Z.of_nat (length l)) n else n)) as [s|] eqn:Ec; [|left; reflexivity]. right.
  assert (H0 : 0 <= if ra then Z.max (Z.of_nat (length l)) n else n) by (destruct ra; lia).
  destruct (ctor_n_ok dlim slim _ s H0 Hdl Hsl Ec) as (W & He & _).
  assert (Hsz : d_size s = 0) by (pose proof (delems_len nk key_of hash keq s W) as H; rewrite He in H; cbn [length] in H; pose proof (w_size _ _ _ _ _ W); lia).
  destruct (insert_range_ok ra l dlim slim s W Hdl Hsl ltac:(lia)) as (s' & b & -> & H). exists s', b. split; [reflexivity|]. intros ->.
  rewrite He in H. destruct H as [(_ & H1 & H2)|(H & _)]; [auto|discriminate].
Qed.
End More.
