(** Dense tables after copying an element threw. *)
From Coq Require Import ZArith List Bool Lia Permutation.
From Verif Require Import Base BaseLemmas Float32 DenseSpec DenseModel DenseRun DenseChain DenseInv DenseEdit DenseOps DenseErase DenseMore CopyModel.
Import ListNotations.
Open Scope Z_scope.

Section Dense.
Context {E K : Type}.
Variable nk : nat.
Variable key_of : nat -> E -> K.
Variable hash : K -> Z.
Variable keq : K -> K -> bool.
Variable clone : E -> E.
Hypothesis clone_key : forall j e, (j < nk)%nat -> key_of j (clone e) = key_of j e.
Notation dense := (dense E).
Local Notation dwf := (dwf nk key_of hash keq).
Local Notation filling := (filling nk).

(** A table filled with copies of the first [m] elements of a well-formed one. *)
Lemma filled_first : forall (t o : dense) m, dwf o -> 0 <= m <= d_size o -> filling t m ->
  d_size o <= d_cap t < 2 ^ 59 -> d_bc t < 2 ^ 60 -> d_mlf t = d_mlf o ->
  (forall x, vh t x = if (0 <=? x) && (x <? m) then option_map (fun p => (clone (fst p), snd p)) (vh o x) else None) ->
  dwf t /\ delems t = map clone (firstn (Z.to_nat m) (delems o)).
Proof.
  intros t o m W Hmo [Hm Hs Hb Hlv Hd Hc] Hcap Hbc Hq Hvh.
  assert (Hnode : forall x n, d_nodes t x = Some n -> exists m, d_nodes o x = Some m /\ n_val n = clone (n_val m) /\ n_hash n = n_hash m).
  { intros x n Hn. specialize (Hvh x). unfold vh in Hvh. rewrite Hn in Hvh. destruct ((0 <=? x) && (x <? m)); [|discriminate].
    destruct (d_nodes o x) as [p|]; cbn [option_map fst snd] in Hvh; [|discriminate].
    exists p. injection Hvh as H1 H2. auto. }
  pose proof (w_size _ _ _ _ _ W) as Hsz.
  assert (Wt : dwf t).
  { constructor.
    - exact Hm.
    - lia.
    - lia.
    - lia.
    - intros _. exact Hb.
    - intros i Hi. apply Hlv. unfold live in Hi. lia.
    - intros i Hi. apply Hd. unfold live in Hi. lia.
    - intros i n j Hn Hj. destruct (Hnode i n Hn) as (p & Hm' & H1 & H2). rewrite H1, H2, clone_key by exact Hj. exact (w_hash _ _ _ _ _ W i p j Hm' Hj).
    - intros j Hj. apply (chains_ext (hdj t j) (nxj t j) (fun x => 0 <= x < m) (bkj t j) (d_bc t)); auto. intros x b _. unfold live. rewrite Hs. tauto.
    - intros i i' n n' j Hj Hn Hn' Hk. destruct (Hnode i n Hn) as (p & Hm1 & H1 & _). destruct (Hnode i' n' Hn') as (p' & Hm2 & H2 & _).
      rewrite H1, H2, !clone_key in Hk by exact Hj. exact (w_uniq _ _ _ _ _ W i i' p p' j Hj Hm1 Hm2 Hk).
    - rewrite Hq. exact (w_mlf _ _ _ _ _ W). }
  split; [exact Wt|]. apply list_ext. intros k. rewrite nth_error_map. destruct (lt_dec k (Z.to_nat m)) as [Hk|Hk].
  - assert (Hl1 : live t (Z.of_nat k)) by (unfold live; lia). assert (Hl2 : live o (Z.of_nat k)) by (unfold live; lia).
    pose proof (delems_nth nk key_of hash keq t _ Wt Hl1) as H1. pose proof (delems_nth nk key_of hash keq o _ W Hl2) as H2. rewrite Nat2Z.id in *.
    assert (Hf : nth_error (firstn (Z.to_nat m) (delems o)) k = nth_error (delems o) k).
    { rewrite <- (firstn_skipn (Z.to_nat m) (delems o)) at 2. symmetry. apply nth_error_app1. rewrite firstn_length, (delems_len nk key_of hash keq o W). lia. }
    rewrite Hf, H1, H2. unfold val. specialize (Hvh (Z.of_nat k)). unfold vh in Hvh.
    replace ((0 <=? Z.of_nat k) && (Z.of_nat k <? m)) with true in Hvh by (symmetry; apply andb_true_iff; split; [apply Z.leb_le|apply Z.ltb_lt]; lia).
    destruct (d_nodes t (Z.of_nat k)), (d_nodes o (Z.of_nat k)); cbn [option_map fst snd] in *; congruence.
  - rewrite (proj2 (nth_error_None (delems t) k)) by (rewrite (delems_len nk key_of hash keq t Wt); lia).
    rewrite (proj2 (nth_error_None (firstn (Z.to_nat m) (delems o)) k)) by (rewrite firstn_length, (delems_len nk key_of hash keq o W); lia). reflexivity.
Qed.

Lemma d_copy_until_all : forall (o : dense) l n t, (length l <= n)%nat ->
  d_copy_until nk clone n o l t = (let* t1 := foldM (copy_step nk clone o) l t in Ok (t1, true)).
Proof.
  intros o. induction l as [|i l IH]; intros n t Hn; cbn [d_copy_until foldM length] in *; [reflexivity|].
  destruct n as [|n]; [lia|]. destruct (copy_step nk clone o t i) as [t1|]; cbn [bind]; [|reflexivity]. apply IH. lia.
Qed.
Lemma d_copy_until_some : forall (o : dense) l n t t' i, nth_error l n = Some i -> (exists x, get_node o i = Ok x) ->
  foldM (copy_step nk clone o) (firstn n l) t = Ok t' -> d_copy_until nk clone n o l t = Ok (t', false).
Proof.
  intros o. induction l as [|i l IH]; intros n t t' j Hn Hx H; [destruct n; discriminate Hn|].
  destruct n as [|n]; cbn [nth_error firstn foldM d_copy_until] in *.
  - injection Hn as ->. destruct Hx as [x ->]. cbn [bind]. congruence.
  - destruct (copy_step nk clone o t i) as [t1|]; cbn [bind] in *; [|discriminate]. exact (IH n t1 t' j Hn Hx H).
Qed.
Lemma zrange_firstn : forall a b, 0 <= a <= b -> firstn (Z.to_nat a) (zrange b) = zrange a.
Proof.
  intros a b H. unfold zrange. rewrite firstn_map. f_equal. replace (Z.to_nat b) with (Z.to_nat a + Z.to_nat (b - a))%nat by lia.
  rewrite seq_app. rewrite firstn_app, seq_length, Nat.sub_diag, firstn_O, app_nil_r. rewrite <- (seq_length (Z.to_nat a) 0) at 1. apply firstn_all.
Qed.

Lemma dc_copy_data_ok : forall n dlim slim (s o : dense), dlim < 2 ^ 59 -> slim < 2 ^ 60 -> hollow s -> dwf o -> 0 < d_size o -> d_mlf s = d_mlf o ->
  (Z.of_nat n < d_size o -> (exists s', copy_data nk clone dlim slim s o = Ok (s', false) /\ dc_copy_data nk clone n dlim slim s o = Ok (s', false)) \/
     exists t, dc_copy_data nk clone n dlim slim s o = Ok (t, false) /\ dwf t /\ delems t = map clone (firstn n (delems o))) /\
  (d_size o <= Z.of_nat n -> dc_copy_data nk clone n dlim slim s o = copy_data nk clone dlim slim s o).
Proof.
  intros n dlim slim s o Hdl Hsl Hh W Ho Hq. unfold dc_copy_data, copy_data. rewrite (ho_size _ Hh). cbn [Z.eqb guard bind]. destruct (Z.eqb_spec (d_size o) 0) as [|_]; [lia|].
  split; intros Hnd.
  - destruct (grown_ok nk key_of hash keq dlim slim s o Hdl Hsl Hh W Ho) as [(s' & Hg)|(s1 & s2 & s3 & H1 & H2 & H3 & Hf & Hc & Hb & Hmq & Hn)].
    + left. exists s'. destruct (realloc_sparse slim s (d_bc o)) as [s1 ok1]. destruct ok1; cbn [negb] in *; [|injection Hg as ->; auto].
      rewrite Hg. cbn [negb]. auto.
    + right. rewrite H1. cbn [negb]. rewrite H2. cbn [negb]. rewrite H3. cbn [bind].
      destruct (foldM_zrange_inv dense (copy_step nk clone o)
        (fun i t => filling t i /\ d_cap t = d_cap s3 /\ d_bc t = d_bc s3 /\ d_mlf t = d_mlf s3 /\
           forall x, vh t x = if (0 <=? x) && (x <? i) then option_map (fun p => (clone (fst p), snd p)) (vh o x) else None) (Z.of_nat n) s3) as (s4 & H4 & Hf4 & e1 & e2 & e3 & Hv4).
      * lia.
      * split; [exact Hf|]. repeat (split; [reflexivity|]). intros x. unfold vh at 1. rewrite Hn. replace ((0 <=? x) && (x <? 0)) with false; [reflexivity|].
        symmetry. apply andb_false_iff. destruct (Z.leb_spec 0 x); [right; apply Z.ltb_ge; lia|left; reflexivity].
      * intros i t Hi (Hft & e1 & e2 & e3 & Hv). unfold copy_step.
        destruct (live_get nk key_of hash keq o i W) as (y & -> & Hno & _); [unfold live; lia|]. cbn [bind]. pose proof (w_size _ _ _ _ _ W). pose proof (w_cap _ _ _ _ _ W).
        destruct (fill_one nk key_of t i (mkn (clone (n_val y)) (n_hash y) (n_next y)) Hft) as (t1 & t2 & -> & H5 & H6 & H7 & H8 & H9 & H10); [lia|lia|].
        cbn [bind]. rewrite H5. cbn [bind]. eexists. split; [reflexivity|]. split; [exact H6|]. cbn [set_size d_cap d_bc d_mlf]. split; [congruence|]. split; [congruence|]. split; [congruence|].
        intros x. change (vh (set_size t2 (d_size t2 + 1)) x) with (vh t2 x). rewrite H10. cbn [n_val n_hash]. destruct (Z.eqb_spec x i) as [->|Hx].
        -- replace ((0 <=? i) && (i <? i + 1)) with true by (symmetry; apply andb_true_iff; split; [apply Z.leb_le|apply Z.ltb_lt]; lia).
           unfold vh. rewrite Hno. reflexivity.
        -- rewrite Hv. replace (x <? i + 1) with (x <? i); [reflexivity|]. destruct (Z.ltb_spec x i), (Z.ltb_spec x (i + 1)); try reflexivity; lia.
      * exists s4. split.
        -- apply (d_copy_until_some o (zrange (d_size o)) n s3 s4 (Z.of_nat n)).
           ++ unfold zrange. rewrite nth_error_map. rewrite (nth_error_nth' (seq 0 (Z.to_nat (d_size o))) 0%nat) by (rewrite seq_length; lia). rewrite seq_nth by lia. reflexivity.
           ++ destruct (live_get nk key_of hash keq o (Z.of_nat n) W) as (y & -> & _); [unfold live; lia|]. eauto.
           ++ rewrite <- (Nat2Z.id n) at 1. rewrite zrange_firstn by lia. exact H4.
        -- rewrite <- (Nat2Z.id n) at 1. apply filled_first; auto; try lia. congruence.
  - destruct (realloc_sparse slim s (d_bc o)) as [s1 ok1]. destruct ok1; cbn [negb]; [|reflexivity]. destruct (realloc_dense dlim s1 (d_size o)) as [s2 ok2].
    destruct ok2; cbn [negb]; [|reflexivity]. destruct (fill_sparse s2) as [s3|]; cbn [bind]; [|reflexivity].
    apply d_copy_until_all. rewrite zrange_length. lia.
Qed.

Lemma dc_target : forall pocca (s : dense) q, dwf s -> exists s1, clear_data (set_mlf s q) = Ok s1 /\ hollow (release pocca s1) /\ d_mlf (release pocca s1) = q.
Proof.
  intros pocca s q W. destruct (cleared_hollow nk key_of hash keq s q W) as (s1 & E1 & Hh & Hq & _). exists s1. split; [exact E1|].
  unfold release. destruct pocca; [|auto]. destruct Hh as [h1 h2 h3 h4 h5 h6]. split; [|exact Hq]. constructor; cbn [d_sok d_dok d_size d_nodes d_cap d_bc]; auto; lia.
Qed.
End Dense.

(** Later histories. *)
From Verif Require Import MapSpec DenseWorldSpec DenseWorld DenseFinal.
Section Final.
Context {E K : Type}.
Variable nk : nat.
Variable key_of : nat -> E -> K.
Variable hash : K -> Z.
Variable keq : K -> K -> bool.
Variable rep : E -> E -> E.
Variable clone : E -> E.
Variables pocca pocma : bool.
Hypothesis KL : key_laws hash keq.
Hypothesis rep_key : forall x e, key_of 0%nat (rep x e) = key_of 0%nat x.
Hypothesis clone_key : forall j e, (j < nk)%nat -> key_of j (clone e) = key_of j e.
Notation dense := (dense E).
Notation doccurs := (doccurs nk key_of hash keq rep clone pocca pocma).
Notation drefines := (drefines nk key_of hash keq rep).
Let wf_of := occurs_wf nk key_of hash keq rep clone pocca pocma KL rep_key clone_key.

Lemma dense_copy_throws : forall (s o : dense) v n, doccurs s -> doccurs o -> denv_ok v -> (n < length (delems o))%nat ->
  (exists t, copy_assign nk clone pocca (dv_dlim v) (dv_slim v) s o = Ok (t, false) /\ dc_copy_assign nk clone n pocca (dv_dlim v) (dv_slim v) s o = Ok (t, false)) \/
  exists t, dc_copy_assign nk clone n pocca (dv_dlim v) (dv_slim v) s o = Ok (t, false) /\ delems t = map clone (firstn n (delems o)) /\
    forall h, dhistory_ok nk h -> drefines t (delems t) h.
Proof.
  intros s o v n Hs Ho [Hdl Hsl] Hn. pose proof (wf_of s Hs) as Ws. pose proof (wf_of o Ho) as Wo.
  pose proof (delems_len nk key_of hash keq o Wo) as Lo. pose proof (w_size _ _ _ _ _ Wo) as Hso.
  destruct (dc_target nk key_of hash keq clone clone_key pocca s (d_mlf o) Ws) as (s1 & E1 & Hh & Hq).
  destruct (dc_copy_data_ok nk key_of hash keq clone clone_key n _ _ (release pocca s1) o Hdl Hsl Hh Wo ltac:(lia) Hq) as [H _].
  unfold copy_assign, dc_copy_assign. rewrite E1. cbn [bind]. destruct (H ltac:(lia)) as [H'|(t & Et & Wt & Hd)]; [left; exact H'|right].
  exists t. split; [exact Et|]. split; [exact Hd|]. intros h Hh'. apply (wf_refines nk key_of hash keq rep KL rep_key t h Wt Hh').
Qed.
Lemma dense_copy_same : forall (s o : dense) v n, doccurs s -> doccurs o -> denv_ok v -> (length (delems o) <= n)%nat ->
  dc_copy_assign nk clone n pocca (dv_dlim v) (dv_slim v) s o = copy_assign nk clone pocca (dv_dlim v) (dv_slim v) s o /\
  dc_copy_ctor nk clone n (dv_dlim v) (dv_slim v) o = copy_ctor nk clone (dv_dlim v) (dv_slim v) o.
Proof.
  intros s o v n Hs Ho [Hdl Hsl] Hn. pose proof (wf_of s Hs) as Ws. pose proof (wf_of o Ho) as Wo.
  pose proof (delems_len nk key_of hash keq o Wo) as Lo. pose proof (w_size _ _ _ _ _ Wo) as Hso.
  assert (Hall : forall t : dense, hollow t -> d_mlf t = d_mlf o -> dc_copy_data nk clone n (dv_dlim v) (dv_slim v) t o = copy_data nk clone (dv_dlim v) (dv_slim v) t o).
  { intros t Hh Hq. destruct (Z.eq_dec (d_size o) 0) as [H0|H0].
    - unfold dc_copy_data, copy_data. rewrite (ho_size _ Hh), H0. reflexivity.
    - destruct (dc_copy_data_ok nk key_of hash keq clone clone_key n _ _ t o Hdl Hsl Hh Wo ltac:(lia) Hq) as [_ H]. apply H. lia. }
  split.
  - destruct (dc_target nk key_of hash keq clone clone_key pocca s (d_mlf o) Ws) as (s1 & E1 & Hh & Hq). unfold copy_assign, dc_copy_assign. rewrite E1. cbn [bind]. apply Hall; assumption.
  - apply Hall; [|reflexivity]. constructor; cbn [set_mlf empty_dense d_sok d_dok d_size d_nodes d_cap d_bc]; auto; lia.
Qed.
Lemma dense_ctor_throws : forall (o : dense) v n, doccurs o -> denv_ok v -> (n < length (delems o))%nat ->
  (exists t, copy_ctor nk clone (dv_dlim v) (dv_slim v) o = Ok (t, false)) \/
  exists t, dc_copy_ctor nk clone n (dv_dlim v) (dv_slim v) o = Ok (t, false) /\ delems t = map clone (firstn n (delems o)).
Proof.
  intros o v n Ho [Hdl Hsl] Hn. pose proof (wf_of o Ho) as Wo. pose proof (delems_len nk key_of hash keq o Wo) as Lo. pose proof (w_size _ _ _ _ _ Wo) as Hso.
  destruct (dc_copy_data_ok nk key_of hash keq clone clone_key n (dv_dlim v) (dv_slim v) (set_mlf empty_dense (d_mlf o)) o Hdl Hsl) as [H _].
  - constructor; cbn [set_mlf empty_dense d_sok d_dok d_size d_nodes d_cap d_bc]; auto; lia.
  - exact Wo.
  - lia.
  - reflexivity.
  - destruct (H ltac:(lia)) as [(t & Et & _)|(t & Et & _ & Hd)]; [left|right]; eauto.
Qed.
End Final.
