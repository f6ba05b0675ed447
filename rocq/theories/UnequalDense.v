(** Proofs about moves between dense containers with unequal allocators (UnequalModel.v). *)
From Coq Require Import ZArith List Bool Lia Arith.
From Verif Require Import Base BaseLemmas MapSpec DenseSpec DenseModel DenseRun DenseChain DenseInv DenseOps DenseEdit DenseErase DenseRefine DenseMore DenseFinal LinkModel OrderedDense SwissRun SwissOrdered UnequalModel.
Import ListNotations.
Open Scope Z_scope.

Section Unequal.
Context {E K : Type}.
Variable nk : nat.
Variable key_of : nat -> E -> K.
Variable hash : K -> Z.
Variable keq : K -> K -> bool.
Variable rep : E -> E -> E.
Hypothesis KL : key_laws hash keq.
Hypothesis rep_key : forall x e, key_of 0 (rep x e) = key_of 0 x.
Notation dense := (dense E).
Notation dwf := (dwf nk key_of hash keq).
Notation drefines := (drefines nk key_of hash keq rep).

(** The memory a move of [o] into a table with [bc] buckets and [cap] slots is refused. *)
Definition refused (dlim slim bc cap : Z) (o : dense) : Prop :=
  (bc < d_bc o /\ slim < d_bc o) \/ (cap < d_size o /\ dlim < d_size o).

Lemma grow_cases : forall dlim slim (s o : dense), hollow s -> dwf o -> 0 < d_size o -> dlim < 2 ^ 59 -> slim < 2 ^ 60 -> d_mlf s = d_mlf o ->
  (refused dlim slim (d_bc s) (d_cap s) o /\ exists s', DenseModel.move_data nk dlim slim s o = Ok (s', o, false)) \/
  (~ refused dlim slim (d_bc s) (d_cap s) o /\ exists s' o', DenseModel.move_data nk dlim slim s o = Ok (s', o', true) /\
     dwf s' /\ delems s' = delems o /\ hollow o' /\ d_bc o' = d_bc o /\ d_cap o' = d_cap o /\ d_sparse o' = d_sparse o /\ d_mlf o' = d_mlf o).
Proof.
  intros dlim slim s o Hh W Ho Hdl Hsl Hq.
  destruct (DenseMore.move_data_ok nk key_of hash keq dlim slim s o Hdl Hsl Hh W Ho Hq) as (s' & o' & b & Hm & Ht & Hf).
  assert (Hb : b = false <-> refused dlim slim (d_bc s) (d_cap s) o).
  { pose proof Hm as Hm0. unfold DenseModel.move_data in Hm0. rewrite (ho_size _ Hh) in Hm0. cbn [Z.eqb guard bind] in Hm0. destruct (Z.eqb_spec (d_size o) 0) as [|_]; [lia|].
    unfold refused. unfold realloc_sparse in Hm0. destruct (Z.ltb_spec (d_bc s) (d_bc o)) as [H1|H1].
    - destruct (Z.ltb_spec slim (d_bc o)) as [H2|H2]; cbn [negb] in Hm0.
      + injection Hm0 as _ _ <-. split; intros _; [left; lia|reflexivity].
      + unfold realloc_dense in Hm0. cbn [d_cap] in Hm0. destruct (Z.ltb_spec (d_cap s) (d_size o)) as [H3|H3].
        * destruct (Z.ltb_spec dlim (d_size o)) as [H4|H4]; cbn [negb] in Hm0; [injection Hm0 as _ _ <-; split; intros _; [right; lia|reflexivity]|].
          destruct (fill_sparse _) as [s3|]; cbn [bind] in Hm0; [|discriminate]. destruct (foldM _ _ _) as [so|]; cbn [bind] in Hm0; [|discriminate]. injection Hm0 as _ _ <-. split; [discriminate|lia].
        * cbn [negb] in Hm0. destruct (fill_sparse _) as [s3|]; cbn [bind] in Hm0; [|discriminate]. destruct (foldM _ _ _) as [so|]; cbn [bind] in Hm0; [|discriminate]. injection Hm0 as _ _ <-. split; [discriminate|lia].
    - cbn [negb] in Hm0. unfold realloc_dense in Hm0. destruct (Z.ltb_spec (d_cap s) (d_size o)) as [H3|H3].
      + destruct (Z.ltb_spec dlim (d_size o)) as [H4|H4]; cbn [negb] in Hm0; [injection Hm0 as _ _ <-; split; intros _; [right; lia|reflexivity]|].
        destruct (fill_sparse _) as [s3|]; cbn [bind] in Hm0; [|discriminate]. destruct (foldM _ _ _) as [so|]; cbn [bind] in Hm0; [|discriminate]. injection Hm0 as _ _ <-. split; [discriminate|lia].
      + cbn [negb] in Hm0. destruct (fill_sparse _) as [s3|]; cbn [bind] in Hm0; [|discriminate]. destruct (foldM _ _ _) as [so|]; cbn [bind] in Hm0; [|discriminate]. injection Hm0 as _ _ <-. split; [discriminate|lia]. }
  destruct b.
  - right. split; [intros Hr; apply Hb in Hr; discriminate|]. exists s', o'. split; [exact Hm|]. apply Ht. reflexivity.
  - left. split; [apply Hb; reflexivity|]. exists s'. rewrite Hm, (Hf eq_refl). reflexivity.
Qed.

(** What is left of the source: an empty table whose buckets still name the old places. *)
Definition husk (o o' : dense) : Prop :=
  hollow o' /\ d_bc o' = d_bc o /\ d_cap o' = d_cap o /\ d_sparse o' = d_sparse o /\ d_mlf o' = d_mlf o.

Lemma assign_cases : forall dlim slim (s o : dense), dwf s -> dwf o -> 0 < d_size o -> dlim < 2 ^ 59 -> slim < 2 ^ 60 ->
  (refused dlim slim (d_bc s) (d_cap s) o /\ u_dense_assign nk dlim slim s o = Err Terminated) \/
  (~ refused dlim slim (d_bc s) (d_cap s) o /\ exists s' o', u_dense_assign nk dlim slim s o = Ok (s', o') /\ dwf s' /\ delems s' = delems o /\ husk o o').
Proof.
  intros dlim slim s o W Wo Ho Hdl Hsl. unfold u_dense_assign, DenseModel.move_assign.
  destruct (cleared_hollow nk key_of hash keq s (d_mlf o) W) as (s1 & -> & Hh & Hq & Hcap & Hbc & Hsp). cbn [bind release move_from].
  destruct (grow_cases dlim slim s1 o Hh Wo Ho Hdl Hsl Hq) as [(Hr & s' & ->)|(Hr & s' & o' & -> & W' & He & Hu)]; rewrite Hcap, Hbc in Hr.
  - left. split; [exact Hr|reflexivity].
  - right. split; [exact Hr|]. exists s', o'. split; [reflexivity|]. split; [exact W'|]. split; [exact He|exact Hu].
Qed.

Lemma empty_hollow : forall q, hollow (set_mlf (@empty_dense E) q).
Proof. intros q. constructor; cbn [set_mlf empty_dense d_sok d_dok d_size d_nodes d_cap d_bc]; auto; lia. Qed.
Lemma ctor_cases : forall dlim slim (o : dense), dwf o -> 0 < d_size o -> dlim < 2 ^ 59 -> slim < 2 ^ 60 ->
  (refused dlim slim 0 0 o /\ u_dense_ctor nk dlim slim o = Err Terminated) \/
  (~ refused dlim slim 0 0 o /\ exists s' o', u_dense_ctor nk dlim slim o = Ok (s', o') /\ dwf s' /\ delems s' = delems o /\ husk o o').
Proof.
  intros dlim slim o Wo Ho Hdl Hsl. unfold u_dense_ctor, DenseModel.move_ctor. cbn [move_from].
  destruct (grow_cases dlim slim (set_mlf empty_dense (d_mlf o)) o (empty_hollow _) Wo Ho Hdl Hsl eq_refl) as [(Hr & s' & ->)|(Hr & s' & o' & -> & W' & He & Hu)].
  - left. split; [exact Hr|reflexivity].
  - right. split; [exact Hr|]. exists s', o'. split; [reflexivity|]. split; [exact W'|]. split; [exact He|exact Hu].
Qed.

(** Every chain of the husk that was not empty leads to a destroyed node. *)
Lemma husk_find : forall (o o' : dense) j k, dwf o -> husk o o' -> (j < nk)%nat -> (exists i, live o i /\ bkj o j i = hash k mod d_bc o) ->
  find_node key_of keq o' j k (hash k) = Err DeadObject.
Proof.
  intros o o' j k W (Hh & Hbc & Hcap & Hsp & _) Hj (i & Hi & Hb).
  pose proof (w_size _ _ _ _ _ W) as Hsz. unfold live in Hi. pose proof (w_bucket _ _ _ _ _ W ltac:(lia)) as Hb0.
  assert (Hr : 0 <= hash k mod d_bc o < d_bc o) by (apply Z.mod_pos_bound; exact Hb0).
  destruct (w_chain _ _ _ _ _ W j Hj _ Hr) as (l & Hseg & _ & Hin).
  assert (Hl : In i l) by (apply Hin; split; [exact Hi|exact Hb]).
  destruct l as [|x l]; [destruct Hl|]. cbn [seg] in Hseg. destruct Hseg as (Hx & Hxn & _).
  destruct (proj1 (Hin x) (or_introl eq_refl)) as [Hlx _]. unfold live in Hlx.
  unfold find_node, get_chain. rewrite Hbc. destruct (Z.eqb_spec (d_bc o) 0) as [|_]; [lia|].
  unfold chain_fuel. rewrite (ho_size _ Hh). cbn [find_loop Z.to_nat load].
  unfold check_bucket. rewrite Hbc, (ho_sok _ Hh). destruct (Z.eqb_spec (d_bc o) 0) as [|_]; [lia|]. cbn [negb guard bind].
  destruct (Z.leb_spec 0 (hash k mod d_bc o)), (Z.ltb_spec (hash k mod d_bc o) (d_bc o)); try lia. cbn [andb guard bind].
  rewrite Hsp. unfold hdj in Hx. rewrite Hx. destruct (Z.eqb_spec x npos) as [|_]; [contradiction|].
  unfold get_node. rewrite Hcap, (ho_dok _ Hh), (ho_none _ Hh). destruct (Z.eqb_spec (d_cap o) 0) as [|_]; [lia|]. cbn [negb guard bind].
  destruct (Z.leb_spec 0 x), (Z.ltb_spec x (d_cap o)); try lia. reflexivity.
Qed.
(** The others are still empty. *)
Lemma husk_miss : forall (o o' : dense) j k, dwf o -> husk o o' -> (j < nk)%nat -> (forall i, live o i -> bkj o j i <> hash k mod d_bc o) ->
  exists p, find_node key_of keq o' j k (hash k) = Ok (0, p).
Proof.
  intros o o' j k W (Hh & Hbc & Hcap & Hsp & _) Hj Hno. unfold find_node, get_chain. rewrite Hbc. destruct (Z.eqb_spec (d_bc o) 0) as [|Hb0].
  - exists None. rewrite (ho_size _ Hh). reflexivity.
  - pose proof (w_bc _ _ _ _ _ W) as Hb. assert (Hr : 0 <= hash k mod d_bc o < d_bc o) by (apply Z.mod_pos_bound; lia).
    destruct (w_chain _ _ _ _ _ W j Hj _ Hr) as (l & Hseg & _ & Hin).
    destruct l as [|x l]; [|exfalso; destruct (proj1 (Hin x) (or_introl eq_refl)) as [A B]; exact (Hno x A B)].
    cbn [seg] in Hseg. unfold chain_fuel. rewrite (ho_size _ Hh). cbn [find_loop Z.to_nat load].
    unfold check_bucket. rewrite Hbc, (ho_sok _ Hh). destruct (Z.eqb_spec (d_bc o) 0) as [|_]; [lia|]. cbn [negb guard bind].
    destruct (Z.leb_spec 0 (hash k mod d_bc o)), (Z.ltb_spec (hash k mod d_bc o) (d_bc o)); try lia. cbn [andb guard bind].
    rewrite Hsp. unfold hdj in Hseg. rewrite Hseg. rewrite Z.eqb_refl, (ho_size _ Hh). cbn [bind fst snd]. eexists. reflexivity.
Qed.

Lemma husk_dexec : forall (o o' : dense) v j k, dwf o -> husk o o' -> (j < nk)%nat ->
  ((exists x, In x (delems o) /\ hash (key_of j x) mod d_bc o = hash k mod d_bc o) /\ dexec nk key_of hash keq rep v o' (DFind j k) = Err DeadObject) \/
  ((forall x, In x (delems o) -> hash (key_of j x) mod d_bc o <> hash k mod d_bc o) /\ dexec nk key_of hash keq rep v o' (DFind j k) = Ok (o', QFound None)).
Proof.
  intros o o' v j k W Hu Hj. cbn [DenseRun.dexec]. unfold find.
  assert (Hd : {exists x, In x (delems o) /\ hash (key_of j x) mod d_bc o = hash k mod d_bc o} + {forall x, In x (delems o) -> hash (key_of j x) mod d_bc o <> hash k mod d_bc o}).
  { induction (delems o) as [|y l IH]; [right; intros x []|]. destruct (Z.eq_dec (hash (key_of j y) mod d_bc o) (hash k mod d_bc o)) as [H|H].
    - left. exists y. split; [left; reflexivity|exact H].
    - destruct IH as [IH|IH]; [left; destruct IH as (x & Hx & Hk); exists x; split; [right; exact Hx|exact Hk]|]. right. intros x [<-|Hx]; [exact H|apply IH; exact Hx]. }
  destruct Hd as [Hd|Hd]; [left|right]; (split; [exact Hd|]).
  - destruct Hd as (x & Hx & Hk). apply (delems_in nk key_of hash keq o x W) in Hx. destruct Hx as (i & n & Hn & Hv).
    rewrite (husk_find o o' j k W Hu Hj); [reflexivity|]. exists i. split; [exact (node_live nk key_of hash keq o i n W Hn)|].
    unfold bkj, hsj. rewrite Hn, (w_hash _ _ _ _ _ W i n j Hn Hj), Hv. exact Hk.
  - destruct (husk_miss o o' j k W Hu Hj) as (p & ->).
    + intros i Hi Hb. destruct (w_live _ _ _ _ _ W i Hi) as (n & Hn). apply (Hd (n_val n)); [apply (delems_in nk key_of hash keq o _ W); exists i, n; auto|].
      unfold bkj, hsj in Hb. rewrite Hn, (w_hash _ _ _ _ _ W i n j Hn Hj) in Hb. exact Hb.
    + cbn [bind fst]. destruct Hu as (Hh & _). rewrite (ho_size _ Hh). reflexivity.
Qed.

(** clear() writes npos into every bucket. *)
Lemma husk_clear : forall (o o' : dense), dwf o -> husk o o' -> exists o2, DenseModel.clear o' = Ok o2 /\ dwf o2 /\ delems o2 = [].
Proof.
  intros o o' W (Hh & Hbc & Hcap & Hsp & Hq). unfold DenseModel.clear, fill_sparse.
  pose proof (w_mlf _ _ _ _ _ W) as Hmlf. pose proof Hh as [h1 h2 h3 h4 h5 h6].
  assert (Hd : exists o2, (if d_bc o' =? 0 then Ok o' else let* _ := guard (d_sok o') UseAfterFree in Ok (set_sparse o' (fun _ _ => npos))) = Ok o2 /\ hollow o2 /\ d_mlf o2 = d_mlf o' /\
     (forall b j, 0 <= b < d_bc o2 -> (j < nk)%nat -> d_sparse o2 b j = npos)).
  { destruct (Z.eqb_spec (d_bc o') 0) as [H0|H0].
    - exists o'. split; [reflexivity|]. split; [exact Hh|]. split; [reflexivity|]. lia.
    - rewrite h1. cbn [guard bind]. eexists. split; [reflexivity|]. split; [constructor; cbn [set_sparse d_sok d_dok d_size d_nodes d_cap d_bc]; auto|]. split; reflexivity. }
  destruct Hd as (o2 & -> & Hh2 & Hq2 & Hs2). cbn [bind]. unfold clear_data. rewrite (ho_size _ Hh2), zrange_0 by lia. cbn [foldM]. eexists. split; [reflexivity|].
  assert (He : set_size o2 0 = o2) by (unfold set_size; rewrite <- (ho_size _ Hh2); destruct o2; reflexivity). rewrite He.
  split; [apply hollow_wf; [exact Hh2|exact Hs2|rewrite Hq2, Hq; exact Hmlf]|]. apply size0_delems. exact (ho_size _ Hh2).
Qed.
End Unequal.
