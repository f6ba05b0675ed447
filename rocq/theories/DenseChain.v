(** Chains of one key index as functions: heads of the buckets and next positions. *)
From Coq Require Import ZArith List Bool Lia.
From Verif Require Import Base BaseLemmas DenseModel.
Import ListNotations.
Open Scope Z_scope.

(** From position [v] the next positions run through exactly [l] and end in npos. *)
Fixpoint seg (nx : Z -> Z) (v : Z) (l : list Z) : Prop :=
  match l with
  | [] => v = npos
  | i :: r => v = i /\ i <> npos /\ seg nx (nx i) r
  end.

Lemma seg_ext : forall l nx nx' v, (forall i, In i l -> nx' i = nx i) -> seg nx v l -> seg nx' v l.
Proof.
  induction l as [|i r IH]; intros nx nx' v H Hs; cbn [seg] in *; [exact Hs|].
  destruct Hs as (-> & Hi & Hs). split; [reflexivity|]. split; [exact Hi|].
  rewrite (H i (or_introl eq_refl)). apply (IH nx); [|exact Hs]. intros x Hx. apply H. right. exact Hx.
Qed.

Lemma seg_app : forall a nx v i r, seg nx v (a ++ i :: r) -> i <> npos /\ seg nx (nx i) r.
Proof.
  induction a as [|x a IH]; intros nx v i r; cbn [app seg].
  - tauto.
  - intros (_ & _ & H). eapply IH. exact H.
Qed.

Lemma seg_npos : forall l nx v i, seg nx v l -> In i l -> i <> npos.
Proof.
  induction l as [|x l IH]; intros nx v i Hs Hi; [destruct Hi|]. destruct Hs as (_ & Hx & Hs). destruct Hi as [<-|Hi]; [exact Hx|]. eapply IH; eassumption.
Qed.

(** The pointer reached after walking through [a] from bucket [b]. *)
Definition ptr_at (b : Z) (a : list Z) : cptr := match rev a with [] => PBucket b | x :: _ => PNext x end.
Lemma ptr_at_nil : forall b, ptr_at b [] = PBucket b. Proof. reflexivity. Qed.
Lemma ptr_at_snoc : forall b a x, ptr_at b (a ++ [x]) = PNext x.
Proof. intros. unfold ptr_at. rewrite rev_app_distr. reflexivity. Qed.

(** Reading and writing through a pointer. *)
Definition ldp (hd nx : Z -> Z) (p : cptr) : Z := match p with PBucket b => hd b | PNext i => nx i end.
Definition sth (hd : Z -> Z) (p : cptr) (v : Z) : Z -> Z := match p with PBucket b => upd hd b v | PNext _ => hd end.
Definition stn (nx : Z -> Z) (p : cptr) (v : Z) : Z -> Z := match p with PBucket _ => nx | PNext i => upd nx i v end.

Lemma snoc_cases : forall {A} (l : list A), l = [] \/ exists a x, l = a ++ [x].
Proof. intros A l. destruct (rev l) as [|x r] eqn:E; [left|right]. - apply (f_equal (@rev A)) in E. rewrite rev_involutive in E. exact E. - exists (rev r), x. apply (f_equal (@rev A)) in E. rewrite rev_involutive in E. exact E. Qed.

Lemma nodup_left : forall (a r : list Z), NoDup (a ++ r) -> NoDup a.
Proof. induction a as [|x a IH]; intros r H; [constructor|]. inversion H; subst. constructor; [|exact (IH r H3)]. intros Hi. apply H2. apply in_or_app. left. exact Hi. Qed.

Lemma ldp_at : forall hd nx b a r, seg nx (hd b) (a ++ r) -> ldp hd nx (ptr_at b a) = match r with [] => npos | i :: _ => i end.
Proof.
  intros hd nx b a r Hs. destruct (snoc_cases a) as [->|(a' & x & ->)].
  - rewrite ptr_at_nil. cbn [ldp app] in *. destruct r as [|i r]; [exact Hs|exact (proj1 Hs)].
  - rewrite ptr_at_snoc. cbn [ldp]. rewrite <- app_assoc in Hs. cbn [app] in Hs. apply seg_app in Hs. destruct Hs as (_ & Hs).
    destruct r as [|i r]; [exact Hs|exact (proj1 Hs)].
Qed.

(** Overwriting the pointer after [a] by [v] replaces what follows. *)
Lemma seg_store : forall hd nx b a r r' v, seg nx (hd b) (a ++ r) -> NoDup a ->
  (forall i, In i a -> ~ In i r') -> seg nx v r' ->
  seg (stn nx (ptr_at b a) v) (sth hd (ptr_at b a) v b) (a ++ r').
Proof.
  intros hd nx b a r r' v Hs Hnd Hdis Hv. destruct (snoc_cases a) as [->|(a' & x & ->)].
  - rewrite ptr_at_nil. cbn [stn sth app]. rewrite upd_same. exact Hv.
  - rewrite ptr_at_snoc. cbn [stn sth]. rewrite <- app_assoc in *. cbn [app] in *. clear - Hs Hnd Hdis Hv.
    assert (Hx : ~ In x a') by (intros Hi; apply NoDup_remove in Hnd; rewrite app_nil_r in Hnd; tauto).
    revert Hs. generalize (hd b). induction a' as [|y a' IH]; intros w Hs; cbn [app seg] in *.
    + destruct Hs as (-> & Hn & _). split; [reflexivity|]. split; [exact Hn|]. rewrite upd_same.
      apply (seg_ext r' nx); [|exact Hv]. intros i Hi. apply upd_other. intros ->. apply (Hdis x); [left; reflexivity|exact Hi].
    + destruct Hs as (-> & Hn & Hs). split; [reflexivity|]. split; [exact Hn|].
      rewrite upd_other by (intros ->; apply Hx; left; reflexivity).
      apply IH; [intros i Hi; apply Hdis; right; exact Hi|inversion Hnd; assumption|intros Hi; apply Hx; right; exact Hi|exact Hs].
Qed.

(** The chains of all buckets below [B]: bucket [b] holds the [i] with [L i] and [bk i = b]. *)
Definition chains (hd nx : Z -> Z) (L : Z -> Prop) (bk : Z -> Z) (B : Z) : Prop :=
  forall b, 0 <= b < B -> exists l, seg nx (hd b) l /\ NoDup l /\ forall i, In i l <-> L i /\ bk i = b.

Lemma chains_ext : forall hd nx L bk B hd' nx' L' bk', chains hd nx L bk B ->
  (forall b, 0 <= b < B -> hd' b = hd b) -> (forall i, L i -> 0 <= bk i < B -> nx' i = nx i) ->
  (forall i b, 0 <= b < B -> L' i /\ bk' i = b <-> L i /\ bk i = b) -> chains hd' nx' L' bk' B.
Proof.
  intros hd nx L bk B hd' nx' L' bk' Hc Hh Hn HL b Hb. destruct (Hc b Hb) as (l & Hs & Hnd & Hin). exists l.
  split; [|split; [exact Hnd|]].
  - rewrite (Hh b Hb). apply (seg_ext l nx); [|exact Hs]. intros i Hi. apply Hin in Hi. apply Hn; [tauto|]. destruct Hi as (_ & ->). exact Hb.
  - intros i. rewrite (HL i b Hb). apply Hin.
Qed.

(** A pointer into the chain of one bucket is not a pointer into another. *)
Lemma other_bucket : forall hd nx L bk B b a r p v b' l', chains hd nx L bk B -> 0 <= b < B -> 0 <= b' < B -> b <> b' ->
  seg nx (hd b) (a ++ r) -> (forall i, In i a -> bk i = b) -> p = ptr_at b a ->
  seg nx (hd b') l' -> (forall i, In i l' -> bk i = b') ->
  seg (stn nx p v) (sth hd p v b') l'.
Proof.
  intros hd nx L bk B b a r p v b' l' Hc Hb Hb' Hne Hs Ha -> Hs' Hl'. destruct (snoc_cases a) as [->|(a' & x & ->)].
  - rewrite ptr_at_nil. cbn [stn sth]. rewrite upd_other by congruence. exact Hs'.
  - rewrite ptr_at_snoc. cbn [stn sth]. apply (seg_ext l' nx); [|exact Hs']. intros i Hi. apply upd_other. intros ->.
    apply Hl' in Hi. rewrite Ha in Hi; [congruence|]. apply in_or_app. right. left. reflexivity.
Qed.

(** Writing [v] at the pointer after [a] in the chain of bucket [b]. *)
Lemma chains_store : forall hd nx L bk B b a r r' v L' bk', chains hd nx L bk B -> 0 <= b < B ->
  seg nx (hd b) (a ++ r) -> NoDup (a ++ r) -> (forall i, In i (a ++ r) <-> L i /\ bk i = b) ->
  seg nx v r' -> NoDup (a ++ r') ->
  (forall i, In i (a ++ r') <-> L' i /\ bk' i = b) -> (forall i b', 0 <= b' < B -> b' <> b -> (L' i /\ bk' i = b' <-> L i /\ bk i = b')) ->
  chains (sth hd (ptr_at b a) v) (stn nx (ptr_at b a) v) L' bk' B.
Proof.
  intros hd nx L bk B b a r r' v L' bk' Hc Hb Hs Hnd Hin Hv Hnd' Hin' Hoth b' Hb'.
  destruct (Z.eq_dec b' b) as [->|Hne].
  - exists (a ++ r'). split; [|split; [exact Hnd'|exact Hin']]. apply (seg_store hd nx b a r r' v Hs).
    + exact (nodup_left a r Hnd).
    + intros i Hi Hr. clear - Hnd' Hi Hr. induction a as [|x a IH]; [destruct Hi|]. cbn [app] in Hnd'. inversion Hnd'; subst.
      destruct Hi as [->|Hi]; [apply H1; apply in_or_app; right; exact Hr|exact (IH H2 Hi)].
    + exact Hv.
  - destruct (Hc b' Hb') as (l & Hsl & Hndl & Hinl). exists l. split; [|split; [exact Hndl|]].
    + apply (other_bucket hd nx L bk B b a r _ v b' l Hc Hb Hb'); auto.
      * intros i Hi. assert (Hx : In i (a ++ r)) by (apply in_or_app; left; exact Hi). apply Hin in Hx. tauto.
      * intros i Hi. apply Hinl in Hi. tauto.
    + intros i. rewrite (Hoth i b' Hb' Hne). apply Hinl.
Qed.

(** Append a new position at the end of its chain. *)
Lemma chains_append : forall hd nx L bk B n b l, chains hd nx L bk B -> 0 <= b < B -> ~ L n -> n <> npos -> nx n = npos -> bk n = b ->
  seg nx (hd b) l -> NoDup l -> (forall i, In i l <-> L i /\ bk i = b) ->
  chains (sth hd (ptr_at b l) n) (stn nx (ptr_at b l) n) (fun i => L i \/ i = n) bk B.
Proof.
  intros hd nx L bk B n b l Hc Hb Hn Hnp Hnx Hbk Hs Hnd Hin.
  apply (chains_store hd nx L bk B b l [] [n] n); try assumption.
  - rewrite app_nil_r. exact Hs.
  - rewrite app_nil_r. exact Hnd.
  - intros i. rewrite app_nil_r. apply Hin.
  - cbn [seg]. auto.
  - apply NoDup_app_intro; [exact Hnd|constructor; [intros []|constructor]|]. intros i Hi [<-|[]]. apply Hn. apply Hin in Hi. tauto.
  - intros i. rewrite in_app_iff. rewrite Hin. cbn [In]. split.
    + intros [(H1 & H2)|[<-|[]]]; auto.
    + intros ([H1|H1] & H2); [left; auto|right; left; auto].
  - intros i b' Hb' Hne. split.
    + intros ([H1|H1] & H2); [auto|]. exfalso. apply Hne. congruence.
    + intros (H1 & H2). auto.
Qed.

(** Prepend a new position. *)
Lemma chains_prepend : forall hd nx L bk B n, chains hd nx L bk B -> 0 <= bk n < B -> ~ L n -> n <> npos ->
  chains (upd hd (bk n) n) (upd nx n (hd (bk n))) (fun i => L i \/ i = n) bk B.
Proof.
  intros hd nx L bk B n Hc Hb Hn Hnp b' Hb'. destruct (Hc b' Hb') as (l & Hs & Hnd & Hin).
  assert (Hnl : ~ In n l) by (intros Hi; apply Hin in Hi; tauto).
  assert (Hsu : forall w, seg nx w l -> seg (upd nx n (hd (bk n))) w l).
  { intros w. apply seg_ext. intros i Hi. apply upd_other. intros ->. contradiction. }
  destruct (Z.eq_dec b' (bk n)) as [->|Hne].
  - exists (n :: l). split; [|split].
    + rewrite upd_same. cbn [seg]. rewrite upd_same. auto.
    + constructor; assumption.
    + intros i. cbn [In]. rewrite Hin. split.
      * intros [<-|(H1 & H2)]; auto.
      * intros ([H1|H1] & H2); [right; auto|left; auto].
  - exists l. split; [|split; [exact Hnd|]].
    + rewrite upd_other by congruence. apply Hsu. exact Hs.
    + intros i. rewrite Hin. split; [intros (H1 & H2); auto|]. intros ([H1|H1] & H2); [auto|]. subst i. congruence.
Qed.

(** Remove a position. *)
Lemma chains_remove : forall hd nx L bk B n a r, chains hd nx L bk B -> 0 <= bk n < B ->
  seg nx (hd (bk n)) (a ++ n :: r) -> NoDup (a ++ n :: r) -> (forall i, In i (a ++ n :: r) <-> L i /\ bk i = bk n) ->
  chains (sth hd (ptr_at (bk n) a) (nx n)) (stn nx (ptr_at (bk n) a) (nx n)) (fun i => L i /\ i <> n) bk B.
Proof.
  intros hd nx L bk B n a r Hc Hb Hs Hnd Hin.
  apply (chains_store hd nx L bk B (bk n) a (n :: r) r (nx n)); try assumption.
  - apply seg_app in Hs. tauto.
  - apply NoDup_remove in Hnd. tauto.
  - intros i. pose proof (Hin i) as Hi. rewrite in_app_iff in *. cbn [In] in Hi. apply NoDup_remove in Hnd. destruct Hnd as (_ & Hnn). rewrite in_app_iff in Hnn.
    split.
    + intros H. assert (i <> n) by (intros ->; tauto). tauto.
    + intros ((H1 & H2) & H3). destruct (proj2 Hi (conj H1 H3)) as [H|[H|H]]; [tauto|congruence|tauto].
  - intros i b' Hb' Hne. split; [tauto|]. intros (H1 & H2). split; [|exact H2]. split; [exact H1|]. intros ->. congruence.
Qed.

(** Rename the position [e] to [n] (not in use): the pointer to [e] is redirected to [n],
    which takes over the next position of [e]. *)
Lemma chains_rename : forall hd nx L bk B e n a r bk', chains hd nx L bk B -> 0 <= bk e < B -> ~ L n -> n <> e -> n <> npos ->
  seg nx (hd (bk e)) (a ++ e :: r) -> NoDup (a ++ e :: r) -> (forall i, In i (a ++ e :: r) <-> L i /\ bk i = bk e) ->
  bk' n = bk e -> (forall i, i <> n -> bk' i = bk i) ->
  chains (sth hd (ptr_at (bk e) a) n) (upd (stn nx (ptr_at (bk e) a) n) n (nx e)) (fun i => (L i /\ i <> e) \/ i = n) bk' B.
Proof.
  intros hd nx L bk B e n a r bk' Hc Hb Hn Hne Hnp Hs Hnd Hin Hbn Hbo.
  assert (Hna : ~ In n (a ++ e :: r)) by (intros Hi; apply Hin in Hi; tauto).
  assert (Ha : forall i, In i a -> bk i = bk e). { intros i Hi. apply Hin. apply in_or_app. left. exact Hi. }
  (* n does not occur in the old chains, so its next position may be set first *)
  assert (Hc' : chains hd (upd nx n (nx e)) L bk B).
  { apply (chains_ext hd nx L bk B); auto. - intros i Hi _. apply upd_other. intros ->. contradiction. - intros; tauto. }
  assert (Hs' : seg (upd nx n (nx e)) (hd (bk e)) (a ++ e :: r)).
  { apply (seg_ext _ nx); [|exact Hs]. intros i Hi. apply upd_other. intros ->. contradiction. }
  assert (Hst : forall x, upd (stn nx (ptr_at (bk e) a) n) n (nx e) x = stn (upd nx n (nx e)) (ptr_at (bk e) a) n x).
  { intros x. destruct (snoc_cases a) as [->|(a' & y & ->)]; [rewrite ptr_at_nil; reflexivity|]. rewrite ptr_at_snoc. cbn [stn].
    assert (Hyn : y <> n) by (intros ->; apply Hna; apply in_or_app; left; apply in_or_app; right; left; reflexivity).
    unfold upd. destruct (Z.eqb_spec x n), (Z.eqb_spec x y); congruence. }
  apply (chains_ext (sth hd (ptr_at (bk e) a) n) (stn (upd nx n (nx e)) (ptr_at (bk e) a) n) (fun i => (L i /\ i <> e) \/ i = n) bk').
  2: auto. 2: intros; apply Hst. 2: intros; tauto.
  apply (chains_store hd (upd nx n (nx e)) L bk B (bk e) a (e :: r) (n :: r) n); try assumption.
  - cbn [seg]. rewrite upd_same. split; [reflexivity|]. split; [exact Hnp|]. apply seg_app in Hs'. destruct Hs' as (_ & H). rewrite upd_other in H by congruence. exact H.
  - apply NoDup_remove in Hnd. destruct Hnd as (Hnd & He).
    apply NoDup_Add with (l := a ++ r) (a := n); [apply Add_app|]. split; [exact Hnd|]. intros Hi. apply Hna. rewrite in_app_iff in *. cbn [In]. tauto.
  - intros i. pose proof (Hin i) as Hi. rewrite in_app_iff in *. cbn [In] in *. apply NoDup_remove in Hnd. destruct Hnd as (_ & He). rewrite in_app_iff in He.
    destruct (Z.eq_dec i n) as [->|Hin'].
    + rewrite Hbn. tauto.
    + rewrite (Hbo i Hin'). split.
      * intros [H|[H|H]]; [|congruence|]; (assert (i <> e) by (intros ->; tauto); tauto).
      * intros ([(H1 & H2)|H1] & H3); [|contradiction]. destruct (proj2 Hi (conj H1 H3)) as [H|[H|H]]; [tauto|congruence|tauto].
  - intros i b' Hb' Hne'. destruct (Z.eq_dec i n) as [->|Hin'].
    + rewrite Hbn. split; [intros (_ & H); congruence|]. intros (H & _). contradiction.
    + rewrite (Hbo i Hin'). split; [tauto|]. intros (H1 & H2). split; [|exact H2]. left. split; [exact H1|]. intros ->. congruence.
Qed.
