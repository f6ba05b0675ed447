(** The links of an ordered container form a ring; effect of the link operations on it. *)
From Coq Require Import ZArith List Bool Lia Permutation.
From Verif Require Import Base BaseLemmas LinkSpec LinkModel.
Import ListNotations.
Open Scope Z_scope.

Definition nx (h : heap) (a : Z) : option Z := option_map (fun x => a + fst x) (h a).
Definition pv (h : heap) (a : Z) : option Z := option_map (fun x => a + snd x) (h a).
Definition has (h : heap) (a : Z) : Prop := h a <> None.

Lemma nx_has : forall h a b, nx h a = Some b -> has h a.
Proof. intros h a b H. unfold nx, has in *. destruct (h a); [discriminate|discriminate H]. Qed.
Lemma pv_has : forall h a b, pv h a = Some b -> has h a.
Proof. intros h a b H. unfold pv, has in *. destruct (h a); [discriminate|discriminate H]. Qed.
Lemma has_some : forall h a, has h a -> exists n p, h a = Some (n, p).
Proof. intros h a H. unfold has in H. destruct (h a) as [(n, p)|]; [eauto|contradiction]. Qed.
Lemma npv_ext : forall h h' y, nx h' y = nx h y -> pv h' y = pv h y -> h' y = h y.
Proof.
  intros h h' y H1 H2. unfold nx, pv in *. destruct (h' y) as [(n', p')|], (h y) as [(n, p)|]; cbn [option_map fst snd] in *; try congruence.
  injection H1 as H1. injection H2 as H2. f_equal. f_equal; lia.
Qed.
Lemma has_nx : forall h h' y, (nx h' y = None <-> nx h y = None) -> has h y -> has h' y.
Proof. intros h h' y H Hh. unfold has, nx in *. destruct (h' y), (h y); cbn [option_map] in *; try discriminate; intuition discriminate. Qed.

Lemma next_link_ok : forall h a b, nx h a = Some b -> next_link h a = Ok b.
Proof. intros h a b H. unfold next_link, get_link, nx in *. destruct (h a) as [x|]; [|discriminate H]. cbn [option_map bind] in *. congruence. Qed.
Lemma prev_link_ok : forall h a b, pv h a = Some b -> prev_link h a = Ok b.
Proof. intros h a b H. unfold prev_link, get_link, pv in *. destruct (h a) as [x|]; [|discriminate H]. cbn [option_map bind] in *. congruence. Qed.

Lemma set_next_ok : forall h a n, has h a -> exists h', set_next h a n = Ok h' /\
  (forall y, nx h' y = if y =? a then Some (a + n) else nx h y) /\ (forall y, pv h' y = pv h y).
Proof.
  intros h a n H. destruct (has_some _ _ H) as (n0 & p0 & Ha). unfold set_next, get_link. rewrite Ha. cbn [bind snd]. eexists. split; [reflexivity|].
  split; intros y; unfold nx, pv, upd; destruct (Z.eqb_spec y a) as [->|]; try rewrite Ha; reflexivity.
Qed.
Lemma set_prev_ok : forall h a p, has h a -> exists h', set_prev h a p = Ok h' /\
  (forall y, nx h' y = nx h y) /\ (forall y, pv h' y = if y =? a then Some (a + p) else pv h y).
Proof.
  intros h a p H. destruct (has_some _ _ H) as (n0 & p0 & Ha). unfold set_prev, get_link. rewrite Ha. cbn [bind fst]. eexists. split; [reflexivity|].
  split; intros y; unfold nx, pv, upd; destruct (Z.eqb_spec y a) as [->|]; try rewrite Ha; reflexivity.
Qed.
Lemma get_link_ok : forall h a n p, nx h a = Some n -> pv h a = Some p -> get_link h a = Ok (n - a, p - a).
Proof.
  intros h a n p Hn Hp. unfold get_link, nx, pv in *. destruct (h a) as [(x, y)|]; [|discriminate Hn]. cbn [option_map fst snd] in *.
  injection Hn as <-. injection Hp as <-. f_equal. f_equal; lia.
Qed.
Lemma nx_some : forall h a, has h a -> exists b, nx h a = Some b.
Proof. intros h a H. destruct (has_some _ _ H) as (n & p & Ha). unfold nx. rewrite Ha. eexists. reflexivity. Qed.
Lemma pv_some : forall h a, has h a -> exists b, pv h a = Some b.
Proof. intros h a H. destruct (has_some _ _ H) as (n & p & Ha). unfold pv. rewrite Ha. eexists. reflexivity. Qed.
Lemma has_iff_nx : forall h a, has h a <-> nx h a <> None.
Proof. intros h a. unfold has, nx. destruct (h a); cbn; split; congruence. Qed.

Ltac hs := rewrite has_iff_nx in *; repeat match goal with H : forall y, nx _ y = _ |- _ => rewrite H end; repeat match goal with |- context [if ?b then _ else _] => destruct b end; solve [discriminate|assumption|congruence].
Ltac zeq := repeat match goal with |- context [?x =? ?y] => destruct (Z.eqb_spec x y); subst end.

Lemma link2_ok : forall h a n p, has h a -> has h n -> has h p -> a <> n -> a <> p ->
  exists h', link2 h a n p = Ok h' /\
    (forall y, nx h' y = if y =? p then Some a else if y =? a then Some n else nx h y) /\
    (forall y, pv h' y = if y =? n then Some a else if y =? a then Some p else pv h y).
Proof.
  intros h a n p Ha Hn Hp Han Hap. unfold link2.
  destruct (set_next_ok h a (n - a) Ha) as (h1 & E1 & N1 & P1). rewrite E1. cbn [bind].
  destruct (set_prev_ok h1 a (p - a) ltac:(hs)) as (h2 & E2 & N2 & P2). rewrite E2. cbn [bind].
  rewrite (get_link_ok h2 a n p); [|rewrite N2, N1, Z.eqb_refl; f_equal; lia|rewrite P2, Z.eqb_refl; f_equal; lia]. cbn [bind fst].
  destruct (set_prev_ok h2 n (- (n - a)) ltac:(hs)) as (h3 & E3 & N3 & P3). rewrite E3. cbn [bind].
  rewrite (get_link_ok h3 a n p); [|rewrite N3, N2, N1, Z.eqb_refl; f_equal; lia|rewrite P3, P2, Z.eqb_refl; destruct (Z.eqb_spec a n); [lia|f_equal; lia]]. cbn [bind snd].
  destruct (set_next_ok h3 p (- (p - a)) ltac:(hs)) as (h4 & E4 & N4 & P4). exists h4. split; [exact E4|].
  split; intros y.
  - rewrite N4, N3, N2, N1. zeq; try reflexivity; f_equal; lia.
  - rewrite P4, P3, P2, P1. zeq; try reflexivity; f_equal; lia.
Qed.

Lemma unlink_ok : forall h a n p, nx h a = Some n -> pv h a = Some p -> has h n -> has h p ->
  exists h', unlink h a = Ok h' /\
    (forall y, nx h' y = if y =? p then Some n else nx h y) /\ (forall y, pv h' y = if y =? n then Some p else pv h y).
Proof.
  intros h a n p Hn Hp Hhn Hhp. unfold unlink. rewrite (next_link_ok _ _ _ Hn), (prev_link_ok _ _ _ Hp). cbn [bind].
  destruct (set_prev_ok h n (p - n) Hhn) as (h1 & E1 & N1 & P1). rewrite E1. cbn [bind].
  destruct (set_next_ok h1 p (n - p) ltac:(hs)) as (h2 & E2 & N2 & P2). exists h2. split; [exact E2|].
  split; intros y.
  - rewrite N2, N1. zeq; try reflexivity; f_equal; lia.
  - rewrite P2, P1. zeq; try reflexivity; f_equal; lia.
Qed.

(** Moving a link that has neighbours other than itself. *)
Lemma relink_ok : forall h a o n p, has h a -> a <> o -> nx h o = Some n -> pv h o = Some p -> n <> o -> p <> o -> n <> a -> p <> a -> has h n -> has h p ->
  exists h', relink_from h a o = Ok h' /\
    (forall y, nx h' y = if y =? p then Some a else if y =? a then Some n else if y =? o then Some o else nx h y) /\
    (forall y, pv h' y = if y =? n then Some a else if y =? a then Some p else if y =? o then Some o else pv h y).
Proof.
  intros h a o n p Ha Hao Hn Hp Hno Hpo Hna Hpa Hhn Hhp. unfold relink_from. pose proof (nx_has _ _ _ Hn) as Ho.
  destruct (set_next_ok h a 0 Ha) as (h1 & E1 & N1 & P1). rewrite E1. cbn [bind].
  destruct (set_prev_ok h1 a 0 ltac:(hs)) as (h2 & E2 & N2 & P2). rewrite E2. cbn [bind].
  rewrite (get_link_ok h2 o n p); [|rewrite N2, N1; zeq; [congruence|exact Hn]|rewrite P2, P1; zeq; [congruence|exact Hp]]. cbn [bind fst].
  destruct (Z.eqb_spec (n - o) 0); [lia|]. replace (o + (n - o)) with n by lia.
  destruct (set_next_ok h2 o 0 ltac:(hs)) as (h3 & E3 & N3 & P3). rewrite E3. cbn [bind].
  destruct (set_next_ok h3 a (n - a) ltac:(hs)) as (h4 & E4 & N4 & P4). rewrite E4. cbn [bind].
  destruct (set_prev_ok h4 n (- (n - a)) ltac:(hs)) as (h5 & E5 & N5 & P5). rewrite E5. cbn [bind].
  rewrite (get_link_ok h5 o o p); [|rewrite N5, N4, N3, Z.eqb_refl; zeq; [congruence|f_equal; lia]|rewrite P5, P4, P3, P2, P1; zeq; try congruence; exact Hp]. cbn [bind snd].
  destruct (Z.eqb_spec (p - o) 0); [lia|]. replace (o + (p - o)) with p by lia.
  destruct (set_prev_ok h5 o 0 ltac:(hs)) as (h6 & E6 & N6 & P6). rewrite E6. cbn [bind].
  destruct (set_prev_ok h6 a (p - a) ltac:(hs)) as (h7 & E7 & N7 & P7). rewrite E7. cbn [bind].
  destruct (set_next_ok h7 p (- (p - a)) ltac:(hs)) as (h8 & E8 & N8 & P8). exists h8. split; [exact E8|].
  split; intros y.
  - rewrite N8, N7, N6, N5, N4, N3, N2, N1. zeq; try reflexivity; try congruence; f_equal; lia.
  - rewrite P8, P7, P6, P5, P4, P3, P2, P1. zeq; try reflexivity; try congruence; f_equal; lia.
Qed.
(** Moving the link of an empty container. *)
Lemma relink_alone : forall h a o, has h a -> a <> o -> nx h o = Some o -> pv h o = Some o ->
  exists h', relink_from h a o = Ok h' /\ (forall y, nx h' y = if y =? a then Some a else nx h y) /\ (forall y, pv h' y = if y =? a then Some a else pv h y).
Proof.
  intros h a o Ha Hao Hn Hp. unfold relink_from. pose proof (nx_has _ _ _ Hn) as Ho.
  destruct (set_next_ok h a 0 Ha) as (h1 & E1 & N1 & P1). rewrite E1. cbn [bind].
  destruct (set_prev_ok h1 a 0 ltac:(hs)) as (h2 & E2 & N2 & P2). rewrite E2. cbn [bind].
  rewrite (get_link_ok h2 o o o); [|rewrite N2, N1; zeq; [congruence|exact Hn]|rewrite P2, P1; zeq; [congruence|exact Hp]]. cbn [bind fst].
  rewrite Z.sub_diag, Z.eqb_refl. cbn [bind].
  rewrite (get_link_ok h2 o o o); [|rewrite N2, N1; zeq; [congruence|exact Hn]|rewrite P2, P1; zeq; [congruence|exact Hp]]. cbn [bind snd].
  rewrite Z.sub_diag, Z.eqb_refl. exists h2. split; [reflexivity|]. split; intros y.
  - rewrite N2, N1. zeq; try reflexivity. f_equal; lia.
  - rewrite P2, P1. zeq; try reflexivity. f_equal; lia.
Qed.

(** ** Rings. *)
Definition linked (h : heap) (a b : Z) : Prop := nx h a = Some b /\ pv h b = Some a.
Fixpoint path (h : heap) (a : Z) (l : list Z) (b : Z) : Prop :=
  match l with [] => linked h a b | x :: r => linked h a x /\ path h x r b end.
(** [l] in cyclic order. *)
Definition ring (h : heap) (l : list Z) : Prop :=
  match l with [] => True | x :: r => path h x r x /\ NoDup l end.

Lemma path_app : forall h l a x m b, path h a (l ++ x :: m) b <-> path h a l x /\ path h x m b.
Proof. intros h l. induction l as [|y l IH]; intros a x m b; cbn [app path]; [reflexivity|]. rewrite IH. tauto. Qed.
Lemma path_frame : forall h h' l a b, (forall y, In y (a :: l) -> nx h' y = nx h y) -> (forall y, In y (l ++ [b]) -> pv h' y = pv h y) -> path h a l b -> path h' a l b.
Proof.
  intros h h' l. induction l as [|x l IH]; intros a b Hn Hp H; cbn [path app] in *.
  - destruct H as (H1 & H2). split; [rewrite Hn by (left; reflexivity); exact H1|rewrite Hp by (left; reflexivity); exact H2].
  - destruct H as ((H1 & H2) & H3). split; [split; [rewrite Hn by (left; reflexivity); exact H1|rewrite Hp by (left; reflexivity); exact H2]|].
    apply IH; [intros y Hy; apply Hn; right; exact Hy|intros y Hy; apply Hp; right; exact Hy|exact H3].
Qed.
Lemma ring_rot : forall h x l, ring h (x :: l) <-> ring h (l ++ [x]).
Proof.
  intros h x [|y l]; [reflexivity|]. cbn [app ring path]. rewrite path_app. cbn [path].
  assert (Hnd : NoDup (x :: y :: l) <-> NoDup (y :: l ++ [x])).
  { change (y :: l ++ [x]) with ((y :: l) ++ [x]). split; intros H; (eapply Permutation_NoDup; [|exact H]).
    - apply Permutation_cons_append.
    - apply Permutation_sym, Permutation_cons_append. }
  rewrite Hnd. tauto.
Qed.
Lemma ring_rot_app : forall h l1 l2, ring h (l1 ++ l2) <-> ring h (l2 ++ l1).
Proof.
  intros h l1. induction l1 as [|x l1 IH]; intros l2; [rewrite app_nil_r; reflexivity|].
  cbn [app]. rewrite ring_rot. rewrite <- app_assoc. rewrite IH. rewrite <- app_assoc. reflexivity.
Qed.
Lemma path_has : forall h l a b, path h a l b -> forall y, In y (a :: l ++ [b]) -> has h y.
Proof.
  intros h l. induction l as [|x l IH]; intros a b H y Hy; cbn [path app] in *.
  - destruct H as (H1 & H2). destruct Hy as [<-|[<-|[]]]; [exact (nx_has _ _ _ H1)|exact (pv_has _ _ _ H2)].
  - destruct H as ((H1 & H2) & H3). destruct Hy as [<-|Hy]; [exact (nx_has _ _ _ H1)|]. exact (IH x b H3 y Hy).
Qed.
Lemma ring_has : forall h l y, ring h l -> In y l -> has h y.
Proof. intros h [|x l] y H Hy; [contradiction|]. cbn [ring] in H. destruct H as (H & _). apply (path_has _ _ _ _ H). cbn [In app]. destruct Hy as [->|Hy]; [left; reflexivity|right; apply in_or_app; left; exact Hy]. Qed.
Lemma ring_nodup : forall h l, ring h l -> NoDup l.
Proof. intros h [|x l] H; [constructor|]. apply H. Qed.
Lemma ring_frame : forall h h' l, (forall y, In y l -> nx h' y = nx h y) -> (forall y, In y l -> pv h' y = pv h y) -> ring h l -> ring h' l.
Proof.
  intros h h' [|x l] Hn Hp H; [exact I|]. cbn [ring] in *. destruct H as (H & Hd). split; [|exact Hd]. apply (path_frame h); [exact Hn| |exact H].
  intros y Hy. apply Hp. apply in_app_or in Hy. destruct Hy as [Hy|[<-|[]]]; [right; exact Hy|left; reflexivity].
Qed.

(** Outside [l] nothing changes, and no link object appears or disappears. *)
Definition only (l : list Z) (h h' : heap) : Prop := (forall y, ~ In y l -> h' y = h y) /\ (forall y, has h' y <-> has h y).
Lemma only_refl : forall l h, only l h h. Proof. split; [reflexivity|tauto]. Qed.
Lemma only_trans : forall l a b c, only l a b -> only l b c -> only l a c.
Proof. intros l a b c (H1 & H2) (H3 & H4). split; intros y; [intros Hy; rewrite H3, H1 by exact Hy; reflexivity|rewrite H4; apply H2]. Qed.
Lemma only_incl : forall l m a b, only l a b -> (forall y, In y l -> In y m) -> only m a b.
Proof. intros l m a b (H1 & H2) H. split; [|exact H2]. intros y Hy. apply H1. intros Hi. apply Hy. apply H. exact Hi. Qed.
Lemma only_of : forall l h h', (forall y, ~ In y l -> nx h' y = nx h y /\ pv h' y = pv h y) -> (forall y, In y l -> has h y /\ has h' y) -> only l h h'.
Proof.
  intros l h h' H1 H2. split.
  - intros y Hy. destruct (H1 y Hy). apply npv_ext; assumption.
  - intros y. destruct (in_dec Z.eq_dec y l) as [Hi|Hi]; [destruct (H2 y Hi); tauto|]. destruct (H1 y Hi). unfold has. rewrite (npv_ext h h' y) by assumption. reflexivity.
Qed.

(** *** Linking after [p]. *)
Lemma ring_link : forall h a p l, ring h (p :: l) -> ~ In a (p :: l) -> has h a ->
  exists h', link_after h a p = Ok h' /\ ring h' (p :: a :: l) /\ only (a :: p :: l) h h'.
Proof.
  intros h a p l H Ha Hha. pose proof (fun y => ring_has h (p :: l) y H) as Hhas. cbn [ring] in H. destruct H as (Hp & Hnd).
  assert (Hq : exists q, nx h p = Some q /\ In q (p :: l) /\ pv h q = Some p) by (destruct l as [|q l]; cbn [path] in Hp; [exists p|exists q]; destruct Hp; unfold linked in *; intuition auto with datatypes).
  destruct Hq as (q & Hnq & Hq & Hpq). unfold link_after. rewrite (next_link_ok _ _ _ Hnq). cbn [bind].
  destruct (link2_ok h a q p Hha (Hhas q Hq) (Hhas p (or_introl eq_refl))) as (h' & E & N & P); [intros ->; contradiction|intros ->; apply Ha; left; reflexivity|].
  exists h'. split; [exact E|]. split.
  - cbn [ring path]. split; [|inversion Hnd; subst; constructor; [intros [->|Hi]; [apply Ha; left; reflexivity|contradiction]|constructor; [intros Hi; apply Ha; right; exact Hi|assumption]]].
    assert (Hpa : a <> p) by (intros ->; apply Ha; left; reflexivity).
    assert (Haq : a <> q) by (intros ->; contradiction).
    split; [split; [rewrite N, Z.eqb_refl; reflexivity|rewrite P; destruct (Z.eqb_spec a q); [congruence|rewrite Z.eqb_refl; reflexivity]]|].
    assert (Hl : linked h' a q) by (split; [rewrite N; destruct (Z.eqb_spec a p); [congruence|rewrite Z.eqb_refl; reflexivity]|rewrite P, Z.eqb_refl; reflexivity]).
    destruct l as [|x l]; cbn [path] in *.
    + destruct Hp as (Hp1 & _). assert (p = q) by congruence. subst q. exact Hl.
    + destruct Hp as ((Hp1 & _) & Hp2). assert (x = q) by congruence. subst x. split; [exact Hl|]. inversion Hnd as [|? ? Hnp Hnd']; subst. inversion Hnd' as [|? ? Hnq' _]; subst.
      apply (path_frame h); [| |exact Hp2].
      * intros y Hy. rewrite N. destruct (Z.eqb_spec y p) as [->|]; [contradiction|]. destruct (Z.eqb_spec y a) as [->|]; [exfalso; apply Ha; right; exact Hy|reflexivity].
      * intros y Hy. rewrite P. assert (y <> q) by (intros ->; apply in_app_or in Hy; destruct Hy as [Hy|[<-|[]]]; [contradiction|apply Hnp; left; reflexivity]).
        destruct (Z.eqb_spec y q); [contradiction|]. destruct (Z.eqb_spec y a) as [->|]; [|reflexivity].
        exfalso. apply Ha. apply in_app_or in Hy. destruct Hy as [Hy|[<-|[]]]; [right; right; exact Hy|left; reflexivity].
  - apply only_of.
    + intros y Hy. rewrite N, P. cbn [In] in Hy. destruct (Z.eqb_spec y p) as [->|]; [tauto|]. destruct (Z.eqb_spec y a) as [->|]; [tauto|].
      destruct (Z.eqb_spec y q) as [->|]; [exfalso; apply Hy; right; exact Hq|]. split; reflexivity.
    + intros y Hy. assert (Hy' : has h y) by (destruct Hy as [<-|Hy]; [exact Hha|apply Hhas; exact Hy]). split; [exact Hy'|]. hs.
Qed.

(** *** Unlinking [a]. *)
Lemma ring_unlink : forall h p a l, ring h (p :: a :: l) ->
  exists h', unlink h a = Ok h' /\ ring h' (p :: l) /\ only (p :: l) h h'.
Proof.
  intros h p a l H. pose proof (fun y => ring_has h (p :: a :: l) y H) as Hhas. cbn [ring path] in H. destruct H as (((H1 & H2) & Hp) & Hnd).
  inversion Hnd as [|? ? Hnp Hnd']; subst. inversion Hnd' as [|? ? Hna Hnd'']; subst.
  assert (Hq : exists q, nx h a = Some q /\ In q (p :: l) /\ pv h q = Some a) by (destruct l as [|q l]; cbn [path] in Hp; [exists p|exists q]; destruct Hp; unfold linked in *; intuition auto with datatypes).
  destruct Hq as (q & Hnq & Hq & Hpq).
  destruct (unlink_ok h a q p Hnq H2) as (h' & E & N & P); [apply Hhas; destruct Hq as [->|Hq]; [left; reflexivity|right; right; exact Hq]|apply Hhas; left; reflexivity|].
  exists h'. split; [exact E|]. split.
  - cbn [ring]. split; [|constructor; [intros Hi; apply Hnp; right; exact Hi|exact Hnd'']].
    assert (Hl : linked h' p q) by (split; [rewrite N, Z.eqb_refl; reflexivity|rewrite P, Z.eqb_refl; reflexivity]).
    destruct l as [|x l]; cbn [path] in *.
    + destruct Hp as (Hp1 & _). assert (p = q) by congruence. subst q. exact Hl.
    + destruct Hp as ((Hp1 & _) & Hp2). assert (x = q) by congruence. subst x. split; [exact Hl|]. inversion Hnd'' as [|? ? Hnq' _]; subst.
      apply (path_frame h); [| |exact Hp2].
      * intros y Hy. rewrite N. destruct (Z.eqb_spec y p) as [->|]; [exfalso; apply Hnp; right; exact Hy|reflexivity].
      * intros y Hy. rewrite P. destruct (Z.eqb_spec y q) as [->|]; [|reflexivity]. apply in_app_or in Hy. destruct Hy as [Hy|[<-|[]]]; [contradiction|exfalso; apply Hnp; right; left; reflexivity].
  - apply only_of.
    + intros y Hy. rewrite N, P. cbn [In] in Hy. destruct (Z.eqb_spec y p) as [->|]; [tauto|]. destruct (Z.eqb_spec y q) as [->|]; [exfalso; apply Hy; exact Hq|]. split; reflexivity.
    + intros y Hy. assert (Hy' : has h y) by (apply Hhas; cbn [In] in *; tauto). split; [exact Hy'|]. hs.
Qed.

(** *** Moving [o] to [a]. *)
Lemma ring_move : forall h a o l, ring h (o :: l) -> ~ In a (o :: l) -> has h a ->
  exists h', relink_from h a o = Ok h' /\ ring h' (a :: l) /\ only (a :: o :: l) h h' /\ h' o = Some (0, 0).
Proof.
  intros h a o l H Ha Hha. pose proof (fun y => ring_has h (o :: l) y H) as Hhas. cbn [ring] in H. destruct H as (Hp & Hnd).
  assert (Hao : a <> o) by (intros ->; apply Ha; left; reflexivity).
  inversion Hnd as [|? ? Hno Hnd']; subst.
  destruct l as [|n l].
  - cbn [path] in Hp. destruct Hp as (Hn & Hp). destruct (relink_alone h a o Hha Hao Hn Hp) as (h' & E & N & P). exists h'. split; [exact E|].
    split; [cbn [ring path]; split; [split; [rewrite N, Z.eqb_refl|rewrite P, Z.eqb_refl]; reflexivity|constructor; [intros []|constructor]]|]. split.
    + apply only_of.
      * intros y Hy. rewrite N, P. cbn [In] in Hy. destruct (Z.eqb_spec y a) as [->|]; [tauto|]. split; reflexivity.
      * intros y Hy. assert (Hy' : has h y) by (destruct Hy as [<-|Hy]; [exact Hha|apply Hhas; exact Hy]). split; [exact Hy'|]. hs.
    + assert (E1 : nx h' o = Some o) by (rewrite N; zeq; [congruence|exact Hn]). assert (E2 : pv h' o = Some o) by (rewrite P; zeq; [congruence|exact Hp]).
      unfold nx, pv in *. destruct (h' o) as [(u, v)|]; [|discriminate E1]. cbn [option_map fst snd] in *. injection E1 as E1. injection E2 as E2. f_equal. f_equal; lia.
  - assert (Hlast : exists m p, n :: l = m ++ [p]) by (destruct (exists_last (l := n :: l) ltac:(discriminate)) as (m & p & Hm); exists m, p; exact Hm).
    destruct Hlast as (m & p & Hm).
    assert (Hpp : path h o m p /\ linked h p o) by (rewrite Hm in Hp; apply path_app in Hp; exact Hp). destruct Hpp as (_ & Hpo1 & Hpo2).
    assert (Hinp : In p (n :: l)) by (rewrite Hm; apply in_or_app; right; left; reflexivity).
    cbn [path] in Hp. destruct Hp as ((Hn1 & Hn2) & Hp).
    assert (Hne : n <> o) by (intros ->; apply Hno; left; reflexivity). assert (Hpne : p <> o) by (intros ->; contradiction).
    assert (Hna : n <> a) by (intros ->; apply Ha; right; left; reflexivity). assert (Hpa : p <> a) by (intros ->; apply Ha; right; exact Hinp).
    destruct (relink_ok h a o n p Hha Hao Hn1 Hpo2 Hne Hpne Hna Hpa) as (h' & E & N & P); [apply Hhas; right; left; reflexivity|apply Hhas; right; exact Hinp|].
    exists h'. split; [exact E|]. split; [|split].
    + cbn [ring path]. split; [|constructor; [intros Hi; apply Ha; right; exact Hi|exact Hnd']].
      split; [split; [rewrite N; destruct (Z.eqb_spec a p); [congruence|rewrite Z.eqb_refl; reflexivity]|rewrite P, Z.eqb_refl; reflexivity]|].
      (* the rest of the path, up to the last link *)
      rewrite Hm in Hnd'. destruct m as [|x m].
      * injection Hm as -> ->. cbn [path]. split; [rewrite N, Z.eqb_refl; reflexivity|rewrite P; destruct (Z.eqb_spec a p); [congruence|rewrite Z.eqb_refl; reflexivity]].
      * injection Hm as -> Hm. subst l. apply path_app in Hp. destruct Hp as (Hp & _). apply path_app.
        split; [|split; [rewrite N, Z.eqb_refl; reflexivity|rewrite P; destruct (Z.eqb_spec a x); [congruence|rewrite Z.eqb_refl; reflexivity]]].
        inversion Hnd' as [|? ? Hx1 Hx2]; subst. assert (Hpm : ~ In p m) by (intros Hi; apply NoDup_remove_2 in Hx2; apply Hx2; rewrite app_nil_r; exact Hi).
        assert (Hxp : x <> p) by (intros ->; apply Hx1; apply in_or_app; right; left; reflexivity).
        apply (path_frame h); [| |exact Hp].
        -- intros y Hy. rewrite N. assert (In y (x :: m ++ [p])) by (cbn [In] in *; rewrite in_app_iff; tauto).
           destruct (Z.eqb_spec y p) as [->|]; [exfalso; destruct Hy as [Hy|Hy]; [congruence|contradiction]|].
           destruct (Z.eqb_spec y a) as [->|]; [exfalso; apply Ha; right; assumption|]. destruct (Z.eqb_spec y o) as [->|]; [contradiction|reflexivity].
        -- intros y Hy. rewrite P. assert (In y (x :: m ++ [p])) by (right; exact Hy).
           destruct (Z.eqb_spec y x) as [->|]; [contradiction|]. destruct (Z.eqb_spec y a) as [->|]; [exfalso; apply Ha; right; assumption|]. destruct (Z.eqb_spec y o) as [->|]; [contradiction|reflexivity].
    + apply only_of.
      * intros y Hy. rewrite N, P. assert (y <> p) by (intros ->; apply Hy; right; right; exact Hinp). assert (y <> n) by (intros ->; apply Hy; right; right; left; reflexivity).
        assert (y <> a) by (intros ->; apply Hy; left; reflexivity). assert (y <> o) by (intros ->; apply Hy; right; left; reflexivity). zeq; try congruence. split; reflexivity.
      * intros y Hy. assert (Hy' : has h y) by (destruct Hy as [<-|Hy]; [exact Hha|apply Hhas; exact Hy]). split; [exact Hy'|]. hs.
    + assert (E1 : nx h' o = Some o) by (rewrite N; zeq; try congruence). assert (E2 : pv h' o = Some o) by (rewrite P; zeq; try congruence).
      unfold nx, pv in *. destruct (h' o) as [(u, v)|]; [|discriminate E1]. cbn [option_map fst snd] in *. injection E1 as E1. injection E2 as E2. f_equal. f_equal; lia.
Qed.

(** *** The same at any position of the ring. *)
Lemma ring_link_at : forall h a l1 p l2, ring h (l1 ++ p :: l2) -> ~ In a (l1 ++ p :: l2) -> has h a ->
  exists h', link_after h a p = Ok h' /\ ring h' (l1 ++ p :: a :: l2) /\ only (a :: l1 ++ p :: l2) h h'.
Proof.
  intros h a l1 p l2 H Ha Hh. apply ring_rot_app in H. cbn [app] in H. destruct (ring_link h a p (l2 ++ l1) H) as (h' & E & R & O); [intros Hi; apply Ha; cbn [In] in Hi; rewrite in_app_iff in *; cbn [In]; tauto|exact Hh|].
  exists h'. split; [exact E|]. split; [apply ring_rot_app; exact R|]. apply (only_incl _ _ _ _ O). intros y Hy. cbn [In] in *. rewrite in_app_iff in *. cbn [In]. tauto.
Qed.
Lemma ring_unlink_at : forall h x l1 a l2, ring h (x :: l1 ++ a :: l2) ->
  exists h', unlink h a = Ok h' /\ ring h' (x :: l1 ++ l2) /\ only (x :: l1 ++ l2) h h'.
Proof.
  intros h x l1 a l2 H. destruct (exists_last (l := x :: l1) ltac:(discriminate)) as (m & p & Hm).
  change (x :: l1 ++ a :: l2) with ((x :: l1) ++ a :: l2) in H. rewrite Hm, <- app_assoc in H. cbn [app] in H. apply ring_rot_app in H. cbn [app] in H.
  destruct (ring_unlink h p a (l2 ++ m) H) as (h' & E & R & O). exists h'. split; [exact E|].
  change (x :: l1 ++ l2) with ((x :: l1) ++ l2). rewrite Hm, <- app_assoc. cbn [app]. split; [apply ring_rot_app; exact R|].
  apply (only_incl _ _ _ _ O). intros y Hy. cbn [In] in *. rewrite in_app_iff in *. cbn [In]. tauto.
Qed.
Lemma ring_move_at : forall h a l1 o l2, ring h (l1 ++ o :: l2) -> ~ In a (l1 ++ o :: l2) -> has h a ->
  exists h', relink_from h a o = Ok h' /\ ring h' (l1 ++ a :: l2) /\ only (a :: l1 ++ o :: l2) h h' /\ h' o = Some (0, 0).
Proof.
  intros h a l1 o l2 H Ha Hh. apply ring_rot_app in H. cbn [app] in H. destruct (ring_move h a o (l2 ++ l1) H) as (h' & E & R & O & Z0); [intros Hi; apply Ha; cbn [In] in Hi; rewrite in_app_iff in *; cbn [In]; tauto|exact Hh|].
  exists h'. split; [exact E|]. split; [apply ring_rot_app; exact R|]. split; [|exact Z0]. apply (only_incl _ _ _ _ O). intros y Hy. cbn [In] in *. rewrite in_app_iff in *. cbn [In]. tauto.
Qed.

(** *** Traversal. *)
Lemma path_walk : forall h l a b fuel, path h a l b -> ~ In b (a :: l) -> (length (a :: l) < fuel)%nat -> walk fuel h a b = Ok (a :: l).
Proof.
  intros h l. induction l as [|x l IH]; intros a b fuel H Hb Hf; destruct fuel as [|fu]; cbn [length] in Hf; try lia; cbn [walk path] in *; (destruct (Z.eqb_spec a b) as [->|_]; [exfalso; apply Hb; left; reflexivity|]).
  - destruct H as (H1 & _). rewrite (next_link_ok _ _ _ H1). cbn [bind]. destruct fu; [lia|]. cbn [walk]. rewrite Z.eqb_refl. reflexivity.
  - destruct H as ((H1 & _) & H2). rewrite (next_link_ok _ _ _ H1). cbn [bind]. rewrite (IH x b fu H2); [reflexivity|intros Hi; apply Hb; right; exact Hi|cbn [length]; lia].
Qed.
Lemma ring_walk : forall h x l fuel, ring h (x :: l) -> (length l < fuel)%nat -> exists a, next_link h x = Ok a /\ walk fuel h a x = Ok l.
Proof.
  intros h x l fuel H Hf. cbn [ring] in H. destruct H as (Hp & Hnd). destruct l as [|y l]; cbn [path] in Hp.
  - exists x. split; [apply next_link_ok; apply Hp|]. destruct fuel; [cbn in Hf; lia|]. cbn [walk]. rewrite Z.eqb_refl. reflexivity.
  - destruct Hp as ((H1 & _) & H2). exists y. split; [apply next_link_ok; exact H1|]. apply path_walk; [exact H2|inversion Hnd; assumption|exact Hf].
Qed.
(** Exchange of next and prev. *)
Definition flip (h : heap) : heap := fun a => option_map (fun x => (snd x, fst x)) (h a).
Lemma flip_nx : forall h a, nx (flip h) a = pv h a.
Proof. intros h a. unfold nx, pv, flip. destruct (h a); reflexivity. Qed.
Lemma flip_pv : forall h a, pv (flip h) a = nx h a.
Proof. intros h a. unfold nx, pv, flip. destruct (h a); reflexivity. Qed.
Lemma path_flip : forall h l a b, path h a l b -> path (flip h) b (rev l) a.
Proof.
  intros h l. induction l as [|x l IH]; intros a b H; cbn [path rev] in *.
  - destruct H as (H1 & H2). split; [rewrite flip_nx; exact H2|rewrite flip_pv; exact H1].
  - destruct H as ((H1 & H2) & H3). apply path_app. split; [apply IH; exact H3|]. split; [rewrite flip_nx; exact H2|rewrite flip_pv; exact H1].
Qed.
Lemma ring_flip : forall h x l, ring h (x :: l) -> ring (flip h) (x :: rev l).
Proof.
  intros h x l (H1 & H2). split; [apply path_flip; exact H1|]. inversion H2; subst. constructor; [rewrite <- in_rev; assumption|apply NoDup_rev; assumption].
Qed.
Lemma flip_walk : forall h fuel a b, walk fuel (flip h) a b = walk_back fuel h a b.
Proof.
  intros h fuel. induction fuel as [|fu IH]; intros a b; [reflexivity|]. cbn [walk walk_back]. destruct (a =? b); [reflexivity|].
  assert (E : next_link (flip h) a = prev_link h a) by (unfold next_link, prev_link, get_link, flip; destruct (h a); reflexivity). rewrite E.
  destruct (prev_link h a); cbn [bind]; [rewrite IH|]; reflexivity.
Qed.
Lemma ring_walk_back : forall h x l fuel, ring h (x :: l) -> (length l < fuel)%nat -> exists a, prev_link h x = Ok a /\ walk_back fuel h a x = Ok (rev l).
Proof.
  intros h x l fuel H Hf. destruct (ring_walk (flip h) x (rev l) fuel (ring_flip _ _ _ H)) as (a & Ha & Hw); [rewrite rev_length; exact Hf|].
  exists a. rewrite flip_walk in Hw. split; [|exact Hw]. revert Ha. unfold next_link, prev_link, get_link, flip. destruct (h x); intros Ha; exact Ha.
Qed.

(** ** Call sequences. *)
Lemma lstep_ok : forall h c l l', ring h l -> lspec c l l' -> (forall a, In a (lcall_addrs c) -> has h a) ->
  exists h', lexec h c = Ok h' /\ ring h' l' /\ only (lcall_addrs c ++ l) h h'.
Proof.
  intros h c l l' H Hs Hh. destruct Hs; cbn [lexec lcall_addrs app] in *.
  - destruct (ring_link_at h a l1 p l2 H) as (h' & E & R & O); [assumption|apply Hh; left; reflexivity|]. exists h'. split; [exact E|]. split; [exact R|].
    apply (only_incl _ _ _ _ O). intros y Hy. cbn [In] in *. tauto.
  - destruct (ring_unlink_at h x l1 a l2 H) as (h' & E & R & O). exists h'. split; [exact E|]. split; [exact R|].
    apply (only_incl _ _ _ _ O). intros y Hy. cbn [In] in *. rewrite in_app_iff in *. cbn [In]. tauto.
  - destruct (ring_move_at h to l1 from l2 H) as (h' & E & R & O & _); [assumption|apply Hh; left; reflexivity|]. exists h'. split; [exact E|]. split; [exact R|].
    apply (only_incl _ _ _ _ O). intros y Hy. cbn [In] in *. tauto.
Qed.
Lemma lspec_in : forall c l l', lspec c l l' -> forall y, In y l' -> In y (lcall_addrs c ++ l).
Proof. intros c l l' H y Hy. destruct H; cbn [lcall_addrs app In] in *; rewrite ?in_app_iff in *; cbn [In] in *; rewrite ?in_app_iff in *; tauto. Qed.
Lemma lrun_ok : forall cs h l l', ring h l -> lspec_run cs l l' -> (forall c a, In c cs -> In a (lcall_addrs c) -> has h a) ->
  exists h', lrun h cs = Ok h' /\ ring h' l' /\ only (flat_map lcall_addrs cs ++ l) h h'.
Proof.
  induction cs as [|c cs IH]; intros h l l' H Hs Hh; inversion Hs as [|? ? ? lm ? Hc Hr]; subst.
  - exists h. split; [reflexivity|]. split; [exact H|apply only_refl].
  - destruct (lstep_ok h c l lm H Hc) as (h1 & E1 & R1 & O1); [intros a Ha; apply (Hh c); [left; reflexivity|exact Ha]|].
    destruct (IH h1 lm l' R1 Hr) as (h2 & E2 & R2 & O2); [intros c' a Hc' Ha; apply O1; apply (Hh c'); [right; exact Hc'|exact Ha]|].
    exists h2. split; [unfold lrun in *; cbn [foldM]; rewrite E1; cbn [bind]; exact E2|]. split; [exact R2|].
    apply (only_trans _ _ h1).
    + apply (only_incl _ _ _ _ O1). intros y Hy. cbn [flat_map]. rewrite !in_app_iff in *. tauto.
    + apply (only_incl _ _ _ _ O2). intros y Hy. cbn [flat_map]. rewrite !in_app_iff in *. destruct Hy as [Hy|Hy]; [tauto|]. pose proof (lspec_in _ _ _ Hc y Hy) as H'. rewrite in_app_iff in H'. tauto.
Qed.
