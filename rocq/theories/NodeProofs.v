(** Ownership of the heap objects of stable containers is preserved by every statement that is
    not blocked. *)
From Coq Require Import ZArith List Bool Lia Permutation Arith.
From Verif Require Import Base BaseLemmas NodeModel NodeSpec.
Import ListNotations.
Open Scope Z_scope.

Lemma holder_dec : forall a b : holder, {a = b} + {a <> b}.
Proof. decide equality; apply Nat.eq_dec. Qed.

Lemma NoDup_app_parts : forall A (l l' : list A), NoDup (l ++ l') -> NoDup l /\ NoDup l' /\ forall x, In x l -> In x l' -> False.
Proof.
  induction l as [|a l IH]; intros l' H; cbn [app] in H; [split; [constructor|]; split; [exact H|intros x []]|].
  apply NoDup_cons_iff in H. destruct H as (H1 & H2). destruct (IH _ H2) as (A1 & A2 & A3). split; [constructor; [intros X; apply H1; apply in_or_app; left; exact X|exact A1]|].
  split; [exact A2|]. intros x [->|X] Y; [apply H1; apply in_or_app; right; exact Y|exact (A3 x X Y)].
Qed.

Section Mem.
Context {K V : Type}.
Local Notation mem := (mem K V).
Local Notation cell := (cell K V).

(** [hd o]: what o holds; [al o]: its allocator. *)
Record inv (m : mem) (hd : holder -> list Z) (al : holder -> Z) : Prop := {
  g_pos : 0 < m_next m;
  g_fresh : forall p, m_next m <= p \/ p <= 0 -> m_cell m p = None;
  g_leak : forall p c, m_cell m p = Some c -> exists o, In p (hd o);
  g_live : forall o p, In p (hd o) -> exists k v, m_cell m p = Some (Obj (al o) k (Some v));
  g_nd : forall o, NoDup (hd o);
  g_one : forall o o' p, In p (hd o) -> In p (hd o') -> o = o'
}.

Lemma g_range : forall m hd al o p, inv m hd al -> In p (hd o) -> 0 < p < m_next m.
Proof.
  intros m hd al o p I H. destruct (g_live _ _ _ I o p H) as (k & v & E). destruct (Z_lt_le_dec 0 p); [destruct (Z_lt_le_dec p (m_next m)); [lia|]|];
    rewrite (g_fresh _ _ _ I) in E by lia; discriminate.
Qed.

Lemma g_ext : forall m hd al hd' al', inv m hd al -> (forall o, hd' o = hd o) -> (forall o, hd o <> [] -> al' o = al o) -> inv m hd' al'.
Proof.
  intros m hd al hd' al' I Hh Ha. constructor.
  - apply (g_pos _ _ _ I).
  - apply (g_fresh _ _ _ I).
  - intros p c E. destruct (g_leak _ _ _ I p c E) as (o & Ho). exists o. rewrite Hh. exact Ho.
  - intros o p Hp. rewrite Hh in Hp. rewrite Ha by (intros E; rewrite E in Hp; exact Hp). apply (g_live _ _ _ I o p Hp).
  - intros o. rewrite Hh. apply (g_nd _ _ _ I).
  - intros o o' p A B. rewrite Hh in A, B. apply (g_one _ _ _ I o o' p A B).
Qed.

(** Objects change between two holders with equal allocators. *)
Lemma g_move : forall m hd al hd' al' o o' a, inv m hd al -> o <> o' ->
  Permutation (hd o ++ hd o') (hd' o ++ hd' o') ->
  (forall x, x <> o -> x <> o' -> hd' x = hd x /\ al' x = al x) ->
  (hd o <> [] -> al o = a) -> (hd o' <> [] -> al o' = a) -> (hd' o <> [] -> al' o = a) -> (hd' o' <> [] -> al' o' = a) ->
  inv m hd' al'.
Proof.
  intros m hd al hd' al' o o' a I Hne P Hx A1 A2 B1 B2.
  assert (Hin : forall p, In p (hd o) \/ In p (hd o') <-> In p (hd' o) \/ In p (hd' o')).
  { intros p. split; intros H; apply in_app_or; [apply (Permutation_in _ P)|apply (Permutation_in _ (Permutation_sym P))]; apply in_or_app; exact H. }
  assert (Hl : forall p, In p (hd' o) \/ In p (hd' o') -> exists k v, m_cell m p = Some (Obj a k (Some v))).
  { intros p H. apply Hin in H. destruct H as [H|H]; destruct (g_live _ _ _ I _ p H) as (k & v & E); exists k, v.
    - rewrite A1 in E by (intros Z; rewrite Z in H; exact H). exact E.
    - rewrite A2 in E by (intros Z; rewrite Z in H; exact H). exact E. }
  assert (Hnd : NoDup (hd' o ++ hd' o')).
  { apply (Permutation_NoDup P). apply NoDup_app_intro; [apply (g_nd _ _ _ I)|apply (g_nd _ _ _ I)|]. intros p X Y. apply Hne. apply (g_one _ _ _ I o o' p X Y). }
  assert (Hold : forall x p, x <> o -> x <> o' -> In p (hd' x) -> In p (hd' o) \/ In p (hd' o') -> False).
  { intros x p X1 X2 Hp Hq. rewrite (proj1 (Hx x X1 X2)) in Hp. apply Hin in Hq. destruct Hq as [Hq|Hq]; [apply X1|apply X2]; apply (g_one _ _ _ I _ _ p Hp Hq). }
  constructor.
  - apply (g_pos _ _ _ I).
  - apply (g_fresh _ _ _ I).
  - intros p c E. destruct (g_leak _ _ _ I p c E) as (x & H). destruct (holder_dec x o) as [->|N1]; [|destruct (holder_dec x o') as [->|N2]].
    + destruct (proj1 (Hin p) (or_introl H)) as [G|G]; eexists; exact G.
    + destruct (proj1 (Hin p) (or_intror H)) as [G|G]; eexists; exact G.
    + exists x. rewrite (proj1 (Hx x N1 N2)). exact H.
  - intros x p H. destruct (holder_dec x o) as [->|N1]; [|destruct (holder_dec x o') as [->|N2]].
    + destruct (Hl p (or_introl H)) as (k & v & E). rewrite B1 by (intros Z; rewrite Z in H; exact H). eauto.
    + destruct (Hl p (or_intror H)) as (k & v & E). rewrite B2 by (intros Z; rewrite Z in H; exact H). eauto.
    + destruct (Hx x N1 N2) as (C & D). rewrite C in H. rewrite D. apply (g_live _ _ _ I x p H).
  - intros x. destruct (holder_dec x o) as [->|N1]; [|destruct (holder_dec x o') as [->|N2]].
    + apply (NoDup_app_parts _ _ _ Hnd).
    + apply (NoDup_app_parts _ _ _ Hnd).
    + rewrite (proj1 (Hx x N1 N2)). apply (g_nd _ _ _ I).
  - intros x y p X Y. destruct (holder_dec x y) as [|N]; [assumption|exfalso].
    destruct (holder_dec x o) as [->|N1]; [|destruct (holder_dec x o') as [->|N2]].
    + destruct (holder_dec y o') as [->|N3]; [|apply (Hold y p); auto]. apply (proj2 (proj2 (NoDup_app_parts _ _ _ Hnd)) p X Y).
    + destruct (holder_dec y o) as [->|N3]; [|apply (Hold y p); auto]. apply (proj2 (proj2 (NoDup_app_parts _ _ _ Hnd)) p Y X).
    + destruct (holder_dec y o) as [->|N3]; [apply (Hold x p); auto|]. destruct (holder_dec y o') as [->|N4]; [apply (Hold x p); auto|].
      rewrite (proj1 (Hx x N1 N2)) in X. rewrite (proj1 (Hx y N3 N4)) in Y. apply N. apply (g_one _ _ _ I x y p X Y).
Qed.

(** Construction. *)
Lemma g_new : forall v m hd al o k x, inv m hd al -> e_alloc v = true -> e_ctor v = true ->
  exists m' p, construct v m (al o) k x = (m', Some p) /\ read m' p = Ok (k, Some x) /\ p <> 0 /\
    (forall y q, In q (hd y) -> m_cell m' q = m_cell m q /\ q <> p) /\
    forall hd', (forall y, y <> o -> hd' y = hd y) -> Permutation (hd' o) (p :: hd o) -> inv m' hd' al.
Proof.
  intros v m hd al o k x I Ea Ec. unfold construct. rewrite Ea, Ec. pose proof (g_pos _ _ _ I) as Hpos. eexists _, _. split; [reflexivity|].
  assert (Hnew : forall y q, In q (hd y) -> q <> m_next m) by (intros y q Hq; pose proof (g_range _ _ _ _ _ I Hq); lia).
  split; [unfold read; cbn [m_cell]; rewrite upd_same; destruct (Z.eqb_spec (m_next m) 0); [lia|reflexivity]|]. split; [lia|].
  split; [intros y q Hq; split; [cbn [m_cell]; apply upd_other; apply (Hnew y q Hq)|apply (Hnew y q Hq)]|].
  intros hd' Hy P. assert (Hin : forall q, In q (hd' o) <-> q = m_next m \/ In q (hd o)).
  { intros q. split; intros H; [apply (Permutation_in _ P) in H; destruct H; auto|]. apply (Permutation_in _ (Permutation_sym P)). destruct H; [left; auto|right; auto]. }
  constructor; cbn [m_next m_cell].
  - lia.
  - intros q Hq. rewrite upd_other by lia. apply (g_fresh _ _ _ I). lia.
  - intros q c E. unfold upd in E. destruct (Z.eqb_spec q (m_next m)) as [->|N]; [exists o; apply Hin; left; reflexivity|].
    destruct (g_leak _ _ _ I q c E) as (y & H). exists y. destruct (holder_dec y o) as [->|Hyo]; [apply Hin; right; exact H|rewrite (Hy y Hyo); exact H].
  - intros y q H. destruct (holder_dec y o) as [->|Hyo].
    + apply Hin in H. destruct H as [->|H]; [rewrite upd_same; eauto|]. rewrite upd_other by (apply (Hnew _ _ H)). apply (g_live _ _ _ I o q H).
    + rewrite (Hy y Hyo) in H. rewrite upd_other by (apply (Hnew _ _ H)). apply (g_live _ _ _ I y q H).
  - intros y. destruct (holder_dec y o) as [->|Hyo]; [|rewrite (Hy y Hyo); apply (g_nd _ _ _ I)].
    apply (Permutation_NoDup (Permutation_sym P)). constructor; [intros H; apply (Hnew _ _ H eq_refl)|apply (g_nd _ _ _ I)].
  - intros y z q A B. destruct (holder_dec y o) as [->|Hyo]; destruct (holder_dec z o) as [->|Hzo]; try reflexivity.
    + rewrite (Hy z Hzo) in B. apply Hin in A. destruct A as [->|A]; [exfalso; apply (Hnew _ _ B eq_refl)|apply (g_one _ _ _ I _ _ q A B)].
    + rewrite (Hy y Hyo) in A. apply Hin in B. destruct B as [->|B]; [exfalso; apply (Hnew _ _ A eq_refl)|apply (g_one _ _ _ I _ _ q A B)].
    + rewrite (Hy y Hyo) in A. rewrite (Hy z Hzo) in B. apply (g_one _ _ _ I _ _ q A B).
Qed.

(** Destruction. *)
Lemma g_free : forall m hd al o p, inv m hd al -> In p (hd o) ->
  exists m', destroy m (al o) p = Ok m' /\ (forall q, q <> p -> m_cell m' q = m_cell m q) /\
    forall hd', (forall y, y <> o -> hd' y = hd y) -> Permutation (hd o) (p :: hd' o) -> inv m' hd' al.
Proof.
  intros m hd al o p I Hp. destruct (g_live _ _ _ I o p Hp) as (k & v & E). pose proof (g_range _ _ _ _ _ I Hp) as Hr.
  unfold destroy, end_obj, release. destruct (Z.eqb_spec p 0); [lia|]. rewrite E. cbn [bind m_cell m_next]. rewrite upd_same, Z.eqb_refl.
  eexists. split; [reflexivity|]. cbn [m_cell]. split; [intros q Hq; rewrite !upd_other by exact Hq; reflexivity|].
  intros hd' Hy P. assert (Hnd : NoDup (p :: hd' o)) by (apply (Permutation_NoDup P); apply (g_nd _ _ _ I)). apply NoDup_cons_iff in Hnd. destruct Hnd as (Hnp & Hnd).
  assert (Hin : forall q, In q (hd' o) <-> q <> p /\ In q (hd o)).
  { intros q. split.
    - intros H. split; [intros ->; exact (Hnp H)|]. apply (Permutation_in _ (Permutation_sym P)). right. exact H.
    - intros (N & H). apply (Permutation_in _ P) in H. destruct H as [->|H]; [contradiction|exact H]. }
  assert (Hne : forall y q, In q (hd' y) -> q <> p).
  { intros y q H ->. destruct (holder_dec y o) as [->|Hyo]; [apply (Hnp H)|]. rewrite (Hy y Hyo) in H. apply Hyo. apply (g_one _ _ _ I _ _ p H Hp). }
  assert (Hsub : forall y q, In q (hd' y) -> In q (hd y)).
  { intros y q H. destruct (holder_dec y o) as [->|Hyo]; [apply (Hin q); exact H|rewrite <- (Hy y Hyo); exact H]. }
  constructor; cbn [m_cell m_next].
  - apply (g_pos _ _ _ I).
  - intros q Hq. unfold upd. destruct (q =? p); [reflexivity|]. apply (g_fresh _ _ _ I). exact Hq.
  - intros q c Eq. unfold upd in Eq. destruct (Z.eqb_spec q p) as [->|N]; [discriminate|].
    destruct (g_leak _ _ _ I q c Eq) as (y & H). exists y. destruct (holder_dec y o) as [->|Hyo]; [apply Hin; auto|rewrite (Hy y Hyo); exact H].
  - intros y q H. rewrite !upd_other by (apply (Hne _ _ H)). apply (g_live _ _ _ I). apply Hsub. exact H.
  - intros y. destruct (holder_dec y o) as [->|Hyo]; [exact Hnd|rewrite (Hy y Hyo); apply (g_nd _ _ _ I)].
  - intros y z q A B. apply (g_one _ _ _ I _ _ q (Hsub _ _ A) (Hsub _ _ B)).
Qed.

(** Change of a mapped value. *)
Lemma g_replace : forall v m hd al o p x, inv m hd al -> In p (hd o) -> e_ctor v = true ->
  exists m', replace v m p x = Ok (m', true) /\ inv m' hd al.
Proof.
  intros v m hd al o p x I Hp Ec. destruct (g_live _ _ _ I o p Hp) as (k & y & E). pose proof (g_range _ _ _ _ _ I Hp) as Hr.
  unfold replace. rewrite E, Ec. destruct (Z.eqb_spec p 0); [lia|]. eexists. split; [reflexivity|]. constructor; cbn [m_cell m_next].
  - apply (g_pos _ _ _ I).
  - intros q Hq. rewrite upd_other by lia. apply (g_fresh _ _ _ I). exact Hq.
  - intros q c Eq. unfold upd in Eq. destruct (Z.eqb_spec q p) as [->|N]; [exists o; exact Hp|apply (g_leak _ _ _ I q c Eq)].
  - intros o' q Hq. unfold upd. destruct (Z.eqb_spec q p) as [->|N]; [|apply (g_live _ _ _ I o' q Hq)].
    pose proof (g_one _ _ _ I _ _ p Hp Hq) as <-. eauto.
  - apply (g_nd _ _ _ I).
  - apply (g_one _ _ _ I).
Qed.

(** Destruction of all that a holder holds. *)
Definition emptied (hd : holder -> list Z) (o : holder) : holder -> list Z := fun y => if holder_dec y o then [] else hd y.
Lemma g_free_all : forall l m hd al o, inv m hd al -> hd o = l ->
  exists m', foldM (fun m p => destroy m (al o) p) l m = Ok m' /\ inv m' (emptied hd o) al.
Proof.
  induction l as [|p l IH]; intros m hd al o I Hl; cbn [foldM].
  - exists m. split; [reflexivity|]. apply (g_ext _ _ _ _ _ I); [|reflexivity]. intros y. unfold emptied. destruct (holder_dec y o) as [->|]; [symmetry; exact Hl|reflexivity].
  - destruct (g_free m hd al o p I ltac:(rewrite Hl; left; reflexivity)) as (m1 & E1 & _ & I1). rewrite E1. cbn [bind].
    pose (hd1 := fun y => if holder_dec y o then l else hd y).
    assert (I2 : inv m1 hd1 al). { apply I1; unfold hd1; [intros y Hy; destruct (holder_dec y o); [contradiction|reflexivity]|]. destruct (holder_dec o o) as [_|N]; [|contradiction]. rewrite Hl. apply Permutation_refl. }
    destruct (IH m1 hd1 al o I2) as (m2 & E2 & I3); [unfold hd1; destruct (holder_dec o o); [reflexivity|contradiction]|]. exists m2. split; [exact E2|].
    apply (g_ext _ _ _ _ _ I3); [|reflexivity]. intros y. unfold emptied, hd1. destruct (holder_dec y o); reflexivity.
Qed.

(** Lookup. *)
Lemma read_ok : forall m hd al o p, inv m hd al -> In p (hd o) -> exists k v, read m p = Ok (k, Some v).
Proof.
  intros m hd al o p I Hp. destruct (g_live _ _ _ I o p Hp) as (k & v & E). pose proof (g_range _ _ _ _ _ I Hp). unfold read. rewrite E. destruct (Z.eqb_spec p 0); [lia|]. eauto.
Qed.
Variable keq : K -> K -> bool.
Lemma split_ok : forall (m : mem) l k, (forall p, In p l -> exists x, read m p = Ok x) ->
  split_at keq m l k = Ok None \/ exists a p b, split_at keq m l k = Ok (Some (a, p, b)) /\ l = a ++ p :: b.
Proof.
  intros m l k. induction l as [|p l IH]; intros H; cbn [split_at]; [left; reflexivity|]. destruct (H p (or_introl eq_refl)) as (x & E). rewrite E. cbn [bind].
  destruct (keq (fst x) k); [right; exists [], p, l; split; reflexivity|]. destruct IH as [IH|(a & q & b & IH & ->)]; [intros q Hq; apply H; right; exact Hq| |]; rewrite IH; cbn [bind]; [left; reflexivity|].
  right. exists (p :: a), q, b. split; reflexivity.
Qed.
Lemma find_ok : forall m hd al o k, inv m hd al ->
  split_at keq m (hd o) k = Ok None \/ exists a p b, split_at keq m (hd o) k = Ok (Some (a, p, b)) /\ hd o = a ++ p :: b.
Proof. intros m hd al o k I. apply split_ok. intros p Hp. destruct (read_ok _ _ _ _ _ I Hp) as (x & y & E). eauto. Qed.
Lemma split_same : forall (m m' : mem) l k, (forall p, In p l -> m_cell m' p = m_cell m p) -> split_at keq m' l k = split_at keq m l k.
Proof.
  intros m m' l k. induction l as [|p l IH]; intros H; cbn [split_at]; [reflexivity|]. unfold read. rewrite (H p (or_introl eq_refl)). rewrite IH by (intros q Hq; apply H; right; exact Hq). reflexivity.
Qed.

End Mem.

Section World.
Context {K V : Type}.
Variable keq : K -> K -> bool.
Variables pocca pocma : bool.
Variable dflt : Z.
Local Notation nworld := (nworld K V).
Local Notation nexec := (nexec keq pocca pocma dflt).
Local Notation nblocked := (nblocked keq pocma dflt).
Definition winv (w : nworld) : Prop := inv (w_m w) (held w) (alloc_of w).

Lemma setn_same : forall A (f : nat -> A) i x, setn f i x i = x.
Proof. intros. unfold setn. rewrite Nat.eqb_refl. reflexivity. Qed.
Lemma setn_other : forall A (f : nat -> A) i x j, j <> i -> setn f i x j = f j.
Proof. intros A f i x j H. unfold setn. destruct (Nat.eqb_spec j i); [contradiction|reflexivity]. Qed.

(** Pointwise facts about worlds. *)
Ltac pt := intros; repeat match goal with o : holder |- _ => destruct o end; cbn [held alloc_of w_c w_h w_m with_t with_h t_nodes t_alloc h_ptr h_alloc fst snd] in *;
  unfold setn; repeat match goal with |- context [Nat.eqb ?a ?b] => destruct (Nat.eqb_spec a b); subst end;
  cbn [held alloc_of w_c w_h w_m t_nodes t_alloc h_ptr h_alloc fst snd] in *; try reflexivity; try congruence; try contradiction.

Lemma same_t : forall (w : nworld) i, winv w -> winv (with_t w (w_m w) i (w_c w i)).
Proof. intros w i I. apply (g_ext _ _ _ _ _ I); pt. Qed.

Lemma hnodes : forall (w : nworld) i, held w (HC i) = t_nodes (w_c w i). Proof. reflexivity. Qed.
Lemma find_t : forall (w : nworld) i k, winv w ->
  split_at keq (w_m w) (t_nodes (w_c w i)) k = Ok None \/ exists a p b, split_at keq (w_m w) (t_nodes (w_c w i)) k = Ok (Some (a, p, b)) /\ t_nodes (w_c w i) = a ++ p :: b.
Proof. intros w i k I. apply (find_ok keq _ _ _ (HC i) k I). Qed.

Lemma insert_ok : forall v (w : nworld) i k x, winv w -> split_at keq (w_m w) (t_nodes (w_c w i)) k = Ok None -> (e_grow v = true -> e_alloc v = true -> e_ctor v = true) ->
  exists m1 t1 b, do_insert keq v (w_m w) (w_c w i) k x = Ok (m1, t1, b) /\ winv (with_t w m1 i t1).
Proof.
  intros v w i k x I E H. unfold do_insert. rewrite E. cbn [bind]. destruct (e_grow v) eqn:Eg; [|eexists _, _, _; split; [reflexivity|apply same_t; exact I]].
  destruct (e_alloc v) eqn:Ea.
  - specialize (H eq_refl eq_refl). destruct (g_new v _ _ _ (HC i) k x I Ea H) as (m1 & p & Ec & _ & _ & _ & Hi). cbn [alloc_of] in Ec. rewrite Ec.
    eexists _, _, _. split; [reflexivity|]. apply (g_ext _ (held (with_t w m1 i (add (w_c w i) p))) (alloc_of w)); [|reflexivity|pt].
    apply Hi; [pt|]. cbn [held with_t w_c]. rewrite setn_same. unfold add. cbn [t_nodes]. apply Permutation_sym, Permutation_cons_append.
  - unfold construct. rewrite Ea. eexists _, _, _. split; [reflexivity|apply same_t; exact I].
Qed.

Lemma handle_free : forall m hd al h j, inv (K := K) (V := V) m hd al -> hd (HH j) = (if h_ptr h =? 0 then [] else [h_ptr h]) -> al (HH j) = h_alloc h ->
  exists m1, h_destroy m h = Ok m1 /\ inv m1 (emptied hd (HH j)) al /\ (forall o q, o <> HH j -> In q (hd o) -> m_cell m1 q = m_cell m q).
Proof.
  intros m hd al h j I Hh Ha. unfold h_destroy. destruct (Z.eqb_spec (h_ptr h) 0) as [E|E].
  - unfold destroy. rewrite E. exists m. split; [reflexivity|]. split; [|reflexivity]. apply (g_ext _ _ _ _ _ I); [|reflexivity]. intros y. unfold emptied. destruct (holder_dec y (HH j)) as [->|]; [symmetry; exact Hh|reflexivity].
  - destruct (g_free m hd al (HH j) (h_ptr h) I ltac:(rewrite Hh; left; reflexivity)) as (m1 & E1 & Hs & Hi). rewrite Ha in E1. exists m1. split; [exact E1|]. split.
    + apply Hi; [intros y Hy; unfold emptied; destruct (holder_dec y (HH j)); [contradiction|reflexivity]|]. unfold emptied. destruct (holder_dec (HH j) (HH j)) as [_|N]; [|contradiction]. rewrite Hh. apply Permutation_refl.
    + intros o q Ho Hq. apply Hs. intros ->. apply Ho. apply (g_one _ _ _ I _ _ (h_ptr h) Hq). rewrite Hh. left. reflexivity.
Qed.
Lemma emptied_other : forall hd o y, y <> o -> emptied hd o y = hd y.
Proof. intros hd o y H. unfold emptied. destruct (holder_dec y o); [contradiction|reflexivity]. Qed.
Lemma emptied_same : forall hd o, emptied hd o o = [].
Proof. intros hd o. unfold emptied. destruct (holder_dec o o) as [_|N]; [reflexivity|contradiction]. Qed.

Lemma erase_all : forall (w : nworld) i, winv w ->
  exists m1, erase_nodes (w_m w) (w_c w i) = Ok (m1, mkt (t_alloc (w_c w i)) []) /\ inv m1 (emptied (held w) (HC i)) (alloc_of w).
Proof.
  intros w i I. destruct (g_free_all (t_nodes (w_c w i)) (w_m w) (held w) (alloc_of w) (HC i) I eq_refl) as (m1 & E & I1).
  exists m1. split; [|exact I1]. unfold erase_nodes. cbn [alloc_of] in E. rewrite E. reflexivity.
Qed.

Lemma transfer_ok : forall v l m hd al t i j kept, inv (K := K) (V := V) m hd al -> i <> j -> hd (HC i) = t_nodes t -> hd (HC j) = kept ++ l -> al (HC i) = t_alloc t -> al (HC j) = t_alloc t ->
  exists t' l', transfer keq v m t (t_alloc t) l = Ok (m, t', l') /\ t_alloc t' = t_alloc t /\
    inv m (fun o => if holder_dec o (HC i) then t_nodes t' else if holder_dec o (HC j) then kept ++ l' else hd o) al.
Proof.
  intros v. induction l as [|p l IH]; intros m hd al t i j kept I Hij Hi Hj Ai Aj; cbn [transfer].
  - exists t, []. split; [reflexivity|]. split; [reflexivity|]. apply (g_ext _ _ _ _ _ I); [|reflexivity]. intros o. destruct (holder_dec o (HC i)) as [->|]; [symmetry; exact Hi|]. destruct (holder_dec o (HC j)) as [->|]; [symmetry; exact Hj|reflexivity].
  - assert (Hp : In p (hd (HC j))) by (rewrite Hj; apply in_or_app; right; left; reflexivity).
    destruct (read_ok _ _ _ _ _ I Hp) as (k & x & Er). rewrite Er. cbn [bind fst]. destruct (find_ok keq _ _ _ (HC i) k I) as [Es|(a & q & b & Es & _)]; rewrite Hi in Es; rewrite Es; cbn [bind].
    + unfold construct_from. cbn [h_alloc h_ptr]. rewrite Z.eqb_refl. cbn [bind]. unfold h_destroy, destroy. cbn [h_ptr Z.eqb bind].
      pose (hd1 := fun o => if holder_dec o (HC i) then t_nodes t ++ [p] else if holder_dec o (HC j) then kept ++ l else hd o).
      assert (I1 : inv m hd1 al).
      { apply (g_move m hd al hd1 al (HC i) (HC j) (t_alloc t) I); unfold hd1.
        - congruence.
        - destruct (holder_dec (HC i) (HC i)) as [_|N]; [|contradiction]. destruct (holder_dec (HC j) (HC i)) as [E|_]; [congruence|]. destruct (holder_dec (HC j) (HC j)) as [_|N]; [|contradiction].
          rewrite Hi, Hj. rewrite <- app_assoc. apply Permutation_app_head. cbn [app]. apply Permutation_sym, Permutation_middle.
        - intros x0 N1 N2. destruct (holder_dec x0 (HC i)); [contradiction|]. destruct (holder_dec x0 (HC j)); [contradiction|]. auto.
        - auto.
        - auto.
        - auto.
        - auto. }
      destruct (IH m hd1 al (add t p) i j kept I1 Hij) as (t' & l' & E' & Ha' & I'); unfold hd1, add; cbn [t_nodes t_alloc].
      * destruct (holder_dec (HC i) (HC i)) as [_|N]; [reflexivity|contradiction].
      * destruct (holder_dec (HC j) (HC i)) as [E|_]; [congruence|]. destruct (holder_dec (HC j) (HC j)) as [_|N]; [reflexivity|contradiction].
      * exact Ai.
      * exact Aj.
      * exists t', l'. split; [exact E'|]. split; [exact Ha'|]. apply (g_ext _ _ _ _ _ I'); [|reflexivity]. intros o. unfold hd1. destruct (holder_dec o (HC i)); [reflexivity|]. destruct (holder_dec o (HC j)); reflexivity.
    + destruct (IH m hd al t i j (kept ++ [p]) I Hij Hi ltac:(rewrite <- app_assoc; exact Hj) Ai Aj) as (t' & l' & E' & Ha' & I'). rewrite E'. cbn [bind].
      exists t', (p :: l'). split; [reflexivity|]. split; [exact Ha'|]. apply (g_ext _ _ _ _ _ I'); [|reflexivity]. intros o. destruct (holder_dec o (HC i)); [reflexivity|]. destruct (holder_dec o (HC j)); [rewrite <- app_assoc|]; reflexivity.
Qed.

Lemma copy_ok : forall l m hd al a i acc, inv (K := K) (V := V) m hd al -> hd (HC i) = acc -> al (HC i) = a -> (forall p, In p l -> exists o, o <> HC i /\ In p (hd o)) ->
  exists m' acc', foldM (copy_step a) l (m, acc) = Ok (m', acc') /\ inv m' (fun o => if holder_dec o (HC i) then acc' else hd o) al.
Proof.
  induction l as [|p l IH]; intros m hd al a i acc I Hi Ai Hl; cbn [foldM].
  - exists m, acc. split; [reflexivity|]. apply (g_ext _ _ _ _ _ I); [|reflexivity]. intros o. destruct (holder_dec o (HC i)) as [->|]; [symmetry; exact Hi|reflexivity].
  - unfold copy_step at 1. destruct (Hl p (or_introl eq_refl)) as (o & No & Ho). destruct (read_ok _ _ _ _ _ I Ho) as (k & x & Er). rewrite Er. cbn [bind fst snd].
    destruct (g_new calm m hd al (HC i) k x I eq_refl eq_refl) as (m1 & q & Ec & _ & _ & _ & Hi1). rewrite Ai in Ec. rewrite Ec. cbn [bind].
    pose (hd1 := fun o => if holder_dec o (HC i) then acc ++ [q] else hd o).
    assert (I1 : inv m1 hd1 al). { apply Hi1; unfold hd1; [intros y Hy; destruct (holder_dec y (HC i)); [contradiction|reflexivity]|]. destruct (holder_dec (HC i) (HC i)) as [_|N]; [|contradiction]. rewrite Hi. apply Permutation_sym, Permutation_cons_append. }
    destruct (IH m1 hd1 al a i (acc ++ [q]) I1) as (m' & acc' & E' & I'); unfold hd1.
    + destruct (holder_dec (HC i) (HC i)) as [_|N]; [reflexivity|contradiction].
    + exact Ai.
    + intros p' Hp'. destruct (Hl p' (or_intror Hp')) as (o' & N' & H'). exists o'. split; [exact N'|]. destruct (holder_dec o' (HC i)); [contradiction|exact H'].
    + exists m', acc'. split; [exact E'|]. apply (g_ext _ _ _ _ _ I'); [|reflexivity]. intros o2. unfold hd1. destruct (holder_dec o2 (HC i)); reflexivity.
Qed.
End World.
