(** Proofs about allocations: which blocks are owned by which table. *)
From Coq Require Import ZArith List Bool Lia Permutation.
From Verif Require Import Base BufferModel.
Import ListNotations.
Open Scope Z_scope.

Lemma block_eqb_eq a b : block_eqb a b = true <-> a = b.
Proof.
  destruct a as [a k n], b as [a' k' n']. unfold block_eqb. cbn. rewrite !andb_true_iff, !Z.eqb_eq. split.
  - intros [[-> H] ->]. destruct k, k'; cbn in H; congruence.
  - intros [= -> -> ->]. repeat split; try reflexivity. destruct k'; reflexivity.
Qed.

Notation owned := (list (Z * block)).
Definition sane (L : ledger) : Prop := 0 < l_next L /\ forall p, l_next L <= p \/ p <= 0 -> l_live L p = None.
Definition holds (L : ledger) (l : owned) : Prop := NoDup (map fst l) /\ forall p b, In (p, b) l -> l_live L p = Some b.

(** From [L] to [L'] the holder of the blocks [l] has become the holder of [l'], and nobody
    else's blocks have changed. *)
Definition moves (L : ledger) (l : owned) (L' : ledger) (l' : owned) : Prop :=
  sane L' /\ holds L' l' /\ l_next L <= l_next L' /\
  (forall p, In p (map fst l') -> In p (map fst l) \/ l_next L <= p) /\
  (forall p, p < l_next L -> ~ In p (map fst l) -> l_live L' p = l_live L p) /\
  (forall p, In p (map fst l) \/ l_next L <= p -> ~ In p (map fst l') -> l_live L' p = None).

Lemma holds_bound L l p : sane L -> holds L l -> In p (map fst l) -> 0 < p < l_next L.
Proof.
  intros [_ S] [_ H] I. apply in_map_iff in I. destruct I as ([q b] & <- & I). cbn. specialize (H _ _ I).
  destruct (Z_lt_dec 0 q), (Z_lt_dec q (l_next L)); try lia; rewrite S in H by lia; discriminate.
Qed.

Lemma moves_refl L l : sane L -> holds L l -> moves L l L l.
Proof.
  intros S H. split; [exact S|split; [exact H|split; [lia|split; [auto|split; [auto|]]]]].
  intros p [I|I] J; [contradiction|]. apply (proj2 S). left. exact I.
Qed.
Lemma moves_trans L l L1 l1 L2 l2 : moves L l L1 l1 -> moves L1 l1 L2 l2 -> moves L l L2 l2.
Proof.
  intros (S1 & H1 & N1 & A1 & B1 & C1) (S2 & H2 & N2 & A2 & B2 & C2).
  split; [exact S2|split; [exact H2|split; [lia|split; [|split]]]].
  - intros p I. destruct (A2 p I) as [I'|I']; [destruct (A1 p I'); auto|right; lia].
  - intros p I J. assert (~ In p (map fst l1)) as K by (intros K; destruct (A1 p K); [contradiction|lia]).
    rewrite B2 by (assumption || lia). apply B1; assumption.
  - intros p I J. destruct (in_dec Z.eq_dec p (map fst l1)) as [K|K]; [apply C2; auto|].
    destruct (Z_lt_dec p (l_next L1)); [rewrite B2 by assumption; apply C1; assumption|apply C2; [right; lia|assumption]].
Qed.
Lemma moves_ext L l L' l' k k' : (forall x, In x k <-> In x l) -> NoDup (map fst k') -> (forall x, In x k' <-> In x l') -> moves L l L' l' -> moves L k L' k'.
Proof.
  intros E D E' (S & (HD & H) & N & A & B & C).
  assert (forall p, In p (map fst k) <-> In p (map fst l)) as F by (intros p; rewrite !in_map_iff; split; intros (x & Hx & I); exists x; split; auto; apply E; exact I).
  assert (forall p, In p (map fst k') <-> In p (map fst l')) as F' by (intros p; rewrite !in_map_iff; split; intros (x & Hx & I); exists x; split; auto; apply E'; exact I).
  split; [exact S|split; [split; [exact D|intros p b I; apply H, E', I]|split; [exact N|split; [|split]]]].
  - intros p I. rewrite F. apply A, F', I.
  - intros p I J. apply B; [exact I|]. rewrite <- F. exact J.
  - intros p I J. apply C; [rewrite <- F; exact I|rewrite <- F'; exact J].
Qed.

Lemma obtain_moves L o b l : sane L -> holds L l ->
  match obtain L o b with
  | (L1, o1, None) => L1 = L /\ exists r, o = false :: r
  | (L1, o1, Some p) => 0 < p /\ ~ In p (map fst l) /\ moves L l L1 ((p, b) :: l)
  end.
Proof.
  intros S H.
  assert (0 < l_next L /\ ~ In (l_next L) (map fst l) /\ moves L l (mkl (l_next L + 1) (upd (l_live L) (l_next L) (Some b))) ((l_next L, b) :: l)) as G.
  { destruct S as [Sp Sl]. assert (~ In (l_next L) (map fst l)) as F by (intros I; apply (holds_bound L l _ (conj Sp Sl) H) in I; lia).
    split; [exact Sp|split; [exact F|]]. unfold moves, sane, holds. cbn. split; [|split; [|split; [lia|split; [|split]]]].
    - split; [lia|]. intros p I. unfold upd. destruct (p =? l_next L) eqn:Ep; [lia|]. apply Sl. lia.
    - split; [constructor; [exact F|apply H]|]. intros p b' [[= <- <-]|I]; unfold upd; [rewrite Z.eqb_refl; reflexivity|].
      destruct (p =? l_next L) eqn:Ep; [|apply H; exact I]. apply Z.eqb_eq in Ep. subst p. exfalso. apply F. apply in_map_iff. exists (l_next L, b'). auto.
    - intros p [<-|I]; [right; lia|left; exact I].
    - intros p I J. unfold upd. destruct (p =? l_next L) eqn:Ep; [lia|reflexivity].
    - intros p I J. unfold upd. destruct (p =? l_next L) eqn:Ep; [exfalso; apply J; left; lia|].
      destruct I as [I|I]; [exfalso; apply J; right; exact I|]. apply Sl. lia. }
  unfold obtain. destruct o as [|[] r]; try exact G. split; [reflexivity|eauto].
Qed.

Section Back.
Variable strict : bool.
Lemma back_moves L p b l l' : sane L -> holds L ((p, b) :: l) -> l' = l -> exists L', give_back strict L p b = Ok L' /\ moves L ((p, b) :: l) L' l'.
Proof.
  intros S [D H] ->. assert (In p (map fst ((p, b) :: l))) as I by (left; reflexivity).
  pose proof (holds_bound L _ _ S (conj D H) I) as Bp.
  exists (mkl (l_next L) (upd (l_live L) p None)). split.
  - unfold give_back. destruct (p =? 0) eqn:Ep; [lia|]. rewrite (H p b) by (left; reflexivity).
    rewrite (proj2 (block_eqb_eq b b) eq_refl). reflexivity.
  - inversion D as [|? ? Np Nd]. subst. unfold moves, sane, holds. cbn. split; [|split; [|split; [lia|split; [|split]]]].
    + split; [apply S|]. intros q J. unfold upd. destruct (q =? p); [reflexivity|]. apply (proj2 S). exact J.
    + split; [exact Nd|]. intros q c J. unfold upd. destruct (q =? p) eqn:Eq.
      * exfalso. apply Z.eqb_eq in Eq. subst q. apply Np. apply in_map_iff. exists (p, c). auto.
      * apply H. right. exact J.
    + intros q J. left. right. exact J.
    + intros q J K. unfold upd. destruct (q =? p) eqn:Eq; [exfalso; apply K; left; lia|reflexivity].
    + intros q [[J|J]|J] K; unfold upd; destruct (q =? p) eqn:Eq; try reflexivity; try (exfalso; lia); [contradiction|].
      apply (proj2 S). left. exact J.
Qed.
End Back.

(** All tables together. *)
Definition books (L : ledger) (o : nat -> owned) : Prop :=
  sane L /\ (forall i, holds L (o i)) /\ (forall i j p, In p (map fst (o i)) -> In p (map fst (o j)) -> i = j) /\
  forall p, l_live L p <> None -> exists i, In p (map fst (o i)).

Lemma books_ext L o o' : books L o -> (forall i, o' i = o i) -> books L o'.
Proof.
  intros (S & H & U & C) E. split; [exact S|split; [intros i; rewrite E; apply H|split]].
  - intros i j p. rewrite !E. apply U.
  - intros p I. destruct (C p I) as [i Hi]. exists i. rewrite E. exact Hi.
Qed.
Lemma books_put L o i L' l' o' : books L o -> moves L (o i) L' l' -> o' i = l' -> (forall j, j <> i -> o' j = o j) -> books L' o'.
Proof.
  intros (S & H & U & C) (S' & H' & N & A & B & D) Ei Ej. split; [exact S'|].
  assert (forall j p, j <> i -> In p (map fst (o j)) -> p < l_next L /\ ~ In p (map fst (o i))) as F.
  { intros j p Hj I. split; [apply (holds_bound L (o j)); [exact S|apply H|exact I]|]. intros J. apply Hj. apply (U j i p I J). }
  split; [|split].
  - intros j. destruct (Nat.eq_dec j i) as [->|Hj]; [rewrite Ei; exact H'|]. rewrite Ej by exact Hj. split; [apply H|].
    intros p b I. assert (In p (map fst (o j))) as Ip by (apply in_map_iff; exists (p, b); auto).
    destruct (F j p Hj Ip) as [F1 F2]. rewrite B by assumption. apply H in I. exact I.
  - assert (forall j p, j <> i -> In p (map fst l') -> In p (map fst (o j)) -> False) as G.
    { intros j p Hj I J. destruct (F j p Hj J) as [F1 F2]. destruct (A p I); [contradiction|lia]. }
    intros j k p. destruct (Nat.eq_dec j i) as [->|Hj], (Nat.eq_dec k i) as [->|Hk]; try (intros; reflexivity).
    + rewrite Ei, Ej by exact Hk. intros I J. destruct (G k p Hk I J).
    + rewrite Ei, Ej by exact Hj. intros I J. destruct (G j p Hj J I).
    + rewrite !Ej by assumption. apply U.
  - intros p I. destruct (in_dec Z.eq_dec p (map fst l')) as [K|K]; [exists i; rewrite Ei; exact K|].
    destruct (in_dec Z.eq_dec p (map fst (o i))) as [J|J]; [exfalso; apply I; apply D; auto|].
    destruct (Z_lt_dec p (l_next L)) as [G|G]; [|exfalso; apply I; apply D; [right; lia|exact K]].
    rewrite B in I by assumption. destruct (C p I) as [j Hj]. exists j. rewrite Ej; [exact Hj|]. intros ->. contradiction.
Qed.
Lemma books_swap L o i j o' : books L o -> o' i = o j -> o' j = o i -> (forall k, k <> i -> k <> j -> o' k = o k) -> books L o'.
Proof.
  intros (S & H & U & C) Ei Ej Ek. set (f := fun k => if Nat.eqb k i then j else if Nat.eqb k j then i else k).
  assert (forall k, o' k = o (f k)) as E.
  { intros k. unfold f. destruct (Nat.eqb k i) eqn:E1; [apply Nat.eqb_eq in E1; subst; exact Ei|]. destruct (Nat.eqb k j) eqn:E2; [apply Nat.eqb_eq in E2; subst; exact Ej|].
    apply Ek; apply Nat.eqb_neq; assumption. }
  assert (forall k, f (f k) = k) as F.
  { intros k. unfold f. destruct (Nat.eqb k i) eqn:E1; [apply Nat.eqb_eq in E1; subst|].
    - destruct (Nat.eqb j i) eqn:E2; [apply Nat.eqb_eq in E2; exact E2|]. rewrite Nat.eqb_refl. reflexivity.
    - destruct (Nat.eqb k j) eqn:E2; [apply Nat.eqb_eq in E2; subst; rewrite Nat.eqb_refl; reflexivity|]. rewrite E1, E2. reflexivity. }
  split; [exact S|split; [intros k; rewrite E; apply H|split]].
  - intros a b p. rewrite !E. intros I J. rewrite <- (F a), <- (F b). f_equal. apply (U _ _ p); assumption.
  - intros p I. destruct (C p I) as [k Hk]. exists (f k). rewrite E, F. exact Hk.
Qed.

(** * Sparse tables *)
Lemma quiet_tl o : quiet o -> quiet (tl o).
Proof. destruct o as [|b o]; [auto|]. intros Q c I. apply Q. right. exact I. Qed.
Lemma obtain_quiet L o b : quiet o -> exists L1 p, obtain L o b = (L1, tl o, Some p).
Proof. intros Q. unfold obtain. destruct o as [|[] r]; [eauto|eauto|]. discriminate (Q false (or_introl eq_refl)). Qed.

Section Sep.
Variable wd : Z.
Definition sep_owned (t : sbuf) : owned :=
  if sb_meta t =? 0 then [] else [(sb_meta t, meta_block wd (sb_a t) (sb_cap t)); (sb_nodes t, node_block (sb_a t) (sb_cap t))].
Definition sep_shape (t : sbuf) : Prop := (sb_meta t = 0 /\ sb_nodes t = 0 /\ sb_cap t = 0) \/ (0 < sb_meta t /\ 0 < sb_nodes t /\ 0 < sb_cap t).

Lemma sep_null a : sep_owned (null_sbuf a) = [] /\ sep_shape (null_sbuf a).
Proof. split; [reflexivity|left; repeat split; reflexivity]. Qed.
Lemma sep_full t : sep_shape t -> sb_meta t <> 0 -> sep_owned t = [(sb_meta t, meta_block wd (sb_a t) (sb_cap t)); (sb_nodes t, node_block (sb_a t) (sb_cap t))].
Proof. intros _ H. unfold sep_owned. destruct (sb_meta t =? 0) eqn:E; [lia|reflexivity]. Qed.

Lemma sep_free L t r : sane L -> holds L (sep_owned t ++ r) -> sep_shape t ->
  exists L', (let* L1 := give_back false L (sb_meta t) (meta_block wd (sb_a t) (sb_cap t)) in give_back false L1 (sb_nodes t) (node_block (sb_a t) (sb_cap t))) = Ok L' /\
    moves L (sep_owned t ++ r) L' r.
Proof.
  intros S H [(E1 & E2 & E3)|(E1 & E2 & E3)].
  - exists L. unfold give_back at 1. rewrite E1. cbn [Z.eqb bind]. unfold give_back. rewrite E2. split; [reflexivity|].
    unfold sep_owned in *. rewrite E1 in *. apply moves_refl; assumption.
  - unfold sep_owned in *. destruct (sb_meta t =? 0) eqn:Em; [lia|]. cbn [app] in *.
    destruct (back_moves false L _ _ _ _ S H eq_refl) as (L1 & R1 & M1). rewrite R1. cbn [bind].
    destruct (back_moves false L1 _ _ _ _ (proj1 M1) (proj1 (proj2 M1)) eq_refl) as (L2 & R2 & M2). exists L2. split; [exact R2|]. eapply moves_trans; eassumption.
Qed.
Lemma sep_deallocate_ok L t : sane L -> holds L (sep_owned t) -> sep_shape t -> exists L', sep_deallocate false wd L t = Ok L' /\ moves L (sep_owned t) L' [].
Proof. intros S H Sh. rewrite <- (app_nil_r (sep_owned t)) in *. apply sep_free; assumption. Qed.
Lemma sep_allocate_ok L o t n l : sane L -> holds L l -> quiet o -> 0 < n ->
  exists L' t', sep_allocate wd L o t n = Ok (L', tl (tl o), t', true) /\ moves L l L' (sep_owned t' ++ l) /\ sep_shape t' /\ sb_a t' = sb_a t /\ sb_cap t' = n.
Proof.
  intros S H Q Hn. unfold sep_allocate.
  destruct (obtain_quiet L o (meta_block wd (sb_a t) n) Q) as (L1 & m & E1). pose proof (obtain_moves L o (meta_block wd (sb_a t) n) l S H) as M1. rewrite E1 in *.
  destruct M1 as (Pm & Fm & M1).
  destruct (obtain_quiet L1 (tl o) (node_block (sb_a t) n) (quiet_tl _ Q)) as (L2 & q & E2).
  pose proof (obtain_moves L1 (tl o) (node_block (sb_a t) n) _ (proj1 M1) (proj1 (proj2 M1))) as M2. rewrite E2 in *. destruct M2 as (Pq & Fq & M2).
  exists L2, (mksb (sb_a t) m q n). split; [reflexivity|split; [|split; [right; cbn; lia|split; reflexivity]]].
  unfold sep_owned. cbn [sb_meta sb_a sb_cap sb_nodes]. destruct (m =? 0) eqn:Em; [lia|]. cbn [app].
  eapply moves_ext; [reflexivity| | |eapply moves_trans; [exact M1|exact M2]].
  - pose proof (proj1 (proj1 (proj2 M2))) as D. cbn [map fst] in *. inversion D as [|? ? D1 D2]. inversion D2 as [|? ? D3 D4]. subst.
    constructor; [|constructor; [|assumption]]; cbn [In] in *; intuition.
  - intros x. cbn [In]. tauto.
Qed.
Lemma sep_reallocate_ok L o t n : sane L -> holds L (sep_owned t) -> sep_shape t -> quiet o ->
  exists L' o' t', sep_reallocate false wd L o t n = Ok (L', o', t', true) /\ moves L (sep_owned t) L' (sep_owned t') /\ sep_shape t' /\ sb_a t' = sb_a t.
Proof.
  intros S H Sh Q. unfold sep_reallocate. destruct (sb_cap t <? n) eqn:En.
  2: { exists L, o, t. split; [reflexivity|]. split; [apply moves_refl; assumption|auto]. }
  assert (0 < n) as Hn by (destruct Sh; lia).
  destruct (sb_cap t =? 0) eqn:Ec.
  - cbn [bind]. assert (sep_owned t = []) as E0 by (destruct Sh as [(E1 & _)|(_ & _ & E1)]; [unfold sep_owned; rewrite E1; reflexivity|lia]).
    rewrite E0 in *. destruct (sep_allocate_ok L o t n [] S H Q Hn) as (L' & t' & R & M & Sh' & Ea & _). exists L', (tl (tl o)), t'. rewrite app_nil_r in M. auto.
  - destruct (sep_free L t [] S) as (L1 & R1 & M1); [rewrite app_nil_r; exact H|exact Sh|]. rewrite app_nil_r in M1. rewrite R1. cbn [bind].
    destruct (sep_allocate_ok L1 o t n [] (proj1 M1) (proj1 (proj2 M1)) Q Hn) as (L' & t' & R & M & Sh' & Ea & _). exists L', (tl (tl o)), t'. rewrite app_nil_r in M.
    split; [exact R|]. split; [eapply moves_trans; eassumption|auto].
Qed.
Lemma sep_assign_ok prop L t b : sane L -> holds L (sep_owned t) -> sep_shape t ->
  exists L' t', sep_assign false wd prop L t b = Ok (L', t') /\ moves L (sep_owned t) L' (sep_owned t') /\ sep_shape t'.
Proof.
  intros S H Sh. unfold sep_assign. destruct prop.
  - destruct (sep_deallocate_ok L t S H Sh) as (L' & R & M). rewrite R. cbn [bind]. exists L', (null_sbuf b). split; [reflexivity|]. destruct (sep_null b) as [E1 E2]. rewrite E1. auto.
  - exists L, t. split; [reflexivity|]. split; [apply moves_refl; assumption|exact Sh].
Qed.
(** resize keeps the books whatever fails. *)
Lemma sep_resize_ok L o t n : sane L -> holds L (sep_owned t) -> sep_shape t -> 0 < n ->
  exists L' o' t' ok, sep_resize false wd L o t n = Ok (L', o', t', ok) /\ moves L (sep_owned t) L' (sep_owned t') /\ sep_shape t' /\ sb_a t' = sb_a t /\ sb_cap t' = (if ok then n else sb_cap t).
Proof.
  intros S H Sh Hn. unfold sep_resize.
  pose proof (obtain_moves L o (meta_block wd (sb_a t) n) _ S H) as M1. destruct (obtain L o (meta_block wd (sb_a t) n)) as [[L1 o1] [m|]].
  2: { destruct M1 as [-> _]. exists L, o1, t, false. split; [reflexivity|]. split; [apply moves_refl; assumption|auto]. }
  destruct M1 as (Pm & Fm & M1).
  pose proof (obtain_moves L1 o1 (node_block (sb_a t) n) _ (proj1 M1) (proj1 (proj2 M1))) as M2. destruct (obtain L1 o1 (node_block (sb_a t) n)) as [[L2 o2] [q|]].
  - destruct M2 as (Pq & Fq & M2). pose proof (moves_trans _ _ _ _ _ _ M1 M2) as M.
    set (t' := mksb (sb_a t) m q n).
    assert (moves L (sep_owned t) L2 (sep_owned t ++ sep_owned t')) as M'.
    { eapply moves_ext; [reflexivity| | |exact M].
      - pose proof (proj1 (proj1 (proj2 M2))) as D. rewrite map_app. unfold t'. unfold sep_owned at 2. cbn [sb_meta sb_nodes sb_a sb_cap]. destruct (m =? 0) eqn:Em; [lia|].
        eapply Permutation_NoDup; [|exact D]. cbn [map fst]. eapply perm_trans; [apply perm_swap|]. apply (Permutation_app_comm [m; q]).
      - intros x. rewrite in_app_iff. unfold t'. unfold sep_owned at 2. cbn [sb_meta sb_nodes sb_a sb_cap]. destruct (m =? 0) eqn:Em; [lia|]. cbn [In]. tauto. }
    destruct (n =? 0) eqn:E0; [lia|].
    destruct (sep_free L2 t (sep_owned t') (proj1 M') (proj1 (proj2 M')) Sh) as (L3 & R3 & M3). rewrite R3. cbn [bind].
    exists L3, o2, t', true. split; [reflexivity|]. split; [eapply moves_trans; eassumption|]. split; [right; cbn; lia|split; reflexivity].
  - destruct M2 as [-> _]. destruct (back_moves false L1 m _ (sep_owned t) _ (proj1 M1) (proj1 (proj2 M1)) eq_refl) as (L3 & R3 & M3). rewrite R3. cbn [bind].
    exists L3, o2, t, false. split; [reflexivity|]. split; [eapply moves_trans; eassumption|auto].
Qed.
End Sep.

Section Com.
Variables wd sz : Z.
Definition com_owned (t : sbuf) : owned := if sb_nodes t =? 0 then [] else [(sb_nodes t, com_block wd sz (sb_a t) (sb_cap t))].
Definition com_shape (t : sbuf) : Prop := (sb_nodes t = 0 /\ sb_cap t = 0) \/ (0 < sb_nodes t /\ 0 < sb_cap t).

Lemma com_null a : com_owned (null_sbuf a) = [] /\ com_shape (null_sbuf a).
Proof. split; [reflexivity|left; repeat split; reflexivity]. Qed.
Lemma com_free L t r : sane L -> holds L (com_owned t ++ r) -> com_shape t ->
  exists L', give_back false L (sb_nodes t) (com_block wd sz (sb_a t) (sb_cap t)) = Ok L' /\ moves L (com_owned t ++ r) L' r.
Proof.
  intros S H [(E1 & E2)|(E1 & E2)].
  - exists L. unfold give_back. rewrite E1. split; [reflexivity|]. unfold com_owned in *. rewrite E1 in *. apply moves_refl; assumption.
  - unfold com_owned in *. destruct (sb_nodes t =? 0) eqn:Em; [lia|]. cbn [app] in *. apply back_moves; auto.
Qed.
Lemma com_allocate_ok L o t n l : sane L -> holds L l -> quiet o -> 0 < n ->
  exists L' t', com_allocate wd sz L o t n = Ok (L', tl o, t', true) /\ moves L l L' (com_owned t' ++ l) /\ com_shape t' /\ sb_a t' = sb_a t /\ sb_cap t' = n.
Proof.
  intros S H Q Hn. unfold com_allocate.
  destruct (obtain_quiet L o (com_block wd sz (sb_a t) n) Q) as (L1 & m & E1). pose proof (obtain_moves L o (com_block wd sz (sb_a t) n) l S H) as M1. rewrite E1 in *.
  destruct M1 as (Pm & Fm & M1). exists L1, (mksb (sb_a t) 0 m n). split; [reflexivity|split; [|split; [right; cbn; lia|split; reflexivity]]].
  unfold com_owned. cbn [sb_a sb_cap sb_nodes]. destruct (m =? 0) eqn:Em; [lia|]. exact M1.
Qed.
Lemma com_reallocate_ok L o t n : sane L -> holds L (com_owned t) -> com_shape t -> quiet o ->
  exists L' o' t', com_reallocate false wd sz L o t n = Ok (L', o', t', true) /\ moves L (com_owned t) L' (com_owned t') /\ com_shape t' /\ sb_a t' = sb_a t.
Proof.
  intros S H Sh Q. unfold com_reallocate. destruct (sb_cap t <? n) eqn:En.
  2: { exists L, o, t. split; [reflexivity|]. split; [apply moves_refl; assumption|auto]. }
  assert (0 < n) as Hn by (destruct Sh; lia).
  destruct (sb_cap t =? 0) eqn:Ec.
  - cbn [bind]. assert (com_owned t = []) as E0 by (destruct Sh as [(E1 & _)|(_ & E1)]; [unfold com_owned; rewrite E1; reflexivity|lia]).
    rewrite E0 in *. destruct (com_allocate_ok L o t n [] S H Q Hn) as (L' & t' & R & M & Sh' & Ea & _). exists L', (tl o), t'. rewrite app_nil_r in M. auto.
  - destruct (com_free L t [] S) as (L1 & R1 & M1); [rewrite app_nil_r; exact H|exact Sh|]. rewrite app_nil_r in M1. rewrite R1. cbn [bind].
    destruct (com_allocate_ok L1 o t n [] (proj1 M1) (proj1 (proj2 M1)) Q Hn) as (L' & t' & R & M & Sh' & Ea & _). exists L', (tl o), t'. rewrite app_nil_r in M.
    split; [exact R|]. split; [eapply moves_trans; eassumption|auto].
Qed.
Lemma com_resize_ok L o t n : sane L -> holds L (com_owned t) -> com_shape t -> 0 < n ->
  exists L' o' t' ok, com_resize false wd sz L o t n = Ok (L', o', t', ok) /\ moves L (com_owned t) L' (com_owned t') /\ com_shape t' /\ sb_a t' = sb_a t /\ sb_cap t' = (if ok then n else sb_cap t).
Proof.
  intros S H Sh Hn. unfold com_resize.
  pose proof (obtain_moves L o (com_block wd sz (sb_a t) n) _ S H) as M1. destruct (obtain L o (com_block wd sz (sb_a t) n)) as [[L1 o1] [m|]].
  2: { destruct M1 as [-> _]. exists L, o1, t, false. split; [reflexivity|]. split; [apply moves_refl; assumption|auto]. }
  destruct M1 as (Pm & Fm & M1). set (t' := mksb (sb_a t) 0 m n).
  assert (com_owned t' = [(m, com_block wd sz (sb_a t) n)]) as Eo by (unfold com_owned, t'; cbn; destruct (m =? 0) eqn:Em; [lia|reflexivity]).
  assert (moves L (com_owned t) L1 (com_owned t ++ com_owned t')) as M'.
  { eapply moves_ext; [reflexivity| | |exact M1].
    - pose proof (proj1 (proj1 (proj2 M1))) as D. rewrite map_app, Eo. eapply Permutation_NoDup; [|exact D]. cbn [map fst]. apply Permutation_cons_append.
    - intros x. rewrite in_app_iff, Eo. cbn [In]. tauto. }
  destruct (com_free L1 t (com_owned t') (proj1 M') (proj1 (proj2 M')) Sh) as (L3 & R3 & M3). rewrite R3. cbn [bind].
  exists L3, o1, t', true. split; [reflexivity|]. split; [eapply moves_trans; eassumption|]. split; [right; cbn; lia|split; reflexivity].
Qed.
End Com.

Section Swiss.
Variables (wd sz : Z) (combined pocca pocma : bool).
Definition st_owned (t : sbuf) : owned := if combined then com_owned wd sz t else sep_owned wd t.
Definition st_shape (t : sbuf) : Prop := if combined then com_shape t else sep_shape t.
Definition sw_owned (o : option stab) : owned := match o with Some t => st_owned (st_b t) | None => [] end.

Lemma st_null a : st_owned (null_sbuf a) = [] /\ st_shape (null_sbuf a).
Proof. unfold st_owned, st_shape. destruct combined; [apply com_null|apply sep_null]. Qed.
Lemma st_deallocate L t : sane L -> holds L (st_owned t) -> st_shape t ->
  exists L', (if combined then com_deallocate false wd sz else sep_deallocate false wd) L t = Ok L' /\ moves L (st_owned t) L' [].
Proof.
  unfold st_owned, st_shape. destruct combined; [|apply sep_deallocate_ok]. intros S H Sh. unfold com_deallocate. rewrite <- (app_nil_r (com_owned wd sz t)) in *. apply com_free; assumption.
Qed.
Lemma st_allocate L o t n l : sane L -> holds L l -> quiet o -> 0 < n ->
  exists L' o' t', (if combined then com_allocate wd sz else sep_allocate wd) L o t n = Ok (L', o', t', true) /\ moves L l L' (st_owned t' ++ l) /\ st_shape t' /\ sb_a t' = sb_a t /\ sb_cap t' = n.
Proof.
  unfold st_owned, st_shape. intros S H Q Hn. destruct combined.
  - destruct (com_allocate_ok wd sz L o t n l S H Q Hn) as (L' & t' & R). exists L', (tl o), t'. exact R.
  - destruct (sep_allocate_ok wd L o t n l S H Q Hn) as (L' & t' & R). exists L', (tl (tl o)), t'. exact R.
Qed.
Lemma st_reallocate L o t n : sane L -> holds L (st_owned t) -> st_shape t -> quiet o ->
  exists L' o' t', (if combined then com_reallocate false wd sz else sep_reallocate false wd) L o t n = Ok (L', o', t', true) /\ moves L (st_owned t) L' (st_owned t') /\ st_shape t' /\ sb_a t' = sb_a t.
Proof. unfold st_owned, st_shape. destruct combined; [apply com_reallocate_ok|apply sep_reallocate_ok]. Qed.
Lemma st_resize L o t n : sane L -> holds L (st_owned t) -> st_shape t -> 0 < n ->
  exists L' o' t' ok, (if combined then com_resize false wd sz else sep_resize false wd) L o t n = Ok (L', o', t', ok) /\ moves L (st_owned t) L' (st_owned t') /\ st_shape t' /\
    sb_a t' = sb_a t /\ sb_cap t' = (if ok then n else sb_cap t).
Proof. unfold st_owned, st_shape. destruct combined; [apply com_resize_ok|apply sep_resize_ok]. Qed.
Lemma st_assign prop L t b : (combined = true -> prop = false) -> sane L -> holds L (st_owned t) -> st_shape t ->
  exists L' t', (if combined then com_assign false else sep_assign false wd) prop L t b = Ok (L', t') /\ moves L (st_owned t) L' (st_owned t') /\ st_shape t'.
Proof.
  unfold st_owned, st_shape. intros P S H Sh. destruct combined; [|apply sep_assign_ok; assumption].
  rewrite P by reflexivity. exists L, t. split; [reflexivity|]. split; [apply moves_refl; assumption|exact Sh].
Qed.
Lemma st_copy_data v L t u : quiet (te_alloc v) -> te_ctor v = true -> sane L -> holds L (st_owned (st_b t)) -> st_shape (st_b t) ->
  exists L' o' t', swiss_copy_data false wd sz combined v L t u = Ok (L', o', t', true) /\ moves L (st_owned (st_b t)) L' (st_owned (st_b t')) /\ st_shape (st_b t').
Proof.
  intros Q C S H Sh. unfold swiss_copy_data. destruct (st_size u =? 0).
  - exists L, (te_alloc v), (mkst (st_b t) 0). split; [reflexivity|]. split; [apply moves_refl; assumption|exact Sh].
  - destruct (st_reallocate L (te_alloc v) (st_b t) (sb_cap (st_b u)) S H Sh Q) as (L' & o' & b & R & M & Sh' & _).
    rewrite R. cbn [bind]. rewrite C. cbn [andb]. exists L', o', (mkst b (st_size u)). auto.
Qed.

(** The tables own the outstanding blocks. *)
Definition sw_books (w : tworld stab) : Prop :=
  books (tw_l w) (fun i => sw_owned (tw_t w i)) /\ forall i t, tw_t w i = Some t -> st_shape (st_b t).
Lemma putt_eq {T} (t : nat -> option T) i x : putt t i x i = x.
Proof. unfold putt. rewrite Nat.eqb_refl. reflexivity. Qed.
Lemma putt_ne {T} (t : nat -> option T) i j x : j <> i -> putt t i x j = t j.
Proof. intros H. unfold putt. destruct (Nat.eqb j i) eqn:E; [apply Nat.eqb_eq in E; contradiction|reflexivity]. Qed.

Lemma put_books w L' i x : sw_books w -> moves (tw_l w) (sw_owned (tw_t w i)) L' (sw_owned x) -> (forall t, x = Some t -> st_shape (st_b t)) -> sw_books (mktw L' (putt (tw_t w) i x)).
Proof.
  intros [B Sh] M Hx. split; cbn.
  - apply (books_put _ _ i _ _ _ B M); [rewrite putt_eq; reflexivity|]. intros j Hj. rewrite putt_ne by exact Hj. reflexivity.
  - intros j t. destruct (Nat.eq_dec j i) as [->|Hj]; [rewrite putt_eq; apply Hx|rewrite putt_ne by exact Hj; apply Sh].
Qed.
Lemma same_books w i j x : sw_books w -> sw_owned x = sw_owned (tw_t w i) -> (forall t, x = Some t -> st_shape (st_b t)) -> j = i -> sw_books (mktw (tw_l w) (putt (tw_t w) j x)).
Proof.
  intros B E Hx ->. apply put_books; [exact B| |exact Hx]. rewrite E. apply moves_refl; apply B.
Qed.
Lemma swap_books w i j x y : sw_books w -> i <> j -> sw_owned x = sw_owned (tw_t w j) -> sw_owned y = sw_owned (tw_t w i) ->
  (forall t, x = Some t -> st_shape (st_b t)) -> (forall t, y = Some t -> st_shape (st_b t)) -> sw_books (mktw (tw_l w) (putt (putt (tw_t w) i x) j y)).
Proof.
  intros [B Sh] Hij Ex Ey Hx Hy. split; cbn.
  - apply (books_swap _ _ i j _ B).
    + rewrite putt_ne by exact Hij. rewrite putt_eq. exact Ex.
    + rewrite putt_eq. exact Ey.
    + intros k Hi Hj. rewrite !putt_ne by assumption. reflexivity.
  - intros k t. destruct (Nat.eq_dec k j) as [->|Hj]; [rewrite putt_eq; apply Hy|]. rewrite putt_ne by exact Hj.
    destruct (Nat.eq_dec k i) as [->|Hi]; [rewrite putt_eq; apply Hx|rewrite putt_ne by exact Hi; apply Sh].
Qed.
Lemma sw_own w i t : sw_books w -> tw_t w i = Some t -> sane (tw_l w) /\ holds (tw_l w) (st_owned (st_b t)) /\ st_shape (st_b t).
Proof.
  intros [(S & H & _) Sh] E. split; [exact S|]. split; [|apply (Sh _ _ E)]. specialize (H i). cbn in H. rewrite E in H. exact H.
Qed.

Hypothesis Hcopy : combined = true -> pocca = false.
Hypothesis Hmove : combined = true -> pocma = false.

Lemma swiss_step v w c : sw_books w -> swiss_fine (v, c) -> exists w' ok, swiss_exec false wd sz combined pocca pocma v w c = Ok (w', ok) /\ sw_books w'.
Proof.
  intros B F. pose proof (proj1 (proj1 B)) as S.
  destruct c as [i a|i a n|i j a|i j a|i j|i j|i n|i n|i n|i j|i]; unfold swiss_exec.
  - destruct (tw_t w i) as [t|] eqn:Ei; [eauto|]. do 2 eexists. split; [reflexivity|].
    apply (same_books w i); [exact B| | |reflexivity]; [rewrite Ei; cbn; apply st_null|]. intros t [= <-]. apply st_null.
  - destruct (tw_t w i) as [t|] eqn:Ei; [eauto|]. destruct (negb _) eqn:En; [eauto|].
    destruct F as [Hn Q]. cbn in Hn, Q. assert (0 < n) as Pn by lia.
    destruct (st_allocate (tw_l w) (te_alloc v) (null_sbuf a) n [] S) as (L' & o' & t' & R & M & Sh & _); [split; [constructor|contradiction]|exact Q|exact Pn|].
    rewrite R. cbn [bind]. do 2 eexists. split; [reflexivity|]. rewrite app_nil_r in M. apply put_books; [exact B| |].
    + rewrite Ei. exact M.
    + intros t [= <-]. exact Sh.
  - destruct (tw_t w i) as [t|] eqn:Ei; [eauto|]. destruct (tw_t w j) as [u|] eqn:Ej; [|eauto]. destruct F as [Q C]. cbn in Q, C.
    destruct (st_null a) as [N1 N2].
    destruct (st_copy_data v (tw_l w) (mkst (null_sbuf a) 0) u Q C S) as (L' & o' & t' & R & M & Sh); [cbn; rewrite N1; split; [constructor|contradiction]|exact N2|].
    rewrite R. cbn [bind]. do 2 eexists. split; [reflexivity|]. apply put_books; [exact B| |].
    + rewrite Ei. cbn [st_b] in M. rewrite N1 in M. exact M.
    + intros t [= <-]. exact Sh.
  - destruct (tw_t w i) as [t|] eqn:Ei; [eauto|]. destruct (tw_t w j) as [u|] eqn:Ej; [|eauto]. destruct F as [Q C]. cbn in Q, C.
    assert (i <> j) as Hij by (intros ->; congruence). destruct (st_null a) as [N1 N2]. destruct (sw_own w j u B Ej) as (_ & Hu & Shu).
    destruct (a =? sb_a (st_b u)).
    + do 2 eexists. split; [reflexivity|]. apply swap_books; [exact B|exact Hij| | | |].
      * rewrite Ej. reflexivity.
      * rewrite Ei. exact N1.
      * intros t [= <-]. exact Shu.
      * intros t [= <-]. exact N2.
    + destruct (st_copy_data v (tw_l w) (mkst (null_sbuf a) 0) u Q C S) as (L' & o' & t' & R & M & Sh); [cbn; rewrite N1; split; [constructor|contradiction]|exact N2|].
      rewrite R. cbn [bind]. do 2 eexists. split; [reflexivity|]. cbn [st_b] in M. rewrite N1 in M.
      assert (sw_books (mktw L' (putt (tw_t w) i (Some t')))) as B1 by (apply put_books; [exact B|rewrite Ei; exact M|intros t [= <-]; exact Sh]).
      apply (same_books (mktw L' (putt (tw_t w) i (Some t'))) j j); [exact B1| | |reflexivity]; cbn.
      * rewrite putt_ne by auto. rewrite Ej. reflexivity.
      * intros t [= <-]. exact Shu.
  - destruct (tw_t w i) as [t|] eqn:Ei; [|eauto]. destruct (tw_t w j) as [u|] eqn:Ej; [|eauto]. destruct F as [Q C]. cbn in Q, C.
    destruct (Nat.eqb i j) eqn:Eij; [eauto|]. destruct (sw_own w i t B Ei) as (_ & Ht & Sht).
    destruct (st_assign pocca (tw_l w) (st_b t) (sb_a (st_b u)) Hcopy S Ht Sht) as (L1 & b & R1 & M1 & Sh1). rewrite R1. cbn [bind].
    destruct (st_copy_data v L1 (mkst b 0) u Q C (proj1 M1) (proj1 (proj2 M1)) Sh1) as (L' & o' & t' & R & M & Sh). rewrite R. cbn [bind].
    do 2 eexists. split; [reflexivity|]. apply put_books; [exact B| |intros ? [= <-]; exact Sh]. rewrite Ei. eapply moves_trans; [exact M1|exact M].
  - destruct (tw_t w i) as [t|] eqn:Ei; [|eauto]. destruct (tw_t w j) as [u|] eqn:Ej; [|eauto]. destruct F as [Q C]. cbn in Q, C.
    destruct (Nat.eqb i j) eqn:Eij; [eauto|]. apply Nat.eqb_neq in Eij. destruct (sw_own w i t B Ei) as (_ & Ht & Sht). destruct (sw_own w j u B Ej) as (_ & Hu & Shu).
    destruct (st_assign pocma (tw_l w) (st_b t) (sb_a (st_b u)) Hmove S Ht Sht) as (L1 & b & R1 & M1 & Sh1). rewrite R1. cbn [bind].
    assert (sw_books (mktw L1 (putt (tw_t w) i (Some (mkst b 0))))) as B1 by (apply put_books; [exact B|rewrite Ei; exact M1|intros ? [= <-]; exact Sh1]).
    destruct (sb_a b =? sb_a (st_b u)).
    + do 2 eexists. split; [reflexivity|].
      pose proof (swap_books _ i j (Some u) (Some (mkst b 0)) B1 Eij) as G. cbn [tw_t tw_l] in G. rewrite putt_eq in G. rewrite putt_ne in G by auto. rewrite Ej in G.
      specialize (G eq_refl eq_refl). destruct G as [G1 G2]; [intros ? [= <-]; exact Shu|intros ? [= <-]; exact Sh1|].
      split; [apply (books_ext _ _ _ G1)|]; cbn [tw_l tw_t] in *.
      * intros k. destruct (Nat.eq_dec k j) as [->|Hj]; [rewrite !putt_eq; reflexivity|]. rewrite !(putt_ne _ j) by exact Hj.
        destruct (Nat.eq_dec k i) as [->|Hi]; [rewrite !putt_eq; reflexivity|]. rewrite !putt_ne by exact Hi. reflexivity.
      * intros k t'. specialize (G2 k t'). cbn in G2. destruct (Nat.eq_dec k j) as [->|Hj]; [rewrite !putt_eq in *; exact G2|]. rewrite !(putt_ne _ j) in * by exact Hj.
        destruct (Nat.eq_dec k i) as [->|Hi]; [rewrite !putt_eq in *; exact G2|]. rewrite !putt_ne in * by exact Hi. exact G2.
    + destruct (st_copy_data v L1 (mkst b 0) u Q C (proj1 M1) (proj1 (proj2 M1)) Sh1) as (L' & o' & t' & R & M & Sh). rewrite R. cbn [bind].
      do 2 eexists. split; [reflexivity|].
      assert (sw_books (mktw L' (putt (tw_t w) i (Some t')))) as B2.
      { apply put_books; [exact B| |intros ? [= <-]; exact Sh]. rewrite Ei. eapply moves_trans; [exact M1|exact M]. }
      apply (same_books (mktw L' (putt (tw_t w) i (Some t'))) j j); [exact B2| | |reflexivity]; cbn.
      * rewrite putt_ne by auto. rewrite Ej. reflexivity.
      * intros ? [= <-]. exact Shu.
  - destruct (tw_t w i) as [t|] eqn:Ei; [|eauto]. destruct (_ || _) eqn:En; [eauto|]. destruct (sw_own w i t B Ei) as (_ & Ht & Sht).
    destruct (st_resize (tw_l w) (te_alloc v) (st_b t) n S Ht Sht) as (L' & o' & b & ok & R & M & Sh & _); [lia|]. rewrite R. cbn [bind].
    do 2 eexists. split; [reflexivity|]. apply put_books; [exact B|rewrite Ei; exact M|intros ? [= <-]; exact Sh].
  - eauto.
  - destruct (tw_t w i) as [t|] eqn:Ei; [|eauto]. destruct (_ && _); [|eauto]. do 2 eexists. split; [reflexivity|].
    destruct (sw_own w i t B Ei) as (_ & Ht & Sht). apply (same_books w i); [exact B|rewrite Ei; reflexivity|intros ? [= <-]; exact Sht|reflexivity].
  - destruct (tw_t w i) as [t|] eqn:Ei; [|eauto]. destruct (tw_t w j) as [u|] eqn:Ej; [|eauto]. destruct (_ =? _); [|eauto]. do 2 eexists. split; [reflexivity|].
    destruct (sw_own w i t B Ei) as (_ & Ht & Sht). destruct (sw_own w j u B Ej) as (_ & Hu & Shu).
    destruct (Nat.eq_dec i j) as [->|Hij].
    + assert (u = t) as -> by congruence. pose proof (same_books w j j (Some t) B) as G. rewrite Ej in G. specialize (G eq_refl ltac:(intros ? [= <-]; exact Sht) eq_refl).
      destruct G as [G1 G2]. split; [apply (books_ext _ _ _ G1)|]; cbn [tw_l tw_t] in *.
      * intros k. unfold putt. destruct (Nat.eqb k j); reflexivity.
      * intros k t'. specialize (G2 k t'). cbn in G2. revert G2. unfold putt. destruct (Nat.eqb k j); auto.
    + apply swap_books; [exact B|exact Hij|rewrite Ej; reflexivity|rewrite Ei; reflexivity|intros ? [= <-]; exact Shu|intros ? [= <-]; exact Sht].
  - destruct (tw_t w i) as [t|] eqn:Ei; [|eauto]. destruct (sw_own w i t B Ei) as (_ & Ht & Sht).
    destruct (st_deallocate (tw_l w) (st_b t) S Ht Sht) as (L' & R & M). rewrite R. cbn [bind].
    do 2 eexists. split; [reflexivity|]. apply put_books; [exact B|rewrite Ei; exact M|discriminate].
Qed.

Theorem swiss_run w h : sw_books w -> Forall swiss_fine h -> exists w', swiss_allocs false wd sz combined pocca pocma w h = Ok w' /\ sw_books w'.
Proof.
  revert w. induction h as [|[v c] h IH]; intros w B F; [exists w; auto|]. inversion F as [|? ? F1 F2]. subst.
  destruct (swiss_step v w c B F1) as (w1 & ok & R & B1). cbn [swiss_allocs]. rewrite R. cbn [bind fst]. apply IH; assumption.
Qed.
End Swiss.

Lemma books_nothing : books no_blocks (fun _ => []).
Proof.
  split; [split; [cbn; lia|reflexivity]|]. split; [intros i; split; [constructor|contradiction]|]. split; [contradiction|]. intros p H. destruct (H eq_refl).
Qed.
(** Once no table is alive, nothing is outstanding. *)
Theorem swiss_ledger wd sz combined pocca pocma h : (combined = true -> pocca = false /\ pocma = false) -> Forall swiss_fine h ->
  exists w, swiss_allocs false wd sz combined pocca pocma nothing h = Ok w /\ ((forall i, tw_t w i = None) -> forall p, l_live (tw_l w) p = None).
Proof.
  intros P F. destruct (swiss_run wd sz combined pocca pocma (fun e => proj1 (P e)) (fun e => proj2 (P e)) nothing h) as (w & R & B & _).
  - split; [exact books_nothing|discriminate].
  - exact F.
  - exists w. split; [exact R|]. intros N p. destruct (l_live (tw_l w) p) eqn:E; [|reflexivity].
    destruct B as (_ & _ & _ & C). destruct (C p) as [i Hi]; [rewrite E; discriminate|]. rewrite N in Hi. destruct Hi.
Qed.

(** The assignments of the combined buffer with a propagating allocator: never the count that
    was allocated. *)
Lemma buffer_size_more wd sz n : 0 < wd -> 0 < sz -> 0 <= n -> n < buffer_size wd sz n.
Proof.
  intros Hw Hs Hn. unfold buffer_size, nodes_start. pose proof (Z.div_pos (n + wd) sz ltac:(lia) Hs) as P.
  destruct ((n + wd) mod sz =? 0) eqn:E; [|lia].
  assert (0 < (n + wd) / sz); [|lia]. apply Z.eqb_eq in E. pose proof (Z.div_mod (n + wd) sz ltac:(lia)) as D. nia.
Qed.
Theorem combined_wrong wd sz L t b : 0 < wd -> 0 < sz -> 0 <= sb_cap t -> sb_nodes t <> 0 -> l_live L (sb_nodes t) = Some (com_block wd sz (sb_a t) (sb_cap t)) ->
  com_assign false true L t b = Err BadFree.
Proof.
  intros Hw Hs Hc Hn E. unfold com_assign, give_back. destruct (sb_nodes t =? 0) eqn:E0; [lia|]. rewrite E.
  destruct (block_eqb _ _) eqn:Eb; [|reflexivity]. apply block_eqb_eq in Eb. unfold com_block, node_block in Eb. injection Eb as Eb.
  pose proof (buffer_size_more wd sz (sb_cap t) Hw Hs Hc). lia.
Qed.

(** * Dense tables *)
Section Dense.
Variables (pocca pocma : bool).
Definition elems_owned (t : dtab) : owned := if dt_elems t =? 0 then [] else [(dt_elems t, elem_block (dt_a t) (dt_ecap t))].
Definition bucks_owned (t : dtab) : owned := if dt_bucks t =? 0 then [] else [(dt_bucks t, buck_block (dt_a t) (dt_bcap t))].
Definition dt_owned (t : dtab) : owned := elems_owned t ++ bucks_owned t.
Definition dn_owned (o : option dtab) : owned := match o with Some t => dt_owned t | None => [] end.

Definition opt_owned (p : Z) (b : block) : owned := if p =? 0 then [] else [(p, b)].
Lemma opt_back L p b r : sane L -> holds L (opt_owned p b ++ r) ->
  exists L', (if p =? 0 then Ok L else give_back false L p b) = Ok L' /\ give_back false L p b = Ok L' /\ moves L (opt_owned p b ++ r) L' r.
Proof.
  intros S H. unfold opt_owned in *. destruct (p =? 0) eqn:E.
  - exists L. unfold give_back. rewrite E. split; [reflexivity|]. split; [reflexivity|]. apply moves_refl; assumption.
  - cbn [app] in *. destruct (back_moves false L p b r r S H eq_refl) as (L' & R & M). exists L'. auto.
Qed.
Lemma opt_back_r L p b r : sane L -> holds L (r ++ opt_owned p b) ->
  exists L', (if p =? 0 then Ok L else give_back false L p b) = Ok L' /\ give_back false L p b = Ok L' /\ moves L (r ++ opt_owned p b) L' r.
Proof.
  intros S H. assert (Permutation (r ++ opt_owned p b) (opt_owned p b ++ r)) as P by apply Permutation_app_comm.
  destruct (opt_back L p b r S) as (L' & R1 & R2 & M).
  - destruct H as [D H]. split; [eapply Permutation_NoDup; [apply Permutation_map; exact P|exact D]|]. intros q c I. apply H. eapply Permutation_in; [symmetry; exact P|exact I].
  - exists L'. split; [exact R1|split; [exact R2|]]. eapply moves_ext; [|apply (proj1 (proj1 (proj2 M)))|reflexivity|exact M].
    intros x. split; apply Permutation_in; [exact P|symmetry; exact P].
Qed.
(** realloc_buffer on one of the two arrays. *)
Lemma realloc_ok k a L o p n m r : sane L -> holds L (opt_owned p (mkb a k n) ++ r) -> quiet o -> exists L' p' n',
  (realloc_buffer false k a L o p n m = Ok (L', o, (p', n'), true) \/ realloc_buffer false k a L o p n m = Ok (L', tl o, (p', n'), true)) /\
  moves L (opt_owned p (mkb a k n) ++ r) L' (opt_owned p' (mkb a k n') ++ r).
Proof.
  intros S H Q. unfold realloc_buffer. destruct (n <? m).
  - destruct (opt_back L p (mkb a k n) r S H) as (L1 & R1 & _ & M1). rewrite R1. cbn [bind].
    destruct (obtain_quiet L1 o (mkb a k m) Q) as (L2 & q & E2). pose proof (obtain_moves L1 o (mkb a k m) r (proj1 M1) (proj1 (proj2 M1))) as M2. rewrite E2 in *.
    destruct M2 as (Pq & _ & M2). exists L2, q, m. split; [right; reflexivity|]. eapply moves_trans; [exact M1|]. unfold opt_owned. destruct (q =? 0) eqn:Eq; [lia|exact M2].
  - exists L, p, n. split; [left; reflexivity|]. apply moves_refl; assumption.
Qed.
Lemma bucks_ok L o t n : sane L -> holds L (dt_owned t) -> quiet o -> exists L' o' t', realloc_bucks false L o t n = Ok (L', o', t', true) /\ quiet o' /\
  moves L (dt_owned t) L' (dt_owned t') /\ dt_a t' = dt_a t.
Proof.
  intros S H Q. unfold realloc_bucks.
  assert (forall u, Permutation (dt_owned u) (opt_owned (dt_bucks u) (mkb (dt_a u) KBucket (dt_bcap u)) ++ elems_owned u)) as P by (intros u; apply Permutation_app_comm).
  destruct (realloc_ok KBucket (dt_a t) L o (dt_bucks t) (dt_bcap t) n (elems_owned t) S) as (L' & p' & n' & R & M); [|exact Q|].
  - destruct H as [D H]. split; [eapply Permutation_NoDup; [apply Permutation_map; exact (P t)|exact D]|]. intros q c I. apply H. eapply Permutation_in; [symmetry; exact (P t)|exact I].
  - assert (moves L (dt_owned t) L' (dt_owned (set_bucks t p' n'))) as M'.
    { eapply moves_ext; [| | |exact M].
      - intros x. split; apply Permutation_in; [exact (P t)|symmetry; exact (P t)].
      - eapply Permutation_NoDup; [apply Permutation_map; symmetry; exact (P (set_bucks t p' n'))|apply (proj1 (proj1 (proj2 M)))].
      - intros x. split; apply Permutation_in; [exact (P (set_bucks t p' n'))|symmetry; exact (P (set_bucks t p' n'))]. }
    destruct R as [R|R]; rewrite R; cbn [bind]; do 3 eexists; (split; [reflexivity|split; [|split; [exact M'|reflexivity]]]); [exact Q|apply quiet_tl, Q].
Qed.
Lemma elems_ok L o t n : sane L -> holds L (dt_owned t) -> quiet o -> exists L' o' t', realloc_elems false L o t n = Ok (L', o', t', true) /\ quiet o' /\
  moves L (dt_owned t) L' (dt_owned t') /\ dt_a t' = dt_a t.
Proof.
  intros S H Q. unfold realloc_elems.
  destruct (realloc_ok KElem (dt_a t) L o (dt_elems t) (dt_ecap t) n (bucks_owned t) S H Q) as (L' & p' & n' & R & M).
  destruct R as [R|R]; rewrite R; cbn [bind]; do 3 eexists; (split; [reflexivity|split; [|split; [exact M|reflexivity]]]); [exact Q|apply quiet_tl, Q].
Qed.
Lemma resize_data_ok L o t n : sane L -> holds L (dt_owned t) -> exists L' o' t' ok, resize_data false L o t n = Ok (L', o', t', ok) /\ moves L (dt_owned t) L' (dt_owned t') /\ dt_a t' = dt_a t.
Proof.
  intros S H. unfold resize_data.
  pose proof (obtain_moves L o (elem_block (dt_a t) n) _ S H) as M1. destruct (obtain L o (elem_block (dt_a t) n)) as [[L1 o1] [q|]].
  2: { destruct M1 as [-> _]. exists L, o1, t, false. split; [reflexivity|]. split; [apply moves_refl; assumption|reflexivity]. }
  destruct M1 as (Pq & Fq & M1). set (t' := set_elems t q n).
  assert (elems_owned t' = [(q, elem_block (dt_a t) n)]) as Eo by (unfold elems_owned, t'; cbn; destruct (q =? 0) eqn:E; [lia|reflexivity]).
  assert (moves L (dt_owned t) L1 (opt_owned (dt_elems t) (elem_block (dt_a t) (dt_ecap t)) ++ dt_owned t')) as M'.
  { assert (Permutation ((q, elem_block (dt_a t) n) :: dt_owned t) (opt_owned (dt_elems t) (elem_block (dt_a t) (dt_ecap t)) ++ dt_owned t')) as P.
    { unfold dt_owned at 2. rewrite Eo. change (bucks_owned t') with (bucks_owned t). cbn [app]. apply Permutation_middle. }
    eapply moves_ext; [reflexivity| | |exact M1].
    - eapply Permutation_NoDup; [apply Permutation_map; exact P|apply (proj1 (proj1 (proj2 M1)))].
    - intros x. split; apply Permutation_in; [symmetry; exact P|exact P]. }
  destruct (opt_back L1 (dt_elems t) _ (dt_owned t') (proj1 M') (proj1 (proj2 M'))) as (L2 & R2 & _ & M2). rewrite R2. cbn [bind].
  exists L2, o1, t', true. split; [reflexivity|]. split; [eapply moves_trans; eassumption|reflexivity].
Qed.
Lemma dense_copy_ok v L t u : quiet (te_alloc v) -> te_ctor v = true -> sane L -> holds L (dt_owned t) ->
  exists L' o' t', dense_copy_data false v L t u = Ok (L', o', t', true) /\ moves L (dt_owned t) L' (dt_owned t').
Proof.
  intros Q C S H. unfold dense_copy_data. destruct (dt_size u =? 0).
  - exists L, (te_alloc v), (set_dsize t 0). split; [reflexivity|]. apply moves_refl; assumption.
  - destruct (bucks_ok L (te_alloc v) t (dt_bcap u) S H Q) as (L1 & o1 & t1 & R1 & Q1 & M1 & _). rewrite R1. cbn [bind].
    destruct (elems_ok L1 o1 t1 (dt_size u) (proj1 M1) (proj1 (proj2 M1)) Q1) as (L2 & o2 & t2 & R2 & Q2 & M2 & _). rewrite R2. cbn [bind]. rewrite C. cbn [andb].
    exists L2, o2, (set_dsize t2 (dt_size u)). split; [reflexivity|]. eapply moves_trans; [exact M1|exact M2].
Qed.
Lemma dense_assign_ok prop L t b : sane L -> holds L (dt_owned t) -> exists L' t', dense_assign false prop L t b = Ok (L', t') /\ moves L (dt_owned t) L' (dt_owned t').
Proof.
  intros S H. unfold dense_assign. destruct prop.
  - destruct (opt_back_r L (dt_bucks t) (buck_block (dt_a t) (dt_bcap t)) (elems_owned t) S H) as (L1 & _ & R1 & M1). rewrite R1. cbn [bind].
    destruct (opt_back L1 (dt_elems t) (elem_block (dt_a t) (dt_ecap t)) [] (proj1 M1)) as (L2 & _ & R2 & M2); [rewrite app_nil_r; apply M1|]. rewrite R2. cbn [bind]. rewrite app_nil_r in M2.
    exists L2, (null_dtab b). split; [reflexivity|]. eapply moves_trans; [exact M1|exact M2].
  - exists L, (set_dsize t 0). split; [reflexivity|]. apply moves_refl; assumption.
Qed.

Definition dn_books (w : tworld dtab) : Prop := books (tw_l w) (fun i => dn_owned (tw_t w i)).
Lemma dput_books w L' i x : dn_books w -> moves (tw_l w) (dn_owned (tw_t w i)) L' (dn_owned x) -> dn_books (mktw L' (putt (tw_t w) i x)).
Proof.
  intros B M. apply (books_put _ _ i _ _ _ B M); cbn; [rewrite putt_eq; reflexivity|]. intros j Hj. rewrite putt_ne by exact Hj. reflexivity.
Qed.
Lemma dsame_books w i x : dn_books w -> dn_owned x = dn_owned (tw_t w i) -> dn_books (mktw (tw_l w) (putt (tw_t w) i x)).
Proof. intros B E. apply dput_books; [exact B|]. rewrite E. apply moves_refl; apply B. Qed.
Lemma dswap_books L t i j x y : books L (fun k => dn_owned (t k)) -> i <> j -> dn_owned x = dn_owned (t j) -> dn_owned y = dn_owned (t i) ->
  dn_books (mktw L (putt (putt t i x) j y)).
Proof.
  intros B Hij Ex Ey. apply (books_swap _ _ i j _ B); cbn.
  - rewrite putt_ne by exact Hij. rewrite putt_eq. exact Ex.
  - rewrite putt_eq. exact Ey.
  - intros k Hi Hj. rewrite !putt_ne by assumption. reflexivity.
Qed.
Lemma dn_own w i t : dn_books w -> tw_t w i = Some t -> sane (tw_l w) /\ holds (tw_l w) (dt_owned t).
Proof. intros (S & H & _) E. split; [exact S|]. specialize (H i). cbn in H. rewrite E in H. exact H. Qed.

Lemma dense_step v w c : dn_books w -> dense_fine (v, c) -> exists w' ok, dense_exec false pocca pocma v w c = Ok (w', ok) /\ dn_books w'.
Proof.
  intros B F. pose proof (proj1 B) as S. assert (holds (tw_l w) []) as H0 by (split; [constructor|contradiction]).
  destruct c as [i a|i a n|i j a|i j a|i j|i j|i n|i n|i n|i j|i]; unfold dense_exec.
  - destruct (tw_t w i) as [t|] eqn:Ei; [eauto|]. do 2 eexists. split; [reflexivity|]. apply dsame_books; [exact B|rewrite Ei; reflexivity].
  - destruct (tw_t w i) as [t|] eqn:Ei; [eauto|]. destruct (n <? 0) eqn:E1; [eauto|]. destruct (n =? 0) eqn:E2.
    { do 2 eexists. split; [reflexivity|]. apply dsame_books; [exact B|rewrite Ei; reflexivity]. }
    destruct F as [Q C]. cbn in Q, C.
    destruct (obtain_quiet (tw_l w) _ (elem_block a n) Q) as (L1 & p & R1). pose proof (obtain_moves (tw_l w) (te_alloc v) (elem_block a n) [] S H0) as M1. rewrite R1 in *. destruct M1 as (Pp & _ & M1).
    destruct (obtain_quiet L1 _ (buck_block a n) (quiet_tl _ Q)) as (L2 & q & R2). pose proof (obtain_moves L1 (tl (te_alloc v)) (buck_block a n) _ (proj1 M1) (proj1 (proj2 M1))) as M2. rewrite R2 in *.
    destruct M2 as (Pq & Fq & M2). do 2 eexists. split; [reflexivity|]. apply dput_books; [exact B|]. rewrite Ei.
    cbn [dn_owned]. unfold dt_owned, elems_owned, bucks_owned. cbn. destruct (p =? 0) eqn:Ep; [lia|]. destruct (q =? 0) eqn:Eq; [lia|]. cbn [app].
    eapply moves_ext; [reflexivity| | |eapply moves_trans; [exact M1|exact M2]].
    + pose proof (proj1 (proj1 (proj2 M2))) as D. eapply Permutation_NoDup; [|exact D]. apply perm_swap.
    + intros x. cbn [In]. tauto.
  - destruct (tw_t w i) as [t|] eqn:Ei; [eauto|]. destruct (tw_t w j) as [u|] eqn:Ej; [|eauto]. destruct F as [Q C]. cbn in Q, C.
    destruct (dense_copy_ok v (tw_l w) (null_dtab a) u Q C S H0) as (L' & o' & t' & R & M). rewrite R. cbn [bind].
    do 2 eexists. split; [reflexivity|]. apply dput_books; [exact B|]. rewrite Ei. exact M.
  - destruct (tw_t w i) as [t|] eqn:Ei; [eauto|]. destruct (tw_t w j) as [u|] eqn:Ej; [|eauto]. destruct F as [Q C]. cbn in Q, C.
    assert (i <> j) as Hij by (intros ->; congruence).
    destruct (a =? dt_a u).
    + do 2 eexists. split; [reflexivity|]. apply dswap_books; [exact B|exact Hij|rewrite Ej; reflexivity|rewrite Ei; reflexivity].
    + destruct (dense_copy_ok v (tw_l w) (null_dtab a) u Q C S H0) as (L' & o' & t' & R & M). rewrite R. cbn [bind].
      do 2 eexists. split; [reflexivity|].
      assert (dn_books (mktw L' (putt (tw_t w) i (Some t')))) as B1 by (apply dput_books; [exact B|rewrite Ei; exact M]).
      apply (dsame_books _ j _ B1). cbn. rewrite putt_ne by auto. rewrite Ej. reflexivity.
  - destruct (tw_t w i) as [t|] eqn:Ei; [|eauto]. destruct (tw_t w j) as [u|] eqn:Ej; [|eauto]. destruct F as [Q C]. cbn in Q, C.
    destruct (Nat.eqb i j) eqn:Eij; [eauto|]. destruct (dn_own w i t B Ei) as (_ & Ht).
    destruct (dense_assign_ok pocca (tw_l w) t (dt_a u) S Ht) as (L1 & b & R1 & M1). rewrite R1. cbn [bind].
    destruct (dense_copy_ok v L1 b u Q C (proj1 M1) (proj1 (proj2 M1))) as (L' & o' & t' & R & M). rewrite R. cbn [bind].
    do 2 eexists. split; [reflexivity|]. apply dput_books; [exact B|]. rewrite Ei. eapply moves_trans; [exact M1|exact M].
  - destruct (tw_t w i) as [t|] eqn:Ei; [|eauto]. destruct (tw_t w j) as [u|] eqn:Ej; [|eauto]. destruct F as [Q C]. cbn in Q, C.
    destruct (Nat.eqb i j) eqn:Eij; [eauto|]. apply Nat.eqb_neq in Eij. destruct (dn_own w i t B Ei) as (_ & Ht).
    destruct (dense_assign_ok pocma (tw_l w) t (dt_a u) S Ht) as (L1 & b & R1 & M1). rewrite R1. cbn [bind].
    assert (dn_books (mktw L1 (putt (tw_t w) i (Some b)))) as B1 by (apply dput_books; [exact B|rewrite Ei; exact M1]).
    destruct (dt_a b =? dt_a u).
    + do 2 eexists. split; [reflexivity|].
      pose proof (dswap_books L1 (putt (tw_t w) i (Some b)) i j (Some u) (Some b) B1 Eij) as G. rewrite putt_eq in G. rewrite putt_ne in G by auto. rewrite Ej in G.
      specialize (G eq_refl eq_refl). apply (books_ext _ _ _ G). cbn. intros k. unfold putt. destruct (Nat.eqb k j), (Nat.eqb k i); reflexivity.
    + destruct (dense_copy_ok v L1 b u Q C (proj1 M1) (proj1 (proj2 M1))) as (L' & o' & t' & R & M). rewrite R. cbn [bind].
      do 2 eexists. split; [reflexivity|].
      assert (dn_books (mktw L' (putt (tw_t w) i (Some t')))) as B2 by (apply dput_books; [exact B|]; rewrite Ei; eapply moves_trans; [exact M1|exact M]).
      apply (dsame_books _ j _ B2). cbn. rewrite putt_ne by auto. rewrite Ej. reflexivity.
  - destruct (tw_t w i) as [t|] eqn:Ei; [|eauto]. destruct (_ || _) eqn:En; [eauto|]. destruct (dn_own w i t B Ei) as (_ & Ht).
    destruct (resize_data_ok (tw_l w) (te_alloc v) t n S Ht) as (L' & o' & t' & ok & R & M & _). rewrite R. cbn [bind].
    do 2 eexists. split; [reflexivity|]. apply dput_books; [exact B|rewrite Ei; exact M].
  - destruct (tw_t w i) as [t|] eqn:Ei; [|eauto]. destruct (dn_own w i t B Ei) as (_ & Ht). destruct F as [Q C]. cbn in Q, C.
    destruct (bucks_ok (tw_l w) (te_alloc v) t n S Ht Q) as (L' & o' & t' & R & _ & M & _). rewrite R. cbn [bind].
    do 2 eexists. split; [reflexivity|]. apply dput_books; [exact B|rewrite Ei; exact M].
  - destruct (tw_t w i) as [t|] eqn:Ei; [|eauto]. destruct (_ && _); [|eauto]. do 2 eexists. split; [reflexivity|]. apply dsame_books; [exact B|rewrite Ei; reflexivity].
  - destruct (tw_t w i) as [t|] eqn:Ei; [|eauto]. destruct (tw_t w j) as [u|] eqn:Ej; [|eauto]. destruct (_ =? _); [|eauto]. do 2 eexists. split; [reflexivity|].
    destruct (Nat.eq_dec i j) as [->|Hij].
    + assert (u = t) as -> by congruence. apply (books_ext _ _ _ B). cbn. intros k. unfold putt. destruct (Nat.eqb k j) eqn:Ek; [|reflexivity]. apply Nat.eqb_eq in Ek. subst k. rewrite Ej. reflexivity.
    + apply dswap_books; [exact B|exact Hij|rewrite Ej; reflexivity|rewrite Ei; reflexivity].
  - destruct (tw_t w i) as [t|] eqn:Ei; [|eauto]. destruct (dn_own w i t B Ei) as (_ & Ht).
    destruct (opt_back (tw_l w) (dt_elems t) (elem_block (dt_a t) (dt_ecap t)) (bucks_owned t) S Ht) as (L1 & R1 & _ & M1). rewrite R1. cbn [bind].
    destruct (opt_back L1 (dt_bucks t) (buck_block (dt_a t) (dt_bcap t)) [] (proj1 M1)) as (L2 & R2 & _ & M2); [rewrite app_nil_r; apply M1|]. rewrite R2. cbn [bind]. rewrite app_nil_r in M2.
    do 2 eexists. split; [reflexivity|]. apply dput_books; [exact B|]. rewrite Ei. eapply moves_trans; [exact M1|exact M2].
Qed.
Theorem dense_run w h : dn_books w -> Forall dense_fine h -> exists w', dense_allocs false pocca pocma w h = Ok w' /\ dn_books w'.
Proof.
  revert w. induction h as [|[v c] h IH]; intros w B F; [exists w; auto|]. inversion F as [|? ? F1 F2]. subst.
  destruct (dense_step v w c B F1) as (w1 & ok & R & B1). cbn [dense_allocs]. rewrite R. cbn [bind fst]. apply IH; assumption.
Qed.
Theorem dense_ledger h : Forall dense_fine h ->
  exists w, dense_allocs false pocca pocma nothing h = Ok w /\ ((forall i, tw_t w i = None) -> forall p, l_live (tw_l w) p = None).
Proof.
  intros F. destruct (dense_run nothing h books_nothing F) as (w & R & B). exists w. split; [exact R|]. intros N p. destruct (l_live (tw_l w) p) eqn:E; [|reflexivity].
  destruct B as (_ & _ & _ & C). destruct (C p) as [i Hi]; [rewrite E; discriminate|]. rewrite N in Hi. destruct Hi.
Qed.
End Dense.

(** * Layout of the combined buffer *)
Theorem layout wd sz n : 0 < wd -> 0 < sz -> 0 <= n -> forall base, let slot i := base + sz * (nodes_start wd sz n + i) in
  (forall j, 0 <= j < n + wd -> base <= base + j < slot 0) /\
  (forall k, 0 <= k < n -> slot 0 <= slot k /\ slot k + sz <= base + sz * buffer_size wd sz n /\ forall al, (al | sz) -> (al | base) -> (al | slot k)) /\
  slot n = base + sz * buffer_size wd sz n /\ slot 0 < base + (n + wd) + sz.
Proof.
  intros Hw Hs Hn base slot. unfold slot, buffer_size, nodes_start.
  pose proof (Z.div_mod (n + wd) sz ltac:(lia)) as D. pose proof (Z.mod_pos_bound (n + wd) sz Hs) as B.
  set (q := (n + wd) / sz) in *. set (r := (n + wd) mod sz) in *. clearbody q r.
  set (c := if r =? 0 then 0 else 1). assert (c = 0 /\ r = 0 \/ c = 1 /\ 0 < r) as C by (unfold c; destruct (r =? 0) eqn:E; lia). clearbody c.
  split; [intros j Hj; destruct C as [[-> ->]|[-> C]]; nia|]. split; [|split; [nia|destruct C as [[-> ->]|[-> C]]; nia]].
  intros k Hk. split; [nia|]. split; [nia|]. intros al [x Hx] [y Hy]. exists (y + x * (q + c + k)). subst. ring.
Qed.
