(** Range insertion, assignment and construction: unordered and ordered dense tables. *)
From Coq Require Import ZArith List Bool Lia Permutation.
From Verif Require Import Base BaseLemmas MapSpec Float32 Float32Facts DenseSpec DenseModel DenseRun DenseChain DenseInv DenseOps DenseEdit DenseErase DenseRefine DenseWorldSpec DenseMore
  LinkModel LinkProofs OrderedSpec OrderedDense OrderedRun OrderedLinks OrderedProofs OrderedRefine RangeSpec RangeModel.
Import ListNotations.
Open Scope Z_scope.

Section Spec.
Context {E K : Type}.
Variable nk : nat.
Variable key_of : nat -> E -> K.
Variable keq : K -> K -> bool.
Lemma has_keys_new : forall l e, has_keys keq nk key_of l e = false <-> dnew nk key_of keq e l.
Proof.
  intros l e. unfold has_keys, has_key, dnew, dabsent. split.
  - intros H j Hj x Hx. destruct (keq (key_of j x) (key_of j e)) eqn:Ek; [|reflexivity]. exfalso.
    assert (X : existsb (fun j => existsb (fun x => keq (key_of j x) (key_of j e)) l) (seq 0 nk) = true); [|congruence].
    apply existsb_exists. exists j. split; [apply in_seq; lia|]. apply existsb_exists. exists x. auto.
  - intros H. destruct (existsb _ (seq 0 nk)) eqn:Ex; [|reflexivity]. apply existsb_exists in Ex. destruct Ex as (j & Hj & Ex). apply existsb_exists in Ex. destruct Ex as (x & Hx & Ek).
    apply in_seq in Hj. rewrite (H j ltac:(lia) x Hx) in Ek. discriminate.
Qed.
Lemma dappended_added : forall xs l l', dappended nk key_of keq l xs l' -> l' = added (has_keys keq nk key_of) l xs.
Proof.
  induction xs as [|e xs IH]; intros l l' H; inversion H; subst; cbn [added]; [reflexivity| |].
  - rewrite (proj2 (has_keys_new l e)) by assumption. apply IH. assumption.
  - destruct (has_keys keq nk key_of l e) eqn:Eh; [apply IH; assumption|]. apply has_keys_new in Eh. contradiction.
Qed.
End Spec.

Lemma added_app : forall {E} (t : list E -> E -> bool) xs ys l, added t l (xs ++ ys) = added t (added t l xs) ys.
Proof. intros E t xs. induction xs as [|e xs IH]; intros ys l; [reflexivity|]. cbn [app added]. apply IH. Qed.

Section Dense.
Context {E K : Type}.
Variable sz : Z.
Variable nk : nat.
Variable key_of : nat -> E -> K.
Variable hash : K -> Z.
Variable keq : K -> K -> bool.
Variable rep : E -> E -> E.
Hypothesis KL : key_laws hash keq.
Notation dense := (dense E). Notation odense := (odense E).
Notation dwf := (dwf nk key_of hash keq).
Notation has := (has_keys keq nk key_of).

(** ** Unordered. *)
Lemma d_range : forall ra l dlim slim (s : dense), dwf s -> dlim < 2 ^ 59 -> slim < 2 ^ 60 -> Z.of_nat (length l) < 2 ^ 58 ->
  exists s' b, insert_range nk key_of hash keq ra dlim slim s l = Ok (s', b) /\
    (if b then dwf s' /\ delems s' = added has (delems s) l
     else (dwf s' \/ broken s') /\ exists n, delems s' = added has (delems s) (firstn n l)).
Proof.
  intros ra l dlim slim s W Hd Hs Hl. destruct (insert_range_gen nk key_of hash keq KL ra l dlim slim s W Hd Hs Hl) as (s' & b & He & [(-> & W' & Ha)|(-> & Hw & l1 & l2 & -> & Ha)]); exists s'.
  - exists true. split; [exact He|]. split; [exact W'|]. apply dappended_added. exact Ha.
  - exists false. split; [exact He|]. split; [exact Hw|]. exists (length l1). rewrite firstn_app, firstn_all, Nat.sub_diag, firstn_O, app_nil_r. apply dappended_added. exact Ha.
Qed.
Lemma d_assign : forall ra l dlim slim (s : dense), dwf s -> dlim < 2 ^ 59 -> slim < 2 ^ 60 -> Z.of_nat (length l) < 2 ^ 58 ->
  exists s' b, d_assign_range hash keq nk key_of ra dlim slim s l = Ok (s', b) /\
    (if b then dwf s' /\ delems s' = added has [] l
     else (dwf s' \/ broken s') /\ exists n, delems s' = added has [] (firstn n l)).
Proof.
  intros ra l dlim slim s W Hd Hs Hl. unfold d_assign_range. destruct (clear_ok nk key_of hash keq s W) as (s1 & -> & W1 & E1 & _). cbn [bind].
  destruct (d_range ra l dlim slim s1 W1 Hd Hs Hl) as (s' & b & -> & H). rewrite E1 in H. exists s', b. split; [reflexivity|exact H].
Qed.

(** ** Ordered. *)
Hypothesis Hsz : 0 < sz.
Hypothesis rep_key : forall x e, key_of 0%nat (rep x e) = key_of 0%nat x.
Notation oinv := (oinv sz nk key_of hash keq).
Notation ofr := (ofr sz).
Notation o_do_insert := (o_do_insert sz nk key_of hash keq).
Definition oboth (h : heap) (s : odense) (l : list E) (ord : list Z) : Prop := oinv h s ord /\ ocont s ord = l.

(** One insertion. *)
Lemma o_insert_one : forall v h s ord e, oinv h s ord -> denv_ok (ov_d v) ->
  o_do_insert v true h s 0 e = Err BadPlacement \/
  exists h' s' o, o_do_insert v true h s 0 e = Ok (h', s', o) /\ ofr h s h' s' /\
    match o with
    | None => d_sok (o_d s') = false \/ oboth h' s' (ocont s ord) ord
    | Some _ => exists ord', oboth h' s' (if has (ocont s ord) e then ocont s ord else ocont s ord ++ [e]) ord'
    end.
Proof.
  intros v h s ord e H V. pose proof H as (W & L). pose proof (inv_perm _ _ _ _ _ _ _ _ H) as P.
  assert (Hh : hint_at sz s 0 ord []) by (left; auto). assert (Hk : hint_kept v s 0 ord) by (left; reflexivity). assert (Ho : ord = ord ++ []) by (rewrite app_nil_r; reflexivity).
  destruct (do_insert_ok nk key_of hash keq rep KL _ _ (o_d s) e W (proj1 V) (proj2 V)) as ((d', r) & Hd & Hi).
  destruct (o_do_insert_sim sz nk key_of hash keq Hsz v h s ord 0 ord [] e d' r W V L Ho Hh Hk Hd) as [Hb|(h' & s' & Hx & Hd' & F & L')].
  { intros p ->. cbn [ins_ok] in Hi. destruct Hi as (W' & _ & n & Hn & _). pose proof (node_live nk key_of hash keq _ p n W' Hn) as X. unfold live in X. lia. }
  { left. exact Hb. }
  right. rewrite app_nil_r in L'. eexists h', s', _. split; [exact Hx|]. split; [exact F|]. cbn [ins_ok] in Hi. destruct r as [(p, [|])|].
  - destruct Hi as (W' & Hnew & Hde & _). exists (ord ++ [d_size (o_d s)]). rewrite (proj2 (has_keys_new nk key_of keq _ e)) by (apply (new_perm nk key_of keq e _ _ (Permutation_sym P) Hnew)).
    split; [split; [rewrite Hd'; exact W'|exact L']|]. unfold ocont at 1. rewrite Hd', (cont_append sz nk key_of hash keq rep rep_key h s ord d' e H Hde). reflexivity.
  - destruct Hi as (W' & Hde & n & Hn & Hcl). exists ord. destruct (has (ocont s ord) e) eqn:Eh.
    + split; [split; [rewrite Hd'; exact W'|exact L']|]. unfold ocont. rewrite Hd', Hde. reflexivity.
    + exfalso. apply has_keys_new in Eh. apply (clash_perm nk key_of keq e _ _ _ (Permutation_sym P)) in Hcl. destruct Hcl as (j & Hj & Hin & Hk' & _). rewrite (Eh j Hj _ Hin) in Hk'. discriminate.
  - destruct Hi as (Hes & [W'|(Hb & Hbr)]).
    + right. split; [split; [rewrite Hd'; exact W'|exact L']|]. unfold ocont. rewrite Hd', (delems_same _ _ Hes). reflexivity.
    + left. rewrite Hd'. exact Hbr.
Qed.

Definition odone (h : heap) (s : odense) (l0 xs : list E) (x : res (heap * odense * bool)) : Prop :=
  x = Err BadPlacement \/
  exists h' s' b, x = Ok (h', s', b) /\ ofr h s h' s' /\
    (if b then exists ord', oboth h' s' (added has l0 xs) ord'
     else d_sok (o_d s') = false \/ exists n ord', oboth h' s' (added has l0 (firstn n xs)) ord').
Lemma o_insert_all_ok : forall l h s ord, oinv h s ord -> Forall (fun x => denv_ok (ov_d (fst x))) l ->
  odone h s (ocont s ord) (map snd l) (o_insert_all sz nk key_of hash keq h s l).
Proof.
  induction l as [|(v, e) l IH]; intros h s ord H V.
  - right. exists h, s, true. split; [reflexivity|]. split; [apply ofr_refl|]. exists ord. split; [exact H|reflexivity].
  - inversion V as [|? ? V1 V2]; subst. cbn [fst] in V1. cbn [o_insert_all map added snd].
    destruct (o_insert_one v h s ord e H V1) as [->|(h1 & s1 & o & -> & F1 & Ho)]; [left; reflexivity|]. cbn [bind]. destruct o as [(a, b)|].
    + destruct Ho as (ord1 & H1 & C1). destruct (IH h1 s1 ord1 H1 V2) as [->|(h' & s' & b' & -> & F' & R)]; [left; reflexivity|right].
      exists h', s', b'. split; [reflexivity|]. split; [apply (ofr_trans sz _ _ _ _ _ _ F1 F')|]. rewrite C1 in R. destruct b'; [exact R|].
      destruct R as [R|(n & R)]; [left; exact R|right]. exists (S n). exact R.
    + right. exists h1, s1, false. split; [reflexivity|]. split; [exact F1|]. destruct Ho as [Ho|Ho]; [left; exact Ho|right]. exists 0%nat, ord. exact Ho.
Qed.
Lemma o_range : forall ra v l h s ord, oinv h s ord -> denv_ok (ov_d v) -> Forall (fun x => denv_ok (ov_d (fst x))) l -> d_size (o_d s) + Z.of_nat (length l) < 2 ^ 59 ->
  odone h s (ocont s ord) (map snd l) (o_insert_range sz nk key_of hash keq ra v h s l).
Proof.
  intros ra v l h s ord H V Vl Hn. unfold o_insert_range. destruct ra; [|cbn [bind]; apply o_insert_all_ok; assumption].
  pose proof H as (W & L). pose proof (w_size _ _ _ _ _ W) as Hs0. rewrite Z.mod_small by (unfold two64; lia).
  destruct (reserve_ok nk key_of hash keq _ _ (o_d s) (d_size (o_d s) + Z.of_nat (length l)) W (proj1 V) (proj2 V) ltac:(lia)) as (d' & o & Hd & (Hes & Hr) & _).
  destruct (o_reserve_sim sz nk key_of hash keq Hsz v h s ord (d_size (o_d s) + Z.of_nat (length l)) d' o W V ltac:(lia) L Hd) as [->|(h1 & s1 & -> & Hd1 & L1 & F1)]; [left; reflexivity|]. cbn [bind].
  assert (Hgo : dwf d' -> oboth h1 s1 (ocont s ord) ord).
  { intros W1. split; [split; [rewrite Hd1; exact W1|exact L1]|]. unfold ocont. rewrite Hd1, (delems_same _ _ Hes). reflexivity. }
  destruct o as [u|].
  - destruct (Hgo Hr) as (H1 & C1). destruct (o_insert_all_ok l h1 s1 ord H1 Vl) as [->|(h' & s' & b' & -> & F' & R)]; [left; reflexivity|right]. rewrite C1 in R.
    exists h', s', b'. split; [reflexivity|]. split; [apply (ofr_trans sz _ _ _ _ _ _ F1 F')|exact R].
  - right. exists h1, s1, false. split; [reflexivity|]. split; [exact F1|]. destruct Hr as [W1|(_ & Hbr)]; [right; exists 0%nat, ord; apply Hgo; exact W1|left]. rewrite Hd1. exact Hbr.
Qed.
Lemma o_assign : forall ra v l h s ord, oinv h s ord -> denv_ok (ov_d v) -> Forall (fun x => denv_ok (ov_d (fst x))) l -> Z.of_nat (length l) < 2 ^ 59 ->
  odone h s [] (map snd l) (o_assign_range sz nk key_of hash keq ra v h s l).
Proof.
  intros ra v l h s ord H V Vl Hn. unfold o_assign_range. pose proof H as (W & L). destruct (clear_ok nk key_of hash keq (o_d s) W) as (d' & Hd & W' & Hde & Hcap & _).
  assert (H0 : d_size d' = 0) by (pose proof (delems_len nk key_of hash keq d' W') as X; rewrite Hde in X; cbn [length] in X; pose proof (w_size _ _ _ _ _ W'); lia).
  destruct (o_clear_sim sz h s ord d' L Hd H0 Hcap) as (h1 & -> & L1 & F1). cbn [bind fst snd].
  destruct (o_range ra v l h1 (with_d s d') [] (conj W' L1) V Vl) as [->|(h' & s' & b' & -> & F' & R)]; [cbn [with_d o_d]; lia|left; reflexivity|right].
  exists h', s', b'. split; [reflexivity|]. split; [apply (ofr_trans sz _ _ _ _ _ _ F1 F')|exact R].
Qed.
(** Construction. *)
Lemma slot_ix_zero : forall base a, slot_ix base sz 0 a = None.
Proof. intros base a. destruct (slot_ix base sz 0 a) as [i|] eqn:Es; [|reflexivity]. apply slot_ix_inv in Es; [|exact Hsz]. lia. Qed.
Lemma o_ctor : forall v h hdr n, h hdr = Some (0, 0) -> denv_ok (ov_d v) -> 0 <= n < 2 ^ 64 ->
  o_ctor_n (E := E) sz v h hdr n = Err BadPlacement \/ o_ctor_n (E := E) sz v h hdr n = Ok None \/
  exists h' s, o_ctor_n sz v h hdr n = Ok (Some (h', s)) /\ oboth h' s [] [] /\ d_size (o_d s) = 0 /\ o_hdr s = hdr /\
    (forall a, h a <> None -> h' a = h a /\ slot_ix (o_base s) sz (d_cap (o_d s)) a = None).
Proof.
  intros v h hdr n Hh V Hn. unfold o_ctor_n. destruct (ctor_n (E := E) (dv_dlim (ov_d v)) (dv_slim (ov_d v)) n) as [d|] eqn:Ec; [|right; left; reflexivity].
  destruct (ctor_n_ok nk key_of hash keq _ _ n d (proj1 Hn) (proj1 V) (proj2 V) Ec) as (W & He & _ & _ & Hcap).
  assert (H0 : d_size d = 0) by (pose proof (delems_len nk key_of hash keq d W) as X; rewrite He in X; cbn [length] in X; pose proof (w_size _ _ _ _ _ W); lia).
  assert (Hc : ocont (mko d hdr (ov_base v)) [] = [] /\ ocont (mko d hdr 0) [] = []) by (split; reflexivity).
  destruct (Z.eqb_spec n 0) as [->|Hn0].
  - right. right. exists h, (mko d hdr 0). split; [reflexivity|]. cbn [o_d o_hdr o_base].
    split; [|split; [exact H0|split; [reflexivity|intros a _; split; [reflexivity|rewrite Hcap; apply slot_ix_zero]]]]. split; [|apply Hc]. split; [exact W|]. unfold lnk. cbn [o_d o_hdr o_base]. rewrite H0, Hcap.
    apply olinks_empty; [lia|exact Hh| |]; intros i Hi; lia.
  - destruct (place_cases (ov_junk v) h (ov_base v) sz n Hsz) as [->|(h1 & -> & P1 & P2 & P3)]; [left; reflexivity|]. cbn [bind]. right. right. exists h1, (mko d hdr (ov_base v)). split; [reflexivity|].
    assert (P5 : forall a, h a <> None -> slot_ix (ov_base v) sz n a = None).
    { intros a Ha. destruct (slot_ix (ov_base v) sz n a) as [i|] eqn:Es; [|reflexivity]. exfalso. apply slot_ix_inv in Es; [|exact Hsz]. destruct Es as (-> & Hi). apply Ha. apply P1. exact Hi. }
    assert (P4 : forall a, h a <> None -> h1 a = h a) by (intros a Ha; apply P3, P5, Ha).
    cbn [o_d o_hdr o_base]. split; [|split; [exact H0|split; [reflexivity|intros a Ha; rewrite Hcap; auto]]]. split; [|apply Hc]. split; [exact W|]. unfold lnk. cbn [o_d o_hdr o_base]. rewrite H0, Hcap.
    apply olinks_empty; [lia|rewrite P4; [exact Hh|rewrite Hh; discriminate]|exact P2|]. intros i Hi <-. rewrite P1 in Hh by exact Hi. discriminate.
Qed.
Lemma done_holds : forall h s l0 xs x, odone h s l0 xs x ->
  x = Err BadPlacement \/
  exists h' s' b, x = Ok (h', s', b) /\ o_keeps sz h s h' /\
    (if b then o_holds sz nk key_of hash keq rep h' s' (added has l0 xs)
     else d_sok (o_d s') = false \/ exists n, o_holds sz nk key_of hash keq rep h' s' (added has l0 (firstn n xs))).
Proof.
  assert (Hh : forall h s l ord, oboth h s l ord -> o_holds sz nk key_of hash keq rep h s l).
  { intros h s l ord (H & <-). split; [apply (o_iterate_ok sz nk key_of hash keq Hsz _ _ _ H)|]. split; [apply (o_backwards_ok sz nk key_of hash keq Hsz _ _ _ H)|].
    intros hist Hist. apply inv_refines; assumption. }
  intros h s l0 xs x [->|(h' & s' & b & -> & F & R)]; [left; reflexivity|right]. exists h', s', b. split; [reflexivity|]. split.
  - intros a A1 A2 A3. destruct F as (_ & F). apply (F a); [split; assumption|exact A3].
  - destruct b; [destruct R as (ord & R); apply (Hh _ _ _ _ R)|]. destruct R as [R|(n & ord & R)]; [left; exact R|right; exists n; apply (Hh _ _ _ _ R)].
Qed.
Lemma o_ctor_range_ok : forall ra v0 v l h hdr n, h hdr = Some (0, 0) -> denv_ok (ov_d v0) -> denv_ok (ov_d v) -> Forall (fun x => denv_ok (ov_d (fst x))) l -> 0 <= n < 2 ^ 64 -> Z.of_nat (length l) < 2 ^ 59 ->
  let x := o_ctor_range sz nk key_of hash keq ra v0 v h hdr l n in
  x = Err BadPlacement \/ x = Ok None \/
  exists h' s' b, x = Ok (Some (h', s', b)) /\ (forall a, a <> hdr -> h a <> None -> h' a = h a) /\
    (b = true -> o_holds sz nk key_of hash keq rep h' s' (added has [] (map snd l))).
Proof.
  intros ra v0 v l h hdr n Hh V0 V Vl Hn Hl x. subst x. unfold o_ctor_range.
  destruct (o_ctor v0 h hdr (if ra then Z.max (Z.of_nat (length l)) n else n) Hh V0) as [->|[->|(h1 & s & -> & (H & _) & H0 & Hhd & Hk)]]; [destruct ra; lia|left; reflexivity|right; left; reflexivity|]. cbn [bind].
  destruct (done_holds h1 s [] (map snd l) _ (o_range ra v l h1 s [] H V Vl ltac:(lia))) as [->|(h' & s' & b & -> & K' & R)]; [left; reflexivity|]. cbn [bind]. right. right. exists h', s', b. split; [reflexivity|]. split.
  - intros a A1 A2. destruct (Hk a A2) as (X1 & X2). rewrite <- X1. apply K'; [rewrite Hhd; exact A1|exact X2|rewrite X1; exact A2].
  - intros ->. exact R.
Qed.
End Dense.

(** ** Containers that occur in programs. *)
From Verif Require Import DenseWorld DenseFinal OrderedWorld OrderedFinal.
Section Final.
Context {E K : Type}.
Variable sz : Z.
Variable nk : nat.
Variable key_of : nat -> E -> K.
Variable hash : K -> Z.
Variable keq : K -> K -> bool.
Variable rep : E -> E -> E.
Variable clone : E -> E.
Variables pocca pocma : bool.
Hypothesis KL : key_laws hash keq.
Hypothesis rep_key : forall x e, key_of 0%nat (rep x e) = key_of 0%nat x.
Hypothesis clone_key : forall j e, (j < nk)%nat -> key_of j (clone e) = key_of j e.
Notation has := (has_keys keq nk key_of).
Notation doccurs := (doccurs nk key_of hash keq rep clone pocca pocma).
Notation drefines := (drefines nk key_of hash keq rep).
Notation yoccurs := (yoccurs sz nk key_of hash keq rep clone pocca pocma).
Definition d_outcome (l0 xs : list E) (s' : dense E) (b : bool) : Prop :=
  if b then delems s' = added has l0 xs /\ (forall hist, dhistory_ok nk hist -> drefines s' (added has l0 xs) hist)
  else exists n, delems s' = added has l0 (firstn n xs) /\ (d_sok s' = false \/ forall hist, dhistory_ok nk hist -> drefines s' (added has l0 (firstn n xs)) hist).
Lemma d_outcome_of : forall l0 xs (s' : dense E) (b : bool),
  (if b then dwf nk key_of hash keq s' /\ delems s' = added has l0 xs else (dwf nk key_of hash keq s' \/ broken s') /\ exists n, delems s' = added has l0 (firstn n xs)) -> d_outcome l0 xs s' b.
Proof.
  intros l0 xs s' [|]; unfold d_outcome.
  - intros (W & He). split; [exact He|]. intros hist Hh. rewrite <- He. apply wf_refines; assumption.
  - intros (W & n & He). exists n. split; [exact He|]. destruct W as [W|W]; [right|left; exact W]. intros hist Hh. rewrite <- He. apply wf_refines; assumption.
Qed.
Lemma d_range_occurs : forall ra l dlim slim (s : dense E), doccurs s -> dlim < 2 ^ 59 -> slim < 2 ^ 60 -> Z.of_nat (length l) < 2 ^ 58 ->
  exists s' b, insert_range nk key_of hash keq ra dlim slim s l = Ok (s', b) /\ d_outcome (delems s) l s' b.
Proof.
  intros ra l dlim slim s Ho Hd Hs Hl. destruct (d_range nk key_of hash keq KL ra l dlim slim s (occurs_wf nk key_of hash keq rep clone pocca pocma KL rep_key clone_key s Ho) Hd Hs Hl) as (s' & b & He & R).
  exists s', b. split; [exact He|apply d_outcome_of; exact R].
Qed.
Lemma d_assign_occurs : forall ra l dlim slim (s : dense E), doccurs s -> dlim < 2 ^ 59 -> slim < 2 ^ 60 -> Z.of_nat (length l) < 2 ^ 58 ->
  exists s' b, d_assign_range hash keq nk key_of ra dlim slim s l = Ok (s', b) /\ d_outcome [] l s' b.
Proof.
  intros ra l dlim slim s Ho Hd Hs Hl. destruct (d_assign nk key_of hash keq KL ra l dlim slim s (occurs_wf nk key_of hash keq rep clone pocca pocma KL rep_key clone_key s Ho) Hd Hs Hl) as (s' & b & He & R).
  exists s', b. split; [exact He|apply d_outcome_of; exact R].
Qed.

Hypothesis Hsz : 0 < sz.
Definition o_outcome (h : heap) (s : odense E) (l0 xs : list E) (x : res (heap * odense E * bool)) : Prop :=
  x = Err BadPlacement \/
  exists h' s' b, x = Ok (h', s', b) /\ o_keeps sz h s h' /\
    (if b then o_holds sz nk key_of hash keq rep h' s' (added has l0 xs)
     else d_sok (o_d s') = false \/ exists n, o_holds sz nk key_of hash keq rep h' s' (added has l0 (firstn n xs))).
Lemma o_range_occurs : forall ra v l hw i l0, yoccurs hw -> o_iterate sz (fst hw) (snd hw i) = Ok l0 -> denv_ok (ov_d v) -> Forall (fun x => denv_ok (ov_d (fst x))) l ->
  Z.of_nat (length l0) + Z.of_nat (length l) < 2 ^ 59 ->
  o_outcome (fst hw) (snd hw i) l0 (map snd l) (o_insert_range sz nk key_of hash keq ra v (fst hw) (snd hw i) l).
Proof.
  intros ra v l hw i l0 Ho Hi V Vl Hl. destruct (occurs_oinv sz nk key_of hash keq rep clone pocca pocma Hsz KL rep_key clone_key hw i Ho) as (ord & H & Hc). rewrite Hc in Hi. injection Hi as <-.
  apply (done_holds sz nk key_of hash keq rep KL Hsz rep_key). apply (o_range sz nk key_of hash keq rep KL Hsz rep_key); try assumption.
  pose proof (delems_len nk key_of hash keq _ (proj1 H)) as X1. pose proof (Permutation_length (inv_perm _ _ _ _ _ _ _ _ H)) as X2. pose proof (w_size _ _ _ _ _ (proj1 H)). lia.
Qed.
Lemma o_assign_occurs : forall ra v l hw i, yoccurs hw -> denv_ok (ov_d v) -> Forall (fun x => denv_ok (ov_d (fst x))) l -> Z.of_nat (length l) < 2 ^ 59 ->
  o_outcome (fst hw) (snd hw i) [] (map snd l) (o_assign_range sz nk key_of hash keq ra v (fst hw) (snd hw i) l).
Proof.
  intros ra v l hw i Ho V Vl Hl. destruct (occurs_oinv sz nk key_of hash keq rep clone pocca pocma Hsz KL rep_key clone_key hw i Ho) as (ord & H & _).
  apply (done_holds sz nk key_of hash keq rep KL Hsz rep_key). apply (o_assign sz nk key_of hash keq rep KL Hsz rep_key) with (ord := ord); assumption.
Qed.
End Final.
