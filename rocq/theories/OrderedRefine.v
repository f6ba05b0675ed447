(** Call histories on the ordered dense table refine the list specification. *)
From Coq Require Import ZArith List Bool Lia Permutation.
From Verif Require Import Base BaseLemmas MapSpec Float32 Float32Facts DenseSpec DenseModel DenseRun DenseChain DenseInv DenseOps DenseEdit DenseErase DenseRefine
  LinkModel LinkProofs OrderedSpec OrderedDense OrderedRun OrderedLinks OrderedProofs.
Import ListNotations.
Open Scope Z_scope.

Section Refine.
Context {E K : Type}.
Variable sz : Z.
Variable nk : nat.
Variable key_of : nat -> E -> K.
Variable hash : K -> Z.
Variable keq : K -> K -> bool.
Variable rep : E -> E -> E.
Hypothesis Hsz : 0 < sz.
Hypothesis KL : key_laws hash keq.
Hypothesis rep_key : forall x e, key_of 0%nat (rep x e) = key_of 0%nat x.
Notation odense := (odense E).
Notation dense := (dense E).
Notation dwf := (dwf nk key_of hash keq).
Notation lnk := (lnk sz). Notation ofr := (ofr sz). Notation slot := (slot sz).
Notation oexec := (oexec sz nk key_of hash keq rep). Notation orun := (orun sz nk key_of hash keq rep).
Notation oblocked := (oblocked sz nk key_of hash keq rep).
Notation ospec := (ospec nk key_of keq rep). Notation ospec_run := (ospec_run nk key_of keq rep).

(** The invariant: the dense table is well formed and the links form a ring through its
    slots; the contents are the elements in the order of the ring. *)
Definition oinv (h : heap) (s : odense) (ord : list Z) : Prop := dwf (o_d s) /\ lnk h s ord.
Definition ocont (s : odense) (ord : list Z) : list E := pick (delems (o_d s)) ord.

Lemma inv_in : forall h s ord i, oinv h s ord -> (In i ord <-> 0 <= i < Z.of_nat (length (delems (o_d s)))).
Proof. intros h s ord i (W & L). rewrite (delems_len nk key_of hash keq _ W). rewrite (ol_in _ _ _ _ _ _ _ L). pose proof (w_size _ _ _ _ _ W). lia. Qed.
Lemma inv_perm : forall h s ord, oinv h s ord -> Permutation (ocont s ord) (delems (o_d s)).
Proof. intros h s ord H. apply pick_perm; [apply (ol_nd _ _ _ _ _ _ _ (proj2 H))|]. intros i. apply (inv_in _ _ _ _ H). Qed.
Lemma inv_len : forall h s ord, oinv h s ord -> Z.of_nat (length (ocont s ord)) = d_size (o_d s).
Proof. intros h s ord H. rewrite (Permutation_length (inv_perm _ _ _ H)). destruct H as (W & _). rewrite (delems_len nk key_of hash keq _ W). pose proof (w_size _ _ _ _ _ W). lia. Qed.

(** Dereference. *)
Lemma node_of : forall h s ord i, oinv h s ord -> In i ord -> exists n, d_nodes (o_d s) i = Some n /\ get_node (o_d s) i = Ok n /\ nth_error (delems (o_d s)) (Z.to_nat i) = Some (n_val n).
Proof.
  intros h s ord i (W & L) Hi. apply (ol_in _ _ _ _ _ _ _ L) in Hi. destruct (w_live _ _ _ _ _ W i Hi) as (n & Hn). exists n. split; [exact Hn|]. split; [apply get_node_ok; [apply (w_mem _ _ _ _ _ W)|exact Hn]|].
  rewrite (delems_nth nk key_of hash keq _ i W Hi). unfold val. rewrite Hn. reflexivity.
Qed.
Lemma o_at_slot : forall h s ord i n, oinv h s ord -> d_nodes (o_d s) i = Some n -> o_at sz s (slot s i) = Ok (Some (n_val n)).
Proof.
  intros h s ord i n H Hn. assert (Hi : In i ord) by (apply (ol_in _ _ _ _ _ _ _ (proj2 H)); apply (node_live nk key_of hash keq _ i n (proj1 H) Hn)).
  destruct (slot_index sz Hsz h s ord i (proj2 H) Hi) as (Hne & Hix). destruct (node_of h s ord i H Hi) as (n' & Hn' & Hg & _). unfold o_at. destruct (Z.eqb_spec (slot s i) (o_hdr s)) as [|_]; [contradiction|]. rewrite Hix. cbn [bind]. rewrite Hg. cbn [bind]. congruence.
Qed.
Lemma deref_all_ok : forall h s ord l, oinv h s ord -> incl l ord -> deref_all sz s (map (slot s) l) = Ok (pick (delems (o_d s)) l).
Proof.
  intros h s ord l H. induction l as [|i l IH]; intros Hi; [reflexivity|]. cbn [map deref_all]. assert (Hin : In i ord) by (apply Hi; left; reflexivity).
  destruct (slot_index sz Hsz h s ord i (proj2 H) Hin) as (_ & Hix). destruct (node_of h s ord i H Hin) as (n & _ & Hg & Hd). rewrite Hix. cbn [bind]. rewrite Hg. cbn [bind].
  rewrite IH by (intros x Hx; apply Hi; right; exact Hx). cbn [bind]. rewrite (pick_cons _ _ _ _ Hd). reflexivity.
Qed.
Lemma o_iterate_ok : forall h s ord, oinv h s ord -> o_iterate sz h s = Ok (ocont s ord).
Proof. intros h s ord H. unfold o_iterate. destruct (walk_ok sz h _ _ _ _ _ (proj2 H)) as (a & Ha & Hw). rewrite Ha. cbn [bind]. rewrite Hw. cbn [bind]. apply (deref_all_ok h s ord ord H). apply incl_refl. Qed.
Lemma o_backwards_ok : forall h s ord, oinv h s ord -> o_backwards sz h s = Ok (rev (ocont s ord)).
Proof.
  intros h s ord H. unfold o_backwards. destruct (walk_back_ok sz h _ _ _ _ _ (proj2 H)) as (a & Ha & Hw). rewrite Ha. cbn [bind]. rewrite Hw. cbn [bind]. unfold ocont. rewrite <- pick_rev.
  apply (deref_all_ok h s ord (rev ord) H). intros x Hx. apply in_rev. exact Hx.
Qed.
Lemma path_advance : forall k h l a b, path h a l b -> (k <= S (length l))%nat -> o_advance k h a = Ok (nth k (a :: l ++ [b]) b).
Proof.
  induction k as [|k IH]; intros h l a b H Hk; [reflexivity|]. cbn [o_advance nth]. destruct l as [|x l]; cbn [path length app] in *.
  - rewrite (next_link_ok _ _ _ (proj1 H)). cbn [bind]. assert (k = 0%nat) by lia. subst k. reflexivity.
  - destruct H as ((H1 & _) & H2). rewrite (next_link_ok _ _ _ H1). cbn [bind]. rewrite (IH h l x b H2) by lia. reflexivity.
Qed.
Lemma o_nth_ok : forall h (s : odense) ord i, lnk h s ord -> 0 <= i <= d_size (o_d s) -> o_nth h s i = Ok (nth (Z.to_nat i) (map (slot s) ord ++ [o_hdr s]) (o_hdr s)).
Proof.
  intros h s ord i L Hi. pose proof (ol_ring _ _ _ _ _ _ _ L) as R. change (fun i => o_base s + i * sz) with (slot s) in R. destruct R as (R & _). unfold o_nth.
  pose proof (olinks_len _ _ _ _ _ _ _ L) as Hlen. pose proof (path_advance (S (Z.to_nat i)) h _ _ _ R) as Ha. rewrite map_length, Hlen in Ha. specialize (Ha ltac:(lia)). cbn [o_advance nth] in Ha. exact Ha.
Qed.

(** A step of the call [c]. *)
Definition stepped (h : heap) (s : odense) (ord : list Z) (c : ocall E K) (h' : heap) (s' : odense) (r : dret E) : Prop :=
  exists ord', oinv h' s' ord' /\ ofr h s h' s' /\ ospec c (ocont s ord) (ocont s' ord') r.

Lemma cont_append : forall h s ord d' e, oinv h s ord -> delems d' = delems (o_d s) ++ [e] -> pick (delems d') (ord ++ [d_size (o_d s)]) = ocont s ord ++ [e].
Proof.
  intros h s ord d' e H He. rewrite He, pick_split, pick_app by (intros i Hi; apply (inv_in _ _ _ _ H); exact Hi).
  assert (Hl : d_size (o_d s) = Z.of_nat (length (delems (o_d s)))) by (rewrite (delems_len nk key_of hash keq _ (proj1 H)); pose proof (w_size _ _ _ _ _ (proj1 H)); lia). rewrite Hl, pick_last. reflexivity.
Qed.
Lemma cont_replace : forall h s ord a x y b, oinv h s ord -> delems (o_d s) = a ++ x :: b -> exists p q, ocont s ord = p ++ x :: q /\ pick (a ++ y :: b) ord = p ++ y :: q.
Proof.
  intros h s ord a x y b H Hd. assert (Hi : In (Z.of_nat (length a)) ord) by (apply (inv_in _ _ _ _ H); rewrite Hd, app_length; cbn [length]; lia). apply in_split in Hi. destruct Hi as (o1 & o2 & Ho).
  unfold ocont. rewrite Hd, Ho. apply pick_replace.
  - rewrite <- Ho. apply (ol_nd _ _ _ _ _ _ _ (proj2 H)).
  - intros i Hi. rewrite <- Ho in Hi. apply (inv_in _ _ _ _ H) in Hi. lia.
Qed.
Lemma cont_erase : forall h s o1 pos o2 a x b, oinv h s (o1 ++ pos :: o2) -> delems (o_d s) = a ++ x :: b -> length a = Z.to_nat pos ->
  exists p q, ocont s (o1 ++ pos :: o2) = p ++ x :: q /\ length p = length o1 /\ p = pick (delems (o_d s)) o1 /\ q = pick (delems (o_d s)) o2 /\
    pick (swap_remove a b) (map (subst_last pos (d_size (o_d s) - 1)) (o1 ++ o2)) = p ++ q.
Proof.
  intros h s o1 pos o2 a x b H Hd Ha. assert (Hpos : 0 <= pos) by (assert (In pos (o1 ++ pos :: o2)) as X by (apply in_or_app; right; left; reflexivity); apply (inv_in _ _ _ _ H) in X; lia).
  assert (Hp : pos = Z.of_nat (length a)) by lia. assert (Hl : d_size (o_d s) = Z.of_nat (length (a ++ x :: b))) by (rewrite <- Hd, (delems_len nk key_of hash keq _ (proj1 H)); pose proof (w_size _ _ _ _ _ (proj1 H)); lia).
  destruct (pick_erase a x b o1 o2) as (P1 & P2 & P3).
  - rewrite <- Hp. apply (ol_nd _ _ _ _ _ _ _ (proj2 H)).
  - intros i. rewrite <- Hp, (inv_in _ _ _ i H), Hd. reflexivity.
  - exists (pick (a ++ x :: b) o1), (pick (a ++ x :: b) o2). unfold ocont. rewrite Hd, Hl, Hp. auto.
Qed.

(** Insertions. *)
Lemma insert_step : forall c v h s ord d' r x,
  oinv h s ord -> (0 < d_bc (o_d s) \/ True) ->
  ins_sim sz h s ord [] d' r x ->
  (match r with
   | None => elems_same (o_d s) d' /\ (dwf d' \/ (0 < d_bc (o_d s) /\ broken d'))
   | Some (p, true) => dwf d' /\ exists e n, delems d' = delems (o_d s) ++ [e] /\ d_nodes d' p = Some n /\ n_val n = e /\ forall l, Permutation (delems (o_d s)) l -> ospec c l (l ++ [e]) (QInserted e true)
   | Some (p, false) => dwf d' /\ exists n, d_nodes d' p = Some n /\
       ((delems d' = delems (o_d s) /\ forall l, Permutation (delems (o_d s)) l -> ospec c l l (QInserted (n_val n) false)) \/
        (exists a y b, delems (o_d s) = a ++ y :: b /\ delems d' = a ++ n_val n :: b /\ forall p q, ospec c (p ++ y :: q) (p ++ n_val n :: q) (QInserted (n_val n) false)))
   end) -> oallocating c = true -> oexec v (h, s) c = (let* y := x in o_give sz y) ->
  oblocked v (h, s) c \/ exists h' s' q, oexec v (h, s) c = Ok (h', s', q) /\ stepped h s ord c h' s' q.
Proof.
  intros c v h s ord d' r x H _ [->|(h' & s' & -> & Hd & F & L)] Hr Hal He.
  { left. right. right. right. rewrite He. reflexivity. }
  rewrite app_nil_r in L. destruct r as [(p, [|])|]; cbn [bind o_give] in He.
  - destruct Hr as (W' & e & n & Hde & Hn & Hv & Hs). right. assert (H' : oinv h' s' (ord ++ [d_size (o_d s)])) by (split; [rewrite Hd; exact W'|exact L]).
    rewrite He. rewrite <- Hd in Hn. rewrite (o_at_slot h' s' _ p n H' Hn). cbn [bind]. eexists _, _, _. split; [reflexivity|]. exists (ord ++ [d_size (o_d s)]). split; [exact H'|]. split; [exact F|].
    unfold ocont at 2. rewrite Hd, (cont_append h s ord d' e H Hde), Hv. apply Hs. apply Permutation_sym. apply (inv_perm _ _ _ H).
  - destruct Hr as (W' & n & Hn & Hs). right. assert (H' : oinv h' s' ord) by (split; [rewrite Hd; exact W'|exact L]).
    rewrite He. rewrite <- Hd in Hn. rewrite (o_at_slot h' s' _ p n H' Hn). cbn [bind]. eexists _, _, _. split; [reflexivity|]. exists ord. split; [exact H'|]. split; [exact F|].
    unfold ocont at 2. rewrite Hd. destruct Hs as [(Hde & Hs)|(a & y & b & Hd1 & Hd2 & Hs)].
    + rewrite Hde. apply Hs. apply Permutation_sym. apply (inv_perm _ _ _ H).
    + destruct (cont_replace h s ord a y (n_val n) b H Hd1) as (p' & q' & -> & Hq). rewrite Hd2, Hq. apply Hs.
  - destruct Hr as (Hes & [W'|(Hb & Hbr)]).
    + right. rewrite He. eexists _, _, _. split; [reflexivity|]. exists ord. split; [split; [rewrite Hd; exact W'|exact L]|]. split; [exact F|]. unfold ocont. rewrite Hd, (delems_same _ _ Hes). constructor. exact Hal.
    + left. right. right. left. split; [exact Hb|]. exists (h', s'). split; [exact He|]. cbn [snd]. rewrite Hd. exact Hbr.
Qed.

(** Allocation without change of the contents. *)
Lemma room_step : forall c v h s ord d' o x, oinv h s ord -> (x = Err BadPlacement \/ exists h' s', x = Ok (h', s', o) /\ o_d s' = d' /\ lnk h' s' ord /\ ofr h s h' s') ->
  room nk key_of hash keq (o_d s) d' o -> oallocating c = true -> (forall l, ospec c l l QUnit) -> oexec v (h, s) c = (let* y := x in o_unit y) ->
  oblocked v (h, s) c \/ exists h' s' q, oexec v (h, s) c = Ok (h', s', q) /\ stepped h s ord c h' s' q.
Proof.
  intros c v h s ord d' o x H [->|(h' & s' & -> & Hd & L & F)] (Hes & Hr) Hal Hs He.
  { left. right. right. right. rewrite He. reflexivity. }
  cbn [bind o_unit] in He. assert (Hgo : dwf d' -> oblocked v (h, s) c \/ exists h' s' q, oexec v (h, s) c = Ok (h', s', q) /\ stepped h s ord c h' s' q).
  { intros W'. right. rewrite He. eexists _, _, _. split; [reflexivity|]. exists ord. split; [split; [rewrite Hd; exact W'|exact L]|]. split; [exact F|]. unfold ocont. rewrite Hd, (delems_same _ _ Hes). destruct o; [apply Hs|constructor; exact Hal]. }
  destruct o as [u|]; [apply Hgo; exact Hr|]. destruct Hr as [W'|(Hb & Hbr)]; [apply Hgo; exact W'|].
  left. right. right. left. split; [exact Hb|]. exists (h', s'). split; [exact He|]. cbn [snd]. rewrite Hd. exact Hbr.
Qed.

Lemma ostep_ok : forall v h s ord c, oinv h s ord -> denv_ok (ov_d v) -> ocall_ok nk c ->
  oblocked v (h, s) c \/ exists h' s' r, oexec v (h, s) c = Ok (h', s', r) /\ stepped h s ord c h' s' r.
Proof.
  intros v h s ord c H V Hc. pose proof H as (W & L). pose proof (w_size _ _ _ _ _ W) as Hsize. pose proof (w_bc _ _ _ _ _ W) as Hbc0. pose proof (inv_perm _ _ _ H) as P.
  assert (Hh : hint_at sz s 0 ord []) by (left; auto). assert (Hk : hint_kept v s 0 ord) by (left; reflexivity). assert (Ho : ord = ord ++ []) by (rewrite app_nil_r; reflexivity).
  destruct c; cbn [ocall_ok] in Hc.
  - destruct (do_insert_ok nk key_of hash keq rep KL _ _ (o_d s) e W (proj1 V) (proj2 V)) as ((d', r) & Hd & Hi).
    refine (insert_step (OInsert e) v h s ord d' r _ H (or_intror I) (o_do_insert_sim sz nk key_of hash keq Hsz v h s ord 0 ord [] e d' r W V L Ho Hh Hk Hd _) _ eq_refl eq_refl).
    + intros p ->. cbn [ins_ok] in Hi. destruct Hi as (W' & _ & n & Hn & _). pose proof (node_live nk key_of hash keq _ p n W' Hn) as X. unfold live in X. lia.
    + cbn [ins_ok] in Hi. destruct r as [(p, [|])|]; [| |exact Hi].
      * destruct Hi as (W' & Hnew & Hde & n & Hn & Hv). split; [exact W'|]. exists e, n. repeat split; auto. intros l Hl. apply os_insert_new. apply (new_perm nk key_of keq e _ l Hl Hnew).
      * destruct Hi as (W' & Hde & n & Hn & Hcl). split; [exact W'|]. exists n. split; [exact Hn|]. left. split; [exact Hde|]. intros l Hl. apply os_insert_old. apply (clash_perm nk key_of keq e _ l _ Hl Hcl).
  - destruct (do_emplace_ok nk key_of hash keq rep KL _ _ (o_d s) e W (proj1 V) (proj2 V)) as ((d', r) & Hd & Hi).
    refine (insert_step (OEmplace e) v h s ord d' r _ H (or_intror I) (o_do_emplace_sim sz nk key_of hash keq Hsz v h s ord 0 ord [] e d' r W V L Ho Hh Hk Hd) _ eq_refl eq_refl).
    cbn [ins_ok] in Hi. destruct r as [(p, [|])|]; [| |exact Hi].
    + destruct Hi as (W' & Hnew & Hde & n & Hn & Hv). split; [exact W'|]. exists e, n. repeat split; auto. intros l Hl. apply os_emplace_new. apply (new_perm nk key_of keq e _ l Hl Hnew).
    + destruct Hi as (W' & Hde & n & Hn & Hcl). split; [exact W'|]. exists n. split; [exact Hn|]. left. split; [exact Hde|]. intros l Hl. apply os_emplace_old. apply (clash_perm nk key_of keq e _ l _ Hl Hcl).
  - destruct (do_assign_ok nk key_of hash keq rep KL rep_key _ _ (o_d s) e W (proj1 V) (proj2 V) Hc) as ((d', r) & Hd & Hi).
    refine (insert_step (OAssign e) v h s ord d' r _ H (or_intror I) (o_do_assign_sim sz nk key_of hash keq rep Hsz v h s ord 0 ord [] e d' r W V L Ho Hh Hk Hd) _ eq_refl eq_refl).
    cbn [assign_ok] in Hi. destruct r as [(p, [|])|]; [| |exact Hi].
    + destruct Hi as (W' & Hnew & Hde & n & Hn & Hv). split; [exact W'|]. exists e, n. repeat split; auto. intros l Hl. apply os_assign_new. apply (absent_perm key_of keq 0 _ _ l Hl Hnew).
    + destruct Hi as (W' & n & a & x & b & Hn & Hv & (Hl1 & Hl2) & Hde). split; [exact W'|]. exists n. split; [exact Hn|]. right. exists a, x, b. rewrite Hv. split; [exact Hl1|]. split; [exact Hde|].
      intros p' q'. apply os_assign_old. split; [reflexivity|exact Hl2].
  - destruct (Z.eq_dec (d_bc (o_d s)) 0) as [Hb|Hb]; [left; right; left; split; [exact Hb|]; exists j, k; reflexivity|right]. cbn [OrderedRun.oexec].
    unfold o_erase_key. unfold get_chain. destruct (Z.eqb_spec (d_bc (o_d s)) 0) as [|_]; [contradiction|]. cbn [deref bind].
    destruct (erase_key_ok nk key_of hash keq KL (o_d s) j k W Hc ltac:(lia)) as [(Hno & He)|(d' & pos & a & x & b & He & W' & Hd & Hkx & Ha & Hlv & Hd' & Hs1 & Hs2 & _)];
      unfold erase_key, get_chain in He; (destruct (Z.eqb_spec (d_bc (o_d s)) 0) as [|_]; [contradiction|]); cbn [deref bind] in He.
    + destruct (o_erase_loop_sim sz nk key_of keq _ h s _ _ _ _ _ _ He) as [(_ & _ & Hx)|(sl & Hx & _)].
      * rewrite Hx. cbn [bind fst]. eexists _, _, _. split; [reflexivity|]. exists ord. split; [exact H|]. split; [apply ofr_refl|]. apply os_erase_absent. apply (absent_perm key_of keq j k _ _ (Permutation_sym P)). apply (absent_iff nk key_of hash keq); assumption.
      * exfalso. unfold erase_node in Hx. rewrite Z.eqb_refl in Hx. discriminate Hx.
    + destruct (o_erase_loop_sim sz nk key_of keq _ h s _ _ _ _ _ _ He) as [(_ & Hx & _)|(sl & Hx & Hy)]; [unfold live in Hlv; lia|].
      assert (Hin : In pos ord) by (apply (ol_in _ _ _ _ _ _ _ L); exact Hlv). apply in_split in Hin. destruct Hin as (o1 & o2 & Hin). subst ord.
      destruct (o_erase_node_sim sz Hsz h s o1 pos o2 sl d' L Hx Hs1 Hs2) as (h' & Hz & L' & F'). rewrite Hy, Hz. cbn [bind fst].
      destruct (cont_erase h s o1 pos o2 a x b H Hd Ha) as (p & q & Hpq & _ & _ & _ & Hpq').
      eexists _, _, _. split; [reflexivity|]. eexists. split; [split; [exact W'|exact L']|]. split; [exact F'|]. rewrite Hpq. unfold ocont. cbn [with_d o_d]. rewrite Hd', Hpq'. apply (os_erase _ _ _ _ j k _ p x q). split; [reflexivity|exact Hkx].
  - destruct (Z_le_dec 0 i) as [Hi0|Hi0]; [|left; left; exists i; cbn [snd]; split; [reflexivity|lia]]. destruct (Z_lt_dec i (d_size (o_d s))) as [Hi1|Hi1]; [|left; left; exists i; cbn [snd]; split; [reflexivity|lia]].
    right. cbn [OrderedRun.oexec]. rewrite (o_nth_ok h s ord i L ltac:(lia)). cbn [bind]. pose proof (olinks_len _ _ _ _ _ _ _ L) as Hlen.
    destruct (nth_error ord (Z.to_nat i)) as [pos|] eqn:En; [|apply nth_error_None in En; lia].
    assert (Hns : nth (Z.to_nat i) (map (slot s) ord ++ [o_hdr s]) (o_hdr s) = slot s pos).
    { apply nth_error_nth. rewrite nth_error_app1 by (rewrite map_length; lia). rewrite nth_error_map, En. reflexivity. }
    rewrite Hns. apply nth_error_split in En. destruct En as (o1 & o2 & -> & Hl1).
    assert (Hlv : live (o_d s) pos) by (apply (ol_in _ _ _ _ _ _ _ L); apply in_or_app; right; left; reflexivity).
    destruct (erase_at_ok nk key_of hash keq (o_d s) pos W Hlv) as (d' & a & x & b & He & W' & Hd & Ha & Hd' & Hs1 & Hs2 & _).
    destruct (o_erase_at_sim sz nk Hsz h s o1 pos o2 d' L He Hs1 Hs2) as (h' & Hz & L' & F'). rewrite Hz. cbn [bind fst].
    destruct (cont_erase h s o1 pos o2 a x b H Hd Ha) as (p & q & Hpq & Hlp & _ & _ & Hpq').
    eexists _, _, _. split; [reflexivity|]. eexists. split; [split; [exact W'|exact L']|]. split; [exact F'|]. rewrite Hpq. unfold ocont. cbn [with_d o_d]. rewrite Hd', Hpq'.
    replace i with (Z.of_nat (length p)) by lia. apply os_erase_at.
  - right. cbn [OrderedRun.oexec]. destruct (find_node_ok nk key_of hash keq KL (o_d s) j k W Hc) as [(i & n & p & Hn & Hk' & Hf & _)|(Hno & o & Hf)]; rewrite Hf; cbn [bind fst]; unfold iter_of.
    + pose proof (node_live nk key_of hash keq _ i n W Hn) as X. unfold live in X. destruct (Z.eqb_spec i (d_size (o_d s))); [lia|]. rewrite (o_at_slot h s ord i n H Hn). cbn [bind]. eexists _, _, _. split; [reflexivity|]. exists ord. split; [exact H|]. split; [apply ofr_refl|].
      assert (Hin : In (n_val n) (ocont s ord)) by (apply (Permutation_in _ (Permutation_sym P)); apply (delems_in nk key_of hash keq); [exact W|]; exists i, n; auto).
      apply in_split in Hin. destruct Hin as (a & b & Hab). apply (os_find _ _ _ _ j k _ a _ b). split; assumption.
    + rewrite Z.eqb_refl. unfold o_at. rewrite Z.eqb_refl. cbn [bind]. eexists _, _, _. split; [reflexivity|]. exists ord. split; [exact H|]. split; [apply ofr_refl|]. apply os_find_absent. apply (absent_perm key_of keq j k _ _ (Permutation_sym P)). apply (absent_iff nk key_of hash keq); assumption.
  - right. cbn [OrderedRun.oexec]. destruct (find_node_ok nk key_of hash keq KL (o_d s) j k W Hc) as [(i & n & p & Hn & Hk' & Hf & _)|(Hno & o & Hf)]; rewrite Hf; cbn [bind fst]; unfold iter_of.
    + pose proof (node_live nk key_of hash keq _ i n W Hn) as X. assert (Hin : In i ord) by (apply (ol_in _ _ _ _ _ _ _ L); exact X). unfold live in X. destruct (Z.eqb_spec i (d_size (o_d s))); [lia|].
      destruct (slot_index sz Hsz h s ord i L Hin) as (Hne & _). destruct (Z.eqb_spec (slot s i) (o_hdr s)) as [|_]; [contradiction|]. cbn [negb]. eexists _, _, _. split; [reflexivity|]. exists ord. split; [exact H|]. split; [apply ofr_refl|].
      assert (Hin' : In (n_val n) (ocont s ord)) by (apply (Permutation_in _ (Permutation_sym P)); apply (delems_in nk key_of hash keq); [exact W|]; exists i, n; auto).
      apply in_split in Hin'. destruct Hin' as (a & b & Hab). apply (os_contains _ _ _ _ j k _ a (n_val n) b). split; assumption.
    + rewrite Z.eqb_refl. cbn [negb]. rewrite Z.eqb_refl. eexists _, _, _. split; [reflexivity|]. exists ord. split; [exact H|]. split; [apply ofr_refl|]. apply os_contains_absent. apply (absent_perm key_of keq j k _ _ (Permutation_sym P)). apply (absent_iff nk key_of hash keq); assumption.
  - right. cbn [OrderedRun.oexec]. destruct (clear_ok nk key_of hash keq (o_d s) W) as (d' & Hd & W' & Hde & Hcap & _).
    assert (H0 : d_size d' = 0) by (pose proof (delems_len nk key_of hash keq d' W') as X; rewrite Hde in X; cbn [length] in X; pose proof (w_size _ _ _ _ _ W'); lia).
    destruct (o_clear_sim sz h s ord d' L Hd H0 Hcap) as (h' & He & L' & F'). rewrite He. cbn [bind]. eexists _, _, _. split; [reflexivity|]. exists []. split; [split; [exact W'|exact L']|]. split; [exact F'|]. apply os_clear.
  - destruct (reserve_ok nk key_of hash keq _ _ (o_d s) n W (proj1 V) (proj2 V) Hc) as (d' & o & Hd & Hr & _).
    refine (room_step (OReserve n) v h s ord d' o _ H (o_reserve_sim sz nk key_of hash keq Hsz v h s ord n d' o W V Hc L Hd) Hr eq_refl _ eq_refl). intros l. apply os_reserve.
  - destruct (rehash_ok nk key_of hash keq (dv_slim (ov_d v)) (o_d s) n W (proj2 V) ltac:(lia)) as (d' & o & Hd & Hr & Hcap & _).
    assert (Hcap' : d_cap d' = d_cap (o_d s)) by (destruct o as [u|]; [apply (Hcap ltac:(discriminate))|apply (rehash_none_dims _ _ _ _ _ Hd)]).
    refine (room_step (ORehash n) v h s ord d' o (Ok (h, with_d s d', o)) H _ Hr eq_refl _ _).
    + right. exists h, (with_d s d'). split; [reflexivity|]. split; [reflexivity|]. split; [apply lnk_dims; [exact L|apply Hr|exact Hcap']|apply ofr_dims; exact Hcap'].
    + intros l. apply os_rehash.
    + cbn [OrderedRun.oexec]. rewrite Hd. reflexivity.
  - right. cbn [OrderedRun.oexec]. eexists _, _, _. split; [reflexivity|]. exists ord. split; [split|split; [apply ofr_dims; reflexivity|apply os_max_load]].
    + destruct W as [[A B C] W1 W2 W3 W4 W5 W6 W7 W8 W9 W10]. constructor; try assumption. constructor; assumption.
    + apply lnk_dims; [exact L|reflexivity|reflexivity].
  - right. cbn [OrderedRun.oexec]. eexists _, _, _. split; [reflexivity|]. exists ord. split; [exact H|]. split; [apply ofr_refl|]. unfold size. rewrite <- (inv_len h s ord H). apply os_size.
  - right. cbn [OrderedRun.oexec]. rewrite (o_iterate_ok h s ord H). cbn [bind]. eexists _, _, _. split; [reflexivity|]. exists ord. split; [exact H|]. split; [apply ofr_refl|]. apply os_iterate.
  - right. cbn [OrderedRun.oexec]. rewrite (o_backwards_ok h s ord H). cbn [bind]. eexists _, _, _. split; [reflexivity|]. exists ord. split; [exact H|]. split; [apply ofr_refl|]. apply os_backwards.
Qed.

Lemma orun_ok : forall hist h s ord, oinv h s ord -> ohistory_ok nk hist ->
  (exists h' s' ord' rs, orun (h, s) hist = Ok (h', s', rs) /\ oinv h' s' ord' /\ ofr h s h' s' /\ ospec_run (map snd hist) (ocont s ord) (ocont s' ord') rs) \/
  (exists h1 v c h2 hs1 rs1 l1, hist = h1 ++ (v, c) :: h2 /\ orun (h, s) h1 = Ok (hs1, rs1) /\ ospec_run (map snd h1) (ocont s ord) l1 rs1 /\ oblocked v hs1 c).
Proof.
  induction hist as [|(v, c) hist IH]; intros h s ord H Hh.
  - left. exists h, s, ord, []. split; [reflexivity|]. split; [exact H|]. split; [apply ofr_refl|]. constructor.
  - inversion Hh as [|? ? (Hv & Hc) Hh']; subst. cbn [fst snd] in *. destruct (ostep_ok v h s ord c H Hv Hc) as [Hb|(h1 & s1 & r & He & ord1 & H1 & F1 & S1)].
    + right. exists [], v, c, hist, (h, s), [], (ocont s ord). split; [reflexivity|]. split; [reflexivity|]. split; [constructor|exact Hb].
    + destruct (IH h1 s1 ord1 H1 Hh') as [(h' & s' & ord' & rs & Hr & H' & F' & S')|(p1 & v' & c' & p2 & hs1 & rs1 & l1 & -> & Hr & S' & Hb)].
      * left. exists h', s', ord', (r :: rs). cbn [OrderedRun.orun]. rewrite He. cbn [bind]. rewrite Hr. cbn [bind]. split; [reflexivity|]. split; [exact H'|]. split; [apply (ofr_trans sz _ _ _ _ _ _ F1 F')|]. cbn [map snd]. econstructor; eassumption.
      * right. exists ((v, c) :: p1), v', c', p2, hs1, (r :: rs1), l1. split; [reflexivity|]. cbn [OrderedRun.orun]. rewrite He. cbn [bind]. rewrite Hr. cbn [bind]. split; [reflexivity|]. split; [cbn [map snd]; econstructor; eassumption|exact Hb].
Qed.

Lemma keq_comm : forall x y, keq x y = keq y x.
Proof. intros x y. destruct (keq x y) eqn:Exy, (keq y x) eqn:Eyx; try reflexivity; [apply (kl_sym _ _ KL) in Exy|apply (kl_sym _ _ KL) in Eyx]; congruence. Qed.
Lemma inv_refines : forall hist h s ord, oinv h s ord -> ohistory_ok nk hist -> orefines sz nk key_of hash keq rep (h, s) (ocont s ord) hist.
Proof.
  intros hist h s ord H Hh. destruct (orun_ok hist h s ord H Hh) as [(h' & s' & ord' & rs & Hr & H' & F' & S')|Hb]; [left|right; exact Hb].
  exists (h', s'), rs, (ocont s' ord'). cbn [fst snd]. split; [exact Hr|]. split; [exact S'|]. split; [apply o_iterate_ok; exact H'|]. split; [apply o_backwards_ok; exact H'|]. split.
  - apply (distinct_perm nk key_of keq keq_comm (delems (o_d s'))); [apply Permutation_sym; apply (inv_perm _ _ _ H')|]. apply (wf_distinct nk key_of hash keq rep rep_key). apply H'.
  - intros a Ha1 Ha2 Ha3. destruct F' as (_ & F'). apply (F' a); [split; assumption|exact Ha3].
Qed.

(** A default constructed table. *)
Lemma new_inv : forall (h : heap) a, h a = Some (0, 0) -> oinv h (o_new a) [].
Proof.
  intros h a Ha. split; [apply empty_wf|]. apply olinks_empty; [cbn; lia|exact Ha| |]; cbn; intros i Hi; lia.
Qed.
Lemma new_cont : forall a, ocont (o_new a) [] = []. Proof. reflexivity. Qed.
End Refine.
