(** Comparison of iterators and first and last element, dense tables. *)
From Coq Require Import ZArith List Bool Lia Sorted.
From Verif Require Import Base BaseLemmas MapSpec Float32 DenseSpec DenseModel DenseRun DenseChain DenseInv DenseOps DenseEdit DenseErase DenseRefine
  LinkModel LinkProofs OrderedSpec OrderedDense OrderedRun OrderedLinks OrderedProofs OrderedRefine SlotsSpec SlotsDenseProofs IterSpec IterModel.
From Verif Require SlotsCost SlotsDenseBounds OrderedWorld OrderedFinal.
Import ListNotations.
Open Scope Z_scope.

(** ** Ascending lists. *)
Lemma ss_nth : forall l, StronglySorted Z.lt l <-> forall a b x y, (a < b)%nat -> nth_error l a = Some x -> nth_error l b = Some y -> x < y.
Proof.
  induction l as [|z l IH]; split.
  - intros _ a b x y _ H. destruct a; discriminate H.
  - constructor.
  - intros H. inversion H as [|? ? Hs Hf]; subst. intros a b x y Hab Ha Hb. destruct b as [|b]; [lia|]. destruct a as [|a]; cbn [nth_error] in *.
    + injection Ha as <-. rewrite Forall_forall in Hf. apply Hf. apply (nth_error_In _ _ Hb).
    + apply (proj1 IH Hs a b); [lia|assumption|assumption].
  - intros H. constructor.
    + apply IH. intros a b x y Hab Ha Hb. apply (H (S a) (S b)); [lia|assumption|assumption].
    + apply Forall_forall. intros y Hy. apply In_nth_error in Hy. destruct Hy as (k & Hk). apply (H 0%nat (S k)); [lia|reflexivity|exact Hk].
Qed.
Lemma ss_same : forall l m, StronglySorted Z.lt l -> StronglySorted Z.lt m -> (forall i, In i l <-> In i m) -> l = m.
Proof.
  induction l as [|x l IH]; intros m Hl Hm Hi.
  - destruct m as [|y m]; [reflexivity|]. destruct (proj2 (Hi y) (or_introl eq_refl)).
  - destruct m as [|y m]; [destruct (proj1 (Hi x) (or_introl eq_refl))|]. inversion Hl as [|? ? Sl Fl]; subst. inversion Hm as [|? ? Sm Fm]; subst. rewrite Forall_forall in Fl, Fm.
    assert (x = y). { destruct (proj1 (Hi x) (or_introl eq_refl)) as [E|Hx]; [auto|]. destruct (proj2 (Hi y) (or_introl eq_refl)) as [E|Hy]; [auto|]. specialize (Fl y Hy). specialize (Fm x Hx). lia. }
    subst y. f_equal. apply IH; [assumption|assumption|]. intros i. split; intros Hin.
    + destruct (proj1 (Hi i) (or_intror Hin)) as [E|H]; [subst i; specialize (Fl x Hin); lia|exact H].
    + destruct (proj2 (Hi i) (or_intror Hin)) as [E|H]; [subst i; specialize (Fm x Hin); lia|exact H].
Qed.
Lemma zrange_nth_error : forall n k, nth_error (zrange n) k = if Z.of_nat k <? n then Some (Z.of_nat k) else None.
Proof.
  intros n k. destruct (Z.ltb_spec (Z.of_nat k) n) as [H|H].
  - rewrite (nth_error_nth' _ 0) by (rewrite zrange_length; lia). rewrite zrange_nth by lia. reflexivity.
  - apply nth_error_None. rewrite zrange_length. lia.
Qed.
Lemma zrange_ss : forall n, StronglySorted Z.lt (zrange n).
Proof.
  intros n. apply ss_nth. intros a b x y Hab Ha Hb. rewrite zrange_nth_error in *. destruct (Z.ltb_spec (Z.of_nat a) n), (Z.ltb_spec (Z.of_nat b) n); try discriminate. injection Ha as <-. injection Hb as <-. lia.
Qed.
(** Lists of places that hold different things. *)
Lemma flat_inj : forall A (v : Z -> option A) (o l : list Z), (forall i, In i o -> v i <> None) -> (forall i, In i l -> v i <> None) ->
  (forall i j x, In i o -> In j l -> v i = Some x -> v j = Some x -> i = j) ->
  flat_map (fun i => match v i with Some x => [x] | None => [] end) o = flat_map (fun i => match v i with Some x => [x] | None => [] end) l -> o = l.
Proof.
  intros A v o. induction o as [|i o IH]; intros l Ho Hl Hv H.
  - destruct l as [|j l]; [reflexivity|]. cbn [flat_map] in H. destruct (v j) eqn:Ej; [discriminate H|]. destruct (Hl j (or_introl eq_refl) Ej).
  - destruct l as [|j l]; cbn [flat_map] in H; (destruct (v i) as [x|] eqn:Ei; [|destruct (Ho i (or_introl eq_refl) Ei)]); [discriminate H|]. destruct (v j) as [y|] eqn:Ej; [|destruct (Hl j (or_introl eq_refl) Ej)].
    cbn [app] in H. injection H as <- H. rewrite (Hv i j x (or_introl eq_refl) (or_introl eq_refl) Ei Ej). f_equal. apply IH; [intros k Hk; apply Ho; right; exact Hk|intros k Hk; apply Hl; right; exact Hk| |exact H].
    intros k m z Hk Hm. apply (Hv k m z); right; assumption.
Qed.
(** Iterators whose links are at the places [ord] are in order when the places ascend. *)
Lemma in_order_sorted : forall sz base ord (it : Z -> option Z), 0 < sz ->
  (forall i, 0 <= i < Z.of_nat (length ord) -> it i = option_map (fun p => base + p * sz) (nth_error ord (Z.to_nat i))) ->
  (in_order link_lt it (Z.of_nat (length ord)) <-> StronglySorted Z.lt ord).
Proof.
  intros sz base ord it Hsz Hit. rewrite ss_nth. split.
  - intros H a b x y Hab Ha Hb. assert (La : (a < length ord)%nat) by (apply nth_error_Some; congruence). assert (Lb : (b < length ord)%nat) by (apply nth_error_Some; congruence).
    destruct (H (Z.of_nat a) (Z.of_nat b) ltac:(lia) ltac:(lia)) as (p & q & Hp & Hq & Hl). rewrite Hit in Hp by lia. rewrite Hit in Hq by lia. rewrite Nat2Z.id in Hp, Hq. rewrite Ha in Hp. rewrite Hb in Hq. injection Hp as <-. injection Hq as <-.
    unfold link_lt in Hl. destruct (Z.ltb_spec (Z.of_nat a) (Z.of_nat b)); [|lia]. apply Z.ltb_lt in Hl. nia.
  - intros H i j Hi Hj. rewrite !Hit by assumption.
    destruct (nth_error ord (Z.to_nat i)) as [p|] eqn:Ep; [|apply nth_error_None in Ep; lia]. destruct (nth_error ord (Z.to_nat j)) as [q|] eqn:Eq; [|apply nth_error_None in Eq; lia].
    eexists _, _. split; [reflexivity|]. split; [reflexivity|]. unfold link_lt. destruct (Z.ltb_spec i j) as [Hlt|Hge].
    + pose proof (H _ _ _ _ (ltac:(lia) : (Z.to_nat i < Z.to_nat j)%nat) Ep Eq : p < q). apply Z.ltb_lt. nia.
    + apply Z.ltb_ge. destruct (Z.eq_dec i j) as [->|Hne]; [rewrite Ep in Eq; injection Eq as <-; lia|]. pose proof (H _ _ _ _ (ltac:(lia) : (Z.to_nat j < Z.to_nat i)%nat) Eq Ep : q < p). nia.
Qed.

Section Dense.
Context {E K : Type}.
Variable sz : Z.
Variable nk : nat.
Variable key_of : nat -> E -> K.
Variable hash : K -> Z.
Variable keq : K -> K -> bool.
Variable rep : E -> E -> E.
Hypothesis Hsz : 0 < sz.
Hypothesis KL : key_laws hash keq.
Hypothesis rep_key : forall x e, key_of 0%nat (rep x e) = key_of 0%nat x.
Notation odense := (OrderedDense.odense E).
Notation dense := (DenseModel.dense E).
Notation dwf := (DenseInv.dwf nk key_of hash keq).
Notation oinv := (OrderedRefine.oinv sz nk key_of hash keq).
Notation oexec := (OrderedRun.oexec sz nk key_of hash keq rep). Notation orun := (OrderedRun.orun sz nk key_of hash keq rep).

(** ** Unordered tables. *)
Lemma it_at_slot : forall base (s : dense) i, dwf s -> 0 <= i < d_size s -> exists x, it_at sz base s (base + i * sz) = Ok x /\ nth_error (delems s) (Z.to_nat i) = Some x.
Proof.
  intros base s i W Hi. unfold it_at. replace (base + i * sz - base) with (i * sz) by lia. rewrite Z.mod_mul, Z.div_mul by lia. cbn [Z.eqb].
  destruct (w_live _ _ _ _ _ W i Hi) as (n & Hn). rewrite (get_node_ok _ _ _ (w_mem _ _ _ _ _ W) Hn). cbn [bind]. exists (n_val n). split; [reflexivity|]. rewrite (delems_nth nk key_of hash keq _ i W Hi). unfold val. rewrite Hn. reflexivity.
Qed.
Lemma steps_plus : forall n a, it_steps sz n a = it_plus sz a (Z.of_nat n).
Proof. induction n as [|n IH]; intros a; cbn [it_steps]; [unfold it_plus; lia|]. rewrite IH. unfold it_plus, it_next. lia. Qed.
Definition walks (s : dense) (base : Z) (l : list E) : Prop :=
  iterate s = Ok l /\ Z.of_nat (length l) = size s /\ it_plus sz (d_begin base) (size s) = d_end sz base s /\
  (forall i j, 0 <= i <= size s -> 0 <= j <= size s ->
     let a := it_plus sz (d_begin base) i in let b := it_plus sz (d_begin base) j in
     link_lt a b = (i <? j) /\ it_minus sz b a = j - i /\ it_plus sz a (j - i) = b /\ (i <= j -> it_steps sz (Z.to_nat (j - i)) a = b)) /\
  (forall i j x, nth_error l (Z.to_nat j) = Some x -> 0 <= j -> 0 <= i <= size s -> it_at sz base s (it_plus sz (d_begin base) j) = Ok x /\ it_sub sz base s (it_plus sz (d_begin base) i) (j - i) = Ok x).
Lemma walks_ok : forall (s : dense) base, dwf s -> exists l, walks s base l.
Proof.
  intros s base W. exists (delems s). pose proof (w_size _ _ _ _ _ W) as Hs. pose proof (delems_len nk key_of hash keq _ W) as Hl. split; [apply (iterate_ok nk key_of hash keq _ W)|]. unfold size in *. split; [lia|]. split; [reflexivity|]. split.
  - intros i j Hi Hj. unfold it_plus, d_begin, link_lt, it_minus. split; [destruct (Z.ltb_spec i j); [apply Z.ltb_lt|apply Z.ltb_ge]; nia|].
    split; [replace (base + j * sz - (base + i * sz)) with ((j - i) * sz) by lia; apply Z.div_mul; lia|]. split; [lia|]. intros Hij. rewrite steps_plus. unfold it_plus. rewrite Z2Nat.id by lia. lia.
  - intros i j x Hn Hj Hi. assert (Hlj : (Z.to_nat j < length (delems s))%nat) by (apply nth_error_Some; congruence). destruct (it_at_slot base s j W ltac:(lia)) as (y & Hy & Hy'). rewrite Hn in Hy'. injection Hy' as <-.
    unfold it_sub, it_plus, d_begin. split; [exact Hy|]. rewrite <- Hy. f_equal. lia.
Qed.
Lemma front_back_ok : forall (s : dense) base, dwf s -> 0 < size s -> exists l x y, iterate s = Ok l /\ first_of l = Some x /\ last_of l = Some y /\ d_front sz base s = Ok x /\ d_back sz base s = Ok y.
Proof.
  intros s base W Hn. unfold size in Hn. pose proof (delems_len nk key_of hash keq _ W) as Hl. destruct (it_at_slot base s 0 W ltac:(lia)) as (x & Hx & Hx'). destruct (it_at_slot base s (d_size s - 1) W ltac:(lia)) as (y & Hy & Hy').
  exists (delems s), x, y. split; [apply (iterate_ok nk key_of hash keq _ W)|]. split; [exact Hx'|]. split; [unfold last_of; rewrite Hl; rewrite <- Hy'; f_equal; lia|]. split; [|exact Hy].
  unfold d_front, d_begin. rewrite <- Hx. f_equal. lia.
Qed.
Lemma empty_front : forall (s : dense) base, dwf s -> size s = 0 -> (exists e, d_front sz base s = Err e) /\ (exists e, d_back sz base s = Err e).
Proof.
  intros s base W Hn. unfold size in Hn. assert (G : forall i, exists e, get_node s i = Err e).
  { intros i. destruct (get_node s i) as [n|e] eqn:Eg; [|eauto]. pose proof (SlotsDenseBounds.get_live nk key_of hash keq s i n W Eg). lia. }
  split; unfold d_front, d_back, it_at; (destruct (_ mod sz =? 0); [|eauto]); match goal with |- context [get_node s ?i] => destruct (G i) as (e & ->) end; cbn [bind]; eauto.
Qed.

(** ** Ordered tables. *)
Lemma onth_given : forall h s ord i, oinv h s ord -> 0 <= i < Z.of_nat (length ord) -> given (o_nth h s i) = option_map (fun p => o_base s + p * sz) (nth_error ord (Z.to_nat i)).
Proof.
  intros h s ord i (W & L) Hi. pose proof (olinks_len _ _ _ _ _ _ _ L) as Hlen. pose proof (w_size _ _ _ _ _ W) as Hs. rewrite (o_nth_ok sz h s ord i L) by lia. cbn [given].
  destruct (nth_error ord (Z.to_nat i)) as [p|] eqn:Ep; [|apply nth_error_None in Ep; lia]. cbn [option_map]. f_equal. apply nth_error_nth. rewrite nth_error_app1 by (rewrite map_length; lia). rewrite nth_error_map, Ep. reflexivity.
Qed.
Lemma ord_size : forall h s ord, oinv h s ord -> Z.of_nat (length ord) = size (o_d s).
Proof. intros h s ord (W & L). rewrite (olinks_len _ _ _ _ _ _ _ L). pose proof (w_size _ _ _ _ _ W). unfold size. lia. Qed.
Lemma order_zrange : forall h s ord, oinv h s ord -> (in_order link_lt (fun i => given (o_nth h s i)) (size (o_d s)) <-> ord = zrange (size (o_d s))).
Proof.
  intros h s ord H. rewrite <- (ord_size _ _ _ H). rewrite (in_order_sorted sz (o_base s) ord _ Hsz (fun i Hi => onth_given _ _ _ i H Hi)). rewrite (ord_size _ _ _ H). split.
  - intros Hs. apply ss_same; [exact Hs|apply zrange_ss|]. intros i. rewrite zrange_In. unfold size. apply (ol_in _ _ _ _ _ _ _ (proj2 H)).
  - intros ->. apply zrange_ss.
Qed.
Lemma wf_nodup : forall s : dense, dwf s -> (0 < nk)%nat -> NoDup (delems s).
Proof.
  intros s W Hk. pose proof (wf_distinct nk key_of hash keq rep rep_key s W 0%nat Hk) as D. induction (delems s) as [|x l IH]; constructor.
  - inversion D as [|? ? F _]; subst. intros Hin. rewrite Forall_forall in F. specialize (F x Hin). rewrite (kl_refl _ _ KL) in F. discriminate F.
  - apply IH. inversion D; assumption.
Qed.
Lemma order_array : forall h s ord, oinv h s ord -> (0 < nk)%nat -> (in_order link_lt (fun i => given (o_nth h s i)) (size (o_d s)) <-> ocont s ord = delems (o_d s)).
Proof.
  intros h s ord H Hk. rewrite (order_zrange _ _ _ H). pose proof H as (W & _). pose proof (delems_len nk key_of hash keq _ W) as Hl. pose proof (w_size _ _ _ _ _ W) as Hs.
  assert (Hz : size (o_d s) = Z.of_nat (length (delems (o_d s)))) by (unfold size; lia). rewrite Hz. unfold ocont. split; [intros ->; apply pick_zrange|].
  intros Hp. rewrite <- (pick_zrange (delems (o_d s))) in Hp at 2. revert Hp. unfold pick. apply flat_inj.
  - intros i Hi. apply (inv_in sz nk key_of hash keq _ _ _ _ H) in Hi. apply nth_error_Some. lia.
  - intros i Hi. apply zrange_In in Hi. apply nth_error_Some. lia.
  - intros i j x Hi Hj Ei Ej. apply (inv_in sz nk key_of hash keq _ _ _ _ H) in Hi. apply zrange_In in Hj. pose proof (proj1 (NoDup_nth_error (delems (o_d s))) (wf_nodup _ W Hk) (Z.to_nat i) (Z.to_nat j) ltac:(lia) ltac:(congruence)). lia.
Qed.
(** Comparison with end(). *)
Lemma end_below : forall h s ord, oinv h s ord -> 0 < size (o_d s) -> o_hdr s < o_base s ->
  exists a b, o_nth h s 0 = Ok a /\ o_nth h s (size (o_d s)) = Ok b /\ link_lt a b = false /\ link_lt b a = true.
Proof.
  intros h s ord H Hn Hh. pose proof H as (W & L). pose proof (olinks_len _ _ _ _ _ _ _ L) as Hlen. pose proof (w_size _ _ _ _ _ W) as Hs. unfold size in *. rewrite !(o_nth_ok sz h s ord _ L) by lia.
  eexists _, _. split; [reflexivity|]. split; [reflexivity|]. destruct ord as [|p ord]; [cbn [length] in Hlen; lia|].
  assert (X : nth (Z.to_nat (d_size (o_d s))) (map (slot sz s) (p :: ord) ++ [o_hdr s]) (o_hdr s) = o_hdr s) by (rewrite app_nth2 by (rewrite map_length; lia); rewrite map_length, Hlen, Nat.sub_diag; reflexivity).
  rewrite X. change (Z.to_nat 0) with 0%nat. cbn [map app nth]. unfold slot, link_lt.
  assert (0 <= p) by (apply (ol_in _ _ _ _ _ _ _ L p); left; reflexivity). split; [apply Z.ltb_ge|apply Z.ltb_lt]; nia.
Qed.
(** Erasing any but the last two elements of a container in order. *)
Lemma erase_disorders : forall v h s ord k, oinv h s ord -> in_order link_lt (fun i => given (o_nth h s i)) (size (o_d s)) -> 0 <= k -> k + 2 < size (o_d s) ->
  exists h' s', oexec v (h, s) (OEraseAt k) = Ok (h', s', QUnit) /\ size (o_d s') = size (o_d s) - 1 /\ ~ in_order link_lt (fun i => given (o_nth h' s' i)) (size (o_d s')).
Proof.
  intros v h s ord k H Ho Hk Hn. apply (order_zrange _ _ _ H) in Ho. pose proof H as (W & L). unfold size in *. cbn [OrderedRun.oexec]. rewrite (o_nth_ok sz h s ord k L ltac:(lia)). cbn [bind]. pose proof (olinks_len _ _ _ _ _ _ _ L) as Hlen.
  assert (En : nth_error ord (Z.to_nat k) = Some k). { rewrite Ho, zrange_nth_error. rewrite Z2Nat.id by lia. destruct (Z.ltb_spec k (d_size (o_d s))); [reflexivity|lia]. }
  assert (Hns : nth (Z.to_nat k) (map (slot sz s) ord ++ [o_hdr s]) (o_hdr s) = slot sz s k).
  { apply nth_error_nth. rewrite nth_error_app1 by (rewrite map_length; lia). rewrite nth_error_map, En. reflexivity. }
  rewrite Hns. apply nth_error_split in En. destruct En as (o1 & o2 & Eo & Hl1). rewrite Eo in L, H.
  assert (Hlv : live (o_d s) k) by (unfold live; lia).
  destruct (erase_at_ok nk key_of hash keq (o_d s) k W Hlv) as (d' & a & x & b & He & W' & Hd & Ha & Hd' & Hs1 & Hs2 & _).
  destruct (o_erase_at_sim sz nk Hsz h s o1 k o2 d' L He Hs1 Hs2) as (h' & Hz & L' & F'). rewrite Hz. cbn [bind fst].
  eexists _, _. split; [reflexivity|]. cbn [with_d o_d]. split; [exact Hs1|].
  assert (H' : oinv h' (with_d s d') (map (subst_last k (d_size (o_d s) - 1)) (o1 ++ o2))) by (split; [exact W'|exact L']).
  intros Ho'. pose proof (order_zrange _ _ _ H') as O. unfold size in O. cbn [with_d o_d] in O. apply O in Ho'. clear O.
  assert (X : nth_error (map (subst_last k (d_size (o_d s) - 1)) (o1 ++ o2)) (Z.to_nat k) = Some (k + 1)).
  { rewrite nth_error_map, nth_error_app2 by lia. rewrite Hl1, Nat.sub_diag.
    assert (Y : nth_error ord (Z.to_nat (k + 1)) = nth_error o2 0). { rewrite Eo, nth_error_app2 by lia. replace (Z.to_nat (k + 1) - length o1)%nat with 1%nat by lia. reflexivity. }
    rewrite <- Y, Ho, zrange_nth_error. rewrite Z2Nat.id by lia. destruct (Z.ltb_spec (k + 1) (d_size (o_d s))); [|lia]. cbn [option_map]. unfold subst_last. destruct (Z.eqb_spec (k + 1) (d_size (o_d s) - 1)); [lia|reflexivity]. }
  rewrite Ho', zrange_nth_error in X. rewrite Z2Nat.id in X by lia. destruct (k <? d_size d'); [injection X as X; lia|discriminate X].
Qed.

(** ** Programs that do not erase. *)
Definition appends (c : ocall E K) : Prop := match c with OErase _ _ | OEraseAt _ => False | _ => True end.
Lemma located_same : forall j k (l a b a' b' : list E) x x', dkeys_distinct nk key_of keq l -> (j < nk)%nat -> dlocated key_of keq j k l a x b -> dlocated key_of keq j k l a' x' b' -> a' = a /\ x' = x /\ b' = b.
Proof.
  intros j k l a b a' b' x x' D Hj (-> & Hk) (He & Hk'). specialize (D j Hj). revert a' He. induction a as [|y a IH]; intros [|y' a'] He; cbn [app] in *; try (injection He as <- He).
  - auto.
  - exfalso. inversion D as [|? ? F _]; subst. rewrite Forall_forall in F. assert (In x' (a' ++ x' :: b')) by (apply in_or_app; right; left; reflexivity). specialize (F _ H). rewrite (kl_trans _ _ KL _ _ _ Hk (kl_sym _ _ KL _ _ Hk')) in F. discriminate F.
  - exfalso. inversion D as [|? ? F _]; subst. rewrite Forall_forall in F. assert (In x (a ++ x :: b)) by (apply in_or_app; right; left; reflexivity). specialize (F _ H). rewrite (kl_trans _ _ KL _ _ _ Hk' (kl_sym _ _ KL _ _ Hk)) in F. discriminate F.
  - inversion D as [|? ? _ D']; subst. destruct (IH D' a' He) as (-> & -> & ->). auto.
Qed.
Lemma specs_same : forall c c' l l1 l2 r r', dkeys_distinct nk key_of keq l -> ocall_ok nk c -> appends c -> dplain c = Some [c'] -> ospec nk key_of keq rep c l l1 r -> dspec nk key_of keq rep c' l l2 r' -> dagrees r r' -> l1 = l2.
Proof.
  intros c c' l l1 l2 r r' D Hc Ha Hp Ho Hd Hr. destruct c; try contradiction; try discriminate Hp; injection Hp as <-; inversion Ho; subst; inversion Hd; subst; cbn [dagrees] in Hr; try discriminate Hr; try reflexivity.
  cbn [ocall_ok] in Hc. match goal with H1 : dlocated _ _ _ _ l ?a _ ?b, H2 : dlocated _ _ _ _ l ?a' _ ?b' |- ?a ++ _ = ?a' ++ _ =>
    destruct (located_same 0 _ l _ _ _ _ _ _ D ltac:(lia) H1 H2) as (-> & -> & ->) end. reflexivity.
Qed.
Lemma appends_step : forall v h s ord c h1 s1 r, dtied sz h s -> oinv h s ord -> ocont s ord = delems (o_d s) -> denv_ok (ov_d v) -> ocall_ok nk c -> appends c ->
  ~ SlotsCost.ostarved sz nk key_of hash keq rep v (h, s) c -> oexec v (h, s) c = Ok (h1, s1, r) ->
  dtied sz h1 s1 /\ exists ord1, oinv h1 s1 ord1 /\ ocont s1 ord1 = delems (o_d s1).
Proof.
  intros v h s ord c h1 s1 r T H Hd V Hc Ha Hn He. pose proof H as (W & _).
  destruct (ostep_ok sz nk key_of hash keq rep Hsz KL rep_key v h s ord c H V Hc) as [[(i & -> & _)|[(_ & j & k & ->)|[Hs|Hs]]]|(h' & s' & r' & He' & ord' & H' & _ & Ho)].
  - destruct Ha.
  - destruct Ha.
  - destruct (Hn Hs).
  - rewrite He in Hs. discriminate Hs.
  - rewrite He in He'. injection He' as <- <- <-. destruct (dplain c) as [[|c' [|c'' l]]|] eqn:Ep; try (destruct c; discriminate Ep); [| |destruct c; try discriminate Ep; destruct Ha].
    + destruct (dreads_same sz nk key_of hash keq rep v h s c Ep _ _ _ He) as (-> & ->). split; [exact T|]. exists ord. auto.
    + destruct (dstep_same sz nk key_of hash keq rep Hsz v h s c T c' Ep h1 s1 r He) as ((r' & E1 & Ar) & T1). split; [exact T1|]. exists ord'. split; [exact H'|].
      destruct (step_ok nk key_of hash keq rep KL rep_key (ov_d v) (o_d s) c' W V (SlotsDenseBounds.plain_ok nk c c' Ep Hc)) as [Hb|(t & rt & E2 & W2 & Hsp)].
      * exfalso. destruct Hb as [Hb|[(Hb & j & k & ->)|(Hb & t & Ht & Hk)]].
        -- apply Hb. destruct c; try discriminate Ep; injection Ep as <-; exact I.
        -- destruct c; try discriminate Ep. destruct Ha.
        -- rewrite E1 in Ht. injection Ht as <- ->. apply Hn. split; [exact Hb|]. exists (h1, s1). split; [|exact Hk]. rewrite He. do 2 f_equal. apply (SlotsDenseBounds.agrees_adds _ _ Ar). reflexivity.
      * rewrite E1 in E2. injection E2 as <- <-. rewrite <- Hd in Hsp. assert (Dk : dkeys_distinct nk key_of keq (ocont s ord)) by (rewrite Hd; apply (wf_distinct nk key_of hash keq rep rep_key _ W)). apply (specs_same c c' _ _ _ r r' Dk Hc Ha Ep Ho Hsp Ar).
Qed.
Lemma appends_run : forall hist h s ord h1 s1 rs, dtied sz h s -> oinv h s ord -> ocont s ord = delems (o_d s) -> ohistory_ok nk hist -> Forall (fun vc => appends (snd vc)) hist ->
  SlotsCost.fed sz nk key_of hash keq rep (h, s) hist -> orun (h, s) hist = Ok (h1, s1, rs) -> exists ord1, oinv h1 s1 ord1 /\ ocont s1 ord1 = delems (o_d s1).
Proof.
  induction hist as [|(v, c) hist IH]; intros h s ord h1 s1 rs T H Hd Hh Ha Hf Hr.
  - injection Hr as <- <- _. exists ord. auto.
  - cbn [OrderedRun.orun] in Hr. ok Hr. destruct x as ((h2, s2), r). ok Hr. destruct x as ((h3, s3), rs2). injection Hr as <- <- <-.
    inversion Hh as [|? ? [Hv Hc] Hh']; subst. inversion Ha as [|? ? A1 A2]; subst. cbn [fst snd] in Hv, Hc, A1. destruct (SlotsDenseBounds.fed_cons sz nk key_of hash keq rep _ _ _ _ _ _ Hf Ex) as (Hn & Hf1).
    destruct (appends_step _ _ _ _ _ _ _ _ T H Hd Hv Hc A1 Hn Ex) as (T1 & ord1 & H1 & D1). apply (IH _ _ _ _ _ _ T1 H1 D1 Hh' A2 Hf1 Ex0).
Qed.

(** ** front() and back(). *)
Lemma path_first : forall h l a b, path h a l b -> nx h a = Some (hd b l).
Proof. intros h [|x l] a b H; cbn [path hd] in *; [exact (proj1 H)|exact (proj1 (proj1 H))]. Qed.
Lemma deref_slot : forall h s ord i, oinv h s ord -> 0 <= i < size (o_d s) -> exists x, o_deref sz s (slot sz s i) = Ok x /\ nth_error (delems (o_d s)) (Z.to_nat i) = Some x.
Proof.
  intros h s ord i (W & L) Hi. unfold size in Hi. destruct (w_live _ _ _ _ _ W i Hi) as (n & Hn). unfold o_deref.
  rewrite (proj2 (slot_index sz Hsz h s ord i L (proj2 (ol_in _ _ _ _ _ _ _ L i) Hi))). cbn [bind]. rewrite (get_node_ok _ _ _ (w_mem _ _ _ _ _ W) Hn). cbn [bind].
  exists (n_val n). split; [reflexivity|]. rewrite (delems_nth nk key_of hash keq _ i W Hi). unfold val. rewrite Hn. reflexivity.
Qed.
Lemma ofront_back_ok : forall h s ord, oinv h s ord -> 0 < size (o_d s) ->
  exists x y, first_of (ocont s ord) = Some x /\ last_of (ocont s ord) = Some y /\ o_front sz h s = Ok x /\ o_back sz h s = Ok y.
Proof.
  intros h s ord H Hn. pose proof H as (W & L). pose proof (ord_size _ _ _ H) as Hl.
  assert (Hin : forall i, In i ord -> 0 <= i < size (o_d s)) by (intros i Hi; apply (ol_in _ _ _ _ _ _ _ L i); exact Hi).
  destruct ord as [|p o]; [cbn [length] in Hl; lia|]. destruct (exists_last (l := p :: o) ltac:(discriminate)) as (m & q & Em).
  destruct (deref_slot _ _ _ p H (Hin p (or_introl eq_refl))) as (x & Hx & Hx'). destruct (deref_slot _ _ _ q H (Hin q ltac:(rewrite Em; apply in_or_app; right; left; reflexivity))) as (y & Hy & Hy').
  exists x, y. split; [unfold ocont, pick, first_of; cbn [flat_map]; rewrite Hx'; reflexivity|].
  split; [unfold ocont; unfold pick; rewrite Em, flat_map_app; unfold last_of; rewrite app_length; cbn [flat_map]; rewrite Hy'; cbn [app length]; rewrite nth_error_app2 by lia; match goal with |- nth_error _ ?k = _ => replace k with 0%nat by lia end; reflexivity|].
  split.
  - unfold o_front. pose proof (proj1 (ol_ring _ _ _ _ _ _ _ L)) as P. rewrite (next_link_ok _ _ _ (path_first _ _ _ _ P)). cbn [bind map hd]. exact Hx.
  - unfold o_back. rewrite (hdr_prev sz h s _ L). cbn [bind]. rewrite Em, map_app. cbn [map]. rewrite app_comm_cons, last_last. exact Hy.
Qed.
Lemma oempty_front : forall h s ord, oinv h s ord -> size (o_d s) = 0 -> (exists e, o_front sz h s = Err e) /\ (exists e, o_back sz h s = Err e).
Proof.
  intros h s ord H Hn. pose proof H as (W & L). pose proof (ord_size _ _ _ H) as Hl. destruct ord as [|p o]; [|cbn [length] in Hl; lia].
  assert (X : exists e, o_deref sz s (o_hdr s) = Err e).
  { unfold o_deref. destruct (index_of sz s (o_hdr s)) as [i|e]; cbn [bind]; [|eauto]. destruct (get_node (o_d s) i) as [n|e] eqn:Eg; cbn [bind]; [|eauto]. pose proof (SlotsDenseBounds.get_live nk key_of hash keq (o_d s) i n W Eg). unfold size in Hn. lia. }
  unfold o_front, o_back. pose proof (proj1 (ol_ring _ _ _ _ _ _ _ L)) as P. rewrite (next_link_ok _ _ _ (path_first _ _ _ _ P)). rewrite (hdr_prev sz h s _ L). cbn [bind map hd last]. auto.
Qed.
End Dense.

(** ** The containers of programs. *)
Section World.
Context {E K : Type}.
Variable sz : Z.
Variable nk : nat.
Variable key_of : nat -> E -> K.
Variable hash : K -> Z.
Variable keq : K -> K -> bool.
Variable rep : E -> E -> E.
Hypothesis Hsz : 0 < sz.
Hypothesis KL : key_laws hash keq.
Hypothesis rep_key : forall x e, key_of 0%nat (rep x e) = key_of 0%nat x.
Variable clone : E -> E.
Variables pocca pocma : bool.
Hypothesis clone_key : forall j e, (j < nk)%nat -> key_of j (clone e) = key_of j e.
Notation occ := (OrderedWorld.yoccurs sz nk key_of hash keq rep clone pocca pocma).
Notation oinv_of := (OrderedFinal.occurs_oinv sz nk key_of hash keq rep clone pocca pocma Hsz KL rep_key clone_key).

Lemma ordered_front_back : forall hw c, occ hw ->
  (0 < size (o_d (snd hw c)) -> exists l x y, o_iterate sz (fst hw) (snd hw c) = Ok l /\ first_of l = Some x /\ last_of l = Some y /\
     o_front sz (fst hw) (snd hw c) = Ok x /\ o_back sz (fst hw) (snd hw c) = Ok y) /\
  (size (o_d (snd hw c)) = 0 -> (exists e, o_front sz (fst hw) (snd hw c) = Err e) /\ (exists e, o_back sz (fst hw) (snd hw c) = Err e)).
Proof.
  intros hw c Ho. destruct (oinv_of hw c Ho) as (ord & H & Hi). split.
  - intros Hn. destruct (ofront_back_ok sz nk key_of hash keq rep Hsz rep_key _ _ _ H Hn) as (x & y & A & B & C & D). exists (ocont (snd hw c) ord), x, y. auto.
  - intros Hn. apply (oempty_front sz nk key_of hash keq _ _ _ H Hn).
Qed.
Lemma ordered_in_order : (0 < nk)%nat -> forall hw c, occ hw ->
  (in_order link_lt (fun i => given (o_nth (fst hw) (snd hw c) i)) (size (o_d (snd hw c))) <-> o_iterate sz (fst hw) (snd hw c) = iterate (o_d (snd hw c))).
Proof.
  intros Hk hw c Ho. destruct (oinv_of hw c Ho) as (ord & H & Hi). rewrite (order_array sz nk key_of hash keq rep Hsz KL rep_key _ _ _ H Hk), Hi, (iterate_ok nk key_of hash keq _ (proj1 H)). split; [intros ->; reflexivity|intros X; injection X as X; exact X].
Qed.
Lemma appends_in_order : (0 < nk)%nat -> forall (h0 : heap) a hist h s rs, h0 a = Some (0, 0) -> ohistory_ok nk hist -> Forall (fun vc => appends (snd vc)) hist ->
  SlotsCost.fed sz nk key_of hash keq rep (h0, o_new a) hist -> orun sz nk key_of hash keq rep (h0, o_new a) hist = Ok (h, s, rs) ->
  in_order link_lt (fun i => given (o_nth h s i)) (size (o_d s)).
Proof.
  intros Hk h0 a hist h s rs H0 Hh Ha Hf Hr. pose proof (new_inv sz nk key_of hash keq h0 a H0) as H.
  destruct (appends_run sz nk key_of hash keq rep Hsz KL rep_key hist h0 (o_new a) [] h s rs (SlotsDenseBounds.new_dtied sz Hsz h0 a H0) H eq_refl Hh Ha Hf Hr) as (ord & H1 & D1).
  apply (order_array sz nk key_of hash keq rep Hsz KL rep_key _ _ _ H1 Hk). exact D1.
Qed.
Lemma ordered_disorders : forall hw c v k, occ hw ->
  in_order link_lt (fun i => given (o_nth (fst hw) (snd hw c) i)) (size (o_d (snd hw c))) -> 0 <= k -> k + 2 < size (o_d (snd hw c)) ->
  exists h' s', oexec sz nk key_of hash keq rep v (fst hw, snd hw c) (OEraseAt k) = Ok (h', s', QUnit) /\ size (o_d s') = size (o_d (snd hw c)) - 1 /\
    ~ in_order link_lt (fun i => given (o_nth h' s' i)) (size (o_d s')).
Proof. intros hw c v k Ho. destruct (oinv_of hw c Ho) as (ord & H & _). apply (erase_disorders sz nk key_of hash keq rep Hsz rep_key v _ _ ord k H). Qed.
Lemma ordered_end : forall hw c, occ hw -> 0 < size (o_d (snd hw c)) -> o_hdr (snd hw c) < o_base (snd hw c) ->
  exists a b, o_nth (fst hw) (snd hw c) 0 = Ok a /\ o_nth (fst hw) (snd hw c) (size (o_d (snd hw c))) = Ok b /\ link_lt a b = false /\ link_lt b a = true.
Proof. intros hw c Ho. destruct (oinv_of hw c Ho) as (ord & H & _). apply (end_below sz nk key_of hash keq Hsz _ _ ord H). Qed.
End World.
