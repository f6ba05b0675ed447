(** Histories of calls on an ordered swiss table refine insertion-order lists. *)
From Coq Require Import ZArith List Bool Lia Permutation.
From Verif Require Import Base BaseLemmas MapSpec Bits SwissModel SwissArith SwissCap SwissInv SwissOps SwissClean SwissIter SwissRun SwissRoom SwissRefine
  LinkModel LinkProofs OrderedLinks SwissOrderedSpec SwissOrdered SwissOrderedRun SwissOrderedLinks SwissOrderedProofs SwissOrderedOps.
Import ListNotations.
Open Scope Z_scope.

Section Z.
Context {E K : Type}.
Variable f : simd.
Variable sz : Z.
Variable key_of : E -> K.
Variable hash : K -> Z.
Variable keq : K -> K -> bool.
Hypothesis Hsz : 0 < sz.
Hypothesis KL : key_laws hash keq.
Notation swiss := (@swiss E).
Notation oswiss := (oswiss E).
Notation wf1 := (wf1 f key_of hash keq).
Notation wf := (wf f key_of hash keq).
Notation inv := (inv f key_of hash keq).
Notation absent := (absent key_of keq).
Notation zinv := (zinv f sz key_of hash keq).
Notation sfr := (sfr sz).
Notation slot s := (fun i => os_base s + i * sz).
Notation place_of s ord := (place_at sz (os_hdr s) (os_base s) ord).

Lemma erase_if_loop_ok : forall pred m fuel h s o1 cnt, zinv h s (o1 ++ m) -> (length m < fuel)%nat ->
  exists h' s' ord', s_erase_if_loop f sz fuel pred h s (place_of s m) cnt = Ok (h', s', cnt + Z.of_nat (length (filter pred (cont s m)))) /\ zinv h' s' ord' /\
    cont s' ord' = cont s o1 ++ filter (fun x => negb (pred x)) (cont s m) /\ sfr h s h' s' /\ (s_cap (os_t s') = 0 -> s' = s).
Proof.
  intros pred m. induction m as [|i m IH]; intros fuel h s o1 cnt H Hf; (destruct fuel as [|fuel]; [lia|]); cbn [s_erase_if_loop place_at].
  - rewrite Z.eqb_refl. exists h, s, (o1 ++ []). split; [unfold cont; cbn [seqn flat_map filter length]; do 3 f_equal; lia|]. split; [exact H|]. split; [unfold cont; rewrite seqn_app; reflexivity|]. split; [apply sfr_refl|auto].
  - destruct (zi_slot f sz key_of hash keq Hsz _ _ _ i H ltac:(apply in_or_app; right; left; reflexivity)) as (Hr & Hh & Hi & n & Hn & Hg). unfold sslot in *. destruct (Z.eqb_spec (os_base s + i * sz) (os_hdr s)) as [|_]; [contradiction|].
    rewrite Hi. cbn [bind]. rewrite Hg. cbn [bind length] in *. assert (Ec : cont s (i :: m) = fst n :: cont s m) by (apply seqn_cons; exact Hn). rewrite Ec. cbn [filter].
    destruct (pred (fst n)) eqn:Ep; cbn [negb].
    + pose proof (erase_at_ok f sz key_of hash keq Hsz _ _ _ _ _ H) as Ea. unfold sslot in Ea. rewrite Ea. destruct (do_erase_ok f sz key_of hash keq Hsz KL _ _ _ _ _ H) as (h1 & s1 & E1 & I1 & F1 & N1 & B1 & C1 & _ & _). rewrite E1. cbn [bind].
      destruct (IH fuel h1 s1 o1 (cnt + 1) I1 ltac:(lia)) as (h2 & s2 & ord2 & E2 & I2 & C2 & F2 & Z2). exists h2, s2, ord2. rewrite B1, (proj1 F1) in E2. rewrite E2.
      assert (Em : cont s1 m = cont s m) by (apply (erased_cont f sz key_of hash keq _ _ _ _ _ _ _ H N1); intros j Hj; apply in_or_app; right; exact Hj).
      assert (Eo : cont s1 o1 = cont s o1) by (apply (erased_cont f sz key_of hash keq _ _ _ _ _ _ _ H N1); intros j Hj; apply in_or_app; left; exact Hj).
      split; [rewrite Em; do 2 f_equal; cbn [length]; lia|]. split; [exact I2|]. split; [rewrite C2, Em, Eo; reflexivity|]. split; [apply (sfr_trans sz _ _ h1 s1); assumption|].
      intros Hz. rewrite (Z2 Hz) in Hz. lia.
    + rewrite (next_at sz Hsz _ _ _ _ _ _ _ (zi_rl _ _ _ _ _ _ _ _ H)). cbn [bind]. destruct (IH fuel h s (o1 ++ [i]) cnt) as (h2 & s2 & ord2 & E2 & I2 & C2 & F2 & Z2); [rewrite <- app_assoc; exact H|lia|].
      exists h2, s2, ord2. rewrite E2. split; [reflexivity|]. split; [exact I2|]. split; [|split; [exact F2|exact Z2]]. rewrite C2. unfold cont. rewrite seqn_app. rewrite (seqn_cons _ _ _ _ Hn). rewrite <- app_assoc. reflexivity.
Qed.
Lemma erase_if_ok : forall pred h s ord, zinv h s ord ->
  exists h' s' ord', s_erase_if f sz pred h s = Ok (h', s', Z.of_nat (length (filter pred (cont s ord)))) /\ zinv h' s' ord' /\
    cont s' ord' = filter (fun x => negb (pred x)) (cont s ord) /\ sfr h s h' s' /\ (s_cap (os_t s') = 0 -> s' = s).
Proof.
  intros pred h s ord H. unfold s_erase_if. rewrite (begin_at sz _ _ _ _ _ (zi_rl _ _ _ _ _ _ _ _ H)). cbn [bind].
  destruct (erase_if_loop_ok pred ord (iter_fuel (os_t s)) h s [] 0 H) as (h' & s' & o' & E1 & I1 & C1 & F1 & Z1); [pose proof (rl_len _ _ _ _ _ _ (zi_rl _ _ _ _ _ _ _ _ H)); unfold iter_fuel; lia|].
  exists h', s', o'. auto.
Qed.
Lemma erase_range_ok : forall h s o1 m o2, zinv h s (o1 ++ m ++ o2) ->
  exists h' s', s_erase_range f sz h s (place_of s (m ++ o2)) (place_of s o2) = Ok (h', s', match m with [] => os_hdr s | _ => place_of s o2 end) /\ zinv h' s' (o1 ++ o2) /\
    cont s' (o1 ++ o2) = cont s (o1 ++ o2) /\ sfr h s h' s' /\ os_base s' = os_base s /\ s_cap (os_t s') = s_cap (os_t s).
Proof.
  intros h s o1 m o2 H. unfold s_erase_range. pose proof (zi_rl _ _ _ _ _ _ _ _ H) as L. apply (range_loop f sz key_of hash keq Hsz KL m); try assumption.
  - destruct o2 as [|i o2]; cbn [place_at].
    + rewrite app_nil_r in L. apply (back_link sz _ _ _ _ _ L).
    + rewrite app_assoc in L. apply (prev_of sz _ _ _ _ _ _ _ L).
  - intros ->. reflexivity.
  - intros x r ->. cbn [app place_at]. split; [reflexivity|]. pose proof (rl_nd _ _ _ _ _ _ L) as Hnd. destruct o2 as [|i o2]; cbn [place_at].
    + intros He. symmetry in He. revert He. apply (rl_hdr _ _ _ _ _ _ L). apply (rl_in _ _ _ _ _ _ L). apply in_or_app. right. left. reflexivity.
    + apply (slot_ne sz Hsz). intros ->. cbn [app] in Hnd. apply NoDup_remove_2 in Hnd. apply Hnd. rewrite !in_app_iff. right. right. left. reflexivity.
  - pose proof (rl_len _ _ _ _ _ _ L) as Hl. rewrite !app_length in Hl. unfold iter_fuel. lia.
Qed.

(** ** Traversal. *)
Lemma deref_ok : forall h s ord o, zinv h s ord -> (forall i, In i o -> In i ord) -> s_deref_all sz s (map (slot s) o) = Ok (cont s o).
Proof.
  intros h s ord o H. induction o as [|i o IH]; intros Ho; [reflexivity|]. cbn [map s_deref_all]. destruct (zi_slot f sz key_of hash keq Hsz _ _ _ i H (Ho i (or_introl eq_refl))) as (_ & _ & Hi & n & Hn & Hg). unfold sslot in Hi.
  rewrite Hi. cbn [bind]. rewrite Hg. cbn [bind]. rewrite IH by (intros j Hj; apply Ho; right; exact Hj). cbn [bind]. unfold cont. rewrite (seqn_cons _ _ _ _ Hn). reflexivity.
Qed.
Lemma iterate_ok : forall h s ord, zinv h s ord -> s_iterate sz h s = Ok (cont s ord).
Proof.
  intros h s ord H. unfold s_iterate. destruct (walk_links sz _ _ _ _ _ (iter_fuel (os_t s)) (zi_rl _ _ _ _ _ _ _ _ H)) as (a & E1 & E2); [unfold iter_fuel; lia|]. rewrite E1. cbn [bind]. rewrite E2. cbn [bind]. apply (deref_ok h s ord ord H). auto.
Qed.
Lemma cont_rev : forall (s : oswiss) (ord : list Z), (forall i, In i ord -> s_nodes (os_t s) i <> None) -> cont s (rev ord) = rev (cont s ord).
Proof.
  intros s ord. induction ord as [|i o IH]; intros H; [reflexivity|]. cbn [rev]. unfold cont in *. rewrite seqn_app, IH by (intros j Hj; apply H; right; exact Hj).
  destruct (s_nodes (os_t s) i) as [n|] eqn:En; [|exfalso; apply (H i); [left; reflexivity|exact En]]. rewrite !(seqn_cons _ _ _ _ En). reflexivity.
Qed.
Lemma backwards_ok : forall h s ord, zinv h s ord -> s_backwards sz h s = Ok (rev (cont s ord)).
Proof.
  intros h s ord H. unfold s_backwards. destruct (walk_back_links sz _ _ _ _ _ (iter_fuel (os_t s)) (zi_rl _ _ _ _ _ _ _ _ H)) as (a & E1 & E2); [unfold iter_fuel; lia|]. rewrite E1. cbn [bind]. rewrite E2. cbn [bind].
  rewrite (deref_ok h s ord (rev ord) H) by (intros i; apply in_rev). f_equal. apply cont_rev. intros i Hi. apply (zi_tied _ _ _ _ _ _ _ _ H). exact Hi.
Qed.
Lemma zi_lists : forall h s ord, zinv h s ord -> zlists sz (h, s) (cont s ord).
Proof. intros h s ord H. split; [apply iterate_ok; exact H|apply backwards_ok; exact H]. Qed.
Lemma value_ok : forall h s ord i n, zinv h s ord -> s_nodes (os_t s) i = Some n -> s_iter sz s i = sslot sz s i /\ s_value sz s (sslot sz s i) = Ok (fst n) /\ s_at sz s (sslot sz s i) = Ok (Some (fst n)) /\ 0 <= i < s_cap (os_t s).
Proof.
  intros h s ord i n H Hn. assert (Hi : In i ord) by (apply (zi_tied _ _ _ _ _ _ _ _ H); congruence). destruct (zi_slot f sz key_of hash keq Hsz _ _ _ i H Hi) as (Hr & Hh & Hx & n' & Hn' & Hg). rewrite Hn in Hn'. injection Hn' as <-.
  split; [unfold s_iter; destruct (Z.ltb_spec i (s_cap (os_t s))); [reflexivity|lia]|]. split; [unfold s_value; rewrite Hx; cbn [bind]; rewrite Hg; reflexivity|]. split; [|exact Hr].
  unfold s_at. destruct (Z.eqb_spec (sslot sz s i) (os_hdr s)) as [|_]; [contradiction|]. rewrite Hx. cbn [bind]. rewrite Hg. reflexivity.
Qed.

(** ** Clear, reserve, rehash. *)
Lemma empty_nodes : forall (t : swiss), wf t -> elems t = [] -> forall i, s_nodes t i = None.
Proof.
  intros t Hw He i. destruct (s_nodes t i) as [n|] eqn:En; [|reflexivity]. destruct (wf_some f key_of hash keq _ _ _ Hw En) as (_ & Hr). exfalso. unfold elems in He. apply map_eq_nil in He.
  assert (Hi : In n (collect (s_nodes t) (s_cap t))) by (apply collect_In; exists i; auto). rewrite He in Hi. destruct Hi.
Qed.
Lemma clear_links : forall h s ord, zinv h s ord -> exists h' s', s_clear f h s = Ok (h', s') /\ zinv h' s' [] /\ sfr h s h' s' /\ (s_cap (os_t s) = 0 -> s' = s) /\ s_cap (os_t s') = s_cap (os_t s).
Proof.
  intros h s ord H. unfold s_clear. destruct (clear_ok f key_of hash keq (os_t s) (zi_wf _ _ _ _ _ _ _ _ H)) as (t1 & E1 & W1 & El1 & C1 & S1 & Z1). pose proof (zi_rl _ _ _ _ _ _ _ _ H) as L.
  pose proof (empty_nodes t1 W1 El1) as N1. destruct (zi_len f sz key_of hash keq _ _ _ H) as (_ & Hsz0).
  assert (Hh : exists h', (if s_size (os_t s) =? 0 then Ok h else reset_link h (os_hdr s)) = Ok h' /\ rlinks sz h' (os_hdr s) (os_base s) (s_cap (os_t s)) [] /\ frame sz h (os_hdr s) (os_base s) (s_cap (os_t s)) h' (os_hdr s) (os_base s) (s_cap (os_t s))).
  { destruct (Z.eqb_spec (s_size (os_t s)) 0) as [Hz|_].
    - exists h. split; [reflexivity|]. destruct ord; [|cbn [length] in Hsz0; lia]. split; [exact L|apply frame_refl].
    - apply (reset_links sz _ _ _ _ _ L). }
  destruct Hh as (h' & Eh & L' & F'). rewrite Eh. cbn [bind]. rewrite E1. cbn [bind]. exists h', (with_t s t1). split; [reflexivity|]. split; [|split; [|split; [|exact C1]]].
  - constructor; cbn [with_t os_t]; [exact W1|unfold rl; cbn [with_t os_t os_hdr os_base]; rewrite C1; exact L'|]. intros i. rewrite N1. split; [intros []|congruence].
  - split; [reflexivity|]. cbn [with_t os_t os_hdr os_base]. rewrite C1. exact F'.
  - intros Hz. rewrite (Z1 Hz). destruct s; reflexivity.
Qed.
Lemma do_rehash_swapless : forall lim (t t' : swiss) c tr, do_rehash f lim t c = Ok (t', Some tr) -> swapless tr.
Proof.
  intros lim t t' c tr H. unfold do_rehash in H. destruct (lim <? c); [discriminate|]. apply bind_Ok in H. destruct H as ((x & mv) & _ & H). injection H as _ <-. intros a b [Hi|[]]. discriminate.
Qed.
Lemma reserve_swapless : forall lim (t t' : swiss) n tr, reserve f lim t n = Ok (t', Some tr) -> swapless tr.
Proof.
  intros lim t t' n tr H. unfold reserve in H. destruct (add64 (s_size t) (s_nempty t) <? n); [|injection H as _ <-; intros a b []]. apply bind_Ok in H. destruct H as (c & _ & H). apply (do_rehash_swapless _ _ _ _ _ H).
Qed.
Lemma rehash_swapless : forall lim (t t' : swiss) n tr, rehash f lim t n = Ok (t', Some tr) -> swapless tr.
Proof.
  intros lim t t' n tr H. unfold rehash in H. destruct ((n =? 0) && (s_size t =? 0)); [injection H as _ <-; intros a b []|]. apply bind_Ok in H. destruct H as (c & _ & H).
  destruct ((n =? 0) || (s_cap t <? c)); [apply (do_rehash_swapless _ _ _ _ _ H)|injection H as _ <-; intros a b []].
Qed.
Lemma resized_ok : forall v h s ord t o, zinv h s ord -> resized f key_of hash keq (ev_lim (sv_e v)) (os_t s) t o -> (forall tr, o = Some tr -> swapless tr) ->
  s_resized sz v h s (t, o) = Err BadPlacement \/
  exists h' s' ord', s_resized sz v h s (t, o) = Ok (h', s', match o with None => None | Some _ => Some tt end) /\ os_t s' = t /\ zinv h' s' ord' /\ cont s' ord' = cont s ord /\ sfr h s h' s'.
Proof.
  intros v h s ord t o H R Hs. unfold s_resized. destruct o as [tr|].
  - destruct R as (W1 & _ & _ & T1 & _). destruct (events_ok f sz key_of hash keq Hsz v h s ord tr t H T1 W1 (Hs tr eq_refl)) as [->|(h' & s' & g & -> & Et & I & C & F & _)]; [left; reflexivity|right]. cbn [bind]. exists h', s', (map g ord). auto.
  - cbn [resized] in R. subst t. right. exists h, (with_t s (os_t s)), ord. assert (Es : with_t s (os_t s) = s) by (destruct s; reflexivity). rewrite Es. split; [reflexivity|]. split; [reflexivity|]. split; [exact H|]. split; [reflexivity|apply sfr_refl].
Qed.
End Z.
