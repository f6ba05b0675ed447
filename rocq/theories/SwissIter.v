(** Iteration over the open-addressing table: skipping free slots, walking, and how the
    element list splits around a slot. *)
From Coq Require Import ZArith List Bool Lia Permutation.
From Coq Require Import ZifyBool ZifyNat.
From Verif Require Import Base BaseLemmas Bits BitsProofs SwissModel SwissArith SwissCap MapSpec SwissInv SwissOps.
Import ListNotations.
Open Scope Z_scope.

(** ** Splitting a collection at an index. *)
Definition rest {A} (nodes : Z -> option A) (p n : Z) : list A := collect (fun i => nodes (p + i)) (n - p).

Lemma collect_split : forall A (nodes : Z -> option A) p n, 0 <= p <= n ->
  collect nodes n = collect nodes p ++ rest nodes p n.
Proof.
  intros A nodes p n [Hp Hn]. unfold rest. remember (n - p) as d eqn:Ed.
  assert (Hd : 0 <= d) by lia. replace n with (p + d) by lia. clear n Hn Ed.
  revert d Hd. apply cnt_ind.
  - rewrite (collect_0 _ _ 0) by lia. rewrite app_nil_r, Z.add_0_r. reflexivity.
  - intros d Hd IH. rewrite Z.add_assoc, !collect_succ by lia. rewrite IH, app_assoc. reflexivity.
Qed.

Lemma rest_end : forall A (nodes : Z -> option A) p n, n <= p -> rest nodes p n = [].
Proof. intros. unfold rest. apply collect_0. lia. Qed.

Lemma rest_cons : forall A (nodes : Z -> option A) p n, p < n ->
  rest nodes p n = match nodes p with Some x => [x] | None => [] end ++ rest nodes (p + 1) n.
Proof.
  intros A nodes p n Hp. unfold rest. rewrite (collect_split _ _ 1 (n - p)) by lia.
  change 1 with (0 + 1) at 1. rewrite collect_succ, collect_0 by lia. rewrite Z.add_0_r. cbn [app].
  f_equal. unfold rest. replace (n - p - 1) with (n - (p + 1)) by lia.
  apply collect_ext. intros i Hi. f_equal. lia.
Qed.

Lemma rest_skip : forall A (nodes : Z -> option A) p q n, p <= q <= n ->
  (forall j, p <= j < q -> nodes j = None) -> rest nodes p n = rest nodes q n.
Proof.
  intros A nodes p q n Hq Hn. remember (q - p) as d eqn:Ed. assert (Hd : 0 <= d) by lia.
  replace q with (p + d) in * by lia. clear q Ed. revert Hq Hn. revert d Hd. apply (cnt_ind (fun d => p <= p + d <= n ->
    (forall j, p <= j < p + d -> nodes j = None) -> rest nodes p n = rest nodes (p + d) n)).
  - intros _ _. rewrite Z.add_0_r. reflexivity.
  - intros d Hd IH Hq Hn. rewrite IH by (lia || (intros; apply Hn; lia)).
    rewrite rest_cons by lia. rewrite Hn by lia. cbn [app]. f_equal. lia.
Qed.

Lemma rest_ext : forall A (a b : Z -> option A) p n, (forall i, p <= i < n -> a i = b i) -> rest a p n = rest b p n.
Proof. intros A a b p n H. unfold rest. apply collect_ext. intros i Hi. apply H. lia. Qed.

Lemma collect_at : forall A (nodes : Z -> option A) p n x, 0 <= p < n -> nodes p = Some x ->
  collect nodes n = collect nodes p ++ x :: rest nodes (p + 1) n.
Proof. intros A nodes p n x Hp Hx. rewrite (collect_split _ _ p n) by lia. rewrite rest_cons, Hx by lia. reflexivity. Qed.

Lemma collect_upd_none : forall A (nodes : Z -> option A) p n, 0 <= p < n ->
  collect (upd nodes p None) n = collect nodes p ++ rest nodes (p + 1) n.
Proof.
  intros A nodes p n Hp. rewrite (collect_split _ _ p n) by lia. rewrite rest_cons, upd_same by lia. cbn [app].
  f_equal; [apply collect_ext|apply rest_ext]; intros i Hi; apply upd_other; lia.
Qed.

Lemma collect_upd_some : forall A (nodes : Z -> option A) p n x, 0 <= p < n ->
  collect (upd nodes p (Some x)) n = collect nodes p ++ x :: rest nodes (p + 1) n.
Proof.
  intros A nodes p n x Hp. rewrite (collect_at _ _ p n x) by (lia || apply upd_same).
  f_equal; [apply collect_ext|f_equal; apply rest_ext]; intros i Hi; apply upd_other; lia.
Qed.

(** ** Calls that scan metadata groups: defined, except that narrow groups may scan a
    zero word. *)
Definition narrow (f : simd) : Prop := f = NEON \/ f = WORD.
Definition scans (f : simd) {A} (r : res A) (P : A -> Prop) : Prop :=
  (exists a, r = Ok a /\ P a) \/ (narrow f /\ r = Err BitScanZero).

Lemma scans_Ok : forall f A (a : A) (P : A -> Prop), P a -> scans f (Ok a) P.
Proof. intros. left. eauto. Qed.
Lemma scans_bind : forall f A B (r : res A) (k : A -> res B) P Q,
  scans f r P -> (forall a, P a -> scans f (k a) Q) -> scans f (bind r k) Q.
Proof. intros f A B r k P Q [(a & -> & Ha)|(Hn & ->)] H; [apply H; exact Ha|right; auto]. Qed.
Lemma scans_imp : forall f A (r : res A) (P Q : A -> Prop), scans f r P -> (forall a, P a -> Q a) -> scans f r Q.
Proof. intros f A r P Q [(a & -> & Ha)|H] HI; [left; eauto|right; auto]. Qed.
Lemma scans_wide : forall f A (r : res A) P, scans f r P -> ~ narrow f -> exists a, r = Ok a /\ P a.
Proof. intros f A r P [H|[H _]] Hn; [exact H|contradiction]. Qed.

Section Swiss.
Context {E K : Type}.
Variable f : simd.
Variable key_of : E -> K.
Variable hash : K -> Z.
Variable keq : K -> K -> bool.
Local Notation W := (W f).
Local Notation swiss := (@swiss E).
Local Notation mwf := (mwf f).
Local Notation ncons := (ncons key_of hash).
Local Notation wf1 := (wf1 f key_of hash keq).
Local Notation wf0 := (@wf0 E).
Local Notation wf := (wf f key_of hash keq).
Local Notation scans := (scans f).

Lemma count_available_scans : forall b, valid_block f b -> scans (count_available f b) (fun n => n = leading b).
Proof.
  intros b Hb. assert (Hf : (f = SSE2 \/ f = SSSE3) \/ narrow f) by (unfold narrow; destruct f; auto).
  destruct Hf as [Hf|Hf].
  - rewrite count_available_sse by assumption. apply scans_Ok. reflexivity.
  - rewrite count_available_word by assumption. destruct (forallb is_available b); [right; auto|apply scans_Ok; reflexivity].
Qed.

(** The position [q] at which an iterator made at [p] stops. *)
Definition stops (s : swiss) (p q : Z) : Prop :=
  p <= q <= s_cap s /\ (forall j, p <= j < q -> is_available (s_meta s j) = true) /\
  is_available (s_meta s q) = false.

Lemma next_occupied_ok : forall (s : swiss), mwf s -> forall fuel p, 0 <= p <= s_cap s ->
  s_cap s - p < Z.of_nat fuel -> scans (next_occupied f fuel s p) (stops s p).
Proof.
  intros s M. pose proof (cap_bounds f s M) as Hcb. pose proof (W_pos f) as HW.
  induction fuel as [|fuel IH]; intros p Hp Hf; [lia|]. cbn [next_occupied].
  rewrite get_meta_ok by ((apply (mw_buf f s M)) || lia). cbn [bind].
  destruct (is_available (s_meta s p)) eqn:Ea.
  - destruct (load_block_ok f s M p Hp) as (b & -> & Hb & Hbn). cbn [bind].
    eapply scans_bind; [apply count_available_scans; exact Hb|]. intros n ->.
    assert (HbL : Z.of_nat (length b) = W) by apply Hb.
    pose proof (leading_bound b) as Hlb.
    assert (Hall : forall j, p <= j < p + leading b -> is_available (s_meta s j) = true).
    { intros j Hj. replace j with (p + (j - p)) by lia. rewrite <- Hbn by lia.
      apply (leading_spec b (j - p)); lia. }
    assert (Hpos : 1 <= leading b).
    { destruct (Z.eq_dec (leading b) 0) as [E0|]; [|lia]. exfalso.
      destruct (leading_spec b 0 ltac:(lia)) as [_ H0]. specialize (H0 ltac:(lia)).
      rewrite Hbn in H0 by lia. rewrite Z.add_0_r in H0. congruence. }
    assert (Hle : p + leading b <= s_cap s).
    { destruct (Z_le_dec (p + leading b) (s_cap s)); [assumption|]. exfalso.
      pose proof (Hall (s_cap s) ltac:(lia)) as Hs. rewrite (mw_sent f s M) in Hs. discriminate. }
    eapply scans_imp; [apply IH; lia|]. intros q (Hq & Hall2 & Hs). split; [lia|]. split; [|exact Hs].
    intros j Hj. destruct (Z_lt_dec j (p + leading b)); [apply Hall; lia|apply Hall2; lia].
  - apply scans_Ok. split; [lia|]. split; [intros; lia|exact Ea].
Qed.

Lemma next_occupied_here : forall (s : swiss) fuel p, mwf s -> 0 <= p <= s_cap s ->
  is_available (s_meta s p) = false -> next_occupied f (S fuel) s p = Ok p.
Proof.
  intros s fuel p M Hp Ha. pose proof (W_pos f). cbn [next_occupied].
  rewrite get_meta_ok by ((apply (mw_buf f s M)) || lia). cbn [bind]. rewrite Ha. reflexivity.
Qed.

Lemma to_iter_ok : forall (s : swiss) p, mwf s -> 0 <= p <= s_cap s -> scans (to_iter f s p) (stops s p).
Proof.
  intros s p M Hp. unfold to_iter. rewrite (mw_buf f s M).
  apply next_occupied_ok; [exact M|exact Hp|]. unfold iter_fuel. lia.
Qed.

Lemma to_iter_here : forall (s : swiss) p, mwf s -> 0 <= p <= s_cap s -> is_available (s_meta s p) = false ->
  to_iter f s p = Ok p.
Proof.
  intros s p M Hp Ha. unfold to_iter. rewrite (mw_buf f s M). apply next_occupied_here; assumption.
Qed.

Lemma end_iter_ok : forall (s : swiss), wf s -> end_iter f s = Ok (s_cap s).
Proof.
  intros s [H0|H1]; unfold end_iter.
  - destruct (w0_buf s H0) as [B|[B Hs]]; unfold to_iter; rewrite B; [reflexivity|].
    rewrite (w0_cap s H0). pose proof (W_pos f). cbn [iter_fuel next_occupied].
    rewrite get_meta_ok by (auto; rewrite (w0_cap s H0); lia). cbn [bind]. rewrite Hs. reflexivity.
  - pose proof (w_m _ _ _ _ s H1) as M. pose proof (cap_bounds f s M). apply to_iter_here; [exact M|lia|].
    rewrite (mw_sent f s M). reflexivity.
Qed.

Lemma end_iter_mwf : forall (s : swiss), mwf s -> end_iter f s = Ok (s_cap s).
Proof.
  intros s M. pose proof (cap_bounds f s M). apply to_iter_here; [exact M|lia|].
  rewrite (mw_sent f s M). reflexivity.
Qed.

(** Stopping positions in terms of the nodes. *)
Lemma avail_none : forall (s : swiss) j, ncons s -> 0 <= j < s_cap s -> is_available (s_meta s j) = true -> s_nodes s j = None.
Proof.
  intros s j [N _] Hj Ha. specialize (N j Hj). destruct (s_nodes s j) as [[e h]|]; [|reflexivity].
  destruct N as [_ E1]. rewrite E1 in Ha. rewrite (occ_avail _ (occ_h2 h)) in Ha. discriminate.
Qed.
Lemma some_unavail : forall (s : swiss) j n, ncons s -> s_nodes s j = Some n -> is_available (s_meta s j) = false /\ 0 <= j < s_cap s.
Proof.
  intros s j [e h] [N O] Hn. assert (Hj : 0 <= j < s_cap s).
  { destruct (Z_le_dec 0 j), (Z_lt_dec j (s_cap s)); try lia; rewrite O in Hn by lia; discriminate. }
  split; [|exact Hj]. specialize (N j Hj). rewrite Hn in N. destruct N as [_ ->]. apply occ_avail, occ_h2.
Qed.

Lemma stops_rest : forall (s : swiss) p q, ncons s -> 0 <= p -> stops s p q ->
  rest (s_nodes s) p (s_cap s) = rest (s_nodes s) q (s_cap s) /\
  (q < s_cap s -> exists n, s_nodes s q = Some n).
Proof.
  intros s p q N Hp (Hq & Hall & Hs). split.
  - apply rest_skip; [lia|]. intros j Hj. apply avail_none; [exact N|lia|apply Hall; lia].
  - intros Hlt. destruct (s_nodes s q) as [n|] eqn:En; [eauto|]. exfalso.
    destruct N as [N _]. specialize (N q ltac:(lia)). rewrite En in N. congruence.
Qed.

(** Slots in order, with their elements. *)
Definition slots_from (s : swiss) (p : Z) : list (Z * E) :=
  rest (fun i => match s_nodes s i with Some n => Some (i, fst n) | None => None end) p (s_cap s).

Lemma rest_map : forall A B (g : A -> B) (nodes : Z -> option A) p n, 
  rest (fun i => option_map g (nodes i)) p n = map g (rest nodes p n).
Proof.
  intros A B g nodes p n. unfold rest. generalize (n - p). intros d.
  destruct (Z_le_dec 0 d) as [Hd|]; [|rewrite !collect_0 by lia; reflexivity].
  revert d Hd. apply cnt_ind; [rewrite !collect_0 by lia; reflexivity|].
  intros d Hd IH. rewrite !collect_succ, IH, map_app by lia. f_equal. destruct (nodes (p + d)); reflexivity.
Qed.

Lemma collect_map : forall A B (g : A -> B) (nodes : Z -> option A) n,
  collect (fun i => option_map g (nodes i)) n = map g (collect nodes n).
Proof.
  intros A B g nodes d. destruct (Z_le_dec 0 d) as [Hd|]; [|rewrite !collect_0 by lia; reflexivity].
  revert d Hd. apply cnt_ind; [rewrite !collect_0 by lia; reflexivity|].
  intros d Hd IH. rewrite !collect_succ, IH, map_app by lia. f_equal. destruct (nodes d); reflexivity.
Qed.

Lemma slots_from_elems : forall (s : swiss) p, map snd (slots_from s p) = map fst (rest (s_nodes s) p (s_cap s)).
Proof.
  intros s p. unfold slots_from. rewrite <- !rest_map. apply rest_ext. intros i _.
  destruct (s_nodes s i) as [[e h]|]; reflexivity.
Qed.

Lemma walk_ok : forall (s : swiss), mwf s -> ncons s -> forall fuel p, 0 <= p <= s_cap s ->
  (p < s_cap s -> exists n, s_nodes s p = Some n) -> s_cap s - p < Z.of_nat fuel ->
  scans (walk f fuel s p (s_cap s)) (fun l => l = slots_from s p).
Proof.
  intros s M N. induction fuel as [|fuel IH]; intros p Hp Hn Hf; [lia|]. cbn [walk].
  destruct (Z.eqb_spec p (s_cap s)) as [->|Hne].
  - apply scans_Ok. unfold slots_from. rewrite rest_end by lia. reflexivity.
  - destruct (Hn ltac:(lia)) as [n En]. rewrite (get_node_ok s p n) by ((apply (mw_buf f s M)) || lia || exact En).
    cbn [bind]. unfold iter_next.
    eapply scans_bind; [apply next_occupied_ok; [exact M|lia|unfold iter_fuel; lia]|].
    intros q Hq. pose proof Hq as (Hq1 & Hq2 & Hq3).
    eapply scans_bind.
    + apply IH; [lia|apply (stops_rest s (p + 1) q N ltac:(lia) Hq)|lia].
    + intros l ->. apply scans_Ok. symmetry. unfold slots_from. rewrite rest_cons by lia. rewrite En. cbn [app].
      f_equal. apply rest_skip; [lia|]. intros j Hj. rewrite (avail_none s j N); [reflexivity|lia|apply Hq2; lia].
Qed.

Lemma iterate_ok : forall (s : swiss), wf s -> scans (iterate f s) (fun l => l = slots_from s 0).
Proof.
  intros s H. pose proof (end_iter_ok s H) as He. unfold iterate. destruct H as [H0|H1].
  - unfold begin_iter. pose proof (w0_cap s H0) as C0. unfold end_iter in *. rewrite C0 in He.
    rewrite C0, He. cbn [bind]. unfold iter_fuel. rewrite C0. cbn [walk Z.to_nat Z.eqb bind].
    apply scans_Ok. unfold slots_from. rewrite rest_end by lia. reflexivity.
  - pose proof (w_m _ _ _ _ s H1) as M. pose proof (w_n _ _ _ _ s H1) as N. pose proof (cap_bounds f s M) as Hcb.
    unfold begin_iter. eapply scans_bind; [apply to_iter_ok; [exact M|lia]|]. intros q Hq.
    rewrite He. cbn [bind]. pose proof Hq as (Hq1 & Hq2 & _).
    eapply scans_imp.
    + apply walk_ok; [exact M|exact N|lia|apply (stops_rest s 0 q N ltac:(lia) Hq)|unfold iter_fuel; lia].
    + intros l ->. unfold slots_from. symmetry. apply rest_skip; [lia|]. intros j Hj.
      rewrite (avail_none s j N); [reflexivity|lia|apply Hq2; lia].
Qed.

Lemma elems_rest : forall (s : swiss), 0 <= s_cap s -> elems s = map fst (rest (s_nodes s) 0 (s_cap s)).
Proof.
  intros s Hc. unfold elems. rewrite (collect_split _ _ 0 (s_cap s)) by lia. rewrite collect_0 by lia. reflexivity.
Qed.

Lemma iterate_elems : forall (s : swiss), wf s -> scans (iterate f s) (fun l => map snd l = elems s).
Proof.
  intros s H. eapply scans_imp; [apply iterate_ok; exact H|]. intros l ->. rewrite slots_from_elems, elems_rest; [reflexivity|].
  destruct H as [H0|H1]; [rewrite (w0_cap s H0); lia|]. pose proof (cap_bounds f s (w_m _ _ _ _ s H1)). lia.
Qed.

(** The element list around an occupied slot. *)
Lemma elems_at : forall (s : swiss) p n, 0 <= p < s_cap s -> s_nodes s p = Some n ->
  elems s = map fst (collect (s_nodes s) p) ++ fst n :: map fst (rest (s_nodes s) (p + 1) (s_cap s)).
Proof. intros s p n Hp Hn. unfold elems. rewrite (collect_at _ _ p _ n) by assumption. rewrite map_app. reflexivity. Qed.

Lemma elems_absent : forall (s : swiss) k, (forall i, ~ (0 <= i < s_cap s) -> s_nodes s i = None) ->
  ((forall j, ~ has_key key_of keq s k j) <-> (forall x, In x (elems s) -> keq (key_of x) k = false)).
Proof.
  intros s k Ho. unfold elems. split.
  - intros H x Hx. apply in_map_iff in Hx. destruct Hx as ([e h] & <- & Hx). apply collect_In in Hx.
    destruct Hx as (i & Hi & Ei). cbn [fst]. destruct (keq (key_of e) k) eqn:Ek; [|reflexivity].
    exfalso. apply (H i). exists e, h. auto.
  - intros H j (e & h & Ej & Ek). assert (Hj : 0 <= j < s_cap s).
    { destruct (Z_le_dec 0 j), (Z_lt_dec j (s_cap s)); try lia; rewrite Ho in Ej by lia; discriminate. }
    rewrite (H e) in Ek; [discriminate|]. apply in_map_iff. exists (e, h). split; [reflexivity|].
    apply collect_In. eauto.
Qed.

End Swiss.
