(** erase_if, node handles, merge, range construction, move and swap on well-formed
    tables. *)
From Coq Require Import ZArith List Bool Lia Permutation.
From Coq Require Import ZifyBool ZifyNat.
From Verif Require Import Base BaseLemmas Bits BitsProofs SwissModel SwissArith SwissCap SwissInv SwissOps SwissClean
  SwissIter SwissRoom MapSpec WorldSpec SwissRun SwissRefine SwissFinal.
Import ListNotations.
Open Scope Z_scope.

Section More.
Context {E K : Type}.
Variable f : simd.
Variable key_of : E -> K.
Variable hash : K -> Z.
Variable keq : K -> K -> bool.

Local Notation swiss := (@swiss E).
Local Notation wf1 := (wf1 f key_of hash keq).
Local Notation wf := (wf f key_of hash keq).
Local Notation inv := (inv f key_of hash keq).
Local Notation scans := (scans f).

(** Between an occupied slot and the next stopping position nothing is stored. *)
Lemma rest_none : forall A (nodes : Z -> option A) p q, p <= q -> (forall j, p <= j < q -> nodes j = None) -> rest nodes p q = [].
Proof. intros A nodes p q Hpq H. rewrite (rest_skip A nodes p q q) by (lia || exact H). apply rest_end. lia. Qed.

Lemma stops_none : forall (s : swiss) p q, ncons key_of hash s -> 0 <= p -> stops s p q -> forall j, p <= j < q -> s_nodes s j = None.
Proof. intros s p q N Hp (Hq & Ha & _) j Hj. apply (avail_none key_of hash s j N); [lia|]. apply Ha. exact Hj. Qed.

Lemma pairs_after : forall A (R : A -> A -> Prop) a x b, ForallOrdPairs R (a ++ x :: b) -> forall y, In y b -> R x y.
Proof.
  induction a as [|z a IH]; cbn [app]; intros x b H y Hy; inversion H as [|? ? H1 H2]; subst.
  - rewrite Forall_forall in H1. auto.
  - eapply IH; eauto.
Qed.

Hypothesis KL : key_laws hash keq.

(** ** erase_if. *)
Lemma erase_at_ok : forall (s : swiss) p n, wf1 s -> s_nodes s p = Some n -> erase_at f s p = do_erase f s p.
Proof.
  intros s p n H Hn. unfold erase_at. rewrite (end_iter_ok f key_of hash keq s (or_intror H)). cbn [bind].
  destruct (wf_some f key_of hash keq s p n (or_intror H) Hn) as [_ Hp]. destruct (Z.eqb_spec p (s_cap s)); [lia|reflexivity].
Qed.

Lemma erase_if_loop_ok : forall pred fuel (s : swiss) p c, wf1 s -> 0 <= p <= s_cap s ->
  (p < s_cap s -> exists n, s_nodes s p = Some n) -> s_cap s - p < Z.of_nat fuel ->
  scans (erase_if_loop f fuel pred s p (s_cap s) c) (fun r => let '(s', m) := r in
    wf1 s' /\ s_cap s' = s_cap s /\
    elems s' = map fst (collect (s_nodes s) p) ++ filter (fun x => negb (pred x)) (map fst (rest (s_nodes s) p (s_cap s))) /\
    m = c + Z.of_nat (length (filter pred (map fst (rest (s_nodes s) p (s_cap s)))))).
Proof.
  intros pred. induction fuel as [|fuel IH]; intros s p c H Hp Hn Hf; [lia|].
  cbn [erase_if_loop]. destruct (Z.eqb_spec p (s_cap s)) as [->|Hne].
  - apply scans_Ok. rewrite rest_end by lia. cbn [map filter length]. split; [exact H|]. split; [reflexivity|].
    rewrite app_nil_r. split; [reflexivity|lia].
  - destruct (Hn ltac:(lia)) as [n En]. pose proof (w_m _ _ _ _ s H) as M. pose proof (w_n _ _ _ _ s H) as N.
    rewrite (get_node_ok s p n) by ((apply (mw_buf f s M)) || lia || exact En). cbn [bind].
    assert (Er : rest (s_nodes s) p (s_cap s) = n :: rest (s_nodes s) (p + 1) (s_cap s)).
    { rewrite rest_cons by lia. rewrite En. reflexivity. }
    rewrite Er. cbn [map filter]. destruct (pred (fst n)) eqn:Ep.
    + rewrite (erase_at_ok s p n H En).
      eapply scans_bind; [exact (do_erase_ok f key_of hash keq KL s p n H En)|].
      intros [s1 q] (W1 & C1 & N1 & _ & _ & Hq & Hst & _).
      pose proof (w_n _ _ _ _ s1 W1) as Nc1. pose proof Hst as (Hq1 & _ & _).
      pose proof (stops_none s1 (p + 1) q Nc1 ltac:(lia) Hst) as Hnone.
      rewrite <- C1. eapply scans_imp; [apply IH|].
      * exact W1.
      * lia.
      * intros Hlt. apply (stops_rest key_of hash s1 (p + 1) q Nc1 ltac:(lia) Hst). exact Hlt.
      * lia.
      * intros [s2 m] (W2 & C2 & E2 & Em). split; [exact W2|]. split; [congruence|].
        assert (Hrq : rest (s_nodes s1) q (s_cap s1) = rest (s_nodes s) (p + 1) (s_cap s)).
        { rewrite <- (proj1 (stops_rest key_of hash s1 (p + 1) q Nc1 ltac:(lia) Hst)). rewrite C1, N1.
          apply rest_ext. intros i Hi. apply upd_other. lia. }
        assert (Hcq : collect (s_nodes s1) q = collect (s_nodes s) p).
        { rewrite (collect_split _ (s_nodes s1) p q) by lia. rewrite (rest_none _ (s_nodes s1) p q); [|lia|].
          2:{ intros j Hj. destruct (Z.eq_dec j p) as [->|]; [rewrite N1; apply upd_same|]. apply Hnone. lia. }
          rewrite app_nil_r. apply collect_ext. intros i Hi. rewrite N1. apply upd_other. lia. }
        rewrite E2, Hrq, Hcq, C1 in *. cbn [negb length]. split; [reflexivity|]. lia.
    + eapply scans_bind; [apply (next_occupied_ok f s M (iter_fuel s) (p + 1)); [lia|unfold iter_fuel; lia]|].
      intros q Hst. pose proof Hst as (Hq1 & _ & _).
      pose proof (stops_none s (p + 1) q N ltac:(lia) Hst) as Hnone.
      eapply scans_imp; [apply (IH s q c H)|].
      * lia.
      * intros Hlt. apply (stops_rest key_of hash s (p + 1) q N ltac:(lia) Hst). exact Hlt.
      * lia.
      * intros [s2 m] (W2 & C2 & E2 & Em). split; [exact W2|]. split; [exact C2|].
        rewrite (proj1 (stops_rest key_of hash s (p + 1) q N ltac:(lia) Hst)).
        assert (Hcq : collect (s_nodes s) q = collect (s_nodes s) p ++ [n]).
        { rewrite (collect_split _ (s_nodes s) p q) by lia. f_equal. rewrite rest_cons, En by lia.
          rewrite (rest_none _ (s_nodes s) (p + 1) q) by (lia || exact Hnone). reflexivity. }
        rewrite E2, Hcq, map_app. cbn [negb map]. rewrite <- app_assoc. split; [reflexivity|exact Em].
Qed.

Lemma erase_if_ok : forall pred (s : swiss), wf s ->
  scans (erase_if f pred s) (fun r => let '(s', m) := r in
    wf s' /\ (inv s -> inv s') /\ elems s' = filter (fun x => negb (pred x)) (elems s) /\
    m = Z.of_nat (length (filter pred (elems s)))).
Proof.
  intros pred s [H|H].
  - assert (He : elems s = []). { unfold elems. rewrite (w0_cap s H). rewrite collect_0 by lia. reflexivity. }
    assert (Hb : begin_iter f s = Ok 0 ).
    { pose proof (end_iter_ok f key_of hash keq s (or_introl H)) as Hend. unfold begin_iter, end_iter in *.
      rewrite (w0_cap s H) in Hend. exact Hend. }
    unfold erase_if. rewrite Hb, (end_iter_ok f key_of hash keq s (or_introl H)), (w0_cap s H). cbn [bind].
    unfold iter_fuel. cbn [erase_if_loop]. rewrite Z.eqb_refl. apply scans_Ok. rewrite He. cbn [filter length].
    split; [left; exact H|]. auto.
  - pose proof (w_m _ _ _ _ s H) as M. pose proof (w_n _ _ _ _ s H) as N. pose proof (cap_bounds f s M) as Hcb.
    unfold erase_if. unfold begin_iter. eapply scans_bind; [apply to_iter_ok; [exact M|lia]|].
    intros p Hst. pose proof Hst as (Hp & _ & _). rewrite (end_iter_mwf f s M). cbn [bind].
    destruct (stops_rest key_of hash s 0 p N ltac:(lia) Hst) as [Hr Hn].
    eapply scans_imp; [apply (erase_if_loop_ok pred (iter_fuel s) s p 0 H)|].
    + lia.
    + exact Hn.
    + unfold iter_fuel. lia.
    + intros [s' m] (W' & C' & E' & Em). split; [right; exact W'|]. split; [intros _; apply inv_wf1; exact W'|].
      rewrite (elems_rest s) by lia. rewrite Hr. rewrite E', Em.
      rewrite (collect_split _ (s_nodes s) 0 p) by lia.
      rewrite (rest_none _ (s_nodes s) 0 p) by (lia || exact (stops_none s 0 p N ltac:(lia) Hst)).
      rewrite collect_0 by lia. split; [reflexivity|lia].
Qed.

(** ** Node handles. *)
Lemma do_extract_ok : forall (s : swiss) p n, wf1 s -> s_nodes s p = Some n ->
  scans (do_extract f s p) (fun r => let '(s', e) := r in
    e = fst n /\ wf1 s' /\ s_cap s' = s_cap s /\ s_nodes s' = upd (s_nodes s) p None).
Proof.
  intros s p n H Hn. destruct (erase_core f key_of hash keq KL s p n H Hn)
    as (Hp & s1 & s2 & E1 & E2 & M1 & N1 & C1 & Md & Mo & W2 & C2 & N2 & Ms & B1 & B2 & P2 & S2 & Ne2).
  pose proof (w_m _ _ _ _ s H) as M.
  unfold do_extract. rewrite (get_node_ok s p n) by ((apply (mw_buf f s M)) || lia || exact Hn). cbn [bind].
  rewrite E1. cbn [bind]. eapply scans_bind; [apply to_iter_ok; [exact M1|lia]|]. intros q _.
  rewrite E2. cbn [bind]. apply scans_Ok. auto.
Qed.

Lemma extract_key_ok : forall (s : swiss) k, wf s ->
  scans (extract_key f key_of hash keq s k) (fun r => let '(s', o) := r in
    wf s' /\ (inv s -> inv s') /\
    match o with
    | None => s' = s /\ absent key_of keq k (elems s)
    | Some e => exists a b, located key_of keq k (elems s) a e b /\ elems s' = a ++ b
    end).
Proof.
  intros s k H. unfold extract_key. destruct (find_located f key_of hash keq KL s k H) as (r & -> & Hr). cbn [bind].
  destruct Hr as [(x & h & W1 & Hr & En & Eg & Ha & Hl)|(-> & Habs)].
  - destruct (Z.eqb_spec r (s_cap s)); [lia|]. eapply scans_bind; [exact (do_extract_ok s r (x, h) W1 En)|].
    intros [s1 e] (-> & W' & C' & N'). apply scans_Ok. cbn [fst].
    split; [right; exact W'|]. split; [intros _; apply inv_wf1; exact W'|].
    destruct (erase_elems s s1 r (x, h) Hr C' N' En) as (_ & Ee' & _). eexists. eexists. split; [exact Hl|exact Ee'].
  - rewrite Z.eqb_refl. apply scans_Ok. split; [exact H|]. auto.
Qed.

Lemma insert_handle_ok : forall lim (s : swiss) e, wf s -> lim < 2 ^ 59 ->
  exists s' o, insert_handle f key_of hash keq lim s (Some e) = Ok (s', o) /\ wf s' /\ (inv s -> inv s') /\
    match o with
    | None => s' = s /\ absent key_of keq (key_of e) (elems s)
    | Some (p, b, hd, _) =>
      if b then hd = None /\ absent key_of keq (key_of e) (elems s) /\ Permutation (elems s') (e :: elems s) /\ holds s' p e
      else hd = Some e /\ s' = s /\ exists x, holds s p x /\ keq (key_of x) (key_of e) = true
    end.
Proof.
  intros lim s e H Hlim. unfold insert_handle. destruct (find_located f key_of hash keq KL s (key_of e) H) as (r & -> & Hr). cbn [bind].
  destruct Hr as [(x & h & W1 & Hr & En & Eg & Ha & Hl)|(-> & Habs)].
  - destruct (Z.eqb_spec r (s_cap s)); [lia|]. eexists. eexists. split; [reflexivity|]. split; [exact H|]. split; [auto|].
    split; [reflexivity|]. split; [reflexivity|]. exists x. split; [split; [exact Hr|eauto]|apply Hl].
  - rewrite Z.eqb_refl. destruct (emplace_ok f key_of hash keq KL lim true s e H Hlim Habs) as (s' & o & -> & Ho & Hs & _). cbn [bind].
    eexists. eexists. split; [reflexivity|]. destruct o as [[p tr]|].
    + destruct Ho as (W' & P' & _ & s1 & _ & _ & C1 & _ & _ & Hp & N').
      split; [right; exact W'|]. split; [intros _; apply inv_wf1; exact W'|]. split; [reflexivity|]. split; [exact Habs|].
      split; [exact P'|]. split; [lia|]. rewrite N', upd_same. eauto.
    + destruct (Hs eq_refl) as [->|[X _]]; [|discriminate]. split; [exact H|]. split; [auto|]. auto.
Qed.

Lemma assign_handle_ok : forall lim (s : swiss) e, wf s -> lim < 2 ^ 59 ->
  exists s' o, assign_handle f key_of hash keq lim s (Some e) = Ok (s', o) /\ wf s' /\ (inv s -> inv s') /\
    match o with
    | None => s' = s /\ absent key_of keq (key_of e) (elems s)
    | Some (p, b, _) => holds s' p e /\
      if b then absent key_of keq (key_of e) (elems s) /\ Permutation (elems s') (e :: elems s)
      else exists l1 x l2, located key_of keq (key_of e) (elems s) l1 x l2 /\ elems s' = l1 ++ e :: l2 /\ holds s p x /\
        forall q, q <> p -> s_nodes s' q = s_nodes s q
    end.
Proof.
  intros lim s e H Hlim. unfold assign_handle. destruct (find_located f key_of hash keq KL s (key_of e) H) as (r & -> & Hr). cbn [bind].
  destruct Hr as [(x & h & W1 & Hr & En & Eg & Ha & Hl)|(-> & Habs)].
  - destruct (Z.eqb_spec r (s_cap s)); [lia|]. rewrite Eg. cbn [bind snd].
    pose proof (replace_eq_ok f key_of hash keq KL s r x h e W1 En ltac:(apply Hl)) as W'.
    eexists. eexists. split; [reflexivity|]. split; [right; exact W'|]. split; [intros _; apply inv_wf1; exact W'|].
    split; [split; [cbn [s_cap]; exact Hr|]; exists h; cbn [s_nodes]; apply upd_same|].
    eexists. exists x. eexists. split; [exact Hl|]. split.
    + unfold elems. cbn [s_nodes s_cap]. rewrite collect_upd_some by exact Hr. rewrite map_app. reflexivity.
    + split; [split; [exact Hr|eauto]|]. intros q Hq. cbn [s_nodes]. apply upd_other. exact Hq.
  - rewrite Z.eqb_refl. destruct (emplace_ok f key_of hash keq KL lim true s e H Hlim Habs) as (s' & o & -> & Ho & Hs & _). cbn [bind].
    eexists. eexists. split; [reflexivity|]. destruct o as [[p tr]|].
    + destruct Ho as (W' & P' & _ & s1 & _ & _ & C1 & _ & _ & Hp & N').
      split; [right; exact W'|]. split; [intros _; apply inv_wf1; exact W'|]. split; [split; [lia|]; rewrite N', upd_same; eauto|].
      split; [exact Habs|exact P'].
    + destruct (Hs eq_refl) as [->|[X _]]; [|discriminate]. split; [exact H|]. split; [auto|]. auto.
Qed.

(** ** merge. *)
(** Is some element of [l] equivalent to [e]? *)
Local Notation present := (present key_of keq).
Local Notation merged := (merged key_of keq).
Local Notation firsts := (firsts key_of keq).

Lemma present_false : forall l e, present l e = false <-> absent key_of keq (key_of e) l.
Proof.
  intros l e. unfold present, absent. split.
  - intros H x Hx. destruct (keq (key_of x) (key_of e)) eqn:Ek; [|reflexivity].
    assert (existsb (fun y => keq (key_of y) (key_of e)) l = true) by (apply existsb_exists; eauto). congruence.
  - intros H. destruct (existsb (fun y => keq (key_of y) (key_of e)) l) eqn:Ex; [|reflexivity].
    apply existsb_exists in Ex. destruct Ex as (x & Hx & Ek). rewrite H in Ek by exact Hx. discriminate.
Qed.
Lemma present_perm : forall l l' e, Permutation l l' -> present l e = present l' e.
Proof.
  intros l l' e P. destruct (present l' e) eqn:E1.
  - unfold present in *. apply existsb_exists in E1. destruct E1 as (x & Hx & Ek). apply existsb_exists.
    exists x. split; [apply (Permutation_in x (Permutation_sym P)); exact Hx|exact Ek].
  - apply present_false. apply present_false in E1. intros x Hx. apply E1. apply (Permutation_in x P). exact Hx.
Qed.

Lemma merged_keep : forall ls n lo ls' lo', present ls n = true -> merged ls lo ls' lo' -> merged ls (n :: lo) ls' (n :: lo').
Proof. intros ls n lo ls' lo' Hn [P ->]. unfold merged. cbn [filter]. rewrite Hn. cbn [negb]. auto. Qed.
Lemma merged_take : forall ls ls1 n lo ls' lo', present ls n = false -> Permutation ls1 (n :: ls) ->
  (forall x, In x lo -> present ls1 x = present ls x) ->
  merged ls1 lo ls' lo' -> merged ls (n :: lo) ls' lo'.
Proof.
  assert (Hf : forall (p q : E -> bool) l, (forall x, In x l -> p x = q x) -> filter p l = filter q l).
  { intros p q. induction l as [|x l IH]; intros H; [reflexivity|]. cbn [filter]. rewrite H by (left; reflexivity). rewrite IH; [reflexivity|]. intros; apply H; right; assumption. }
  intros ls ls1 n lo ls' lo' Hn P1 Hp [P ->]. unfold merged. cbn [filter].
  rewrite Hn. cbn [negb]. split; [|apply Hf; exact Hp].
  rewrite P, P1. rewrite (Hf (fun x => negb (present ls1 x)) (fun x => negb (present ls x))) by (intros; rewrite Hp; auto).
  cbn [app]. symmetry. apply Permutation_middle.
Qed.

(** The table has room for the elements [l]. *)
Definition fits (s : swiss) (l : list E) : Prop := l = [] \/ (s_cap s <> 0 /\ Z.of_nat (length l) <= s_nempty s).

Lemma merge_loop_ok : forall lim, lim < 2 ^ 59 -> forall fuel (s o : swiss) p, wf s -> wf1 o ->
  0 <= p <= s_cap o -> (p < s_cap o -> exists n, s_nodes o p = Some n) -> s_cap o - p < Z.of_nat fuel ->
  scans (merge_loop f key_of hash keq fuel lim s o p (s_cap o)) (fun r => let '(s', o', b) := r in
    wf s' /\ (inv s -> inv s') /\ wf1 o' /\ b = true /\
    exists lo', merged (elems s) (map fst (rest (s_nodes o) p (s_cap o))) (elems s') lo' /\
      elems o' = map fst (collect (s_nodes o) p) ++ lo') \/
  (~ fits s (map fst (rest (s_nodes o) p (s_cap o))) /\ merge_loop f key_of hash keq fuel lim s o p (s_cap o) = Err Terminated).
Proof.
  intros lim Hlim. induction fuel as [|fuel IH]; intros s o p Hs H Hp Hn Hf; [lia|].
  cbn [merge_loop]. destruct (Z.eqb_spec p (s_cap o)) as [->|Hne].
  - left. apply scans_Ok. rewrite rest_end by lia. cbn [map]. split; [exact Hs|]. split; [auto|]. split; [exact H|].
    split; [auto|]. exists []. rewrite app_nil_r. unfold merged. cbn [filter app]. auto.
  - destruct (Hn ltac:(lia)) as [n En]. pose proof (w_m _ _ _ _ o H) as M. pose proof (w_n _ _ _ _ o H) as N.
    rewrite (get_node_ok o p n) by ((apply (mw_buf f o M)) || lia || exact En). cbn [bind].
    assert (Er : rest (s_nodes o) p (s_cap o) = n :: rest (s_nodes o) (p + 1) (s_cap o)).
    { rewrite rest_cons by lia. rewrite En. reflexivity. }
    rewrite Er in *. cbn [map] in *.
    destruct (find_located f key_of hash keq KL s (key_of (fst n)) Hs) as (r & -> & Hr). cbn [bind].
    destruct Hr as [(x & h & W1 & Hr & _ & _ & _ & Hl)|(-> & Habs)].
    + destruct (Z.eqb_spec r (s_cap s)); [lia|].
      assert (Hyes : present (elems s) (fst n) = true).
      { unfold present. apply existsb_exists. exists x. split; [|apply Hl].
        rewrite (proj1 Hl). apply in_or_app. right. left. reflexivity. }
      unfold iter_next. destruct (next_occupied_ok f o M (iter_fuel o) (p + 1)) as [(q & -> & Hst)|(Hna & ->)]; [lia|unfold iter_fuel; lia| |left; right; auto].
      cbn [bind]. pose proof Hst as (Hq1 & _ & _).
      pose proof (stops_none o (p + 1) q N ltac:(lia) Hst) as Hnone.
      pose proof (proj1 (stops_rest key_of hash o (p + 1) q N ltac:(lia) Hst)) as Hrq.
      destruct (IH s o q Hs H) as [Hok|(Hroom & ->)].
      * lia.
      * intros Hlt. apply (stops_rest key_of hash o (p + 1) q N ltac:(lia) Hst). exact Hlt.
      * lia.
      * left. eapply scans_imp; [exact Hok|].
        intros [[s2 o2] b] (W2 & I2 & Wo & Hb & lo' & Hm & E2). split; [exact W2|]. split; [exact I2|]. split; [exact Wo|].
        split; [exact Hb|].
        exists (fst n :: lo'). rewrite Hrq. split; [apply merged_keep; assumption|].
        assert (Hcq : collect (s_nodes o) q = collect (s_nodes o) p ++ [n]).
        { rewrite (collect_split _ (s_nodes o) p q) by lia. f_equal. rewrite rest_cons, En by lia.
          rewrite (rest_none _ (s_nodes o) (p + 1) q) by (lia || exact Hnone). reflexivity. }
        rewrite E2, Hcq, map_app, <- app_assoc. reflexivity.
      * right. split; [|reflexivity]. intros [Hroom1|[Hc Hroom1]]; [discriminate|]. apply Hroom. rewrite <- Hrq. right. split; [exact Hc|]. cbn [length] in Hroom1. lia.
    + rewrite Z.eqb_refl.
      assert (Hno : present (elems s) (fst n) = false) by (apply present_false; exact Habs).
      destruct (do_extract_ok o p n H En) as [([o1 e] & -> & (-> & Wo & Co & No))|(Hna & ->)]; [|left; right; auto]. cbn [bind].
      destruct (emplace_ok f key_of hash keq KL lim true s (fst n) Hs Hlim Habs) as (s1 & oo & -> & Ho & Hfail & Hsp). cbn [bind].
      assert (Hrest1 : rest (s_nodes o1) (p + 1) (s_cap o1) = rest (s_nodes o) (p + 1) (s_cap o)).
      { rewrite Co, No. apply rest_ext. intros i Hi. apply upd_other. lia. }
      assert (Hcol1 : forall q, p <= q -> (forall j, p + 1 <= j < q -> s_nodes o1 j = None) -> collect (s_nodes o1) q = collect (s_nodes o) p).
      { intros q Hq Hnone. rewrite (collect_split _ (s_nodes o1) p q) by lia. rewrite (rest_none _ (s_nodes o1) p q); [|lia|].
        2:{ intros j Hj. destruct (Z.eq_dec j p) as [->|]; [rewrite No; apply upd_same|]. apply Hnone. lia. }
        rewrite app_nil_r. apply collect_ext. intros i Hi. rewrite No. apply upd_other. lia. }
      destruct oo as [[pp tr]|].
      2:{ (* the allocation failed *)
        right. split; [|reflexivity].
        intros [Hroom|[Hc Hroom]]; [discriminate|]. cbn [length] in Hroom. exfalso. destruct (Hsp Hc ltac:(lia) eq_refl) as (Hoo & _). congruence. }
      destruct Ho as (W1 & P1 & _).
      pose proof (w_m _ _ _ _ o1 Wo) as Mo. pose proof (w_n _ _ _ _ o1 Wo) as Nc.
      unfold iter_next. destruct (next_occupied_ok f o1 Mo (iter_fuel o1) (p + 1)) as [(q & -> & Hst)|(Hna & ->)]; [lia|unfold iter_fuel; lia| |left; right; auto].
      cbn [bind]. pose proof Hst as (Hq1 & _ & _).
      pose proof (stops_none o1 (p + 1) q Nc ltac:(lia) Hst) as Hnone.
      assert (Hrq : rest (s_nodes o1) q (s_cap o1) = rest (s_nodes o) (p + 1) (s_cap o)).
      { rewrite <- (proj1 (stops_rest key_of hash o1 (p + 1) q Nc ltac:(lia) Hst)). exact Hrest1. }
      rewrite <- Co. destruct (IH s1 o1 q (or_intror W1) Wo) as [Hok|(Hroom & ->)].
      * lia.
      * intros Hlt. apply (stops_rest key_of hash o1 (p + 1) q Nc ltac:(lia) Hst). exact Hlt.
      * lia.
      * left. eapply scans_imp; [exact Hok|].
        intros [[s2 o2] b] (W2 & I2 & Wo2 & Hb & lo' & Hm & E2). split; [exact W2|].
        split; [intros _; apply I2; apply inv_wf1; exact W1|]. split; [exact Wo2|]. split; [exact Hb|].
        rewrite Hrq in Hm.
        exists lo'. rewrite Co. split; [|rewrite E2, (Hcol1 q) by (lia || exact Hnone); reflexivity].
        apply (merged_take (elems s) (elems s1)); [exact Hno|exact P1| |exact Hm].
        intros y Hy. rewrite (present_perm _ _ y P1). unfold present at 1. cbn [existsb]. fold (present (elems s) y).
        (* keys of the source are pairwise different *)
        assert (Hd : keq (key_of (fst n)) (key_of y) = false).
        { pose proof (wf_distinct f key_of hash keq KL o (or_intror H)) as Hdis.
          rewrite (elems_at o p n ltac:(lia) En) in Hdis. exact (pairs_after _ _ _ _ _ Hdis y Hy). }
        rewrite Hd. reflexivity.
      * right. split; [|reflexivity]. intros [Hroom1|[Hc Hroom1]]; [discriminate|]. apply Hroom. rewrite Hrq.
        cbn [length] in Hroom1. destruct (Hsp Hc ltac:(lia) eq_refl) as (_ & Hc1 & Hne1 & _).
        rewrite Co in Hroom1. right. split; [congruence|]. lia.
Qed.

Lemma begin_iter_empty : forall s : swiss, wf0 s -> begin_iter f s = Ok 0.
Proof.
  intros s H. pose proof (end_iter_ok f key_of hash keq s (or_introl H)) as Hend. unfold begin_iter, end_iter in *.
  rewrite (w0_cap s H) in Hend. exact Hend.
Qed.
Lemma elems_empty : forall s : swiss, s_cap s = 0 -> elems s = [].
Proof. intros s H. unfold elems. rewrite H, collect_0 by lia. reflexivity. Qed.

Lemma merge_ok : forall lim (s o : swiss), wf s -> wf o -> lim < 2 ^ 59 ->
  scans (merge f key_of hash keq lim s o) (fun r => let '(s', o', b) := r in
    wf s' /\ (inv s -> inv s') /\ wf o' /\ (inv o -> inv o') /\
    if b then merged (elems s) (elems o) (elems s') (elems o') else s' = s /\ o' = o) \/
  (s_cap s = 0 /\ elems o <> [] /\ ~ inv s /\ merge f key_of hash keq lim s o = Err Terminated).
Proof.
  intros lim s o Hs Ho Hlim. unfold merge.
  pose proof (wf_size f key_of hash keq s Hs) as [Ls Bs]. pose proof (wf_size f key_of hash keq o Ho) as [Lo Bo].
  pose proof (wf_cap_nonneg f key_of hash keq s Hs) as Cs. pose proof (wf_cap_nonneg f key_of hash keq o Ho) as Co.
  pose proof (max_size_bounds f (s_cap s) ltac:(lia)) as Ms. pose proof (max_size_bounds f (s_cap o) ltac:(lia)) as Mo.
  assert (Ea : add64 (s_size s) (s_size o) = s_size s + s_size o) by (unfold add64; rewrite Z.mod_small; [reflexivity|unfold two64; lia]).
  rewrite Ea. destruct (reserve_ok f key_of hash keq KL lim s (s_size s + s_size o) Hs Hlim) as (s1 & tr & -> & Hr & Hroom); [unfold two64; lia|].
  cbn [bind]. destruct tr as [tr|]; cbn [resized] in Hr.
  2:{ left. subst s1. apply scans_Ok. split; [exact Hs|]. split; [auto|]. split; [exact Ho|]. split; [auto|]. auto. }
  destruct Hr as (W1 & P1 & S1 & _ & Hk).
  assert (Hi1 : inv s -> inv s1). { intros Hi. destruct Hk as [Hk| ->]; [|exact Hi]. split; [exact W1|]. intros; lia. }
  destruct (Hroom ltac:(discriminate)) as [Hroom1 _].
  assert (Hpp : forall x, present (elems s1) x = present (elems s) x) by (intros x; apply present_perm; exact P1).
  assert (Hmm : forall lo ls' lo', merged (elems s1) lo ls' lo' -> merged (elems s) lo ls' lo').
  { intros lo ls' lo' [P ->]. assert (Hf : forall l, filter (present (elems s1)) l = filter (present (elems s)) l) by (intros; apply filter_ext; exact Hpp).
    assert (Hf2 : forall l, filter (fun x => negb (present (elems s1) x)) l = filter (fun x => negb (present (elems s) x)) l).
    { intros; apply filter_ext. intros x. rewrite Hpp. reflexivity. }
    rewrite Hf, Hf2 in *. split; [|reflexivity]. rewrite P, P1. reflexivity. }
  destruct Ho as [Ho|Ho].
  - left. rewrite (begin_iter_empty o Ho), (end_iter_ok f key_of hash keq o (or_introl Ho)), (w0_cap o Ho). cbn [bind].
    unfold iter_fuel. cbn [merge_loop]. rewrite Z.eqb_refl. apply scans_Ok.
    rewrite (elems_empty o (w0_cap o Ho)). unfold merged. cbn [filter app]. split; [exact W1|]. split; [exact Hi1|]. split; [left; exact Ho|]. split; [auto|]. auto.
  - pose proof (w_m _ _ _ _ o Ho) as M. pose proof (w_n _ _ _ _ o Ho) as N. pose proof (cap_bounds f o M) as Hcb.
    unfold begin_iter. destruct (to_iter_ok f o 0 M ltac:(lia)) as [(p & -> & Hst)|(Hna & ->)]; [|left; right; auto]. cbn [bind].
    pose proof Hst as (Hp & _ & _). rewrite (end_iter_mwf f o M). cbn [bind].
    destruct (stops_rest key_of hash o 0 p N ltac:(lia) Hst) as [Hrest Hn].
    assert (Eo : elems o = map fst (rest (s_nodes o) p (s_cap o))) by (rewrite elems_rest, Hrest by lia; reflexivity).
    destruct (merge_loop_ok lim Hlim (iter_fuel o) s1 o p W1 Ho ltac:(lia) Hn ltac:(unfold iter_fuel; lia)) as [Hok|(Hfit & ->)].
    + left. eapply scans_imp; [exact Hok|].
      intros [[s2 o2] b] (W2 & I2 & Wo2 & -> & lo' & Hm & E2). split; [exact W2|]. split; [auto|]. split; [right; exact Wo2|].
      split; [intros _; apply inv_wf1; exact Wo2|]. rewrite <- Eo in Hm.
      rewrite E2. rewrite (collect_split _ (s_nodes o) 0 p) by lia.
      rewrite (rest_none _ (s_nodes o) 0 p) by (lia || exact (stops_none o 0 p N ltac:(lia) Hst)).
      rewrite collect_0 by lia. cbn [map app]. apply Hmm. exact Hm.
    + right. rewrite <- Eo in Hfit. destruct (elems o) as [|e1 el] eqn:Eel; [exfalso; apply Hfit; left; reflexivity|].
      assert (C0 : s_cap s1 = 0).
      { destruct (Z.eq_dec (s_cap s1) 0) as [C0|C1]; [exact C0|]. exfalso. apply Hfit. right. cbn [length] in Lo |- *. split; [exact C1|lia]. }
      destruct Hk as [Hk| ->]; [lia|]. split; [exact C0|]. split; [discriminate|]. split; [|reflexivity].
      intros [_ Hz]. specialize (Hz C0). cbn [length] in Lo. lia.
Qed.

(** ** Insertion of ranges and construction. *)
Lemma firsts_perm : forall l b b', Permutation b b' -> firsts b l = firsts b' l.
Proof.
  induction l as [|e l IH]; intros b b' P; [reflexivity|]. cbn [firsts]. rewrite (present_perm b b' e P).
  destruct (present b' e); [apply IH; exact P|]. f_equal. apply IH. constructor. exact P.
Qed.

Lemma insert_all_firsts : forall l lim (s : swiss), wf s -> lim < 2 ^ 59 ->
  exists s' b, insert_all f key_of hash keq lim s l = Ok (s', b) /\ wf s' /\ (inv s -> inv s') /\
    exists l1 l2, l = l1 ++ l2 /\ Permutation (elems s') (firsts (elems s) l1 ++ elems s) /\ (b = true -> l2 = []).
Proof.
  induction l as [|e l IH]; intros lim s H Hlim.
  - exists s, true. split; [reflexivity|]. split; [exact H|]. split; [auto|]. exists [], []. auto.
  - cbn [insert_all]. unfold do_insert. destruct (find_located f key_of hash keq KL s (key_of e) H) as (r & -> & Hr). cbn [bind].
    destruct Hr as [(x & h & W1 & Hr & _ & _ & _ & Hl)|(-> & Habs)].
    + destruct (Z.eqb_spec r (s_cap s)); [lia|]. cbn [bind].
      destruct (IH lim s H Hlim) as (s' & b & E1 & W' & I' & l1 & l2 & -> & P & Hb). exists s', b. split; [exact E1|].
      split; [exact W'|]. split; [exact I'|]. exists (e :: l1), l2. split; [reflexivity|]. split; [|exact Hb].
      cbn [firsts]. assert (Hp : present (elems s) e = true).
      { unfold present. apply existsb_exists. exists x. split; [|apply Hl]. rewrite (proj1 Hl). apply in_or_app. right. left. reflexivity. }
      rewrite Hp. exact P.
    + rewrite Z.eqb_refl. destruct (emplace_ok f key_of hash keq KL lim true s e H Hlim Habs) as (s1 & o & -> & Ho & Hs & _). cbn [bind].
      destruct o as [[p tr]|].
      * destruct Ho as (W1 & P1 & _). destruct (IH lim s1 (or_intror W1) Hlim) as (s' & b & E1 & W' & I' & l1 & l2 & -> & P & Hb).
        exists s', b. split; [exact E1|]. split; [exact W'|]. split; [intros _; apply I'; apply inv_wf1; exact W1|].
        exists (e :: l1), l2. split; [reflexivity|]. split; [|exact Hb].
        cbn [firsts]. rewrite (proj2 (present_false (elems s) e) Habs). rewrite P, (firsts_perm l1 _ _ P1), P1.
        cbn [app]. symmetry. apply Permutation_middle.
      * destruct (Hs eq_refl) as [->|[X _]]; [|discriminate]. exists s, false. split; [reflexivity|]. split; [exact H|]. split; [auto|].
        exists [], (e :: l). split; [reflexivity|]. split; [reflexivity|discriminate].
Qed.

Lemma insert_range_firsts : forall ra l lim (s : swiss), wf s -> lim < 2 ^ 59 -> s_size s + Z.of_nat (length l) < 2 ^ 64 ->
  exists s' b, insert_range f key_of hash keq ra lim s l = Ok (s', b) /\ wf s' /\ (inv s -> inv s') /\
    exists l1 l2, l = l1 ++ l2 /\ Permutation (elems s') (firsts (elems s) l1 ++ elems s) /\ (b = true -> l2 = []).
Proof.
  intros ra l lim s H Hlim Hlen. unfold insert_range. pose proof (wf_size f key_of hash keq s H) as [_ Bs].
  assert (Ea : add64 (s_size s) (Z.of_nat (length l)) = s_size s + Z.of_nat (length l)).
  { unfold add64. rewrite Z.mod_small; [reflexivity|unfold two64; lia]. }
  rewrite Ea. destruct ra.
  - destruct (reserve_ok f key_of hash keq KL lim s (s_size s + Z.of_nat (length l)) H Hlim) as (s1 & tr & -> & Hr & _); [unfold two64; lia|].
    cbn [bind]. destruct tr as [tr|]; cbn [resized] in Hr.
    + destruct Hr as (W1 & P1 & S1 & _ & Hk).
      destruct (insert_all_firsts l lim s1 W1 Hlim) as (s' & b & E1 & W' & I' & l1 & l2 & El & P & Hb). exists s', b. split; [exact E1|].
      split; [exact W'|]. split.
      * intros Hi. apply I'. destruct Hk as [Hk| ->]; [|exact Hi]. split; [exact W1|]. intros; lia.
      * exists l1, l2. split; [exact El|]. split; [|exact Hb]. rewrite P, (firsts_perm l1 _ _ P1), P1. reflexivity.
    + subst s1. exists s, false. split; [reflexivity|]. split; [exact H|]. split; [auto|]. exists [], l. split; [reflexivity|].
      split; [reflexivity|discriminate].
  - cbn [bind]. apply insert_all_firsts; assumption.
Qed.

Lemma fresh_zero : wf0 (mk Live 0 (fill_empty_meta 0) (fun _ => None) 0 0 : swiss).
Proof. constructor; auto; try reflexivity. cbn [s_nempty]. lia. Qed.

Lemma ctor_range_ok : forall ra l n lim, lim < 2 ^ 59 -> Z.of_nat (length l) < 2 ^ 64 ->
  (exists k, 0 <= k /\ distance_or_n ra l n = 2 ^ k - 1) ->
  exists o, ctor_range f key_of hash keq ra lim l n = Ok o /\
    match o with
    | None => lim < distance_or_n ra l n
    | Some (s, b) => inv s /\ exists l1 l2, l = l1 ++ l2 /\ Permutation (elems s) (firsts [] l1) /\ (b = true -> l2 = [])
    end.
Proof.
  intros ra l n lim Hlim Hlen (k & Hk & Ek). unfold ctor_range, ctor_n. rewrite Ek.
  destruct (Z.ltb_spec lim (2 ^ k - 1)) as [Hlt|Hge]; [exists None; split; [reflexivity|exact Hlt]|].
  assert (Hk2 : 2 ^ k - 1 < 2 ^ 59) by lia.
  assert (Hpos : 0 < 2 ^ k) by (apply Z.pow_pos_nonneg; lia).
  assert (Ea : add64 (2 ^ k - 1) 1 = 2 ^ k).
  { unfold add64. rewrite Z.mod_small; [lia|unfold two64; lia]. }
  assert (Hz : Z.land (2 ^ k) (2 ^ k - 1) = 0).
  { replace (2 ^ k - 1) with (Z.ones k) by (rewrite Z.ones_equiv; lia). rewrite Z.land_ones by lia. rewrite Z.mod_same by lia. reflexivity. }
  rewrite Ea, Hz. cbn [Z.eqb guard bind].
  set (s := mk Live (2 ^ k - 1) (fill_empty_meta (2 ^ k - 1)) (fun _ : Z => @None (E * Z)) 0 (capacity_to_max_size f (2 ^ k - 1))).
  assert (Hi : inv s).
  { destruct (Z.eq_dec k 0) as [->|Hk0].
    - subst s. change (2 ^ 0 - 1) with 0. replace (capacity_to_max_size f 0) with 0 by (unfold capacity_to_max_size; destruct (W f =? 8); reflexivity).
      split; [left; exact fresh_zero|reflexivity].
    - apply inv_wf1. apply (fresh_wf1 f key_of hash keq (2 ^ k - 1)). apply good_cap_of_pow; lia. }
  assert (He : elems s = []).
  { unfold elems. subst s. cbn [s_nodes s_cap]. unfold collect. rewrite flat_map_concat_map.
    induction (zrange (2 ^ k - 1)); [reflexivity|]. cbn [map concat app]. assumption. }
  destruct (insert_range_firsts ra l lim s (proj1 Hi) Hlim) as (s' & b & -> & W' & I' & l1 & l2 & El & P & Hb); [subst s; cbn [s_size]; lia|].
  cbn [bind]. eexists. split; [reflexivity|]. cbn beta iota. split; [apply I'; exact Hi|]. rewrite He, app_nil_r in P. eauto.
Qed.

(** A count that is not of the form 2^k - 1 violates the assertion of the constructor. *)
Lemma ctor_n_undefined : forall lim n, 0 <= n <= lim -> n < 2 ^ 59 -> (forall k, 0 <= k -> n <> 2 ^ k - 1) ->
  @ctor_n E f lim n = Err AssertFailed.
Proof.
  intros lim n Hn Hb Hk. unfold ctor_n. destruct (Z.ltb_spec lim n); [lia|].
  assert (Ea : add64 n 1 = n + 1). { unfold add64. rewrite Z.mod_small; [lia|unfold two64; lia]. }
  rewrite Ea. destruct (Z.eqb_spec (Z.land (n + 1) n) 0) as [H0|]; [|reflexivity]. exfalso.
  assert (Hn0 : n <> 0) by (intros ->; apply (Hk 0); [lia|reflexivity]).
  (* the top bit of n survives unless n + 1 is a power of two *)
  set (k := Z.log2 (n + 1)). pose proof (Z.log2_spec (n + 1) ltac:(lia)) as [L1 L2]. fold k in L1, L2.
  assert (Hk0 : 0 <= k) by apply Z.log2_nonneg.
  specialize (Hk k Hk0). assert (Hlt : 2 ^ k < n + 1) by lia.
  assert (Hb1 : Z.testbit (n + 1) k = true) by (apply Z.bit_log2; lia).
  assert (Hlog : Z.log2 n = k). { apply Z.log2_unique; [exact Hk0|]. rewrite Z.pow_succ_r in * by lia. lia. }
  assert (Hb2 : Z.testbit n k = true) by (rewrite <- Hlog; apply Z.bit_log2; lia).
  assert (Z.testbit (Z.land (n + 1) n) k = true) by (rewrite Z.land_spec, Hb1, Hb2; reflexivity).
  rewrite H0, Z.bits_0 in H1. discriminate.
Qed.

(** ** Move and swap. *)
Lemma erase_nodes_elems : forall (s : swiss), wf s -> elems s = [] -> exists s', erase_nodes f s = Ok s' /\ wf s' /\ elems s' = [] /\ (inv s -> inv s').
Proof.
  intros s H He. destruct (erase_nodes_ok f key_of hash keq s H) as (s' & E1 & B & C & M & Ne & S & N).
  exists s'. split; [exact E1|]. pose proof (wf_size f key_of hash keq s H) as [L _]. rewrite He in L. cbn [length] in L.
  assert (Nn : forall i, s_nodes s i = None).
  { intros i. destruct (s_nodes s i) as [n|] eqn:En; [|reflexivity]. destruct (wf_some f key_of hash keq s i n H En) as [_ Hi].
    exfalso. rewrite (elems_at s i n Hi En) in He. destruct (map fst (collect (s_nodes s) i)); discriminate. }
  assert (W' : wf s').
  { destruct H as [H|H].
    - left. destruct H as [h1 h2 h3 h4 h5]. constructor; try congruence.
    - right. apply (wf1_ext f key_of hash keq s s' H); try congruence; try lia. }
  split; [exact W'|]. split.
  - unfold elems in *. rewrite C. replace (collect (s_nodes s') (s_cap s)) with (collect (s_nodes s) (s_cap s)); [exact He|].
    apply collect_ext. intros i _. rewrite N, Nn. reflexivity.
  - intros [_ Hz]. split; [exact W'|]. rewrite C, Ne. exact Hz.
Qed.

Lemma move_ctor_ok : forall lim (o : swiss), move_ctor f true lim o = Ok (o, empty_swiss, true).
Proof. reflexivity. Qed.

(** Move assignment with equal allocators: the allocator propagates (as std::allocator
    does), or the target has no elements. *)
Lemma move_assign_ok : forall pocma lim (s o : swiss), wf s -> wf o -> pocma = true \/ elems s = [] ->
  exists o', move_assign f pocma true lim s o = Ok (o, o', true) /\ wf o' /\ elems o' = [].
Proof.
  intros pocma lim s o Hs Ho Hp. unfold move_assign, move_from, buffer_assign. destruct pocma.
  - destruct (erase_nodes_ok f key_of hash keq s Hs) as (s' & -> & B & C & M & Ne & S & N). cbn [bind].
    eexists. split; [reflexivity|]. split; [|reflexivity]. left.
    constructor; cbn [s_cap s_size s_nodes s_buf s_meta s_nempty]; auto.
    rewrite Ne. destruct Hs as [Hs|Hs]; [apply (w0_nempty s Hs)|].
    pose proof (wf1_nempty f key_of hash keq s Hs). pose proof (cap_bounds f s (w_m _ _ _ _ s Hs)).
    pose proof (wf_size f key_of hash keq s (or_intror Hs)). pose proof (max_size_bounds f (s_cap s) ltac:(lia)). lia.
  - destruct Hp as [Hp|Hp]; [discriminate|]. destruct (erase_nodes_elems s Hs Hp) as (s' & -> & W' & E' & _). cbn [bind].
    eexists. split; [reflexivity|]. auto.
Qed.
End More.
