(** Proofs about sparse tables during whose calls user functions throw. *)
From Coq Require Import ZArith List Bool Lia Permutation.
From Coq Require Import ZifyBool ZifyNat.
From Verif Require Import Base BaseLemmas Bits BitsProofs SwissModel SwissArith SwissCap SwissInv SwissOps SwissClean
  SwissIter SwissRoom MapSpec SwissRun SwissRefine SwissMore UserSpec UserModel.
Import ListNotations.
Open Scope Z_scope.

Section User.
Context {E K : Type}.
Variable f : simd.
Variable key_of : E -> K.
Variable hash : K -> Z.
Variable keq : K -> K -> bool.
Hypothesis KL : key_laws hash keq.
Notation swiss := (@swiss E).
Local Notation wf := (wf f key_of hash keq).
Local Notation wf1 := (wf1 f key_of hash keq).
Local Notation inv := (inv f key_of hash keq).
Local Notation scans := (scans f).

(** ** A search makes a certain number of calls. *)
Lemma scan_ticks : forall (s : swiss) k p lanes r, scan_lanes key_of keq s k p lanes = Ok r ->
  exists m, forall n, u_scan key_of keq n s k p lanes = Ok (if (n <? m)%nat then None else Some ((n - m)%nat, r)).
Proof.
  intros s k p. induction lanes as [|l lanes IH]; intros r H; cbn [scan_lanes u_scan] in *.
  - injection H as <-. exists 0%nat. intros n. cbn [u_scan]. rewrite Nat.sub_0_r. destruct n; reflexivity.
  - destruct (get_node s (probe_off (s_cap s) p l)) as [x|]; cbn [bind] in *; [|discriminate].
    destruct (keq (key_of (fst x)) k).
    + injection H as <-. exists 1%nat. intros [|n]; [reflexivity|]. cbn [Nat.ltb Nat.leb]. rewrite Nat.sub_succ, Nat.sub_0_r. reflexivity.
    + destruct (IH r H) as [m Hm]. exists (S m). intros [|n]; [reflexivity|]. rewrite Hm. reflexivity.
Qed.
Lemma find_loop_ticks : forall fuel (s : swiss) k h p r, find_loop f key_of keq fuel s k h p = Ok r ->
  exists m, forall n, u_find_loop f key_of keq fuel n s k h p = Ok (if (n <? m)%nat then None else Some ((n - m)%nat, r)).
Proof.
  induction fuel as [|fuel IH]; intros s k h p r H; cbn [find_loop u_find_loop] in *; [discriminate|].
  destruct (load_block f s (snd p)) as [blk|]; cbn [bind] in *; [|discriminate].
  destruct (eq_lanes f blk (h2_of h)) as [lanes|]; cbn [bind] in *; [|discriminate].
  destruct (scan_lanes key_of keq s k p lanes) as [hit|] eqn:Eh; cbn [bind] in *; [|discriminate].
  destruct (scan_ticks s k p lanes hit Eh) as [m Hm].
  destruct hit as [off|].
  - injection H as <-. exists m. intros n. rewrite Hm. cbn [bind]. destruct (n <? m)%nat; reflexivity.
  - destruct (negb (mask_is_empty (match_empty f blk))).
    + injection H as <-. exists m. intros n. rewrite Hm. cbn [bind]. destruct (n <? m)%nat; reflexivity.
    + destruct (assert_probe s (fst p)); cbn [bind] in *; [|discriminate].
      destruct (IH _ _ _ _ _ H) as [m2 Hm2]. exists (m + m2)%nat. intros n. rewrite Hm. cbn [bind].
      destruct (Nat.ltb_spec n m).
      * destruct (Nat.ltb_spec n (m + m2)); [reflexivity|lia].
      * rewrite Hm2. f_equal. destruct (Nat.ltb_spec (n - m) m2); destruct (Nat.ltb_spec n (m + m2)); try lia; [reflexivity|].
        do 2 f_equal. lia.
Qed.
Lemma search_ticks : forall (s : swiss) k r, find_node f key_of keq s k (hash k) = Ok r ->
  exists m, (0 < m)%nat /\ forall n, search f key_of hash keq n s k = Ok (if (n <? m)%nat then None else Some ((n - m)%nat, r)).
Proof.
  intros s k r H. unfold find_node in H. unfold search. destruct (s_size s =? 0).
  - injection H as <-. exists 1%nat. split; [lia|]. intros [|n]; [reflexivity|]. cbn [Nat.ltb Nat.leb]. rewrite Nat.sub_succ, Nat.sub_0_r. reflexivity.
  - destruct (find_loop_ticks _ _ _ _ _ _ H) as [m Hm]. exists (S m). split; [lia|]. intros [|n]; [reflexivity|]. rewrite Hm. reflexivity.
Qed.

Variable rep : E -> E -> E.
Hypothesis Hrep : forall a b, keq (key_of a) (key_of b) = true -> key_of (rep a b) = key_of a.
Local Notation step := (spec_step key_of keq rep).
Local Notation exec := (exec f key_of hash keq rep).
Local Notation uexec := (uexec f key_of hash keq rep).
Local Notation urun := (urun f key_of hash keq rep).

(** ** Calls that search. *)
(** What such a call adds to the live objects. *)
Definition gain (r : ret E) : Z := match r with RInserted _ true => 1 | RErased _ true => -1 | _ => 0 end.
Definition with_gain (x : res (swiss * ret E)) : res (swiss * ret E * Z) := let* y := x in Ok (y, gain (snd y)).

Lemma given_gain : forall (s : swiss) o d, d = match o with Some (_, true, _) => 1 | _ => 0 end ->
  u_given f (s, o, d) = with_gain (give_inserted f (s, o)).
Proof.
  intros s o d Hd. unfold u_given, with_gain, give_inserted. destruct o as [[[p b] tr]|]; [|subst; reflexivity].
  destruct (to_iter f s p) as [q|]; cbn [bind]; [|reflexivity]. destruct (get_node s q) as [x|]; cbn [bind]; [|reflexivity].
  subst d. destruct b; reflexivity.
Qed.
Lemma new_gain : forall v (s : swiss) e,
  (let* x := u_new f key_of hash v s e in u_given f x) =
  with_gain (let* x := (let* r := emplace_node f (ev_lim v) (ev_ctor v) s (hash (key_of e)) e in
     let '(s1, o) := r in Ok (s1, match o with None => None | Some (q, tr) => Some (q, true, tr) end)) in give_inserted f x).
Proof.
  intros v s e. unfold u_new. destruct (emplace_node f (ev_lim v) (ev_ctor v) s (hash (key_of e)) e) as [[s1 o]|]; cbn [bind]; [|reflexivity].
  destruct o as [[q tr]|]; cbn [bind]; apply given_gain; reflexivity.
Qed.

Lemma search_exec : forall v (s : swiss) c, wf s -> searches c = true ->
  exists m, (0 < m)%nat /\ forall n, uexec n v s (UCall c) = if (n <? m)%nat then Ok (s, RThrow, 0) else with_gain (exec v s c).
Proof.
  intros v s c H Hc. destruct c as [e|e|k|k|k| |n|n| |]; try discriminate Hc; cbn [UserModel.uexec SwissRun.exec].
  - destruct (find_located f key_of hash keq KL s (key_of e) H) as (r & Er & _). destruct (search_ticks s (key_of e) r Er) as (m & M & Hm).
    exists m. split; [exact M|]. intros n. unfold u_insert, do_insert. rewrite Hm, Er. cbn [bind].
    destruct (n <? m)%nat; [reflexivity|]. destruct (r =? s_cap s); [apply new_gain|apply given_gain; reflexivity].
  - destruct (find_located f key_of hash keq KL s (key_of e) H) as (r & Er & _). destruct (search_ticks s (key_of e) r Er) as (m & M & Hm).
    exists m. split; [exact M|]. intros n. unfold u_assign, do_insert_or_assign. rewrite Hm, Er. cbn [bind].
    destruct (n <? m)%nat; [reflexivity|]. destruct (r =? s_cap s); [apply new_gain|].
    destruct (get_node s r) as [y|]; cbn [bind]; [|reflexivity]. apply given_gain; reflexivity.
  - destruct (find_located f key_of hash keq KL s k H) as (r & Er & _). destruct (search_ticks s k r Er) as (m & M & Hm).
    exists m. split; [exact M|]. intros n. unfold u_erase, erase_key, with_gain. rewrite Hm, Er. cbn [bind].
    destruct (n <? m)%nat; [reflexivity|]. destruct (r =? s_cap s).
    + destruct (end_iter f s) as [l|]; cbn [bind]; [|reflexivity]. destruct (deref f s l); reflexivity.
    + destruct (do_erase f s r) as [[s1 q]|]; cbn [bind]; [|reflexivity]. destruct (deref f s1 q); reflexivity.
  - destruct (find_located f key_of hash keq KL s k H) as (r & Er & _). destruct (search_ticks s k r Er) as (m & M & Hm).
    exists m. split; [exact M|]. intros n. unfold u_find, find, with_gain, deref. rewrite Hm, Er. cbn [bind].
    destruct (n <? m)%nat; [reflexivity|]. destruct (to_iter f s r) as [q|]; cbn [bind]; [|reflexivity].
    destruct (end_iter f s) as [l|]; cbn [bind]; [|reflexivity]. destruct (q =? l); [reflexivity|]. destruct (get_node s q); reflexivity.
  - destruct (find_located f key_of hash keq KL s k H) as (r & Er & _). destruct (search_ticks s k r Er) as (m & M & Hm).
    exists m. split; [exact M|]. intros n. unfold u_contains, contains, with_gain. rewrite Hm, Er. cbn [bind].
    destruct (n <? m)%nat; reflexivity.
Qed.

Lemma step_gain : forall c l l' r, searches c = true -> step c l l' r -> Z.of_nat (length l') = Z.of_nat (length l) + gain r.
Proof.
  intros c l l' r Hc H. destruct H; try discriminate Hc; cbn [gain];
    try (rewrite (Permutation_length H0); cbn [length]; lia); try lia.
  - destruct H as [-> _]. rewrite !app_length. cbn [length]. lia.
  - destruct H as [-> _]. rewrite !app_length. cbn [length]. lia.
Qed.

(** ** emplace. *)
Lemma emplace_exec : forall v (s : swiss) e, wf s -> ev_ctor v = true ->
  exists m, (0 < m)%nat /\ forall n, uexec n v s (UEmplace e) = if (n <? m)%nat then Ok (s, RThrow, 1)
    else let* y := exec v s (CInsert e) in Ok (y, match snd y with RThrow => 1 | r => gain r end).
Proof.
  intros v s e H Hv. cbn [UserModel.uexec SwissRun.exec].
  destruct (find_located f key_of hash keq KL s (key_of e) H) as (r & Er & _). destruct (search_ticks s (key_of e) r Er) as (m & M & Hm).
  exists m. split; [exact M|]. intros n. unfold u_emplace, u_insert, do_insert. rewrite Hv, Hm, Er. cbn [bind].
  destruct (n <? m)%nat; [reflexivity|]. destruct (r =? s_cap s).
  - unfold u_new. cbn [ev_lim ev_ctor]. destruct (emplace_node f (ev_lim v) true s (hash (key_of e)) e) as [[s1 o]|]; cbn [bind]; [|reflexivity].
    unfold u_given, give_inserted. destruct o as [[q tr]|]; cbn [bind]; [|reflexivity].
    destruct (to_iter f s1 q) as [z|]; cbn [bind]; [|reflexivity]. destruct (get_node s1 z); reflexivity.
  - cbn [bind]. unfold u_given, give_inserted. destruct (to_iter f s r) as [z|]; cbn [bind]; [|reflexivity]. destruct (get_node s z); reflexivity.
Qed.

(** ** clear. *)
Lemma clear_gain : forall s : swiss, wf s -> exists s', u_clear f s = Ok (s', RUnit, - s_size s) /\ wf s' /\ (inv s -> inv s') /\ elems s' = [] /\ s_size s' = 0.
Proof.
  intros s H. unfold u_clear. destruct (clear_ok f key_of hash keq s H) as (s' & -> & W' & Ee & C' & S' & Hs0). cbn [bind].
  exists s'. split.
  - f_equal. f_equal. destruct (Z.eqb_spec (s_size s) 0) as [E0|E0]; [lia|]. f_equal.
    destruct H as [H|H]; [destruct E0; apply (w0_size s H)|]. rewrite (w_size _ _ _ _ s H). reflexivity.
  - split; [exact W'|]. split; [|auto]. intros [_ Hne]. split; [exact W'|]. rewrite C'. intros Hc0. rewrite (Hs0 Hc0). apply Hne. exact Hc0.
Qed.

(** ** erase_if. *)
Lemma sweep_ok : forall pred fuel n (s : swiss) p c, wf1 s -> 0 <= p <= s_cap s ->
  (p < s_cap s -> exists n, s_nodes s p = Some n) -> s_cap s - p < Z.of_nat fuel ->
  scans (u_sweep f fuel n pred s p (s_cap s) c) (fun r => let '(s', b, m) := r in
    let l := map fst (rest (s_nodes s) p (s_cap s)) in
    wf1 s' /\ s_cap s' = s_cap s /\
    elems s' = map fst (collect (s_nodes s) p) ++ filter (fun x => negb (pred x)) (firstn n l) ++ skipn n l /\
    b = (length l <=? n)%nat /\
    m = c + Z.of_nat (length (filter pred (firstn n l)))).
Proof.
  intros pred. induction fuel as [|fuel IH]; intros n s p c H Hp Hn Hf; [lia|].
  cbn [u_sweep]. destruct (Z.eqb_spec p (s_cap s)) as [->|Hne].
  - apply scans_Ok. rewrite rest_end by lia. cbn [map]. rewrite firstn_nil, skipn_nil. cbn [filter length app]. split; [exact H|]. split; [reflexivity|].
    rewrite app_nil_r. split; [reflexivity|]. split; [reflexivity|lia].
  - destruct (Hn ltac:(lia)) as [x En]. pose proof (w_m _ _ _ _ s H) as M. pose proof (w_n _ _ _ _ s H) as N.
    rewrite (get_node_ok s p x) by ((apply (mw_buf f s M)) || lia || exact En). cbn [bind].
    assert (Er : rest (s_nodes s) p (s_cap s) = x :: rest (s_nodes s) (p + 1) (s_cap s)).
    { rewrite rest_cons by lia. rewrite En. reflexivity. }
    destruct n as [|n].
    { apply scans_Ok. cbn [firstn skipn filter length app]. split; [exact H|]. split; [reflexivity|]. split; [|split; [|lia]].
      - rewrite (elems_at s p x ltac:(lia) En), Er. reflexivity.
      - rewrite Er. reflexivity. }
    rewrite Er. cbn [map firstn skipn filter length]. destruct (pred (fst x)) eqn:Ep.
    + rewrite (erase_at_ok f key_of hash keq s p x H En).
      eapply scans_bind; [exact (do_erase_ok f key_of hash keq KL s p x H En)|].
      intros [s1 q] (W1 & C1 & N1 & _ & _ & Hq & Hst & _).
      pose proof (w_n _ _ _ _ s1 W1) as Nc1. pose proof Hst as (Hq1 & _ & _).
      pose proof (stops_none key_of hash s1 (p + 1) q Nc1 ltac:(lia) Hst) as Hnone.
      rewrite <- C1. eapply scans_imp; [apply (IH n)|].
      * exact W1.
      * lia.
      * intros Hlt. apply (stops_rest key_of hash s1 (p + 1) q Nc1 ltac:(lia) Hst). exact Hlt.
      * lia.
      * intros [[s2 b] m] (W2 & C2 & E2 & Eb & Em). split; [exact W2|]. split; [congruence|].
        assert (Hrq : rest (s_nodes s1) q (s_cap s1) = rest (s_nodes s) (p + 1) (s_cap s)).
        { rewrite <- (proj1 (stops_rest key_of hash s1 (p + 1) q Nc1 ltac:(lia) Hst)). rewrite C1, N1.
          apply rest_ext. intros i Hi. apply upd_other. lia. }
        assert (Hcq : collect (s_nodes s1) q = collect (s_nodes s) p).
        { rewrite (collect_split _ (s_nodes s1) p q) by lia. rewrite (rest_none _ (s_nodes s1) p q); [|lia|].
          2:{ intros j Hj. destruct (Z.eq_dec j p) as [->|]; [rewrite N1; apply upd_same|]. apply Hnone. lia. }
          rewrite app_nil_r. apply collect_ext. intros i Hi. rewrite N1. apply upd_other. lia. }
        rewrite E2, Hrq, Hcq in *. rewrite C1. cbn [negb length]. split; [reflexivity|]. split; [exact Eb|]. lia.
    + eapply scans_bind; [apply (next_occupied_ok f s M (iter_fuel s) (p + 1)); [lia|unfold iter_fuel; lia]|].
      intros q Hst. pose proof Hst as (Hq1 & _ & _).
      pose proof (stops_none key_of hash s (p + 1) q N ltac:(lia) Hst) as Hnone.
      eapply scans_imp; [apply (IH n s q c H)|].
      * lia.
      * intros Hlt. apply (stops_rest key_of hash s (p + 1) q N ltac:(lia) Hst). exact Hlt.
      * lia.
      * intros [[s2 b] m] (W2 & C2 & E2 & Eb & Em). split; [exact W2|]. split; [exact C2|].
        rewrite (proj1 (stops_rest key_of hash s (p + 1) q N ltac:(lia) Hst)).
        assert (Hcq : collect (s_nodes s) q = collect (s_nodes s) p ++ [x]).
        { rewrite (collect_split _ (s_nodes s) p q) by lia. f_equal. rewrite rest_cons, En by lia.
          rewrite (rest_none _ (s_nodes s) (p + 1) q) by (lia || exact Hnone). reflexivity. }
        rewrite E2, Hcq, map_app. cbn [negb map]. rewrite <- app_assoc. split; [reflexivity|]. split; [exact Eb|exact Em].
Qed.

Lemma erase_if_throws : forall n pred (s : swiss), wf s ->
  scans (u_erase_if f n pred s) (fun x => let '(s', r, d) := x in
    wf s' /\ (inv s -> inv s') /\ uspec key_of keq rep n (UEraseIf pred) (elems s) (elems s') r /\ d = s_size s' - s_size s).
Proof.
  intros n pred s Hw. pose proof (proj1 (wf_size f key_of hash keq s Hw)) as Hsz. destruct Hw as [H|H].
  - unfold u_erase_if. rewrite (begin_iter_empty f key_of hash keq s H), (end_iter_ok f key_of hash keq s (or_introl H)), (w0_cap s H). cbn [bind].
    unfold iter_fuel. cbn [u_sweep]. rewrite Z.eqb_refl. cbn [bind]. apply scans_Ok. rewrite (elems_empty s (w0_cap s H)).
    split; [left; exact H|]. split; [auto|]. split; [|lia]. exact (us_sweep key_of keq rep n pred [] (Nat.le_0_l n)).
  - pose proof (w_m _ _ _ _ s H) as M. pose proof (w_n _ _ _ _ s H) as N. pose proof (cap_bounds f s M) as Hcb.
    unfold u_erase_if. unfold begin_iter. eapply scans_bind; [apply to_iter_ok; [exact M|lia]|].
    intros p Hst. pose proof Hst as (Hp & _ & _). rewrite (end_iter_mwf f s M). cbn [bind].
    destruct (stops_rest key_of hash s 0 p N ltac:(lia) Hst) as [Hr Hn].
    assert (Hel : elems s = map fst (rest (s_nodes s) p (s_cap s))) by (rewrite (elems_rest s) by lia; rewrite Hr; reflexivity).
    eapply scans_bind; [apply (sweep_ok pred (iter_fuel s) n s p 0 H)|].
    + lia.
    + exact Hn.
    + unfold iter_fuel. lia.
    + intros [[s' b] m] (W' & C' & E' & Eb & Em). rewrite <- Hel in E', Eb, Em. apply scans_Ok.
      split; [right; exact W'|]. split; [intros _; apply inv_wf1; exact W'|].
      rewrite (collect_split _ (s_nodes s) 0 p) in E' by lia.
      rewrite (rest_none _ (s_nodes s) 0 p) in E' by (lia || exact (stops_none key_of hash s 0 p N ltac:(lia) Hst)).
      rewrite collect_0 in E' by lia. cbn [app map] in E'.
      pose proof (proj1 (wf_size f key_of hash keq s' (or_intror W'))) as Hsz'.
      assert (Hcnt : forall l : list E, (length (filter pred l) + length (filter (fun x => negb (pred x)) l) = length l)%nat).
      { induction l as [|y l IH]; [reflexivity|]. cbn [filter]. destruct (pred y); cbn [negb length]; lia. }
      split.
      * rewrite E'. subst b. destruct (Nat.leb_spec (length (elems s)) n) as [Hle|Hlt].
        -- rewrite skipn_all2, firstn_all2, app_nil_r by exact Hle. rewrite Em, firstn_all2 by exact Hle. apply us_sweep. exact Hle.
        -- apply us_sweep_throw. exact Hlt.
      * rewrite Hsz, Hsz', E', Em, app_length, skipn_length.
        pose proof (Hcnt (firstn n (elems s))) as Hc. pose proof (firstn_length n (elems s)). lia.
Qed.

(** ** One call. *)
Lemma uexec_ok : forall n v (s : swiss) c, wf s -> env_ok v -> ucall_ok c ->
  (exists s' r d, uexec n v s c = Ok (s', r, d) /\ kept f key_of hash keq s s' /\ uspec key_of keq rep n c (elems s) (elems s') r /\
     d = s_size s' - s_size s + (if leaky v c r then 1 else 0)) \/
  (narrow f /\ uscanning c /\ uexec n v s c = Err BitScanZero).
Proof.
  intros n v s c H Hv Hc. pose proof (proj1 (wf_size f key_of hash keq s H)) as Hsz. destruct c as [c|e|pred].
  - destruct (searches c) eqn:Es.
    + destruct (search_exec v s c H Es) as (m & _ & Hm). rewrite Hm. destruct (n <? m)%nat.
      { left. exists s, RThrow, 0. split; [reflexivity|]. split; [apply kept_refl; exact H|]. split; [apply us_throw; exact Es|]. cbn [leaky]. lia. }
      destruct (exec_ok f key_of hash keq KL rep Hrep v s c H Hv Hc) as [(s' & r & -> & Hk & Hst)|(Hn & Hsc & ->)]; [left|right; auto].
      cbn [with_gain bind snd]. exists s', r, (gain r). split; [reflexivity|]. split; [exact Hk|]. split; [apply us_call; exact Hst|].
      pose proof (proj1 (wf_size f key_of hash keq s' (proj1 Hk))) as Hsz'. pose proof (step_gain c _ _ r Es Hst). cbn [leaky]. lia.
    + destruct (exec_ok f key_of hash keq KL rep Hrep v s c H Hv Hc) as [(s' & r & Ex & Hk & Hst)|(Hn & Hsc & Ex)].
      2:{ right. split; [exact Hn|]. split; [exact Hsc|]. destruct c; try discriminate Es; cbn [scanning] in Hsc; try contradiction.
          cbn [UserModel.uexec]. rewrite Ex. reflexivity. }
      left. pose proof (proj1 (wf_size f key_of hash keq s' (proj1 Hk))) as Hsz'.
      destruct c as [e|e|k|k|k| |z|z| |]; try discriminate Es.
      * destruct (clear_gain s H) as (s1 & E1 & W1 & I1 & El & S1). cbn [UserModel.uexec]. rewrite E1. exists s1, RUnit, (- s_size s).
        split; [reflexivity|]. split; [split; assumption|]. rewrite El. split; [apply us_call; constructor|]. cbn [leaky]. lia.
      * cbn [UserModel.uexec]. rewrite Ex. cbn [bind]. exists s', r, 0. split; [reflexivity|]. split; [exact Hk|]. split; [apply us_call; exact Hst|].
        assert (length (elems s') = length (elems s)) by (inversion Hst; subst; apply Permutation_length; assumption). cbn [leaky]. lia.
      * cbn [UserModel.uexec]. rewrite Ex. cbn [bind]. exists s', r, 0. split; [reflexivity|]. split; [exact Hk|]. split; [apply us_call; exact Hst|].
        assert (length (elems s') = length (elems s)) by (inversion Hst; subst; apply Permutation_length; assumption). cbn [leaky]. lia.
      * cbn [UserModel.uexec]. rewrite Ex. cbn [bind]. exists s', r, 0. split; [reflexivity|]. split; [exact Hk|]. split; [apply us_call; exact Hst|].
        assert (length (elems s') = length (elems s)) by (inversion Hst; subst; congruence). cbn [leaky]. lia.
      * cbn [UserModel.uexec]. rewrite Ex. cbn [bind]. exists s', r, 0. split; [reflexivity|]. split; [exact Hk|]. split; [apply us_call; exact Hst|].
        assert (length (elems s') = length (elems s)) by (inversion Hst; subst; congruence). cbn [leaky]. lia.
  - left. destruct (ev_ctor v) eqn:Ev.
    + destruct (emplace_exec v s e H Ev) as (m & _ & Hm). rewrite Hm. destruct (n <? m)%nat.
      { exists s, RThrow, 1. split; [reflexivity|]. split; [apply kept_refl; exact H|]. split; [apply us_emplace_throw|]. cbn [leaky]. rewrite Ev. lia. }
      destruct (exec_ok f key_of hash keq KL rep Hrep v s (CInsert e) H Hv I) as [(s' & r & -> & Hk & Hst)|(_ & [] & _)].
      cbn [bind snd]. exists s', r. eexists. split; [reflexivity|]. split; [exact Hk|]. split; [apply us_emplace; exact Hst|].
      pose proof (proj1 (wf_size f key_of hash keq s' (proj1 Hk))) as Hsz'. pose proof (step_gain (CInsert e) _ _ r eq_refl Hst) as Hg.
      destruct r; cbn [leaky gain] in *; rewrite ?Ev; lia.
    + cbn [UserModel.uexec]. unfold u_emplace. rewrite Ev. cbn [bind u_given give_inserted].
      exists s, RThrow, 0. split; [reflexivity|]. split; [apply kept_refl; exact H|]. split; [apply us_emplace_throw|]. cbn [leaky]. rewrite Ev. lia.
  - destruct (erase_if_throws n pred s H) as [([[s' r] d] & E1 & W' & I' & Hs & Hd)|(Hn & E1)].
    + left. exists s', r, d. split; [exact E1|]. split; [split; assumption|]. split; [exact Hs|]. cbn [leaky]. lia.
    + right. cbn [uscanning]. auto.
Qed.

Lemma call_throws : forall v (s : swiss) c, wf s -> searches c = true ->
  exists m, (0 < m)%nat /\ forall n, (n < m)%nat /\ uexec n v s (UCall c) = Ok (s, RThrow, 0) \/
    (m <= n)%nat /\ forall s' r, exec v s c = Ok (s', r) -> exists d, uexec n v s (UCall c) = Ok (s', r, d).
Proof.
  intros v s c H Hc. destruct (search_exec v s c H Hc) as (m & M & Hm). exists m. split; [exact M|]. intros n. rewrite Hm.
  destruct (Nat.ltb_spec n m); [left; auto|right]. split; [assumption|]. intros s' r ->. cbn [with_gain bind snd]. eauto.
Qed.
Lemma emplace_leaks : forall v (s : swiss) e, wf s -> ev_ctor v = true ->
  exists m, (0 < m)%nat /\ forall n, (n < m)%nat -> uexec n v s (UEmplace e) = Ok (s, RThrow, 1).
Proof.
  intros v s e H Hv. destruct (emplace_exec v s e H Hv) as (m & M & Hm). exists m. split; [exact M|]. intros n Hn. rewrite Hm.
  destruct (Nat.ltb_spec n m); [reflexivity|lia].
Qed.

(** ** Histories. *)
Lemma urun_ok : forall h (s : swiss) m, wf s -> uhistory_ok h ->
  (exists s' rs m', urun s m h = Ok (s', rs, m') /\ wf s' /\ uspec_run key_of keq rep (ucalls_of h) (elems s) (elems s') rs /\
     m' - m = s_size s' - s_size s + leaks h rs) \/
  (narrow f /\ (exists n v c, In (n, v, c) h /\ uscanning c) /\ urun s m h = Err BitScanZero).
Proof.
  induction h as [|[[n v] c] h IH]; intros s m H Hh.
  - left. exists s, [], m. split; [reflexivity|]. split; [exact H|]. split; [constructor|]. cbn [leaks]. lia.
  - inversion Hh as [|? ? [Hv Hc] Hh']; subst. cbn [UserModel.urun fst snd] in *.
    destruct (uexec_ok n v s c H Hv Hc) as [(s1 & r & d & -> & Hk & Hst & Hd)|(Hn & Hsc & ->)].
    + cbn [bind]. destruct (IH s1 (m + d) (proj1 Hk) Hh') as [(s2 & rs & m2 & -> & W2 & Hr & Hm)|(Hn & (n' & v' & c' & Hin & Hsc) & ->)].
      * left. cbn [bind]. exists s2, (r :: rs), m2. split; [reflexivity|]. split; [exact W2|]. split; [econstructor; eassumption|]. cbn [leaks]. lia.
      * right. split; [exact Hn|]. split; [|reflexivity]. exists n', v', c'. split; [right; exact Hin|exact Hsc].
    + right. split; [exact Hn|]. split; [|reflexivity]. exists n, v, c. split; [left; reflexivity|exact Hsc].
Qed.

Lemma uhistories : forall h, uhistory_ok h ->
  (exists s rs m, urun empty_swiss 0 h = Ok (s, rs, m) /\ uspec_run key_of keq rep (ucalls_of h) [] (elems s) rs /\ m = size s + leaks h rs) \/
  (narrow f /\ (exists n v c, In (n, v, c) h /\ uscanning c) /\ urun empty_swiss 0 h = Err BitScanZero).
Proof.
  intros h Hh. destruct (urun_ok h empty_swiss 0 (proj1 (empty_inv f key_of hash keq)) Hh) as [(s & rs & m & E1 & _ & Hr & Hm)|X]; [left|right; exact X].
  exists s, rs, m. split; [exact E1|]. split; [exact Hr|]. unfold size. cbn [s_size empty_swiss] in Hm. lia.
Qed.

(** ** merge. *)
Lemma merge_loop_ticks : forall lim fuel (s o : swiss) p last s' o', merge_loop f key_of hash keq fuel lim s o p last = Ok (s', o', true) ->
  exists m, (p <> last -> (0 < m)%nat) /\
    forall n, u_merge_loop f key_of hash keq fuel n lim s o p last = if (n <? m)%nat then Err Terminated else Ok (s', o', true).
Proof.
  intros lim. induction fuel as [|fuel IH]; intros s o p last s' o' H; cbn [merge_loop u_merge_loop] in *; [discriminate|].
  destruct (Z.eqb_spec p last) as [->|Hne].
  - injection H as <- <-. exists 0%nat. split; [congruence|]. reflexivity.
  - destruct (get_node o p) as [x|]; cbn [bind] in *; [|discriminate].
    destruct (find_node f key_of keq s (key_of (fst x)) (hash (key_of (fst x)))) as [q|] eqn:Eq; cbn [bind] in *; [|discriminate].
    destruct (search_ticks s (key_of (fst x)) q Eq) as (m & Hm & Hs).
    assert (Hcomb : forall (X : nat -> res (swiss * swiss * bool)) m2, (forall n, X n = if (n <? m2)%nat then Err Terminated else Ok (s', o', true)) ->
      forall n, (if (n <? m)%nat then Err Terminated else X (n - m)%nat) = if (n <? m + m2)%nat then Err Terminated else Ok (s', o', true)).
    { intros X m2 HX n. rewrite HX. destruct (Nat.ltb_spec n m); destruct (Nat.ltb_spec (n - m) m2); destruct (Nat.ltb_spec n (m + m2)); reflexivity || lia. }
    destruct (q =? s_cap s) eqn:Ec.
    + destruct (do_extract f o p) as [[o1 e]|] eqn:Ez; cbn [bind] in *; [|discriminate].
      destruct (emplace_node f lim true s (hash (key_of (fst x))) e) as [[s1 oo]|] eqn:Ee; cbn [bind] in *; [|discriminate].
      destruct oo as [y|]; [|discriminate]. destruct (iter_next f o1 p) as [p'|] eqn:Ep; cbn [bind] in *; [|discriminate].
      destruct (IH _ _ _ _ _ _ H) as (m2 & _ & Hm2). exists (m + m2)%nat. split; [lia|]. intros n.
      rewrite <- (Hcomb (fun n => u_merge_loop f key_of hash keq fuel n lim s1 o1 p' last) m2 Hm2 n).
      rewrite Hs. cbn [bind]. destruct (n <? m)%nat; [reflexivity|]. rewrite Ec. cbn [bind]. rewrite ?Ee. cbn [bind]. rewrite ?Ep. reflexivity.
    + destruct (iter_next f o p) as [p'|] eqn:Ep; cbn [bind] in *; [|discriminate].
      destruct (IH _ _ _ _ _ _ H) as (m2 & _ & Hm2). exists (m + m2)%nat. split; [lia|]. intros n.
      rewrite <- (Hcomb (fun n => u_merge_loop f key_of hash keq fuel n lim s o p' last) m2 Hm2 n).
      rewrite Hs. cbn [bind]. destruct (n <? m)%nat; [reflexivity|]. rewrite Ec. reflexivity.
Qed.
Lemma merge_ticks : forall lim (s o s' o' : swiss), wf o -> merge f key_of hash keq lim s o = Ok (s', o', true) ->
  exists m, (elems o <> [] -> (0 < m)%nat) /\
    forall n, u_merge f key_of hash keq n lim s o = if (n <? m)%nat then Err Terminated else Ok (s', o', true).
Proof.
  intros lim s o s' o' Hw H. unfold merge in H. unfold u_merge.
  destruct (reserve f lim s (add64 (s_size s) (s_size o))) as [[s1 [tr|]]|]; cbn [bind] in *; [|discriminate|discriminate].
  destruct (begin_iter f o) as [p|] eqn:Eb; cbn [bind] in *; [|discriminate].
  rewrite (end_iter_ok f key_of hash keq o Hw) in *. cbn [bind] in *.
  destruct (merge_loop_ticks _ _ _ _ _ _ _ _ H) as (m & M & Hm). exists m. split; [|exact Hm].
  intros Hne. apply M. intros ->. apply Hne. destruct Hw as [W|W]; [apply elems_empty; apply (w0_cap o W)|].
  pose proof (w_m _ _ _ _ o W) as Mo. pose proof (cap_bounds f o Mo) as Hcb. unfold begin_iter in Eb.
  destruct (to_iter_ok f o 0 Mo ltac:(lia)) as [(q & Eq & Hst)|(_ & Eq)]; rewrite Eq in Eb; [|discriminate].
  injection Eb as ->. rewrite elems_rest by lia. rewrite (proj1 (stops_rest key_of hash o 0 (s_cap o) (w_n _ _ _ _ o W) ltac:(lia) Hst)).
  rewrite rest_end by lia. reflexivity.
Qed.
End User.
