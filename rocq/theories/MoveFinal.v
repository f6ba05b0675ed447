(** Calls of which no move throws, and dense tables after a move of an element threw. *)
From Coq Require Import ZArith List Bool Lia Permutation.
From Coq Require Import ZifyBool ZifyNat.
From Verif Require Import Base BaseLemmas Bits.
From Verif Require Import Float32 DenseSpec DenseModel DenseRun DenseInv DenseRefine.
From Verif Require Import MapSpec SwissModel SwissRun SwissInv SwissIter SwissRoom CostSpec SwissCost World WorldProofs Instances BoundsSpec PlaceSpec PlaceInstances MoveModel MoveProofs.
Import ListNotations.
Open Scope Z_scope.

Section Swiss.
Context {E K : Type}.
Variable f : simd.
Variable key_of : E -> K.
Variable hash : K -> Z.
Variable keq : K -> K -> bool.
Variable rep : E -> E -> E.
Notation swiss := (@swiss E).

Lemma steps_app : forall a b, steps (a ++ b) = steps a + steps b.
Proof. induction a as [|x a IH]; intros b; cbn [app steps fold_right]; [reflexivity|]. fold (steps (a ++ b)). fold (steps a). rewrite IH. lia. Qed.

Lemma until_same : forall (s : swiss) l m acc acc', foldM (rehash_step f s) l acc = Ok acc' -> (length (snd acc') <= length (snd acc) + m)%nat ->
  (length (snd acc) <= length (snd acc'))%nat /\ relocate_until f m s l acc = Ok (acc', true).
Proof.
  intros s l. induction l as [|i l IH]; intros m acc acc' Ef Hm.
  - cbn [foldM] in Ef. injection Ef as <-. split; [lia|reflexivity].
  - cbn [foldM] in Ef. destruct (rehash_step f s acc i) as [x|] eqn:Es; [|discriminate]. cbn [bind] in Ef. cbn [relocate_until].
    pose proof Es as Es'. unfold rehash_step in Es'. destruct acc as [t mv]. destruct (get_meta f s i) as [b|]; [|discriminate]. cbn [bind] in *.
    destruct (is_occupied b).
    + destruct (get_node s i) as [n|]; [|discriminate]. cbn [bind] in Es'. destruct (find_available f t (snd n)) as [p|]; [|discriminate]. cbn [bind] in Es'.
      destruct (put_node t p n) as [t1|]; [|discriminate]. cbn [bind] in Es'. destruct (set_metadata f t1 p (h2_of (snd n))) as [t2|]; [|discriminate]. cbn [bind] in Es'.
      injection Es' as <-. cbn [snd] in *.
      assert (Hlen : (length (mv ++ [(i, p)]) <= length (snd acc'))%nat).
      { destruct (IH (length (snd acc')) _ _ Ef) as [X _]; [cbn [snd]; lia|]. exact X. }
      rewrite app_length in Hlen. cbn [length] in Hlen. destruct m as [|m]; [lia|]. rewrite Es. cbn [bind].
      destruct (IH m _ _ Ef) as [_ X]; [cbn [snd]; rewrite app_length; cbn [length]; lia|]. split; [lia|exact X].
    + injection Es' as <-. apply (IH m _ _ Ef Hm).
Qed.

Lemma m_rehash_same : forall m lim (s s' : swiss) c o, do_rehash f lim s c = Ok (s', o) ->
  match o with Some tr => steps tr <= Z.of_nat m | None => True end -> m_rehash f m lim s c = Ok (s', o).
Proof.
  intros m lim s s' c o Er Hm. unfold do_rehash in Er. unfold m_rehash. destruct (lim <? c); [exact Er|]. destruct (c =? 0); [exact Er|].
  destruct (foldM _ _ _) as [[t mv]|] eqn:Ef; [|discriminate]. cbn [bind] in Er. injection Er as <- <-.
  cbn [steps fold_right ev_steps] in Hm. destruct (until_same s _ m _ _ Ef) as [_ ->]; [cbn [snd length]; lia|]. reflexivity.
Qed.

Lemma process_same : forall fuel (s s' : swiss) i tr tr', process_node f fuel s i tr = Ok (s', tr') ->
  exists tr2, tr' = tr ++ tr2 /\ steps tr2 = Z.of_nat (length tr2) /\ forall m, (length tr2 <= m)%nat -> m_process f fuel m s i tr = Ok (s', tr', Some (m - length tr2)%nat).
Proof.
  induction fuel as [|fuel IH]; intros s s' i tr tr' Ep; [discriminate|]. cbn [process_node] in Ep. cbn [m_process].
  destruct (get_node s i) as [n|]; [|discriminate]. cbn [bind] in *. destruct (find_available f s (snd n)) as [p|]; [|discriminate]. cbn [bind] in *.
  destruct (block_idx f (s_cap s) (snd n) p =? block_idx f (s_cap s) (snd n) i).
  - destruct (set_metadata f s i (h2_of (snd n))) as [s1|]; [|discriminate]. cbn [bind] in *. injection Ep as <- <-. exists []. rewrite app_nil_r. split; [reflexivity|]. split; [cbn; lia|].
    intros m _. cbn [length]. rewrite Nat.sub_0_r. reflexivity.
  - destruct (get_meta f s p) as [tm|]; [|discriminate]. cbn [bind] in *. destruct (tm =? m_empty).
    + destruct (put_node s p n) as [s1|]; [|discriminate]. cbn [bind] in *. destruct (kill_node s1 i) as [s2|]; [|discriminate]. cbn [bind] in *.
      destruct (set_metadata f s2 i m_empty) as [s3|]; [|discriminate]. cbn [bind] in *. destruct (set_metadata f s3 p (h2_of (snd n))) as [s4|]; [|discriminate]. cbn [bind] in *.
      injection Ep as <- <-. exists [EvMove i p]. split; [reflexivity|]. split; [cbn; lia|]. intros m Hm. cbn [length] in *. destruct m as [|m]; [lia|]. cbn [Nat.sub]. rewrite Nat.sub_0_r. reflexivity.
    + destruct (get_node s p) as [n2|]; [|discriminate]. cbn [bind] in *. destruct (set_metadata f _ p (h2_of (snd n))) as [s2|]; [|discriminate]. cbn [bind] in *.
      destruct (IH _ _ _ _ _ Ep) as (tr2 & -> & Hl & Hp). exists (EvSwap i p :: tr2). rewrite <- app_assoc. split; [reflexivity|]. cbn [length steps fold_right ev_steps] in *. fold (steps tr2). split; [lia|].
      intros m Hm. destruct m as [|m]; [lia|]. cbn [Nat.sub]. rewrite app_assoc. apply Hp. lia.
Qed.

Lemma relocate_same : forall l (s s' : swiss) tr tr', foldM (relocate_step f) l (s, tr) = Ok (s', tr') ->
  exists tr2, tr' = tr ++ tr2 /\ steps tr2 = Z.of_nat (length tr2) /\ forall m, (length tr2 <= m)%nat -> m_relocate f m l s tr = Ok (s', tr', true).
Proof.
  induction l as [|i l IH]; intros s s' tr tr' Ef; cbn [foldM m_relocate] in *.
  - injection Ef as <- <-. exists []. rewrite app_nil_r. split; [reflexivity|]. split; [cbn; lia|reflexivity].
  - unfold relocate_step in Ef at 1. destruct (get_meta f s i) as [b|]; [|discriminate]. cbn [bind] in *. destruct (b =? m_deleted); [|cbn [bind] in Ef; exact (IH _ _ _ _ Ef)].
    destruct (process_node f _ s i tr) as [[s1 tr1]|] eqn:Ep; [|discriminate]. cbn [bind] in *.
    destruct (process_same _ _ _ _ _ _ Ep) as (ta & -> & La & Ha). destruct (IH _ _ _ _ Ef) as (tb & -> & Lb & Hb).
    exists (ta ++ tb). rewrite app_assoc. split; [reflexivity|]. rewrite app_length, steps_app. split; [lia|]. intros m Hm. rewrite Ha by lia. cbn [bind]. apply Hb. lia.
Qed.

Lemma m_deleted_same : forall m (s s' : swiss) tr, rehash_deleted f s = Ok (s', tr) -> steps tr <= Z.of_nat m -> m_rehash_deleted f m s = Ok (s', Some tr).
Proof.
  intros m s s' tr Er Hm. unfold rehash_deleted in Er. unfold m_rehash_deleted. change (width f) with (SwissModel.W f).
  destruct (foldM (reset_block f) _ s) as [s1|]; [|discriminate]. cbn [bind] in *. destruct (copy_tail f s1) as [s2|]; [|discriminate]. cbn [bind] in *.
  destruct (put_meta f s2 (s_cap s) m_sentinel) as [s3|]; [|discriminate]. cbn [bind] in *.
  destruct (foldM (relocate_step f) _ (s3, [])) as [[s4 t4]|] eqn:Ef; [|discriminate]. cbn [bind] in *. injection Er as <- <-.
  destruct (relocate_same _ _ _ _ _ Ef) as (t2 & E2 & Hl & Hr). cbn [app] in E2. subst t2. rewrite Hr by lia. reflexivity.
Qed.

Lemma m_room_same : forall m lim (s s' : swiss) h o, make_room f lim s h = Ok (s', o) ->
  match o with Some (_, tr) => steps tr <= Z.of_nat m | None => True end -> m_make_room f m lim s h = Ok (s', o).
Proof.
  intros m lim s s' h o Er Hm. unfold make_room in Er. unfold m_make_room. change (width f) with (SwissModel.W f). destruct (s_cap s =? 0).
  - destruct (do_rehash f lim s 1) as [[s1 o1]|] eqn:Ed; [|discriminate]. cbn [bind] in *. rewrite (m_rehash_same m lim s s1 1 o1 Ed); [exact Er|].
    destruct o1 as [tr|]; [|exact I]. destruct (find_available f s1 h) as [p|]; [|discriminate]. injection Er as <- <-. exact Hm.
  - destruct (find_available f s h) as [p|]; [|discriminate]. cbn [bind] in *. destruct (get_meta f s p) as [tm|]; [|discriminate]. cbn [bind] in *.
    destruct ((s_nempty s =? 0) && negb (tm =? m_deleted)); [|exact Er].
    destruct ((SwissModel.W f <? s_cap s) && (mul64 (s_size s) 32 <=? mul64 (s_cap s) 25)).
    + destruct (rehash_deleted f s) as [[s1 tr]|] eqn:Ed; [|discriminate]. cbn [bind fst snd] in *. rewrite (m_deleted_same m s s1 tr Ed); [exact Er|].
      destruct (find_available f s1 h) as [q|]; [|discriminate]. injection Er as <- <-. exact Hm.
    + destruct (do_rehash f lim s _) as [[s1 o1]|] eqn:Ed; [|discriminate]. cbn [bind] in *. rewrite (m_rehash_same m lim s s1 _ o1 Ed); [exact Er|].
      destruct o1 as [tr|]; [|exact I]. destruct (find_available f s1 h) as [q|]; [|discriminate]. injection Er as <- <-. exact Hm.
Qed.

Lemma m_exec_same : forall m v (s s' : swiss) c r, exec f key_of hash keq rep v s c = Ok (s', r) -> steps_in f key_of hash keq v s c <= Z.of_nat m ->
  m_exec f key_of hash keq rep m v s c = Ok (s', r).
Proof.
  intros m v s s' c r Ex Hm.
  assert (Hins : forall e, (c = CInsert e \/ c = CAssign e) -> m_exec f key_of hash keq rep m v s c = Ok (s', r)).
  { intros e He.
    assert (X : (exists p, find_node f key_of keq s (key_of e) (hash (key_of e)) = Ok p /\ p <> s_cap s) \/
      (find_node f key_of keq s (key_of e) (hash (key_of e)) = Ok (s_cap s) /\ exists s1 o, make_room f (ev_lim v) s (hash (key_of e)) = Ok (s1, o) /\ (o = None -> s' = s1 /\ r = RThrow))).
    { destruct He as [-> | ->]; cbn [exec] in Ex; [unfold do_insert in Ex|unfold do_insert_or_assign in Ex]; cbv zeta in Ex;
        (destruct (find_node f key_of keq s (key_of e) (hash (key_of e))) as [p|] eqn:Ef; [|discriminate]); cbn [bind] in Ex;
        (destruct (Z.eqb_spec p (s_cap s)) as [Ep|Ep]; [|left; exists p; auto]); right; (split; [congruence|]); unfold emplace_node in Ex;
        (destruct (make_room f (ev_lim v) s (hash (key_of e))) as [[s1 o]|]; [|discriminate]); exists s1, o; (split; [reflexivity|]); intros ->; cbn [bind] in Ex;
        unfold give_inserted in Ex; injection Ex as <- <-; auto. }
    assert (Hmv : steps_in f key_of hash keq v s c = match find_node f key_of keq s (key_of e) (hash (key_of e)) with
      | Ok p => if p =? s_cap s then match make_room f (ev_lim v) s (hash (key_of e)) with Ok (_, Some (_, tr)) => steps tr | _ => 0 end else 0 | Err _ => 0 end) by (destruct He as [-> | ->]; reflexivity).
    destruct X as [(p & Ef & Hp)|(Ef & s1 & o & Em & Ho)].
    - destruct He as [-> | ->]; cbn [m_exec]; cbv zeta; rewrite Ef; cbn [bind]; destruct (Z.eqb_spec p (s_cap s)); try congruence; exact Ex.
    - rewrite Hmv, Ef, Z.eqb_refl, Em in Hm.
      assert (Er : m_make_room f m (ev_lim v) s (hash (key_of e)) = Ok (s1, o)) by (apply m_room_same; [exact Em|destruct o as [[q tr]|]; [exact Hm|exact I]]).
      destruct He as [-> | ->]; cbn [m_exec]; cbv zeta; rewrite Ef; cbn [bind]; rewrite Z.eqb_refl, Er; cbn [bind snd fst]; destruct o as [[q tr]|]; try exact Ex;
        destruct (Ho eq_refl) as [-> ->]; reflexivity. }
  destruct c; try exact Ex; try (eapply Hins; eauto; fail).
  2:{ cbn [exec] in Ex. cbn [m_exec steps_in] in *. unfold rehash in Ex, Hm. destruct ((n =? 0) && (s_size s =? 0)) eqn:Ez; [cbn [exec]; unfold rehash; rewrite Ez; exact Ex|].
    destruct (align_capacity (Z.lor n (size_to_min_capacity f n))) as [k|] eqn:Ek; [|discriminate]. cbn [bind] in *.
    destruct ((n =? 0) || (s_cap s <? k)) eqn:Eb; [|cbn [exec]; unfold rehash; rewrite Ez, Ek; cbn [bind]; rewrite Eb; exact Ex].
    destruct (do_rehash f (ev_lim v) s k) as [[s1 o]|] eqn:Ed; [|discriminate]. cbn [bind] in *. rewrite (m_rehash_same m _ s s1 k o Ed); [|destruct o; [exact Hm|exact I]]. unfold give_unit in Ex. cbn [bind fst snd]. exact Ex. }
  cbn [exec] in Ex. cbn [m_exec steps_in] in *. destruct (add64 (s_size s) (s_nempty s) <? n) eqn:El; [|exact Ex].
  unfold reserve in Ex, Hm. rewrite El in Ex, Hm. destruct (align_capacity (size_to_min_capacity f n)) as [k|]; [|discriminate]. cbn [bind] in *.
  destruct (do_rehash f (ev_lim v) s k) as [[s1 o]|] eqn:Ed; [|discriminate]. cbn [bind] in *. rewrite (m_rehash_same m _ s s1 k o Ed); [|destruct o; [exact Hm|exact I]].
  unfold give_unit in Ex. cbn [bind fst snd]. exact Ex.
Qed.

Hypothesis KL : key_laws hash keq.
Lemma grow_lost_list : forall m v (s s1 : swiss) c r l, wf f key_of hash keq s -> env_ok v -> call_ok c -> (exists e, c = CInsert e \/ c = CAssign e) \/ (exists n, c = CReserve n \/ c = CRehash n) ->
  exec f key_of hash keq rep v s c = Ok (s1, r) -> bucket_count s1 <> bucket_count s -> iterate f s = Ok l -> Z.of_nat m < size s ->
  exists t, m_exec f key_of hash keq rep m v s c = Ok (t, RThrow) /\ lost f key_of hash keq m (map snd l) t.
Proof.
  intros m v s s1 c r l H Hv Hok Hc Ex Hb El Hm. destruct (iterate_elems f key_of hash keq s H) as [(l0 & E0 & Em)|(_ & E0)]; rewrite El in E0; [|discriminate].
  injection E0 as <-. rewrite Em. exact (grow_lost f key_of hash keq rep KL m v s s1 c r H Hv Hok Hc Ex Hb Hm).
Qed.
End Swiss.

Lemma later_occurs : forall l, forallb callb l = true -> (exists rs, results (erun SSE2 l) = Ok rs) -> occurs SSE2 ekey ehash ekeq erep (later empty_swiss l).
Proof. intros l H1 H2. change (later empty_swiss l) with (state (erun SSE2 l) empty_swiss). apply (reachable_occurs SSE2 ekey ehash ekeq). apply erun_reachable; assumption. Qed.
Definition thrown (x : res (@swiss entry * ret entry)) : bool := match x with Ok (_, RThrow) => true | _ => false end.
Lemma thrown_state : forall x d, thrown x = true -> x = Ok (state x d, RThrow).
Proof. intros [[t r]|e] d H; [|discriminate]. destruct r; try discriminate. reflexivity. Qed.
(** Twenty elements of equal hash, four of which are in the second group; four of the first
    group erased; the other slots used up. *)
Definition filled : @swiss entry := later empty_swiss (CReserve 20 :: map (fun i => CInsert (32 * i, i)) (zrange 20) ++ map (fun i => CErase (32 * i)) [1; 4; 5; 9] ++ churn 20 8).

Section Dense.
Import Float32 DenseSpec DenseModel DenseRun DenseInv DenseRefine.
Context {E K : Type}.
Variable nk : nat.
Variable key_of : nat -> E -> K.
Variable hash : K -> Z.
Variable keq : K -> K -> bool.
Variable rep : E -> E -> E.
Notation dense := (dense E).
Notation dwf := (dwf nk key_of hash keq).

Lemma kill_first : forall (s : dense) m, dwf s -> 0 <= m <= d_size s ->
  exists t, foldM kill_node (zrange m) s = Ok t /\ okm t /\ d_size t = d_size s /\ d_cap t = d_cap s /\ d_bc t = d_bc s /\
    forall i, d_nodes t i = if (0 <=? i) && (i <? m) then None else d_nodes s i.
Proof.
  intros s m H Hm. pose proof (w_mem _ _ _ _ _ H) as Hk.
  apply (foldM_zrange_inv _ kill_node (fun k t => okm t /\ d_size t = d_size s /\ d_cap t = d_cap s /\ d_bc t = d_bc s /\ forall i, d_nodes t i = if (0 <=? i) && (i <? k) then None else d_nodes s i)).
  - lia.
  - repeat (split; [exact Hk || reflexivity|]). intros i. destruct (Z.leb_spec 0 i), (Z.ltb_spec i 0); cbn [andb]; try reflexivity; lia.
  - intros k t Hkm (Hmt & A1 & A2 & A3 & A6). destruct (w_live _ _ _ _ _ H k) as (n & Hn); [unfold live; lia|].
    assert (Hnt : d_nodes t k = Some n) by (rewrite A6; destruct (Z.leb_spec 0 k), (Z.ltb_spec k k); cbn [andb]; try exact Hn; lia).
    rewrite (kill_node_ok t k n Hmt Hnt). eexists. split; [reflexivity|]. split; [|repeat (split; [assumption|])].
    + destruct Hmt as [A B C]. constructor; [exact A|exact B|]. intros i x. cbn [set_nodes d_nodes d_cap]. unfold upd. destruct (i =? k); [discriminate|apply C].
    + intros i. cbn [set_nodes d_nodes]. unfold upd. destruct (Z.eqb_spec i k) as [->|Hi].
      * destruct (Z.leb_spec 0 k), (Z.ltb_spec k (k + 1)); cbn [andb]; try reflexivity; lia.
      * rewrite A6. destruct (Z.leb_spec 0 i), (Z.ltb_spec i k), (Z.ltb_spec i (k + 1)); cbn [andb]; try reflexivity; lia.
Qed.

(** What is left of a dense table when the move after [m] others throws. *)
Lemma m_resize_dead : forall m lim (s : dense) cap, dwf s -> Z.of_nat m < d_size s -> d_size s < cap <= lim ->
  exists t, m_resize m lim s cap = Ok (t, None) /\ d_size t = d_size s /\ (m = 0%nat -> t = s) /\
    ((0 < m)%nat -> iterate t = Err DeadObject /\ clear t = Err DeadObject).
Proof.
  intros m lim s cap H Hm Hc. pose proof (w_size _ _ _ _ _ H) as Hsz. pose proof (w_mem _ _ _ _ _ H) as Hk. unfold m_resize.
  destruct (Z.ltb_spec lim cap); [lia|]. destruct (Z.leb_spec (d_size s) (Z.of_nat m)); [lia|]. cbn [orb].
  destruct (foldM_zrange_inv _ (relocate_step s cap) (fun _ _ => True) (Z.of_nat m) (fun _ => None)) as (m0 & -> & _); [lia|exact I| |].
  { intros k t Hkm _. destruct (w_live _ _ _ _ _ H k) as (n & Hn); [unfold live; lia|]. unfold relocate_step. rewrite (get_node_ok s k n Hk Hn). cbn [bind]. unfold guard.
    destruct (Z.ltb_spec k cap); [|lia]. cbn [bind]. eauto. }
  cbn [bind]. destruct (kill_first s (Z.of_nat m) H ltac:(lia)) as (t & Et & Hkt & S & C & B & N). rewrite Et. cbn [bind]. exists t. split; [reflexivity|]. split; [exact S|]. split.
  - intros ->. cbn in Et. injection Et as <-. reflexivity.
  - intros Hpos. assert (Hd : forall x : dense, d_cap x = d_cap t -> d_dok x = true -> d_nodes x = d_nodes t -> get_node x 0 = Err DeadObject).
    { intros x Cx Dx Nx. unfold get_node, guard. rewrite Cx, C, Dx, Nx, N. destruct (Z.eqb_spec (d_cap s) 0); [lia|]. cbn [negb bind].
      destruct (Z.leb_spec 0 0), (Z.ltb_spec 0 (d_cap s)), (Z.ltb_spec 0 (Z.of_nat m)); try lia. reflexivity. }
    assert (Ez : exists l, zrange (d_size t) = 0 :: l).
    { rewrite S. destruct (zrange_split 0 (d_size s) ltac:(lia)) as (l & El). exists l. exact El. }
    destruct Ez as (l & Ez). split.
    + unfold iterate. rewrite Ez. cbn [iterate_from]. rewrite Hd by (auto; apply Hkt). reflexivity.
    + unfold clear, fill_sparse. assert (0 < d_bc s) by (apply (w_bucket _ _ _ _ _ H); lia). rewrite B. destruct (Z.eqb_spec (d_bc s) 0); [lia|].
      rewrite (om_sok _ Hkt). unfold guard. cbn [bind]. unfold clear_data. change (d_size (set_sparse t (fun _ _ => npos))) with (d_size t). rewrite Ez. cbn [foldM]. unfold kill_node at 1.
      rewrite Hd by (cbn [set_size d_cap d_dok d_nodes]; auto; apply Hkt). reflexivity.
Qed.

Lemma md_dead : forall m v (s : dense) c, dwf s -> denv_ok v -> Z.of_nat m < d_size s ->
  replaces v s c ->
  exists t, md_exec nk key_of hash keq rep m v s c = Ok (t, QThrow) /\ DenseModel.size t = DenseModel.size s /\ (m = 0%nat -> t = s) /\
    ((0 < m)%nat -> iterate t = Err DeadObject /\ clear t = Err DeadObject).
Proof.
  intros m v s c H (Hd & Hs) Hm Hc. pose proof (w_size _ _ _ _ _ H) as Hsz. pose proof (w_cap _ _ _ _ _ H) as Hcp.
  destruct Hc as [((e & He) & Hfull & Hlim)|(n & -> & Hn)].
  - destruct (m_resize_dead m (dv_dlim v) s (d_cap s * 2) H Hm ltac:(lia)) as (t & Et & Ht). exists t. split; [|exact Ht].
    assert (X : md_exec nk key_of hash keq rep m v s c = (if d_cap s =? d_size s then
      let* x := m_resize m (dv_dlim v) s (if d_cap s =? 0 then 1 else d_cap s * 2 mod two64) in
      match snd x with None => Ok (fst x, QThrow) | Some _ => dexec nk key_of hash keq rep v s c end
      else dexec nk key_of hash keq rep v s c)) by (destruct He as [-> | [-> | ->]]; reflexivity).
    rewrite X. destruct (Z.eqb_spec (d_cap s) (d_size s)); [|lia]. destruct (Z.eqb_spec (d_cap s) 0); [lia|]. rewrite Z.mod_small by (change two64 with (2 ^ 64); lia). rewrite Et. reflexivity.
  - destruct (m_resize_dead m (dv_dlim v) s n H Hm ltac:(lia)) as (t & Et & Ht). exists t. split; [|exact Ht]. cbn [md_exec]. destruct (Z.ltb_spec (d_cap s) n); [|lia]. rewrite Et. reflexivity.
Qed.

Lemma md_same : forall m v (s : dense) c, dwf s -> d_size s <= Z.of_nat m -> md_exec nk key_of hash keq rep m v s c = dexec nk key_of hash keq rep v s c.
Proof.
  intros m v s c H Hm.
  assert (Hr : forall lim cap, m_resize m lim s cap = resize_data lim s cap).
  { intros lim cap. unfold m_resize. destruct (Z.leb_spec (d_size s) (Z.of_nat m)); [|lia]. rewrite orb_true_r. reflexivity. }
  assert (Hins : forall e, c = DInsert e \/ c = DEmplace e \/ c = DAssign e -> md_exec nk key_of hash keq rep m v s c = dexec nk key_of hash keq rep v s c).
  { intros e He. destruct (maybe_resize (dv_dlim v) s) as [[s1 o]|x] eqn:Em.
    - destruct He as [-> | [-> | ->]]; cbn [md_exec]; (destruct (d_cap s =? d_size s) eqn:Ed; [|reflexivity]); rewrite Hr; unfold maybe_resize in Em; rewrite Ed in Em; rewrite Em; cbn [bind fst snd];
        (destruct o; [reflexivity|]); cbn [dexec]; unfold do_insert, do_emplace, do_insert_or_assign, make_room, maybe_resize; rewrite Ed, Em; reflexivity.
    - destruct He as [-> | [-> | ->]]; cbn [md_exec]; (destruct (d_cap s =? d_size s) eqn:Ed; [|reflexivity]); rewrite Hr; unfold maybe_resize in Em; rewrite Ed in Em; rewrite Em; cbn [bind];
        cbn [dexec]; unfold do_insert, do_emplace, do_insert_or_assign, make_room, maybe_resize; rewrite Ed, Em; reflexivity. }
  destruct c; try reflexivity; try (eapply Hins; eauto; fail).
  cbn [md_exec dexec]. unfold reserve. destruct (d_cap s <? n); [|reflexivity]. rewrite Hr. destruct (resize_data (dv_dlim v) s n) as [[s1 o]|]; [|reflexivity]. cbn [bind fst snd]. destruct o; reflexivity.
Qed.

Lemma dense_safe : forall v (s : dense) c, dwf s -> denv_ok v ->
  (0 < DenseModel.size s -> replaces v s c -> md_exec nk key_of hash keq rep 0 v s c = Ok (s, QThrow)) /\
  forall m, DenseModel.size s <= Z.of_nat m -> md_exec nk key_of hash keq rep m v s c = dexec nk key_of hash keq rep v s c.
Proof.
  intros v s c H Hv. split; [|intros m Hm; apply md_same; [exact H|exact Hm]].
  intros Hs Hr. destruct (md_dead 0 v s c H Hv Hs Hr) as (t & Et & _ & Ht & _). rewrite (Ht eq_refl) in Et. exact Et.
Qed.
Lemma dense_lost : forall m v (s : dense) c, dwf s -> denv_ok v -> replaces v s c -> (0 < m)%nat -> Z.of_nat m < DenseModel.size s ->
  exists t, md_exec nk key_of hash keq rep m v s c = Ok (t, QThrow) /\ DenseModel.size t = DenseModel.size s /\ iterate t = Err DeadObject /\ clear t = Err DeadObject.
Proof.
  intros m v s c H Hv Hr Hp Hm. destruct (md_dead m v s c H Hv Hm Hr) as (t & Et & Es & _ & Ht). exists t. destruct (Ht Hp). auto.
Qed.
End Dense.
