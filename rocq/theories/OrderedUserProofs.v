(** Proofs about ordered sparse and stable tables during whose calls user functions throw. *)
From Coq Require Import ZArith List Bool Lia Permutation.
From Verif Require Import Base BaseLemmas MapSpec Bits WorldSpec World SwissModel SwissArith SwissCap SwissInv SwissOps SwissClean SwissIter SwissRun SwissRoom SwissRefine WorldProofs
  LinkModel LinkProofs OrderedLinks SwissOrderedSpec SwissOrdered SwissOrderedRun SwissOrderedWorld SwissOrderedLinks SwissOrderedProofs SwissOrderedOps SwissOrderedRefine SwissOrderedStep SwissOrderedMerge SwissOrderedMoves SwissOrderedWorldProofs SwissOrderedFinal
  UserModel UserProofs OrderedUserSpec OrderedUserModel.
Import ListNotations.
Open Scope Z_scope.

Section Proofs.
Context {E K : Type}.
Variable f : simd.
Variable sz : Z.
Variable key_of : E -> K.
Variable hash : K -> Z.
Variable keq : K -> K -> bool.
Variable rep : E -> E -> E.
Hypothesis Hsz : 0 < sz.
Hypothesis KL : key_laws hash keq.
Hypothesis Hrep : forall a b, keq (key_of a) (key_of b) = true -> key_of (rep a b) = key_of a.
Notation oswiss := (oswiss E).
Notation zinv := (zinv f sz key_of hash keq).
Notation sfr := (sfr sz).
Notation zexec := (zexec f sz key_of hash keq rep).
Notation zuexec := (zuexec f sz key_of hash keq rep).
Notation zurun := (zurun f sz key_of hash keq rep).
Notation zublocked := (zublocked f sz key_of hash keq rep).
Notation zuspec := (zuspec key_of keq rep).
Notation search := (search f key_of hash keq).
Notation place_of s ord := (place_at sz (os_hdr s) (os_base s) ord).

Definition zkey (c : zcall E K) : option K :=
  match c with ZInsert e | ZAssign e => Some (key_of e) | ZErase k | ZFind k | ZContains k => Some k | _ => None end.
Definition plus0 {A} (x : res A) : res (A * Z) := let* y := x in Ok (y, 0).
Lemma plus0_bind : forall A B (x : res A) (g : A -> res B), (let* y := x in let* z := g y in Ok (z, 0)) = plus0 (let* y := x in g y).
Proof. intros A B [y|] g; reflexivity. Qed.

Lemma zsearch_ticks : forall h s ord k, zinv h s ord -> exists m r, (0 < m)%nat /\ find_node f key_of keq (os_t s) k (hash k) = Ok r /\
  forall n, search n (os_t s) k = Ok (if (n <? m)%nat then None else Some ((n - m)%nat, r)).
Proof.
  intros h s ord k H. destruct (find_located f key_of hash keq KL (os_t s) k (zi_wf _ _ _ _ _ _ _ _ H)) as (r & Er & _).
  destruct (search_ticks f key_of hash keq (os_t s) k r Er) as (m & M & Hm). exists m, r. auto.
Qed.
Lemma zsearch_exec : forall v h s ord c k, zinv h s ord -> zkey c = Some k ->
  exists m, (0 < m)%nat /\ forall n, zuexec n v (h, s) (ZUCall c) = (if (n <? m)%nat then Ok (h, s, RThrow, 0) else plus0 (zexec v (h, s) c)) /\
    (search n (os_t s) k = Ok None <-> (n < m)%nat).
Proof.
  intros v h s ord c k H Hk. destruct (zsearch_ticks h s ord k H) as (m & r & M & Er & Hm). exists m. split; [exact M|]. intros n. split.
  2:{ rewrite Hm. destruct (Nat.ltb_spec n m); split; intros X; try discriminate X; try reflexivity; try lia; assumption. }
  destruct c as [e|e|k'|i|i j|pred|k'|k'| | | |z|z| | |]; try discriminate Hk; injection Hk as <-; cbn [OrderedUserModel.zuexec SwissOrderedRun.zexec].
  - rewrite plus0_bind. unfold zu_insert, s_do_insert. rewrite Hm, Er. cbn [bind]. destruct (n <? m)%nat; reflexivity.
  - rewrite plus0_bind. unfold zu_assign, s_do_insert_or_assign. rewrite Hm, Er. cbn [bind]. destruct (n <? m)%nat; reflexivity.
  - unfold zu_erase, s_erase_key. rewrite Hm, Er. cbn [bind]. destruct (n <? m)%nat; [reflexivity|]. unfold plus0. destruct (r =? s_cap (os_t s)); [reflexivity|].
    destruct (s_do_erase f sz h s r); reflexivity.
  - unfold zu_find. rewrite Hm, Er. cbn [bind]. destruct (n <? m)%nat; [reflexivity|]. unfold plus0. destruct (s_at sz s (s_iter sz s r)); reflexivity.
  - unfold zu_contains. rewrite Hm, Er. cbn [bind]. destruct (n <? m)%nat; reflexivity.
Qed.
Lemma zemplace_exec : forall v h s ord e, zinv h s ord -> ev_ctor (sv_e v) = true ->
  exists m, (0 < m)%nat /\ forall n, zuexec n v (h, s) (ZUEmplace e) = (if (n <? m)%nat then Ok (h, s, RThrow, 1)
      else let* y := zexec v (h, s) (ZInsert e) in Ok (y, match snd y with RThrow => 1 | _ => 0 end)) /\
    (search n (os_t s) (key_of e) = Ok None <-> (n < m)%nat).
Proof.
  intros v h s ord e H Hv. destruct (zsearch_ticks h s ord (key_of e) H) as (m & r & M & Er & Hm). exists m. split; [exact M|]. intros n. split.
  2:{ rewrite Hm. destruct (Nat.ltb_spec n m); split; intros X; try discriminate X; try reflexivity; try lia; assumption. }
  cbn [OrderedUserModel.zuexec SwissOrderedRun.zexec]. unfold zu_emplace, zu_insert, s_do_insert. rewrite Hv, Hm, Er. cbn [bind]. destruct (n <? m)%nat; [reflexivity|].
  destruct v as [[lim ct] b j]. cbn [sv_e ev_ctor ev_lim sv_base sv_junk] in *. subst ct. unfold zu_new. cbn [sv_e ev_ctor].
  destruct (r =? s_cap (os_t s)).
  - destruct (s_emplace_node f sz (mksv (mkenv lim true) b j) true h s 0 (hash (key_of e)) e) as [[[h1 s1] o]|]; cbn [bind]; [|reflexivity].
    destruct o as [q|]; cbn [bind fst snd z_give]; [|reflexivity]. destruct (s_value sz s1 (s_iter sz s1 q)); reflexivity.
  - cbn [bind fst snd z_give]. destruct (s_value sz s (s_iter sz s r)); reflexivity.
Qed.

(** ** erase_if. *)
Lemma zsweep_ok : forall pred m fuel n h s o1 cnt, zinv h s (o1 ++ m) -> (length m < fuel)%nat ->
  exists h' s' ord', zu_sweep f sz fuel n pred h s (place_of s m) cnt =
      Ok (h', s', if (length m <=? n)%nat then Some (cnt + Z.of_nat (length (filter pred (cont s m)))) else None) /\ zinv h' s' ord' /\
    cont s' ord' = cont s o1 ++ filter (fun x => negb (pred x)) (firstn n (cont s m)) ++ skipn n (cont s m) /\ sfr h s h' s'.
Proof.
  intros pred m. induction m as [|i m IH]; intros fuel n h s o1 cnt H Hf; (destruct fuel as [|fuel]; [lia|]); cbn [zu_sweep place_at].
  - rewrite Z.eqb_refl. exists h, s, (o1 ++ []). split; [unfold cont; cbn [seqn flat_map filter length Nat.leb]; do 3 f_equal; lia|]. split; [exact H|].
    split; [unfold cont; rewrite seqn_app; cbn [seqn flat_map]; rewrite firstn_nil, skipn_nil; reflexivity|apply sfr_refl].
  - destruct (zi_slot f sz key_of hash keq Hsz _ _ _ i H ltac:(apply in_or_app; right; left; reflexivity)) as (Hr & Hh & Hi & x & Hn & Hg). unfold sslot in *. destruct (Z.eqb_spec (os_base s + i * sz) (os_hdr s)) as [|_]; [contradiction|].
    rewrite Hi. cbn [bind]. rewrite Hg. cbn [bind length] in *. assert (Ec : cont s (i :: m) = fst x :: cont s m) by (apply seqn_cons; exact Hn).
    destruct n as [|n].
    { exists h, s, (o1 ++ i :: m). split; [reflexivity|]. split; [exact H|]. split; [|apply sfr_refl]. cbn [firstn skipn filter app]. unfold cont. rewrite seqn_app. reflexivity. }
    rewrite Ec. cbn [filter firstn skipn Nat.leb]. destruct (pred (fst x)) eqn:Ep; cbn [negb].
    + pose proof (erase_at_ok f sz key_of hash keq Hsz _ _ _ _ _ H) as Ea. unfold sslot in Ea. rewrite Ea. destruct (do_erase_ok f sz key_of hash keq Hsz KL _ _ _ _ _ H) as (h1 & s1 & E1 & I1 & F1 & N1 & B1 & C1 & _ & _). rewrite E1. cbn [bind].
      destruct (IH fuel n h1 s1 o1 (cnt + 1) I1 ltac:(lia)) as (h2 & s2 & ord2 & E2 & I2 & C2 & F2). exists h2, s2, ord2. rewrite B1, (proj1 F1) in E2. rewrite E2.
      assert (Em : cont s1 m = cont s m) by (apply (erased_cont f sz key_of hash keq _ _ _ _ _ _ _ H N1); intros j Hj; apply in_or_app; right; exact Hj).
      assert (Eo : cont s1 o1 = cont s o1) by (apply (erased_cont f sz key_of hash keq _ _ _ _ _ _ _ H N1); intros j Hj; apply in_or_app; left; exact Hj).
      split; [rewrite Em; destruct (length m <=? n)%nat; [do 3 f_equal; cbn [length]; lia|reflexivity]|]. split; [exact I2|]. split; [rewrite C2, Em, Eo; reflexivity|]. apply (sfr_trans sz _ _ h1 s1); assumption.
    + rewrite (next_at sz Hsz _ _ _ _ _ _ _ (zi_rl _ _ _ _ _ _ _ _ H)). cbn [bind]. destruct (IH fuel n h s (o1 ++ [i]) cnt) as (h2 & s2 & ord2 & E2 & I2 & C2 & F2); [rewrite <- app_assoc; exact H|lia|].
      exists h2, s2, ord2. rewrite E2. split; [reflexivity|]. split; [exact I2|]. split; [|exact F2]. rewrite C2. unfold cont. rewrite seqn_app. rewrite (seqn_cons _ _ _ _ Hn). rewrite <- app_assoc. reflexivity.
Qed.
Lemma zerase_if_throws : forall n pred h s ord, zinv h s ord ->
  exists h' s' ord' r, zu_erase_if f sz n pred h s = Ok (h', s', r) /\ zinv h' s' ord' /\ sfr h s h' s' /\ zuspec n (ZUCall (ZEraseIf pred)) (cont s ord) (cont s' ord') r.
Proof.
  intros n pred h s ord H. unfold zu_erase_if. rewrite (begin_at sz _ _ _ _ _ (zi_rl _ _ _ _ _ _ _ _ H)). cbn [bind].
  destruct (zsweep_ok pred ord (iter_fuel (os_t s)) n h s [] 0 H) as (h' & s' & o' & E1 & I1 & C1 & F1); [pose proof (rl_len _ _ _ _ _ _ (zi_rl _ _ _ _ _ _ _ _ H)); unfold iter_fuel; lia|].
  rewrite E1. cbn [bind]. destruct (zi_len f sz key_of hash keq _ _ _ H) as (Hl & _). rewrite <- Hl in *. exists h', s', o'. eexists. split; [reflexivity|]. split; [exact I1|]. split; [exact F1|].
  rewrite C1. cbn [cont seqn flat_map app]. destruct (Nat.leb_spec (length (cont s ord)) n) as [Hle|Hlt].
  - rewrite skipn_all2, firstn_all2, app_nil_r by exact Hle. apply zus_sweep. exact Hle.
  - apply zus_sweep_throw. exact Hlt.
Qed.

(** ** One call. *)
Definition zuok (n : nat) (v : senv) (h : heap) (s : oswiss) (ord : list Z) (c : zucall E K) : Prop :=
  exists h' s' r d ord', zuexec n v (h, s) c = Ok (h', s', r, d) /\ zinv h' s' ord' /\ sfr h s h' s' /\ zuspec n c (cont s ord) (cont s' ord') r /\ d = (if zleaky v c r then 1 else 0).
Lemma zustep_ok : forall n v h s ord c, zinv h s ord -> env_ok (sv_e v) -> zucall_ok c -> zublocked n v (h, s) c \/ zuok n v h s ord c.
Proof.
  intros n v h s ord c H Hv Hc. destruct c as [c|e].
  - destruct (zkey c) as [k|] eqn:Ek.
    + destruct (zsearch_exec v h s ord c k H Ek) as (m & M & Hm). destruct (Hm n) as (He & Hs).
      assert (Hsr : zsearches c = true) by (destruct c; try discriminate Ek; reflexivity). assert (Hnsw : zsweeps c = false) by (destruct c; try discriminate Ek; reflexivity).
      destruct (Nat.ltb_spec n m) as [Hlt|Hge].
      { right. exists h, s, RThrow, 0, ord. split; [exact He|]. split; [exact H|]. split; [apply sfr_refl|]. split; [apply zus_throw; exact Hsr|reflexivity]. }
      destruct (zstep_ok f sz key_of hash keq rep Hsz KL Hrep v h s ord c H Hv Hc) as [[Hb|Hb]|(h' & s' & r & ord' & Hx & I' & F' & _ & S')].
      * left. left. destruct c; try discriminate Ek; cbn [snd] in *; try contradiction; injection Ek as <-; (split; [rewrite Hs; lia|exact Hb]).
      * left. right. rewrite He, Hb. reflexivity.
      * right. rewrite Hx in He. exists h', s', r, 0, ord'. split; [exact He|]. split; [exact I'|]. split; [exact F'|]. split; [apply zus_call; [exact Hnsw|lia|exact S']|reflexivity].
    + destruct (zsweeps c) eqn:Esw.
      * destruct c; try discriminate Esw. right. destruct (zerase_if_throws n pred h s ord H) as (h' & s' & ord' & r & E1 & I1 & F1 & S1).
        exists h', s', r, 0, ord'. cbn [OrderedUserModel.zuexec]. rewrite E1. split; [reflexivity|]. split; [exact I1|]. split; [exact F1|]. split; [exact S1|reflexivity].
      * assert (Hx : zuexec n v (h, s) (ZUCall c) = plus0 (zexec v (h, s) c)) by (destruct c; try discriminate Ek; try discriminate Esw; reflexivity).
        destruct (zstep_ok f sz key_of hash keq rep Hsz KL Hrep v h s ord c H Hv Hc) as [[Hb|Hb]|(h' & s' & r & ord' & Hy & I' & F' & _ & S')].
        -- left. left. destruct c; try discriminate Ek; try discriminate Esw; exact Hb.
        -- left. right. rewrite Hx, Hb. reflexivity.
        -- right. rewrite Hy in Hx. exists h', s', r, 0, ord'. split; [exact Hx|]. split; [exact I'|]. split; [exact F'|].
           split; [apply zus_call; [exact Esw|destruct c; try discriminate Ek; discriminate|exact S']|reflexivity].
  - destruct (ev_ctor (sv_e v)) eqn:Ev.
    + destruct (zemplace_exec v h s ord e H Ev) as (m & M & Hm). destruct (Hm n) as (He & Hs). destruct (Nat.ltb_spec n m) as [Hlt|Hge].
      { right. exists h, s, RThrow, 1, ord. split; [exact He|]. split; [exact H|]. split; [apply sfr_refl|]. split; [apply zus_emplace_throw|]. cbn [zleaky]. rewrite Ev. reflexivity. }
      destruct (zstep_ok f sz key_of hash keq rep Hsz KL Hrep v h s ord (ZInsert e) H Hv I) as [[Hb|Hb]|(h' & s' & r & ord' & Hx & I' & F' & _ & S')].
      * left. left. cbn [snd] in *. split; [rewrite Hs; lia|exact Hb].
      * left. right. rewrite He, Hb. reflexivity.
      * right. rewrite Hx in He. cbn [bind snd] in He. eexists h', s', r, _, ord'. split; [exact He|]. split; [exact I'|]. split; [exact F'|]. split; [apply zus_emplace; [lia|exact S']|].
        cbn [zleaky]. rewrite Ev. destruct r; reflexivity.
    + right. exists h, s, RThrow, 0, ord. cbn [OrderedUserModel.zuexec]. unfold zu_emplace. rewrite Ev. split; [reflexivity|]. split; [exact H|]. split; [apply sfr_refl|]. split; [apply zus_emplace_throw|].
      cbn [zleaky]. rewrite Ev. reflexivity.
Qed.

(** ** Histories. *)
Lemma zurun_ok : forall hist h s ord m, zinv h s ord -> zuhistory_ok hist ->
  (exists h' s' ord' rs m', zurun (h, s) m hist = Ok ((h', s'), rs, m') /\ zinv h' s' ord' /\ sfr h s h' s' /\ zuspec_run key_of keq rep (zucalls_of hist) (cont s ord) (cont s' ord') rs /\ m' = m + zleaks hist rs) \/
  (exists h1 n v c h2 h' s' ord' rs m', hist = h1 ++ (n, v, c) :: h2 /\ zurun (h, s) m h1 = Ok ((h', s'), rs, m') /\ zinv h' s' ord' /\
     zuspec_run key_of keq rep (zucalls_of h1) (cont s ord) (cont s' ord') rs /\ m' = m + zleaks h1 rs /\ zublocked n v (h', s') c).
Proof.
  induction hist as [|[[n v] c] hist IH]; intros h s ord m H Hh.
  - left. exists h, s, ord, [], m. split; [reflexivity|]. split; [exact H|]. split; [apply sfr_refl|]. split; [constructor|cbn [zleaks]; lia].
  - inversion Hh as [|? ? (Hv & Hc) Hh']; subst. cbn [fst snd] in *. destruct (zustep_ok n v h s ord c H Hv Hc) as [Hb|(h1 & s1 & r & d & ord1 & He & H1 & F1 & S1 & Hd)].
    + right. exists [], n, v, c, hist, h, s, ord, [], m. split; [reflexivity|]. split; [reflexivity|]. split; [exact H|]. split; [constructor|]. split; [cbn [zleaks]; lia|exact Hb].
    + destruct (IH h1 s1 ord1 (m + d) H1 Hh') as [(h' & s' & ord' & rs & m' & Hr & H' & F' & S' & Hm)|(p1 & n' & v' & c' & p2 & h' & s' & ord' & rs & m' & -> & Hr & H' & S' & Hm & Hb)].
      * left. exists h', s', ord', (r :: rs), m'. cbn [OrderedUserModel.zurun]. rewrite He. cbn [bind]. rewrite Hr. cbn [bind]. split; [reflexivity|]. split; [exact H'|]. split; [apply (sfr_trans sz h s h1 s1); assumption|].
        split; [econstructor; eassumption|]. cbn [zleaks]. rewrite <- Hd. lia.
      * right. exists ((n, v, c) :: p1), n', v', c', p2, h', s', ord', (r :: rs), m'. split; [reflexivity|]. cbn [OrderedUserModel.zurun]. rewrite He. cbn [bind]. rewrite Hr. cbn [bind]. split; [reflexivity|]. split; [exact H'|].
        split; [econstructor; eassumption|]. split; [cbn [zleaks]; rewrite <- Hd; lia|exact Hb].
Qed.
Lemma zinv_urefines : forall hist h s ord, zinv h s ord -> zuhistory_ok hist -> zurefines f sz key_of hash keq rep (h, s) (cont s ord) hist.
Proof.
  intros hist h s ord H Hh. destruct (zurun_ok hist h s ord 0 H Hh) as [(h' & s' & ord' & rs & m & Hr & H' & F' & S' & Hm)|(h1 & n & v & c & h2 & h' & s' & ord' & rs & m & He & Hr & H' & S' & Hm & Hb)].
  - left. exists (h', s'), rs, (cont s' ord'), m. cbn [fst snd]. split; [exact Hr|]. split; [exact S'|]. split; [apply (zi_lists f sz key_of hash keq Hsz); exact H'|]. split; [apply (distinct_zinv f sz key_of hash keq KL h'); exact H'|]. split; [exact Hm|].
    intros a A1 A2 A3. apply (sfr_keeps sz Hsz _ _ _ _ F'); [apply (slot_ix_none sz Hsz); assumption|exact A3].
  - right. exists h1, n, v, c, h2, (h', s'), rs, (cont s' ord'), m. split; [exact He|]. split; [exact Hr|]. split; [exact S'|]. split; [apply (zi_lists f sz key_of hash keq Hsz); exact H'|]. split; [exact Hm|exact Hb].
Qed.

(** ** merge. *)
Lemma zmerge_loop_ticks : forall v fuel h (s o : oswiss) pos last h' s' o', s_merge_loop f sz key_of hash keq fuel v h s o pos last = Ok (h', s', o', true) ->
  exists m, (prev_link h pos <> Ok last -> (0 < m)%nat) /\
    forall n, zu_merge_loop f sz key_of hash keq fuel n v h s o pos last = if (n <? m)%nat then Err Terminated else Ok (h', s', o', true).
Proof.
  intros v. induction fuel as [|fuel IH]; intros h s o pos last h' s' o' H; cbn [s_merge_loop zu_merge_loop] in *; [discriminate|].
  destruct (prev_link h pos) as [p|] eqn:Epv; cbn [bind] in *; [|discriminate].
  destruct (Z.eqb_spec p last) as [->|Hne].
  - injection H as <- <- <-. exists 0%nat. split; [congruence|]. reflexivity.
  - destruct (s_value sz o p) as [e|]; cbn [bind] in *; [|discriminate].
    destruct (find_node f key_of keq (os_t s) (key_of e) (hash (key_of e))) as [q|] eqn:Eq; cbn [bind] in *; [|discriminate].
    destruct (search_ticks f key_of hash keq (os_t s) (key_of e) q Eq) as (m & Hm & Hs).
    assert (Hcomb : forall (X : nat -> res (heap * oswiss * oswiss * bool)) m2, (forall n, X n = if (n <? m2)%nat then Err Terminated else Ok (h', s', o', true)) ->
      forall n, (if (n <? m)%nat then Err Terminated else X (n - m)%nat) = if (n <? m + m2)%nat then Err Terminated else Ok (h', s', o', true)).
    { intros X m2 HX n. rewrite HX. destruct (Nat.ltb_spec n m); destruct (Nat.ltb_spec (n - m) m2); destruct (Nat.ltb_spec n (m + m2)); reflexivity || lia. }
    destruct (q =? s_cap (os_t s)) eqn:Ec.
    + destruct (s_extract_at f sz h o p) as [[[h1 o1] [e1|]]|] eqn:Ez; cbn [bind] in *; try discriminate.
      destruct (s_emplace_node f sz v true h1 s 0 (hash (key_of e)) e1) as [[[h2 s2] oo]|] eqn:Ee; cbn [bind] in *; [|discriminate].
      destruct oo as [y|]; [|discriminate].
      destruct (IH _ _ _ _ _ _ _ _ H) as (m2 & _ & Hm2). exists (m + m2)%nat. split; [lia|]. intros n.
      rewrite <- (Hcomb (fun n => zu_merge_loop f sz key_of hash keq fuel n v h2 s2 o1 p last) m2 Hm2 n).
      rewrite Hs. cbn [bind]. destruct (n <? m)%nat; [reflexivity|]. rewrite Ec. cbn [bind]. rewrite ?Ee. reflexivity.
    + destruct (IH _ _ _ _ _ _ _ _ H) as (m2 & _ & Hm2). exists (m + m2)%nat. split; [lia|]. intros n.
      rewrite <- (Hcomb (fun n => zu_merge_loop f sz key_of hash keq fuel n v h s o p last) m2 Hm2 n).
      rewrite Hs. cbn [bind]. destruct (n <? m)%nat; [reflexivity|]. rewrite Ec. reflexivity.
Qed.
Lemma zmerge_ticks : forall v h s o os oo h' s' o', zinv h s os -> zinv h o oo -> (forall a, mine sz s a -> ~ mine sz o a) -> env_ok (sv_e v) ->
  s_merge f sz key_of hash keq v h s o = Ok (h', s', o', true) ->
  exists m, ((1 < length oo)%nat -> (0 < m)%nat) /\
    forall n, zu_merge f sz key_of hash keq n v h s o = if (n <? m)%nat then Err Terminated else Ok (h', s', o', true).
Proof.
  intros v h s o os oo h' s' o' Hs Ho Hdis V H. unfold s_merge in H. unfold zu_merge.
  assert (Hn : 0 <= add64 (s_size (os_t s)) (s_size (os_t o)) < 2 ^ 64) by (unfold add64; apply Z.mod_pos_bound; lia).
  destruct (SwissRoom.reserve_ok f key_of hash keq KL (ev_lim (sv_e v)) (os_t s) _ (zi_wf _ _ _ _ _ _ _ _ Hs) V Hn) as (t1 & r & Er & R & _).
  unfold s_reserve in *. rewrite Er in *. cbn [bind] in *.
  destruct (resized_ok f sz key_of hash keq Hsz v h s os t1 r Hs R) as [X|(h1 & s1 & os1 & X & Et & Hs1 & Hc1 & F)]; [intros tr ->; apply (reserve_swapless f _ _ _ _ _ Er)|rewrite X in H; discriminate|].
  rewrite X in *. cbn [bind] in *. destruct r as [tr|]; [|discriminate].
  pose proof (sfr_keeps sz Hsz _ _ _ _ F) as Kp.
  assert (Ho1 : zinv h1 o oo).
  { apply (zinv_same f sz key_of hash keq h); [exact Ho|]. intros a Ha. apply Kp; [intros Y; apply (Hdis a Y Ha)|apply (mine_has sz _ _ _ a (zi_rl _ _ _ _ _ _ _ _ Ho) Ha)]. }
  pose proof (zi_rl _ _ _ _ _ _ _ _ Ho1) as L. rewrite (begin_at sz _ _ _ _ _ L) in *. cbn [bind] in *.
  destruct (zmerge_loop_ticks _ _ _ _ _ _ _ _ _ _ H) as (m & M & Hm). exists m. split; [|exact Hm]. intros Hl. apply M. clear M Hm H.
  destruct oo as [|x0 oo]; [cbn [length] in Hl; lia|]. destruct (exists_last (l := oo) ltac:(intros ->; cbn [length] in Hl; lia)) as (l & z & ->).
  pose proof (rl_nd _ _ _ _ _ _ L) as Hnd. rewrite app_comm_cons in L. unfold rl in L. pose proof (prev_at sz _ _ _ _ _ _ _ L) as Pv. cbn [place_at] in *. rewrite Pv. intros Y. injection Y as Y.
  inversion Hnd as [|? ? Hx _]; subst. apply Hx. apply in_or_app. right. left. nia.
Qed.
End Proofs.

Section Final.
Context {E K : Type}.
Variable f : simd.
Variable sz : Z.
Variable key_of : E -> K.
Variable hash : K -> Z.
Variable keq : K -> K -> bool.
Variable rep : E -> E -> E.
Variable clone : E -> E.
Variables pocca pocma : bool.
Hypothesis Hsz : 0 < sz.
Hypothesis KL : key_laws hash keq.
Hypothesis Hrep : forall a b, keq (key_of a) (key_of b) = true -> key_of (rep a b) = key_of a.
Hypothesis Hclone : forall e, key_of (clone e) = key_of e.
Notation xworld := (xworld E).
Notation xoccurs := (xoccurs f sz key_of hash keq rep clone pocca pocma).
Notation zuexec := (zuexec f sz key_of hash keq rep).

Lemma occurs_uhistory : forall (w : xworld) i l hist, xoccurs w -> s_iterate sz (xw_m w) (xw_c w i) = Ok l -> zuhistory_ok hist ->
  zurefines f sz key_of hash keq rep (xw_m w, xw_c w i) l hist.
Proof.
  intros w i l hist H Hl Hh. destruct (occurs_zinv f sz key_of hash keq rep clone pocca pocma Hsz KL Hrep Hclone w i l H Hl) as (ord & Hz & ->).
  apply (zinv_urefines f sz key_of hash keq rep Hsz KL Hrep); assumption.
Qed.
Lemma occurs_zlist : forall (w : xworld) i, xoccurs w -> exists ord, SwissOrderedProofs.zinv f sz key_of hash keq (xw_m w) (xw_c w i) ord.
Proof. intros w i H. destruct (xoccurs_inv f sz key_of hash keq rep clone pocca pocma Hsz KL Hrep Hclone w H) as (ords & W). exists (ords i). apply W. Qed.
Lemma occurs_ucalls : forall (w : xworld) v i c, xoccurs w -> zsearches c = true -> let hs := (xw_m w, xw_c w i) in
  exists m, (0 < m)%nat /\ forall n,
    (n < m)%nat /\ zuexec n v hs (ZUCall c) = Ok (hs, RThrow, 0) \/
    (m <= n)%nat /\ forall hs' r, zexec f sz key_of hash keq rep v hs c = Ok (hs', r) -> zuexec n v hs (ZUCall c) = Ok (hs', r, 0).
Proof.
  intros w v i c H Hc hs. destruct (occurs_zlist w i H) as (ord & Hz).
  destruct (zkey key_of c) as [k|] eqn:Ek; [|destruct c; discriminate].
  destruct (zsearch_exec f sz key_of hash keq rep KL v _ _ ord c k Hz Ek) as (m & M & Hm). exists m. split; [exact M|]. intros n. destruct (Hm n) as (He & _). unfold hs. rewrite He.
  destruct (Nat.ltb_spec n m); [left; auto|right]. split; [assumption|]. intros hs' r ->. reflexivity.
Qed.
Lemma occurs_uemplace : forall (w : xworld) v i e, xoccurs w -> ev_ctor (sv_e v) = true -> let hs := (xw_m w, xw_c w i) in
  exists m, (0 < m)%nat /\ forall n, (n < m)%nat -> zuexec n v hs (ZUEmplace e) = Ok (hs, RThrow, 1).
Proof.
  intros w v i e H Hv hs. destruct (occurs_zlist w i H) as (ord & Hz).
  destruct (zemplace_exec f sz key_of hash keq rep KL Hrep v _ _ ord e Hz Hv) as (m & M & Hm). exists m. split; [exact M|]. intros n Hn. unfold hs. rewrite (proj1 (Hm n)).
  destruct (Nat.ltb_spec n m); [reflexivity|lia].
Qed.
Lemma occurs_umerge : forall (w : xworld) v i j l h' s' o', xoccurs w -> env_ok (sv_e v) -> i <> j -> s_iterate sz (xw_m w) (xw_c w j) = Ok l ->
  s_merge f sz key_of hash keq v (xw_m w) (xw_c w i) (xw_c w j) = Ok (h', s', o', true) ->
  exists m, ((1 < length l)%nat -> (0 < m)%nat) /\
    forall n, zu_merge f sz key_of hash keq n v (xw_m w) (xw_c w i) (xw_c w j) = if (n <? m)%nat then Err Terminated else Ok (h', s', o', true).
Proof.
  intros w v i j l h' s' o' H Hv Hij Hl Hm. destruct (xoccurs_inv f sz key_of hash keq rep clone pocca pocma Hsz KL Hrep Hclone w H) as (ords & W).
  rewrite (iterate_ok f sz key_of hash keq Hsz _ _ _ (proj1 W j)) in Hl. injection Hl as <-. destruct (zi_len f sz key_of hash keq _ _ _ (proj1 W j)) as (-> & _).
  apply (zmerge_ticks f sz key_of hash keq rep Hsz KL Hrep v _ _ _ (ords i) (ords j) _ _ _ (proj1 W i) (proj1 W j) (fun a => proj2 W i j a Hij) Hv Hm).
Qed.
End Final.
