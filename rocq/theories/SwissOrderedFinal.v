(** Lemmas about single calls on ordered sparse and stable containers that occur in programs. *)
From Coq Require Import ZArith List Bool Lia Permutation Arith.
From Verif Require Import Base BaseLemmas MapSpec Bits WorldSpec World SwissModel SwissArith SwissCap SwissInv SwissOps SwissClean SwissIter SwissRun SwissRoom SwissRefine WorldProofs
  LinkModel LinkProofs OrderedLinks SwissOrderedSpec SwissOrdered SwissOrderedRun SwissOrderedLinks SwissOrderedProofs SwissOrderedOps SwissOrderedRefine SwissOrderedStep
  SwissOrderedWorldSpec SwissOrderedWorld SwissOrderedMoves SwissOrderedMerge SwissOrderedWorldProofs.
Import ListNotations.
Open Scope Z_scope.

Section Full.
Context {E K : Type}.
Variable f : simd.
Variable sz : Z.
Variable key_of : E -> K.
Variable hash : K -> Z.
Variable keq : K -> K -> bool.
Variable rep : E -> E -> E.
Hypothesis KL : key_laws hash keq.
Notation swiss := (@swiss E).
Notation oswiss := (oswiss E).
Notation wf1 := (wf1 f key_of hash keq).
Notation wf := (wf f key_of hash keq).
Notation max_of := (capacity_to_max_size f).
Notation absent := (absent key_of keq).

(** ** Tables without erased slots. *)
Definition full (t : swiss) : Prop := s_cap t <> 0 -> s_nempty t = max_of (s_cap t) - s_size t.
Lemma full_clean : forall t i, wf1 t -> full t -> 0 <= i < s_cap t -> s_meta t i <> m_deleted.
Proof. clear KL rep sz.
  intros t i H F Hi Hd. pose proof (w_m _ _ _ _ t H) as M. pose proof (count_split f t M) as Hs. specialize (F ltac:(lia)).
  pose proof (w_size _ _ _ _ t H). pose proof (w_nempty _ _ _ _ t H).
  assert (Z0 : cnt (fun i => s_meta t i =? m_deleted) (s_cap t) = 0) by lia.
  pose proof (cnt_zero _ _ i Z0 Hi) as X. cbn beta in X. apply Z.eqb_neq in X. contradiction.
Qed.
Lemma do_rehash_full : forall lim (t t' : swiss) c tr, do_rehash f lim t c = Ok (t', Some tr) -> wf t' -> s_size t' = s_size t -> traced f t tr t' -> full t'.
Proof.
  intros lim t t' c tr He H Hs Htr _. pose proof (wf_size f key_of hash keq t' H) as (_ & Hb). pose proof (wf_cap_nonneg f key_of hash keq t' H) as Hc. unfold do_rehash in He. destruct (lim <? c); [discriminate|].
  match type of He with bind ?x _ = _ => destruct x as [(t0, mv)|] end; cbn [bind] in He; [|discriminate]. injection He as <- <-.
  assert (Hcap : s_cap (set_nempty t0 (sub64 (max_of c) (s_size t))) = c).
  { destruct Htr as [(X & _)|[(c' & mv' & X & Hc' & _)|(_ & _ & X)]]; [discriminate|injection X as <- <-; exact Hc'|]. exfalso. revert X. generalize (s_nodes (set_nempty t0 (sub64 (max_of c) (s_size t)))). intros n X. remember [EvRehash c mv] as l eqn:El. destruct X as [|tr n1 a b x X|tr n1 a b x y X]; [discriminate El| |]; apply (app_inj_tail tr []) in El; destruct El as (_ & El); discriminate El. }
  pose proof (max_size_bounds f c ltac:(lia)) as Hm. change (s_nempty (set_nempty t0 (sub64 (max_of c) (s_size t)))) with (sub64 (max_of c) (s_size t)). rewrite Hcap, Hs in *. rewrite sub64_small by (rewrite two64_val; lia). reflexivity.
Qed.
Lemma reserve_full : forall lim (t t' : swiss) n o, wf t -> full t -> lim < 2 ^ 59 -> 0 <= n < 2 ^ 64 -> reserve f lim t n = Ok (t', o) -> full t'.
Proof.
  intros lim t t' n o H F Hlim Hn He. destruct (reserve_ok f key_of hash keq KL lim t n H Hlim) as (t1 & o1 & He1 & Hr & _); [rewrite two64_val; lia|]. rewrite He1 in He. injection He as -> ->.
  destruct o as [tr|]; cbn [resized] in Hr; [|rewrite Hr; exact F]. destruct Hr as (W' & _ & S' & Tr & _). unfold reserve in He1. destruct (_ <? n).
  - destruct (align_capacity _) as [c|]; cbn [bind] in He1; [|discriminate]. apply (do_rehash_full lim t t' c tr); assumption.
  - injection He1 as <- _. exact F.
Qed.
Lemma rehash_full : forall lim (t t' : swiss) n o, wf t -> full t -> lim < 2 ^ 59 -> 0 < n < 2 ^ 64 -> rehash f lim t n = Ok (t', o) -> full t'.
Proof.
  intros lim t t' n o H F Hlim Hn He. destruct (rehash_ok f key_of hash keq KL lim t n H Hlim) as (t1 & o1 & He1 & Hr & _); [rewrite two64_val; lia|lia|]. rewrite He1 in He. injection He as -> ->.
  destruct o as [tr|]; cbn [resized] in Hr; [|rewrite Hr; exact F]. destruct Hr as (W' & _ & S' & Tr & _). unfold rehash in He1. destruct (_ && _); [injection He1 as <- _; exact F|].
  destruct (align_capacity _) as [c|]; cbn [bind] in He1; [|discriminate]. destruct (_ || _); [|injection He1 as <- _; exact F]. apply (do_rehash_full lim t t' c tr); assumption.
Qed.
Lemma clear_full : forall (t t' : swiss), wf t -> full t -> clear f t = Ok t' -> full t'.
Proof.
  intros t t' H F He. destruct (clear_ok f key_of hash keq t H) as (t1 & He1 & _ & _ & Hc & Hs & _). rewrite He1 in He. injection He as ->. unfold clear in He1.
  destruct (Z.eqb_spec (s_size t) 0); [injection He1 as <-; exact F|]. destruct (erase_nodes f t) as [t2|]; cbn [bind] in He1; [|discriminate]. destruct (fill_empty t2) as [t3|]; cbn [bind] in He1; [|discriminate].
  injection He1 as <-. intros _. cbn [set_nempty set_size s_nempty s_size s_cap] in *. lia.
Qed.
(** With as many elements as fit, the table grows and nodes are not swapped. *)
Lemma room_full : forall lim (t t1 : swiss) hh p tr, wf t -> full t -> lim < 2 ^ 59 -> make_room f lim t hh = Ok (t1, Some (p, tr)) -> full t1 /\ swapless tr.
Proof.
  intros lim t t1 hh p tr H F Hlim He. destruct (make_room_ok f key_of hash keq KL lim t hh H Hlim) as (t2 & o & He2 & Ho & _). rewrite He2 in He. injection He as -> ->. destruct Ho as (W1 & _ & S1 & Tr & _).
  pose proof (wf_size f key_of hash keq t H) as (_ & Hb). pose proof (wf_cap_nonneg f key_of hash keq t H) as Hc.
  unfold make_room in He2. destruct (Z.eqb_spec (s_cap t) 0) as [C0|C0].
  - destruct (do_rehash f lim t 1) as [(t2, [tr2|])|] eqn:Er; cbn [bind] in He2; [|discriminate|discriminate]. destruct (find_available f t2 hh); cbn [bind] in He2; [|discriminate]. injection He2 as -> -> ->.
    split; [apply (do_rehash_full lim t t1 1 tr Er (or_intror W1) S1 Tr)|apply (do_rehash_swapless f lim _ _ _ _ Er)].
  - destruct (find_available f t hh) as [q|]; cbn [bind] in He2; [|discriminate]. destruct (get_meta f t q) as [m|]; cbn [bind] in He2; [|discriminate].
    destruct ((s_nempty t =? 0) && negb (m =? m_deleted)) eqn:Eb; [|injection He2 as <- <- <-; split; [exact F|intros a b []]].
    apply andb_true_iff in Eb. destruct Eb as (Eb & _). apply Z.eqb_eq in Eb. specialize (F C0). 
    assert (Hbig : (mul64 (s_size t) 32 <=? mul64 (s_cap t) 25) = false).
    { pose proof (max_size_bounds f (s_cap t) ltac:(lia)). unfold mul64. rewrite !Z.mod_small by (rewrite two64_val; lia). apply Z.leb_gt. assert (Hm : max_of (s_cap t) = s_size t) by lia. unfold capacity_to_max_size in Hm.
      pose proof (Z.div_mod (s_cap t) 8 ltac:(lia)). pose proof (Z.mod_pos_bound (s_cap t) 8 ltac:(lia)). destruct (_ =? 8); [destruct (Z.eqb_spec (s_cap t) 7)|]; lia. }
    rewrite Hbig, andb_false_r in He2.
    destruct (do_rehash f lim t _) as [(t2, [tr2|])|] eqn:Er; cbn [bind] in He2; [|discriminate|discriminate]. destruct (find_available f t2 hh); cbn [bind] in He2; [|discriminate]. injection He2 as -> -> ->.
    split; [apply (do_rehash_full lim t t1 _ tr Er (or_intror W1) S1 Tr)|apply (do_rehash_swapless f lim _ _ _ _ Er)].
Qed.
Lemma full_swaps : forall v (s : oswiss) e, wf (os_t s) -> full (os_t s) -> env_ok (sv_e v) -> ~ zswaps f key_of hash keq v s e.
Proof.
  intros v s e H F Hv (_ & t & p & tr & a & b & He & Hi). destruct (room_full _ _ _ _ _ _ H F Hv He) as (_ & Hs). apply (Hs a b Hi).
Qed.
Lemma small_swaps : forall v (s : oswiss) e, s_cap (os_t s) <= W f -> ~ zswaps f key_of hash keq v s e.
Proof. clear KL.
  intros v s e Hc (_ & t & p & tr & a & b & He & Hi). assert (Hs : swapless tr); [|apply (Hs a b Hi)]. unfold make_room in He. destruct (s_cap (os_t s) =? 0).
  - destruct (do_rehash f _ (os_t s) 1) as [(t2, [tr2|])|] eqn:Er; cbn [bind] in He; [|discriminate|discriminate]. destruct (find_available f t2 _); cbn [bind] in He; [|discriminate]. injection He as -> -> ->.
    apply (do_rehash_swapless f _ _ _ _ _ Er).
  - destruct (find_available f (os_t s) _) as [q|]; cbn [bind] in He; [|discriminate]. destruct (get_meta f (os_t s) q) as [m|]; cbn [bind] in He; [|discriminate].
    destruct (_ && _) eqn:Eb; [|injection He as <- <- <-; intros x y []].
    replace (W f <? s_cap (os_t s)) with false in He by lia. cbn [andb] in He.
    destruct (do_rehash f _ (os_t s) _) as [(t2, [tr2|])|] eqn:Er; cbn [bind] in He; [|discriminate|discriminate]. destruct (find_available f t2 _); cbn [bind] in He; [|discriminate]. injection He as -> -> ->.
    apply (do_rehash_swapless f _ _ _ _ _ Er).
Qed.
Lemma events_t : forall v h (s : oswiss) tr t1 h1 s1, s_events sz v h s tr t1 = Ok (h1, s1) -> os_t s1 = t1.
Proof. clear KL. intros v h s tr t1 h1 s1 He. unfold s_events in He. destruct (foldM _ _ _) as [((x & y) & z)|]; cbn [bind] in He; [|discriminate]. injection He as _ <-. reflexivity. Qed.
Lemma emplace_full : forall v ctor h (s : oswiss) hint e h' s' o, wf (os_t s) -> full (os_t s) -> ev_lim (sv_e v) < 2 ^ 59 -> absent (key_of e) (elems (os_t s)) ->
  s_emplace_node f sz v ctor h s hint (hash (key_of e)) e = Ok (h', s', o) -> full (os_t s').
Proof.
  intros v ctor h s hint e h' s' o H F Hlim Ha He. unfold s_emplace_node in He.
  destruct (make_room_ok f key_of hash keq KL (ev_lim (sv_e v)) (os_t s) (hash (key_of e)) H Hlim) as (t1 & r & Em & Hr & _). rewrite Em in He. cbn [bind] in He.
  destruct r as [(p, tr)|]; [|injection He as <- <- <-; destruct Hr as (-> & _); exact F].
  destruct Hr as (W1 & P1 & S1 & Tr & Hp & Hav & Hfirst & Hne & _). destruct (room_full _ _ _ _ _ _ H F Hlim Em) as (F1 & _).
  destruct (s_events sz v h s tr t1) as [(h1, s1)|] eqn:Ee; cbn [bind] in He; [|discriminate]. pose proof (events_t _ _ _ _ _ _ _ Ee) as Et.
  destruct ctor; cbn [negb] in He; [|injection He as <- <- <-; rewrite Et; exact F1].
  assert (Hab : forall x, In x (elems t1) -> keq (key_of x) (key_of e) = false) by (intros x Hx; apply Ha; apply (Permutation_in _ P1 Hx)).
  destruct (place_ok f key_of hash keq KL t1 p e W1 Hp Hav Hfirst Hne Hab) as (t5 & Hpl & _ & Hc & _ & _ & Hs5 & Hn5).
  destruct (put_node t1 p (e, hash (key_of e))) as [t2|]; cbn [bind] in He, Hpl; [|discriminate].
  destruct (if hint =? 0 then _ else _) as [pr|]; cbn [bind] in He; [|discriminate]. destruct (link_after h1 _ pr) as [h2|]; cbn [bind] in He; [|discriminate].
  destruct (get_meta f t2 p) as [tm|]; cbn [bind] in He, Hpl; [|discriminate].
  destruct (set_metadata f _ p _) as [t4|]; cbn [bind] in He, Hpl; [|discriminate]. injection Hpl as <-. injection He as _ <- _. cbn [with_t os_t].
  pose proof (full_clean t1 p W1 F1 Hp) as Hd. assert (Hc1 : s_cap t1 <> 0) by lia. specialize (F1 Hc1). intros _. rewrite Hc, Hs5, Hn5.
  destruct (Z.eqb_spec (s_meta t1 p) m_empty) as [_|Hx]; [lia|]. exfalso. pose proof (mw_bytes f t1 (w_m _ _ _ _ t1 W1) p Hp) as Hb.
  destruct Hb as [Hb|[Hb|Hb]]; [contradiction|contradiction|]. unfold is_available, m_sentinel in Hav. lia.
Qed.
Hypothesis Hrep : forall a b, keq (key_of a) (key_of b) = true -> key_of (rep a b) = key_of a.
Notation zexec := (zexec f sz key_of hash keq rep).
Notation zinv := (zinv f sz key_of hash keq).
Lemma step_full : forall v h s ord (c : zcall E K) h' s' r, zinv h s ord -> env_ok (sv_e v) -> zcall_ok c -> zerasing c = false -> full (os_t s) -> zexec v (h, s) c = Ok ((h', s'), r) -> full (os_t s').
Proof.
  intros v h s ord c h' s' r H Hv Hc He F Hx. pose proof (zi_wf _ _ _ _ _ _ _ _ H) as Hw. destruct c as [e|e|k|i|i j|pred|k|k| | | |n|n| | |]; try discriminate He; cbn [SwissOrderedRun.zexec zcall_ok] in *.
  - unfold s_do_insert in Hx. destruct (find_zinv f sz key_of hash keq rep KL Hrep h s ord (key_of e) H) as (q & Eq & [(-> & _ & Ha)|(Hne & _)]); rewrite Eq in Hx; cbn [bind] in Hx.
    + rewrite Z.eqb_refl in Hx. destruct (s_emplace_node f sz v _ h s 0 _ e) as [((h1 & s1) & o)|] eqn:Ee; cbn [bind] in Hx; [|discriminate].
      pose proof (emplace_full _ _ _ _ _ _ _ _ _ Hw F Hv Ha Ee) as F1. destruct o as [q|]; cbn [z_give] in Hx; [|injection Hx as _ <- _; exact F1].
      destruct (s_value _ _ _); cbn [bind] in Hx; [|discriminate]. injection Hx as _ <- _. exact F1.
    + destruct (Z.eqb_spec q (s_cap (os_t s))); [contradiction|]. cbn [bind z_give] in Hx. destruct (s_value _ _ _); cbn [bind] in Hx; [|discriminate]. injection Hx as _ <- _. exact F.
  - unfold s_do_insert_or_assign in Hx. destruct (find_zinv f sz key_of hash keq rep KL Hrep h s ord (key_of e) H) as (q & Eq & [(-> & _ & Ha)|(Hne & _)]); rewrite Eq in Hx; cbn [bind] in Hx.
    + rewrite Z.eqb_refl in Hx. destruct (s_emplace_node f sz v _ h s 0 _ e) as [((h1 & s1) & o)|] eqn:Ee; cbn [bind] in Hx; [|discriminate].
      pose proof (emplace_full _ _ _ _ _ _ _ _ _ Hw F Hv Ha Ee) as F1. destruct o as [q|]; cbn [z_give] in Hx; [|injection Hx as _ <- _; exact F1].
      destruct (s_value _ _ _); cbn [bind] in Hx; [|discriminate]. injection Hx as _ <- _. exact F1.
    + destruct (Z.eqb_spec q (s_cap (os_t s))); [contradiction|]. destruct (get_node (os_t s) q); cbn [bind z_give] in Hx; [|discriminate]. destruct (s_value _ _ _); cbn [bind] in Hx; [|discriminate]. injection Hx as _ <- _. exact F.
  - destruct (find_node _ _ _ _ _ _); cbn [bind] in Hx; [|discriminate]. destruct (s_at _ _ _); cbn [bind] in Hx; [|discriminate]. injection Hx as _ <- _. exact F.
  - destruct (find_node _ _ _ _ _ _); cbn [bind] in Hx; [|discriminate]. injection Hx as _ <- _. exact F.
  - destruct (s_front _ _ _); cbn [bind] in Hx; [|discriminate]. injection Hx as _ <- _. exact F.
  - destruct (s_back _ _ _); cbn [bind] in Hx; [|discriminate]. injection Hx as _ <- _. exact F.
  - unfold s_clear in Hx. destruct (if s_size (os_t s) =? 0 then Ok h else reset_link h (os_hdr s)) as [h1|]; cbn [bind] in Hx; [|discriminate]. destruct (clear f (os_t s)) as [t1|] eqn:Ec; cbn [bind] in Hx; [|discriminate]. injection Hx as _ <- _. apply (clear_full _ _ Hw F Ec).
  - unfold s_reserve in Hx. destruct (reserve f _ (os_t s) n) as [(t1, o)|] eqn:Ec; cbn [bind] in Hx; [|discriminate]. pose proof (reserve_full _ _ _ _ _ Hw F Hv Hc Ec) as F1. unfold s_resized in Hx. destruct o as [tr|].
    + destruct (s_events sz v h s tr t1) as [(h1, s1)|] eqn:Ee; cbn [bind z_unit] in Hx; [|discriminate]. injection Hx as _ <- _. rewrite (events_t _ _ _ _ _ _ _ Ee). exact F1.
    + cbn [bind z_unit] in Hx. injection Hx as _ <- _. exact F1.
  - unfold s_rehash in Hx. destruct (rehash f _ (os_t s) n) as [(t1, o)|] eqn:Ec; cbn [bind] in Hx; [|discriminate]. pose proof (rehash_full _ _ _ _ _ Hw F Hv Hc Ec) as F1. unfold s_resized in Hx. destruct o as [tr|].
    + destruct (s_events sz v h s tr t1) as [(h1, s1)|] eqn:Ee; cbn [bind z_unit] in Hx; [|discriminate]. injection Hx as _ <- _. rewrite (events_t _ _ _ _ _ _ _ Ee). exact F1.
    + cbn [bind z_unit] in Hx. injection Hx as _ <- _. exact F1.
  - injection Hx as _ <- _. exact F.
  - destruct (s_iterate _ _ _); cbn [bind] in Hx; [|discriminate]. injection Hx as _ <- _. exact F.
  - destruct (s_backwards _ _ _); cbn [bind] in Hx; [|discriminate]. injection Hx as _ <- _. exact F.
Qed.

(** ** Histories of calls on one container. *)
Hypothesis Hsz : 0 < sz.
Notation zrun := (zrun f sz key_of hash keq rep).
Notation zblocked := (zblocked f sz key_of hash keq rep).
Notation zspec_run := (zspec_run key_of keq rep).
Notation sfr := (sfr sz).
Lemma zrun_ok : forall hist h s ord, zinv h s ord -> zhistory_ok hist ->
  (exists h' s' ord' rs, zrun (h, s) hist = Ok ((h', s'), rs) /\ zinv h' s' ord' /\ sfr h s h' s' /\ zspec_run (map snd hist) (cont s ord) (cont s' ord') rs) \/
  (exists h1 v c h2 h' s' ord' rs, hist = h1 ++ (v, c) :: h2 /\ zrun (h, s) h1 = Ok ((h', s'), rs) /\ zinv h' s' ord' /\ zspec_run (map snd h1) (cont s ord) (cont s' ord') rs /\ zblocked v (h', s') c).
Proof.
  induction hist as [|(v, c) hist IH]; intros h s ord H Hh.
  - left. exists h, s, ord, []. split; [reflexivity|]. split; [exact H|]. split; [apply sfr_refl|constructor].
  - inversion Hh as [|? ? (Hv & Hc) Hh']; subst. cbn [fst snd] in *. destruct (zstep_ok f sz key_of hash keq rep Hsz KL Hrep v h s ord c H Hv Hc) as [Hb|(h1 & s1 & r & ord1 & He & H1 & F1 & _ & S1)].
    + right. exists [], v, c, hist, h, s, ord, []. split; [reflexivity|]. split; [reflexivity|]. split; [exact H|]. split; [constructor|exact Hb].
    + destruct (IH h1 s1 ord1 H1 Hh') as [(h' & s' & ord' & rs & Hr & H' & F' & S')|(p1 & v' & c' & p2 & h' & s' & ord' & rs & -> & Hr & H' & S' & Hb)].
      * left. exists h', s', ord', (r :: rs). cbn [SwissOrderedRun.zrun map]. rewrite He. cbn [bind]. rewrite Hr. cbn [bind]. split; [reflexivity|]. split; [exact H'|]. split; [apply (sfr_trans sz h s h1 s1); assumption|]. econstructor; eassumption.
      * right. exists ((v, c) :: p1), v', c', p2, h', s', ord', (r :: rs). split; [reflexivity|]. cbn [SwissOrderedRun.zrun map]. rewrite He. cbn [bind]. rewrite Hr. cbn [bind]. split; [reflexivity|]. split; [exact H'|].
        split; [econstructor; eassumption|exact Hb].
Qed.
Lemma slot_ix_none : forall (s : oswiss) a, a <> os_hdr s -> slot_ix (os_base s) sz (s_cap (os_t s)) a = None -> ~ mine sz s a.
Proof. clear KL Hrep rep.
  intros s a Ha Hi [X|(i & Hi' & ->)]; [contradiction|]. unfold slot_ix, sslot in Hi. replace (os_base s + i * sz - os_base s) with (i * sz) in Hi by lia.
  rewrite Z.mod_mul, Z.div_mul in Hi by lia. replace ((0 =? 0) && (0 <=? i) && (i <? s_cap (os_t s))) with true in Hi by lia. discriminate.
Qed.
Lemma zinv_refines : forall hist h s ord, zinv h s ord -> zhistory_ok hist -> zrefines f sz key_of hash keq rep (h, s) (cont s ord) hist.
Proof.
  intros hist h s ord H Hh. destruct (zrun_ok hist h s ord H Hh) as [(h' & s' & ord' & rs & Hr & H' & F' & S')|(h1 & v & c & h2 & h' & s' & ord' & rs & He & Hr & H' & S' & Hb)].
  - left. exists (h', s'), rs, (cont s' ord'). cbn [fst snd]. split; [exact Hr|]. split; [exact S'|]. split; [apply (zi_lists f sz key_of hash keq Hsz); exact H'|]. split; [apply (distinct_zinv f sz key_of hash keq KL h'); exact H'|].
    intros a A1 A2 A3. apply (sfr_keeps sz Hsz _ _ _ _ F'); [apply slot_ix_none; assumption|exact A3].
  - right. exists h1, v, c, h2, (h', s'), rs, (cont s' ord'). split; [exact He|]. split; [exact Hr|]. split; [exact S'|]. split; [apply (zi_lists f sz key_of hash keq Hsz); exact H'|exact Hb].
Qed.
(** Without erasing calls nodes are never swapped. *)
Lemma run_full : forall hist h s ord h' s' rs, zinv h s ord -> zhistory_ok hist -> (forall v c, In (v, c) hist -> zerasing c = false) -> full (os_t s) -> zrun (h, s) hist = Ok ((h', s'), rs) ->
  forall v e, env_ok (sv_e v) -> ~ zswaps f key_of hash keq v s' e.
Proof.
  induction hist as [|(v, c) hist IH]; intros h s ord h' s' rs H Hh Hn F Hr.
  - injection Hr as <- <- <-. intros v e Hv. apply full_swaps; [apply (zi_wf _ _ _ _ _ _ _ _ H)|exact F|exact Hv].
  - inversion Hh as [|? ? (Hv & Hc) Hh']; subst. cbn [fst snd] in *. pose proof (Hn v c (or_introl eq_refl)) as Hx.
    cbn [SwissOrderedRun.zrun] in Hr. destruct (zexec v (h, s) c) as [((h1 & s1) & r)|] eqn:Ez; cbn [bind] in Hr; [|discriminate].
    destruct (zrun (h1, s1) hist) as [((h2 & s2) & rs2)|] eqn:Ez2; cbn [bind] in Hr; [|discriminate]. injection Hr as -> -> _.
    pose proof (step_full v h s ord c h1 s1 r H Hv Hc Hx F Ez) as F1.
    destruct (zstep_ok f sz key_of hash keq rep Hsz KL Hrep v h s ord c H Hv Hc) as [Hb|(h3 & s3 & r3 & ord1 & He & H1 & _)].
    + destruct Hb as [Hb|Hb]; [|rewrite Ez in Hb; discriminate].
      assert (Hsame : h1 = h /\ s1 = s).
      { destruct c; try contradiction; try discriminate Hx; try (exfalso; revert Hb; apply full_swaps; [apply (zi_wf _ _ _ _ _ _ _ _ H)|exact F|exact Hv]); cbn [SwissOrderedRun.zexec] in Ez.
        - destruct (s_front _ _ _); cbn [bind] in Ez; [|discriminate]. injection Ez as <- <- _. auto.
        - destruct (s_back _ _ _); cbn [bind] in Ez; [|discriminate]. injection Ez as <- <- _. auto. }
      destruct Hsame as (-> & ->). apply (IH h s ord h' s' rs2); auto. intros v' c' Hi. apply (Hn v' c'). right. exact Hi.
    + rewrite Ez in He. injection He as <- <- <-. apply (IH h1 s1 ord1 h' s' rs2); auto. intros v' c' Hi. apply (Hn v' c'). right. exact Hi.
Qed.
End Full.

Section Final.
Context {E K : Type}.
Variable f : simd.
Variable sz : Z.
Variable key_of : E -> K.
Variable hash : K -> Z.
Variable keq : K -> K -> bool.
Variable rep : E -> E -> E.
Variable clone : E -> E.
Variables pocca pocma : bool.
Hypothesis Hsz : 0 < sz.
Hypothesis KL : key_laws hash keq.
Hypothesis Hrep : forall a b, keq (key_of a) (key_of b) = true -> key_of (rep a b) = key_of a.
Hypothesis Hclone : forall e, key_of (clone e) = key_of e.
Notation oswiss := (oswiss E).
Notation xworld := (xworld E).
Notation zinv := (zinv f sz key_of hash keq).
Notation absent := (absent key_of keq).
Notation present := (present key_of keq).
Notation xexec := (xexec f sz key_of hash keq rep clone pocca pocma).
Notation xoccurs := (xoccurs f sz key_of hash keq rep clone pocca pocma).
Notation winv := (winv f sz key_of hash keq).
Notation s_iterate := (s_iterate sz).
Notation mine := (mine sz).
Notation slot s := (fun i => os_base s + i * sz).
Notation place_of s ord := (place_at sz (os_hdr s) (os_base s) ord).

Lemma occurs_zinv : forall (w : xworld) i l, xoccurs w -> s_iterate (xw_m w) (xw_c w i) = Ok l -> exists ord, zinv (xw_m w) (xw_c w i) ord /\ l = cont (xw_c w i) ord.
Proof.
  intros w i l H Hl. destruct (xoccurs_inv f sz key_of hash keq rep clone pocca pocma Hsz KL Hrep Hclone w H) as (ords & Hw). exists (ords i). split; [apply Hw|].
  rewrite (iterate_ok f sz key_of hash keq Hsz _ _ _ (proj1 Hw i)) in Hl. injection Hl as <-. reflexivity.
Qed.
Lemma occurs_history : forall (w : xworld) i l hist, xoccurs w -> s_iterate (xw_m w) (xw_c w i) = Ok l -> zhistory_ok hist -> zrefines f sz key_of hash keq rep (xw_m w, xw_c w i) l hist.
Proof.
  intros w i l hist H Hl Hh. destruct (occurs_zinv w i l H Hl) as (ord & Hz & ->). apply (zinv_refines f sz key_of hash keq rep KL Hrep Hsz); assumption.
Qed.
Lemma new_history : forall h a hist, h a = Some (0, 0) -> zhistory_ok hist -> (forall v c, In (v, c) hist -> zerasing c = false) ->
  zrefines f sz key_of hash keq rep (h, s_new a) [] hist /\
  forall h1 v e h2 hs' rs, hist = h1 ++ (v, ZInsert e) :: h2 \/ hist = h1 ++ (v, ZAssign e) :: h2 -> zrun f sz key_of hash keq rep (h, s_new a) h1 = Ok (hs', rs) -> ~ zswaps f key_of hash keq v (snd hs') e.
Proof. clear Hclone clone pocca pocma.
  intros h a hist Ha Hh Hn. pose proof (new_zinv f sz key_of hash keq h a Ha) as Hz. split; [apply (zinv_refines f sz key_of hash keq rep KL Hrep Hsz _ _ _ [] Hz Hh)|].
  intros h1 v e h2 (h', s') rs He Hr. cbn [snd].
  assert (Hp : zhistory_ok h1 /\ env_ok (sv_e v) /\ forall v c, In (v, c) h1 -> zerasing c = false).
  { unfold zhistory_ok in *. destruct He as [-> | ->]; apply Forall_app in Hh; destruct Hh as (A & B); inversion B as [|? ? (B1 & _) _]; subst; (split; [exact A|]; split; [exact B1|]); intros v' c' Hi; apply (Hn v' c'); apply in_or_app; left; exact Hi. }
  destruct Hp as (P1 & P2 & P3). apply (run_full f sz key_of hash keq rep KL Hrep Hsz h1 h (s_new a) [] h' s' rs Hz P1 P3); [|exact Hr|exact P2]. intros X. exfalso. apply X. reflexivity.
Qed.

(** The specification does not distinguish equal contents. *)
Definition same (w1 w2 : xconts (E := E)) : Prop := (forall i, xc w1 i = xc w2 i) /\ (forall i, xh w1 i = xh w2 i).
Lemma xspec_ext : forall c w1 w2 w' r, same w1 w2 -> xspec key_of keq rep clone c w1 w' r -> xspec key_of keq rep clone c w2 w' r.
Proof. clear KL Hrep Hclone Hsz hash sz.
  intros c w1 w2 w' r (He & He') H. assert (Ho : forall is hs, xothers is hs w1 w' -> xothers is hs w2 w') by (intros is hs (X & Y); split; intros k Hk; [rewrite (X k Hk); apply He|rewrite (Y k Hk); apply He']).
  destruct H; rewrite ?He, ?He' in *; try (econstructor; eauto; congruence).
Qed.
Lemma xspec_run_ext : forall cs w1 w2 w' rs, same w1 w2 -> xspec_run key_of keq rep clone cs w1 w' rs -> xspec_run key_of keq rep clone cs w2 w' rs.
Proof. clear KL Hrep Hclone Hsz hash sz.
  intros cs w1 w2 w' rs He H. destruct H as [w w' (X & Y)|c cs w w3 w4 r rs Hc Hr].
  - constructor. split; intros k Hk; [rewrite (X k Hk); apply He|rewrite (Y k Hk); apply He].
  - econstructor; [apply (xspec_ext c w); eassumption|exact Hr].
Qed.
Lemma occurs_program : forall (w : xworld) l hist, xoccurs w -> (forall i, s_iterate (xw_m w) (xw_c w i) = Ok (xc l i)) -> (forall i, xw_h w i = xh l i) -> xhistory_ok hist ->
  xrefines f sz key_of hash keq rep clone pocca pocma w l hist.
Proof.
  intros w l hist H Hl Hhd Hh. destruct (xoccurs_inv f sz key_of hash keq rep clone pocca pocma Hsz KL Hrep Hclone w H) as (ords & W).
  assert (He : same (abs w ords) l).
  { split; [|exact Hhd]. intros i. pose proof (iterate_ok f sz key_of hash keq Hsz _ _ _ (proj1 W i)) as X. rewrite Hl in X. injection X as X. symmetry. exact X. }
  destruct (winv_refines f sz key_of hash keq rep clone pocca pocma Hsz KL Hrep Hclone hist w ords W Hh) as [(w' & rs & l' & A & B & C)|(h1 & v & c & h2 & w1 & rs1 & l1 & A & B & C & D)].
  - left. exists w', rs, l'. split; [exact A|]. split; [|exact C]. apply (xspec_run_ext _ (abs w ords)); assumption.
  - right. exists h1, v, c, h2, w1, rs1, l1. split; [exact A|]. split; [exact B|]. split; [|exact D]. apply (xspec_run_ext _ (abs w ords)); assumption.
Qed.

(** ** swap. *)
Lemma swap_inv : forall i j w w' r, xspec key_of keq rep clone (XSwap i j) w w' r -> r = XDone /\ xc w' i = xc w j /\ xc w' j = xc w i /\ xothers [i; j] [] w w'.
Proof. clear KL Hrep Hclone Hsz hash sz. intros i j w w' r H. inversion H; subst; auto. Qed.
Lemma swap_full : forall (w : xworld) v i j a b, xoccurs w -> i <> j -> s_iterate (xw_m w) (xw_c w i) = Ok a -> s_iterate (xw_m w) (xw_c w j) = Ok b -> a <> [] -> b <> [] ->
  exists w', xexec v w (XSwap i j) = Ok (w', XDone) /\ zlists sz (xw_m w', xw_c w' i) b /\ zlists sz (xw_m w', xw_c w' j) a /\
    forall k l, k <> i -> k <> j -> s_iterate (xw_m w) (xw_c w k) = Ok l -> zlists sz (xw_m w', xw_c w' k) l.
Proof.
  intros w v i j a b H Hij Ha Hb Ha0 Hb0. destruct (xoccurs_inv f sz key_of hash keq rep clone pocca pocma Hsz KL Hrep Hclone w H) as (ords & W).
  assert (Hc : forall k l, s_iterate (xw_m w) (xw_c w k) = Ok l -> l = cont (xw_c w k) (ords k)).
  { intros k l Hl. rewrite (iterate_ok f sz key_of hash keq Hsz _ _ _ (proj1 W k)) in Hl. injection Hl as <-. reflexivity. }
  assert (Hn : forall k, s_size (os_t (xw_c w k)) = Z.of_nat (length (cont (xw_c w k) (ords k)))) by (intros k; destruct (zi_len f sz key_of hash keq _ _ _ (proj1 W k)) as (A & B); rewrite A; exact B).
  apply Hc in Ha. apply Hc in Hb. subst a b.
  assert (Hi0 : s_size (os_t (xw_c w i)) <> 0) by (rewrite Hn; destruct (cont (xw_c w i) (ords i)); [contradiction|cbn [length]; lia]).
  assert (Hj0 : s_size (os_t (xw_c w j)) <> 0) by (rewrite Hn; destruct (cont (xw_c w j) (ords j)); [contradiction|cbn [length]; lia]).
  destruct (swap_step f sz key_of hash keq rep clone pocca pocma v w ords i j W Hij Hi0 Hj0) as (w' & ords' & r & He & W' & S).
  apply swap_inv in S. destruct S as (-> & S1 & S2 & X & _). exists w'. split; [exact He|]. pose proof (winv_lists f sz key_of hash keq Hsz w' ords' W') as L. cbn [abs xc] in *.
  split; [rewrite <- S1; apply L|]. split; [rewrite <- S2; apply L|]. intros k l Hk1 Hk2 Hl. apply Hc in Hl. subst l. rewrite <- X; [apply L|]. intros [->|[->|[]]]; contradiction.
Qed.

(** ** merge. *)
Lemma merge_full : forall (w : xworld) v i j a b, xoccurs w -> env_ok (sv_e v) -> i <> j -> s_iterate (xw_m w) (xw_c w i) = Ok a -> s_iterate (xw_m w) (xw_c w j) = Ok b ->
  (s_cap (os_t (xw_c w i)) = 0 -> s_nempty (os_t (xw_c w i)) = 0) ->
  xexec v w (XMerge i j) = Err BadPlacement \/
  exists w' r, xexec v w (XMerge i j) = Ok (w', r) /\
    ((r = XDone /\ zlists sz (xw_m w', xw_c w' i) (a ++ rev (filter (fun x => negb (present a x)) (tl b))) /\ zlists sz (xw_m w', xw_c w' j) (firstn 1 b ++ filter (present a) (tl b))) \/
     (r = XThrow /\ zlists sz (xw_m w', xw_c w' i) a /\ zlists sz (xw_m w', xw_c w' j) b)).
Proof.
  intros w v i j a b H Hv Hij Ha Hb Hz. destruct (xoccurs_inv f sz key_of hash keq rep clone pocca pocma Hsz KL Hrep Hclone w H) as (ords & W).
  assert (Hc : forall k l, s_iterate (xw_m w) (xw_c w k) = Ok l -> l = cont (xw_c w k) (ords k)).
  { intros k l Hl. rewrite (iterate_ok f sz key_of hash keq Hsz _ _ _ (proj1 W k)) in Hl. injection Hl as <-. reflexivity. }
  apply Hc in Ha. apply Hc in Hb. subst a b.
  destruct (merge_links f sz key_of hash keq Hsz KL v (xw_m w) (xw_c w i) (xw_c w j) (ords i) (ords j) (proj1 W i) (proj1 W j) (fun a => proj2 W i j a Hij) Hv Hz)
    as [X|(h' & s' & o' & os' & oo' & b & X & R1 & R2 & _ & _ & _ & _ & _ & _ & _ & R6)]; [left; cbn [SwissOrderedWorld.xexec]; rewrite X; reflexivity|].
  right. eexists _, _. split; [cbn [SwissOrderedWorld.xexec]; rewrite X; reflexivity|]. cbn [xw_m xw_c]. rewrite setn_same. rewrite setn_other by exact Hij. rewrite setn_same.
  pose proof (zi_lists f sz key_of hash keq Hsz _ _ _ R1) as L1. pose proof (zi_lists f sz key_of hash keq Hsz _ _ _ R2) as L2. destruct b.
  - left. destruct R6 as (C1 & C2). rewrite C1 in L1. rewrite C2 in L2. auto.
  - right. destruct R6 as (C1 & -> & ->). rewrite C1 in L1. auto.
Qed.

(** ** erase(first, last). *)
Lemma split_cont : forall (s : oswiss) ord p q, (forall i, In i ord -> s_nodes (os_t s) i <> None) -> cont s ord = p ++ q -> exists o1 o2, ord = o1 ++ o2 /\ cont s o1 = p /\ cont s o2 = q.
Proof. clear KL Hrep Hclone Hsz hash sz clone pocca pocma rep keq key_of f.
  intros s ord p q Hin He. exists (firstn (length p) ord), (skipn (length p) ord). split; [symmetry; apply firstn_skipn|].
  assert (Hl : length (cont s ord) = length ord) by (apply seqn_len; exact Hin).
  assert (Hs : cont s (firstn (length p) ord) ++ cont s (skipn (length p) ord) = p ++ q) by (rewrite <- He; unfold cont; rewrite <- seqn_app, firstn_skipn; reflexivity).
  apply app_inj; [exact Hs|]. unfold cont at 1. rewrite seqn_len.
  - rewrite firstn_length_le; [reflexivity|]. rewrite <- Hl, He, app_length. lia.
  - intros i Hi. apply Hin. rewrite <- (firstn_skipn (length p) ord). apply in_or_app. left. exact Hi.
Qed.
Lemma zinv_in : forall h s ord i, zinv h s ord -> In i ord -> s_nodes (os_t s) i <> None.
Proof. intros h s ord i H Hi. apply (zi_tied _ _ _ _ _ _ _ _ H). exact Hi. Qed.
Lemma cont_len : forall h s ord o, zinv h s ord -> (forall i, In i o -> In i ord) -> length (cont s o) = length o.
Proof. intros h s ord o H Hi. apply seqn_len. intros i Hx. apply (zinv_in h s ord i H). apply Hi. exact Hx. Qed.
Lemma range_full : forall (w : xworld) i p m q a b, xoccurs w -> let h := xw_m w in let s := xw_c w i in s_iterate h s = Ok (p ++ m ++ q) ->
  s_nth h s (Z.of_nat (length p)) = Ok a -> s_nth h s (Z.of_nat (length p + length m)) = Ok b ->
  exists h' s' it, s_erase_range f sz h s a b = Ok (h', s', it) /\ zlists sz (h', s') (p ++ q) /\
    (m <> [] -> it = b /\ s_at sz s' it = Ok (hd_error q)) /\ (m = [] -> h' = h /\ s' = s /\ it = os_hdr s /\ s_at sz s' it = Ok None).
Proof.
  intros w i p m q a b H h s Hl Ha Hb. destruct (occurs_zinv w i _ H Hl) as (ord & Hz & He). fold h s in Hz, He. symmetry in He.
  destruct (split_cont s ord p (m ++ q) (fun x => zinv_in h s ord x Hz) He) as (o1 & o23 & -> & C1 & C23).
  destruct (split_cont s o23 m q) as (o2 & o3 & -> & C2 & C3); [intros x Hx; apply (zinv_in h s _ x Hz); apply in_or_app; right; exact Hx|exact C23|].
  pose proof (cont_len h s _ o1 Hz ltac:(intros x Hx; apply in_or_app; left; exact Hx)) as L1. pose proof (cont_len h s _ o2 Hz ltac:(intros x Hx; apply in_or_app; right; apply in_or_app; left; exact Hx)) as L2.
  rewrite C1 in L1. rewrite C2 in L2.
  rewrite L1, (nth_ok f sz key_of hash keq Hsz h s o1 (o2 ++ o3) Hz) in Ha. injection Ha as <-.
  rewrite L1, L2, <- app_length in Hb. pose proof Hz as Hz'. rewrite app_assoc in Hz'. rewrite (nth_ok f sz key_of hash keq Hsz h s (o1 ++ o2) o3 Hz') in Hb. injection Hb as <-.
  destruct (erase_range_ok f sz key_of hash keq Hsz KL h s o1 o2 o3 Hz) as (h' & s' & X & I & C & F & B1 & B2). exists h', s'. eexists. split; [exact X|].
  pose proof (zi_lists f sz key_of hash keq Hsz _ _ _ I) as L. rewrite C in L. unfold cont in L at 1. rewrite seqn_app in L. fold (cont s o1) (cont s o3) in L. rewrite C1, C3 in L. split; [exact L|].
  pose proof (at_ok f sz key_of hash keq Hsz h' s' o1 o3 I) as At. destruct F as (Fh & _). rewrite Fh, B1 in At.
  assert (C3' : cont s' o3 = q).
  { pose proof C as C'. unfold cont in C'. rewrite !seqn_app in C'. apply app_inj in C'; [destruct C' as (_ & C'); unfold cont; rewrite C'; exact C3|].
    rewrite !seqn_len; [reflexivity| |]; intros x Hx; [apply (zinv_in h s _ x Hz)|apply (zinv_in h' s' _ x I)]; apply in_or_app; left; exact Hx. }
  rewrite C3' in At. split.
  - intros Hm. destruct o2 as [|y o2]; [cbn in C2; subst m; contradiction|]. split; [reflexivity|exact At].
  - intros ->. destruct o2; [|cbn [length] in L2; discriminate]. 
    assert (Hn : h' = h /\ s' = s).
    { unfold s_erase_range, iter_fuel in X. cbn [app] in X. cbn [s_erase_range_loop] in X. rewrite Z.eqb_refl in X. injection X as <- <-. auto. }
    destruct Hn as (-> & ->). split; [reflexivity|]. split; [reflexivity|]. split; [reflexivity|]. pose proof Hz as Hz2. rewrite <- (app_nil_r (o1 ++ [] ++ o3)) in Hz2. pose proof (at_ok f sz key_of hash keq Hsz h s _ [] Hz2) as At'. exact At'.
Qed.

(** ** insert(hint, e). *)
Lemma hint_full : forall (w : xworld) v i p x q a e, xoccurs w -> env_ok (sv_e v) -> let h := xw_m w in let s := xw_c w i in s_iterate h s = Ok (p ++ x :: q) ->
  s_nth h s (Z.of_nat (length p)) = Ok a -> a <> 0 -> 0 < s_nempty (os_t s) -> absent (key_of e) (p ++ x :: q) ->
  exists h' s' r, s_do_insert f sz key_of hash keq v h s a e = Ok (h', s', r) /\
    match r with
    | Some (it, b) => b = true /\ s_at sz s' it = Ok (Some e) /\ zlists sz (h', s') (p ++ x :: e :: q)
    | None => ev_ctor (sv_e v) = false /\ zlists sz (h', s') (p ++ x :: q)
    end.
Proof.
  intros w v i p x q a e H Hv h s Hl Ha Ha0 Hn Hab. destruct (occurs_zinv w i _ H Hl) as (ord & Hz & He). fold h s in Hz, He. symmetry in He.
  destruct (split_cont s ord p (x :: q) (fun y => zinv_in h s ord y Hz) He) as (o1 & o23 & -> & C1 & C23).
  destruct (split_cont s o23 [x] q) as (o2 & o3 & -> & C2 & C3); [intros y Hy; apply (zinv_in h s _ y Hz); apply in_or_app; right; exact Hy|exact C23|].
  pose proof (cont_len h s _ o1 Hz ltac:(intros y Hy; apply in_or_app; left; exact Hy)) as L1. pose proof (cont_len h s _ o2 Hz ltac:(intros y Hy; apply in_or_app; right; apply in_or_app; left; exact Hy)) as L2.
  rewrite C1 in L1. rewrite C2 in L2. destruct o2 as [|pos [|]]; try discriminate L2. cbn [app] in *.
  rewrite L1, (nth_ok f sz key_of hash keq Hsz h s o1 (pos :: o3) Hz) in Ha. injection Ha as <-. cbn [place_at] in *.
  pose proof Hz as Hz'. change (pos :: o3) with ([pos] ++ o3) in Hz'. rewrite app_assoc in Hz'.
  destruct (find_zinv f sz key_of hash keq (fun a _ => a) KL (fun _ _ _ => eq_refl) h s _ (key_of e) Hz) as (r & Er & [(-> & _ & Ha')|(_ & y & hh & l1 & l2 & _ & _ & _ & _ & Hk & Hloc)]).
  2:{ exfalso. pose proof (proj1 Hloc) as Hd. rewrite He in Hd. assert (Hy : In y (p ++ x :: q)) by (rewrite Hd; apply in_or_app; right; left; reflexivity). rewrite (Hab y Hy) in Hk. discriminate. }
  unfold s_do_insert. rewrite Er. cbn [bind]. rewrite Z.eqb_refl.
  assert (Hcap : s_cap (os_t s) <> 0).
  { pose proof (zi_slot f sz key_of hash keq Hsz h s _ pos Hz ltac:(apply in_or_app; right; left; reflexivity)) as (Hp & _). lia. }
  destruct (make_room_ok f key_of hash keq KL (ev_lim (sv_e v)) (os_t s) (hash (key_of e)) (zi_wf _ _ _ _ _ _ _ _ Hz) Hv) as (t1 & o & Em & _ & Hfast).
  destruct (Hfast Hcap Hn) as (-> & p0 & ->).
  destruct (emplace_ok f sz key_of hash keq Hsz KL v (ev_ctor (sv_e v)) h s (o1 ++ [pos]) o3 (os_base s + pos * sz) e Hz' Hv Ha') as [(_ & X)|(h' & s' & o & ord' & X & I & _ & _ & Ho & Hfull)].
  - intros t2 p2 tr Hm. rewrite Em in Hm. injection Hm as <- <- <-. split; [intros y z []|]. right. right. split; [exact Ha0|]. split; [reflexivity|].
    rewrite map_app, app_comm_cons. cbn [map]. symmetry. apply last_last.
  - exfalso. apply X. split; assumption.
  - rewrite X. cbn [bind]. eexists _, _, _. split; [reflexivity|]. pose proof (zi_lists f sz key_of hash keq Hsz _ _ _ I) as L. destruct o as [p1|].
    + destruct Ho as (_ & N & C & _). split; [reflexivity|]. destruct (value_ok f sz key_of hash keq Hsz h' s' _ p1 _ I N) as (V1 & _ & V3 & _). rewrite V1. split; [exact V3|].
      rewrite C in L. unfold cont in L at 1. rewrite seqn_app in L. fold (cont s o1) (cont s [pos]) in L. rewrite C1, C2, C3, <- app_assoc in L. exact L.
    + split; [|rewrite Ho in L; rewrite <- app_assoc in L; cbn [app] in L; rewrite He in L; exact L].
      destruct (ev_ctor (sv_e v)) eqn:Ec; [|reflexivity]. exfalso. apply (proj1 (Hfull Hcap Hn eq_refl)). reflexivity.
Qed.
(** With end() as the hint: the new element becomes the first one. *)
Lemma end_full : forall (w : xworld) v i l e, xoccurs w -> env_ok (sv_e v) -> let h := xw_m w in let s := xw_c w i in s_iterate h s = Ok l -> os_hdr s <> 0 -> absent (key_of e) l ->
  ~ zswaps f key_of hash keq v s e -> s_do_insert f sz key_of hash keq v h s (os_hdr s) e = Err BadPlacement \/
  exists h' s' r, s_do_insert f sz key_of hash keq v h s (os_hdr s) e = Ok (h', s', r) /\
    match r with
    | Some (it, b) => b = true /\ s_at sz s' it = Ok (Some e) /\ zlists sz (h', s') (e :: l)
    | None => zlists sz (h', s') l
    end.
Proof.
  intros w v i l e H Hv h s Hl Hh0 Hab Hns. destruct (occurs_zinv w i _ H Hl) as (ord & Hz & ->). fold h s in Hz, Hab.
  destruct (find_zinv f sz key_of hash keq (fun a _ => a) KL (fun _ _ _ => eq_refl) h s _ (key_of e) Hz) as (r & Er & [(-> & _ & Ha')|(_ & y & hh & l1 & l2 & _ & _ & _ & _ & Hk & Hloc)]).
  2:{ exfalso. pose proof (proj1 Hloc) as Hd. assert (Hy : In y (cont s ord)) by (rewrite Hd; apply in_or_app; right; left; reflexivity). rewrite (Hab y Hy) in Hk. discriminate. }
  unfold s_do_insert. rewrite Er. cbn [bind]. rewrite Z.eqb_refl.
  destruct (swaps_dec f key_of hash keq v s e Er) as [X|Hsf]; [contradiction|].
  destruct (emplace_ok f sz key_of hash keq Hsz KL v (ev_ctor (sv_e v)) h s [] ord (os_hdr s) e Hz Hv Ha') as [(X & _)|(h' & s' & o & ord' & X & I & _ & _ & Ho & Hfull)].
  - intros t2 p2 tr Hm. split; [apply (Hsf t2 p2 tr Hm)|]. right. left. auto.
  - left. rewrite X. reflexivity.
  - right. rewrite X. cbn [bind]. eexists _, _, _. split; [reflexivity|]. pose proof (zi_lists f sz key_of hash keq Hsz _ _ _ I) as L. destruct o as [p1|].
    + destruct Ho as (_ & N & C & _). split; [reflexivity|]. destruct (value_ok f sz key_of hash keq Hsz h' s' _ p1 _ I N) as (V1 & _ & V3 & _). rewrite V1. split; [exact V3|]. rewrite C in L. exact L.
    + rewrite Ho in L. exact L.
Qed.
End Final.
