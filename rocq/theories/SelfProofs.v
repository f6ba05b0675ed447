(** Calls in which a container is its own argument refine the list specification. *)
From Coq Require Import ZArith List Bool Lia Permutation.
From Verif Require Import Base BaseLemmas Bits BitsProofs SelfSpec.
From Verif Require SwissOrderedWorldProofs DenseSpec DenseModel DenseRun DenseInv DenseRefine OrderedSpec OrderedDense OrderedRun OrderedLinks OrderedRefine OrderedWorldProofs.
From Verif Require Import LinkModel LinkProofs SwissModel SwissArith SwissCap SwissInv SwissOps SwissClean
  SwissIter SwissRoom MapSpec SwissRun SwissRefine SwissMore SwissOrderedSpec SwissOrdered SwissOrderedRun SwissOrderedLinks SwissOrderedProofs SwissOrderedMoves SwissOrderedRefine SwissOrderedStep SwissOrderedMerge SelfModel.
Import ListNotations.
Open Scope Z_scope.

(** From steps to programs, for any kind of container. *)
Section Generic.
Context {E St V C R : Type}.
Variable on : V -> St -> C -> res (St * R).
Variable swp : St -> res St.
Variable mrg : V -> St -> res (St * bool).
Variable none : St -> bool.
Variable step : C -> list E -> list E -> R -> Prop.
Variable same : list E -> list E -> Prop.
Variable view : St -> list E -> Prop.
Variable blocked : V -> St -> SelfSpec.lcall C -> Prop.
Variable holds : St -> list E -> Prop.
Variable good : V * SelfSpec.lcall C -> Prop.
Hypothesis Hview : forall s l, holds s l -> view s l.
Hypothesis Hstep : forall v s l c, holds s l -> good (v, c) ->
  blocked v s c \/ exists s' r l', lexec on swp mrg none v s c = Ok (s', r) /\ SelfSpec.lspec step same c l l' r /\ holds s' l'.

Lemma generic_ok : forall h s l, holds s l -> Forall good h -> lrefines on swp mrg none step same view blocked s l h.
Proof.
  induction h as [|(v, c) h IH]; intros s l H G.
  - left. exists s, [], l. split; [reflexivity|]. split; [constructor|]. apply Hview. exact H.
  - inversion G as [|? ? Gc Gh]; subst. destruct (Hstep v s l c H Gc) as [Hb|(s1 & r & l1 & E1 & S1 & H1)].
    + right. exists [], v, c, h, s, [], l. split; [reflexivity|]. split; [reflexivity|]. split; [constructor|]. split; [apply Hview; exact H|exact Hb].
    + destruct (IH s1 l1 H1 Gh) as [(s' & rs & l' & E2 & S2 & V2)|(h1 & v' & c' & h2 & s2 & rs & l2 & -> & E2 & S2 & V2 & Hb)].
      * left. exists s', (r :: rs), l'. cbn [SelfModel.lrun]. rewrite E1. cbn [bind]. rewrite E2. cbn [bind map snd]. split; [reflexivity|]. split; [econstructor; eassumption|exact V2].
      * right. exists ((v, c) :: h1), v', c', h2, s2, (r :: rs), l2. split; [reflexivity|]. cbn [SelfModel.lrun]. rewrite E1. cbn [bind]. rewrite E2. cbn [bind map snd].
        split; [reflexivity|]. split; [econstructor; eassumption|]. split; [exact V2|exact Hb].
Qed.
End Generic.

(** ** Links *)
Lemma set_next_same : forall h a b, nx h a = Some b -> exists h', set_next h a (b - a) = Ok h' /\ forall y, h' y = h y.
Proof.
  intros h a b H. unfold nx in H. destruct (h a) as [[n p]|] eqn:Ha; [|discriminate]. cbn in H. injection H as <-.
  unfold set_next, get_link. rewrite Ha. cbn [bind snd]. eexists. split; [reflexivity|]. intros y. unfold upd. destruct (Z.eqb_spec y a) as [->|]; [|reflexivity]. rewrite Ha. replace (a + n - a) with n by lia. reflexivity.
Qed.
Lemma set_prev_same : forall h a b, pv h a = Some b -> exists h', set_prev h a (b - a) = Ok h' /\ forall y, h' y = h y.
Proof.
  intros h a b H. unfold pv in H. destruct (h a) as [[n p]|] eqn:Ha; [|discriminate]. cbn in H. injection H as <-.
  unfold set_prev, get_link. rewrite Ha. cbn [bind fst]. eexists. split; [reflexivity|]. intros y. unfold upd. destruct (Z.eqb_spec y a) as [->|]; [|reflexivity]. rewrite Ha. replace (a + p - a) with p by lia. reflexivity.
Qed.
Lemma nx_same : forall h h' a, (forall y, h' y = h y) -> nx h' a = nx h a. Proof. intros h h' a H. unfold nx. rewrite H. reflexivity. Qed.
Lemma pv_same : forall h h' a, (forall y, h' y = h y) -> pv h' a = pv h a. Proof. intros h h' a H. unfold pv. rewrite H. reflexivity. Qed.
Lemma link2_same : forall h a n p, nx h a = Some n -> pv h a = Some p -> pv h n = Some a -> nx h p = Some a ->
  exists h', link2 h a n p = Ok h' /\ forall y, h' y = h y.
Proof.
  intros h a n p Hn Hp Hnp Hpn. unfold link2. destruct (set_next_same h a n Hn) as (h1 & -> & S1). cbn [bind].
  destruct (set_prev_same h1 a p) as (h2 & -> & S2); [rewrite (pv_same h) by exact S1; exact Hp|]. cbn [bind].
  assert (T2 : forall y, h2 y = h y) by (intros y; rewrite S2; apply S1).
  rewrite (get_link_ok h2 a n p) by (rewrite ?(nx_same h), ?(pv_same h) by exact T2; assumption). cbn [bind fst]. replace (- (n - a)) with (a - n) by lia.
  destruct (set_prev_same h2 n a) as (h3 & -> & S3); [rewrite (pv_same h) by exact T2; exact Hnp|]. cbn [bind].
  assert (T3 : forall y, h3 y = h y) by (intros y; rewrite S3; apply T2).
  rewrite (get_link_ok h3 a n p) by (rewrite ?(nx_same h), ?(pv_same h) by exact T3; assumption). cbn [bind snd]. replace (- (p - a)) with (a - p) by lia.
  destruct (set_next_same h3 p a) as (h4 & -> & S4); [rewrite (nx_same h) by exact T3; exact Hpn|].
  exists h4. split; [reflexivity|]. intros y. rewrite S4. apply T3.
Qed.
Lemma ring_ends : forall h x l, ring h (x :: l) -> exists n p, nx h x = Some n /\ pv h x = Some p /\ pv h n = Some x /\ nx h p = Some x.
Proof.
  intros h x l H. destruct H as (H & _).
  assert (H1 : exists n, nx h x = Some n /\ pv h n = Some x) by (destruct l as [|y l]; cbn [path] in H; [exists x|exists y]; apply H).
  assert (H2 : exists p, nx h p = Some x /\ pv h x = Some p).
  { destruct l as [|y l] using rev_ind; [exists x; exact H|]. apply path_app in H. destruct H as (_ & H). exists y. exact H. }
  destruct H1 as (n & N1 & N2). destruct H2 as (p & P1 & P2). exists n, p. auto.
Qed.
Lemma swap_links_self : forall h x l, ring h (x :: l) -> exists h', swap_links h x x = Ok h' /\ forall y, h' y = h y.
Proof.
  intros h x l H. destruct (ring_ends h x l H) as (n & p & Hn & Hp & Hnp & Hpn). unfold swap_links.
  rewrite (next_link_ok h x n Hn), (prev_link_ok h x p Hp). cbn [bind]. destruct (link2_same h x n p Hn Hp Hnp Hpn) as (h1 & -> & S1). cbn [bind].
  destruct (link2_same h1 x n p) as (h2 & -> & S2); try (rewrite ?(nx_same h), ?(pv_same h) by exact S1; assumption).
  exists h2. split; [reflexivity|]. intros y. rewrite S2. apply S1.
Qed.

Section Sparse.
Context {E K : Type}.
Variable f : simd.
Variable sz : Z.
Variable key_of : E -> K.
Variable hash : K -> Z.
Variable keq : K -> K -> bool.
Hypothesis Hsz : 0 < sz.
Hypothesis KL : key_laws hash keq.
Variable rep : E -> E -> E.
Hypothesis Rep : forall a b, keq (key_of a) (key_of b) = true -> key_of (rep a b) = key_of a.
Notation swiss := (@swiss E).
Notation wf := (wf f key_of hash keq). Notation wf1 := (wf1 f key_of hash keq).
Notation zinv := (zinv f sz key_of hash keq).
Notation scans := (scans f).

Lemma merge_self_loop_ok : forall lim fuel (s : swiss) p, wf1 s -> 0 <= p <= s_cap s -> (p < s_cap s -> exists n, s_nodes s p = Some n) -> s_cap s - p < Z.of_nat fuel ->
  scans (u_merge_self_loop f key_of hash keq fuel lim s p (s_cap s)) (fun r => r = (s, true)).
Proof.
  intros lim. induction fuel as [|fuel IH]; intros s p H Hp Hn Hf; [lia|]. cbn [u_merge_self_loop]. destruct (Z.eqb_spec p (s_cap s)) as [->|Hne]; [apply scans_Ok; reflexivity|].
  destruct (Hn ltac:(lia)) as [n En]. pose proof (w_m _ _ _ _ s H) as M. pose proof (w_n _ _ _ _ s H) as N.
  rewrite (get_node_ok s p n) by ((apply (mw_buf f s M)) || lia || exact En). cbn [bind]. cbv zeta.
  destruct (find_node_wf f key_of hash keq KL s (key_of (fst n)) (or_intror H)) as (r & -> & Hr). cbn [bind].
  destruct Hr as [(Hr & _)|(-> & Habs)].
  - destruct (Z.eqb_spec r (s_cap s)); [lia|]. unfold iter_next. destruct (next_occupied_ok f s M (iter_fuel s) (p + 1)) as [(q & -> & Hst)|(Hna & ->)]; [lia|unfold iter_fuel; lia| |right; auto].
    cbn [bind]. pose proof Hst as (Hq1 & _ & _). apply IH; [exact H|lia| |lia].
    intros Hlt. apply (stops_rest key_of hash s (p + 1) q N ltac:(lia) Hst). exact Hlt.
  - exfalso. assert (X := kl_refl _ _ KL (key_of (fst n))). rewrite (Habs (fst n)) in X; [discriminate|]. rewrite (elems_at s p n) by (lia || exact En). apply in_or_app. right. left. reflexivity.
Qed.
Definition uviews (s : swiss) (l : list E) : Prop := scans (iterate f s) (fun x => map snd x = l).
Definition uholds (s : swiss) (l : list E) : Prop := wf s /\ elems s = l.
Notation ulexec := (lexec (exec f key_of hash keq rep) (@u_swap_self E) (u_merge_self f key_of hash keq) (fun s => s_size s =? 0)).

Lemma merge_self_ok : forall v s, wf s -> env_ok v ->
  scans (u_merge_self f key_of hash keq v s) (fun x => wf (fst x) /\ if snd x then Permutation (elems s) (elems (fst x)) else elems (fst x) = elems s).
Proof.
  intros v s H Hlim. unfold env_ok in Hlim. unfold u_merge_self. pose proof (wf_size f key_of hash keq s H) as [Ls Bs]. pose proof (wf_cap_nonneg f key_of hash keq s H) as Cs. pose proof (max_size_bounds f (s_cap s) ltac:(lia)) as Ms.
  assert (Ea : add64 (s_size s) (s_size s) = s_size s + s_size s) by (unfold add64; rewrite Z.mod_small; [reflexivity|unfold two64; lia]).
  rewrite Ea. destruct (reserve_ok f key_of hash keq KL (ev_lim v) s (s_size s + s_size s) H ltac:(lia)) as (s1 & tr & -> & Hr & _); [unfold two64; lia|].
  cbn [bind]. destruct tr as [tr|]; cbn [resized] in Hr; [|subst s1; apply scans_Ok; cbn [fst snd]; auto]. destruct Hr as (W1 & P1 & _).
  pose proof W1 as [W0|W2].
  - rewrite (begin_iter_empty f key_of hash keq s1 W0), (end_iter_ok f key_of hash keq s1 W1), (w0_cap s1 W0). cbn [bind]. unfold iter_fuel. cbn [u_merge_self_loop]. rewrite Z.eqb_refl. apply scans_Ok. cbn [fst snd]. split; [exact W1|apply Permutation_sym; exact P1].
  - pose proof (w_m _ _ _ _ s1 W2) as M. pose proof (w_n _ _ _ _ s1 W2) as N. pose proof (cap_bounds f s1 M) as Hcb.
    unfold begin_iter. destruct (to_iter_ok f s1 0 M ltac:(lia)) as [(p & -> & Hst)|(Hna & ->)]; [|right; auto]. cbn [bind].
    pose proof Hst as (Hp & _ & _). rewrite (end_iter_mwf f s1 M). cbn [bind]. destruct (stops_rest key_of hash s1 0 p N ltac:(lia) Hst) as [_ Hn].
    eapply scans_imp; [apply merge_self_loop_ok; [exact W2|lia|exact Hn|unfold iter_fuel; lia]|]. intros x ->. cbn [fst snd]. split; [exact W1|apply Permutation_sym; exact P1].
Qed.
Lemma ustep_ok : forall v s l c, uholds s l -> (env_ok v /\ match c with SelfSpec.LOn c => call_ok c | _ => True end) ->
  ulblocked f key_of hash keq rep v s c \/ exists s' r l', ulexec v s c = Ok (s', r) /\ SelfSpec.lspec (spec_step key_of keq rep) (@Permutation E) c l l' r /\ uholds s' l'.
Proof.
  intros v s l c (W & <-) (Hv & Hc). unfold ulblocked. destruct c as [c| | | | |].
  - destruct (exec_ok f key_of hash keq KL rep Rep v s c W Hv Hc) as [(s' & r & E1 & [W1 _] & Hs)|(Hn & Hsc & E1)].
    + right. exists s', (SelfSpec.LRet r), (elems s'). cbn [lexec]. rewrite E1. split; [reflexivity|]. split; [constructor; exact Hs|split; auto].
    + left. split; [exact Hn|]. split; [exact Hsc|]. cbn [lexec]. rewrite E1. reflexivity.
  - right. exists s, SelfSpec.LDone, (elems s). split; [reflexivity|]. split; [constructor|split; auto].
  - right. exists s, SelfSpec.LDone, (elems s). split; [reflexivity|]. split; [constructor|split; auto].
  - right. exists s, SelfSpec.LDone, (elems s). split; [reflexivity|]. split; [constructor|split; auto].
  - cbn [lexec]. destruct (merge_self_ok v s W Hv) as [((s', b) & -> & W' & Hb)|(Hn & ->)]; [right|left; repeat split; auto]. cbn [bind fst snd] in *.
    exists s', (if b then SelfSpec.LDone else SelfSpec.LThrow), (elems s'). split; [reflexivity|]. split; [|split; auto]. destruct b; [constructor; exact Hb|rewrite Hb; constructor].
  - cbn [lexec]. destruct (s_size s =? 0); [right; exists s, SelfSpec.LDone, (elems s); split; [reflexivity|]; split; [constructor; apply Permutation_refl|split; auto]|].
    destruct (merge_self_ok v s W Hv) as [((s', b) & -> & W' & Hb)|(Hn & ->)]; [right|left; repeat split; auto]. cbn [bind fst snd] in *.
    exists s', (if b then SelfSpec.LDone else SelfSpec.LThrow), (elems s'). split; [reflexivity|]. split; [|split; auto]. destruct b; [constructor; exact Hb|rewrite Hb; constructor].
Qed.
Lemma uself_all : forall h, lhistory_ok (fun vc => call_ok (snd vc)) env_ok h ->
  lrefines (exec f key_of hash keq rep) (@u_swap_self E) (u_merge_self f key_of hash keq) (fun s => s_size s =? 0)
    (spec_step key_of keq rep) (@Permutation E) uviews (ulblocked f key_of hash keq rep) empty_swiss [] h.
Proof.
  intros h Hh. apply (generic_ok _ _ _ _ _ _ _ _ uholds (fun vc => env_ok (fst vc) /\ match snd vc with SelfSpec.LOn c => call_ok c | _ => True end)).
  - intros s l (W & <-). apply (iterate_elems f key_of hash keq s W).
  - intros v s l c H (Hv & Hc). apply (ustep_ok v s l c H). split; [exact Hv|exact Hc].
  - split; [apply (empty_inv f key_of hash keq)|reflexivity].
  - exact Hh.
Qed.
Lemma uself_wide : forall h, f = SSE2 \/ f = SSSE3 -> lhistory_ok (fun vc => call_ok (snd vc)) env_ok h ->
  exists s rs l, ulrun f key_of hash keq rep empty_swiss h = Ok (s, rs) /\ SelfSpec.lspec_run (spec_step key_of keq rep) (@Permutation E) (map snd h) [] l rs /\
    exists w, iterate f s = Ok w /\ map snd w = l.
Proof.
  intros h Hf Hh. destruct (uself_all h Hh) as [(s & rs & l & E1 & S1 & V1)|(h1 & v & c & h2 & s1 & rs & l & _ & _ & _ & _ & Hn & _)].
  - exists s, rs, l. split; [exact E1|]. split; [exact S1|]. destruct V1 as [V1|(Hn & _)]; [exact V1|]. destruct Hf, Hn; congruence.
  - destruct Hf, Hn; congruence.
Qed.

(** ** Ordered *)
Definition zholds (hs : heap * oswiss E) (l : list E) : Prop := exists ord, zinv (fst hs) (snd hs) ord /\ cont (snd hs) ord = l.
Notation zlexec := (lexec (zexec f sz key_of hash keq rep) (@z_swap_self E) (z_merge_self f sz key_of hash keq) (fun hs => s_size (os_t (snd hs)) =? 0)).
Lemma z_swap_self_ok : forall h s ord, zinv h s ord -> exists h', z_swap_self (h, s) = Ok (h', s) /\ zinv h' s ord.
Proof.
  intros h s ord H. destruct (swap_links_self h _ _ (rl_ring _ _ _ _ _ _ (zi_rl _ _ _ _ _ _ _ _ H))) as (h' & E1 & S1).
  exists h'. split; [unfold z_swap_self, s_swap; rewrite E1; cbn [bind]; destruct s; reflexivity|]. apply (zinv_same f sz key_of hash keq h); [exact H|]. intros a _. apply S1.
Qed.
Lemma z_merge_self_loop_ok : forall m fuel v h s x0 kept pos, zinv h s (x0 :: m ++ kept) -> prev_link h pos = Ok (last (map (fun i => os_base s + i * sz) (x0 :: m)) 0) -> (length m < fuel)%nat ->
  z_merge_self_loop f sz key_of hash keq fuel v h s pos (os_base s + x0 * sz) = Ok (h, s, true).
Proof.
  induction m as [|i m IH] using rev_ind; intros fuel v h s x0 kept pos H Hp Hf.
  - destruct fuel as [|fuel]; [cbn [length] in Hf; lia|]. cbn [z_merge_self_loop map last] in *. rewrite Hp. cbn [bind]. rewrite Z.eqb_refl. reflexivity.
  - rewrite app_length in Hf. cbn [length] in Hf. destruct fuel as [|fuel]; [lia|]. cbn [z_merge_self_loop]. rewrite Hp. cbn [bind]. replace (x0 :: m ++ [i]) with ((x0 :: m) ++ [i]) by reflexivity. rewrite map_app. cbn [map]. rewrite last_last.
    rewrite <- app_assoc in H. cbn [app] in H. assert (H' : zinv h s ((x0 :: m) ++ i :: kept)) by exact H.
    pose proof (rl_nd sz _ _ _ _ _ (zi_rl _ _ _ _ _ _ _ _ H)) as Hnd.
    assert (Hne : i <> x0) by (intros ->; inversion Hnd as [|? ? X _]; apply X; apply in_or_app; right; left; reflexivity).
    destruct (Z.eqb_spec (os_base s + i * sz) (os_base s + x0 * sz)) as [X|_]; [exfalso; apply (SwissOrderedOps.slot_ne sz Hsz s i x0 Hne X)|].
    destruct (zi_slot f sz key_of hash keq Hsz h s _ i H' ltac:(apply in_or_app; right; left; reflexivity)) as (_ & _ & _ & (e & hh) & Hn & _).
    destruct (value_ok f sz key_of hash keq Hsz h s _ i _ H' Hn) as (_ & Hv & _). unfold sslot in Hv. rewrite Hv. cbn [bind fst]. cbv zeta.
    destruct (find_present f sz key_of hash keq KL h s _ e H') as (r & -> & [(_ & Hpr & _)|(Hr & _)]); cbn [bind].
    { exfalso. apply present_false in Hpr. rewrite (cont_split s (x0 :: m) i kept _ Hn) in Hpr. assert (X := kl_refl _ _ KL (key_of e)). rewrite (Hpr e) in X; [discriminate|]. apply in_or_app. right. left. reflexivity. }
    destruct (Z.eqb_spec r (s_cap (os_t s))); [contradiction|]. apply (IH fuel v h s x0 (i :: kept)); [exact H| |lia].
    rewrite (prev_of sz h _ _ _ (x0 :: m) i kept (zi_rl _ _ _ _ _ _ _ _ H')). f_equal. destruct (exists_last (l := map (fun i => os_base s + i * sz) (x0 :: m)) ltac:(discriminate)) as (l & z & ->). change (os_hdr s :: l ++ [z]) with ((os_hdr s :: l) ++ [z]). rewrite !last_last. reflexivity.
Qed.
Lemma z_merge_self_ok : forall v h s ord, zinv h s ord -> env_ok (sv_e v) ->
  z_merge_self f sz key_of hash keq v (h, s) = Err BadPlacement \/
  exists h' s' ord' b, z_merge_self f sz key_of hash keq v (h, s) = Ok (h', s', b) /\ zinv h' s' ord' /\ cont s' ord' = cont s ord.
Proof.
  intros v h s ord H Hlim. unfold env_ok in Hlim. unfold z_merge_self, s_reserve. pose proof (zi_wf _ _ _ _ _ _ _ _ H) as W.
  pose proof (wf_size f key_of hash keq (os_t s) W) as [Ls Bs]. pose proof (wf_cap_nonneg f key_of hash keq (os_t s) W) as Cs. pose proof (max_size_bounds f (s_cap (os_t s)) ltac:(lia)) as Ms.
  assert (Ea : add64 (s_size (os_t s)) (s_size (os_t s)) = s_size (os_t s) + s_size (os_t s)) by (unfold add64; rewrite Z.mod_small; [reflexivity|unfold two64; lia]).
  rewrite Ea. destruct (reserve_ok f key_of hash keq KL (ev_lim (sv_e v)) (os_t s) (s_size (os_t s) + s_size (os_t s)) W ltac:(lia)) as (t1 & o & E1 & Hr & _); [unfold two64; lia|].
  rewrite E1. cbn [bind]. destruct (resized_ok f sz key_of hash keq Hsz v h s ord t1 o H Hr) as [->|(h1 & s1 & ord1 & -> & _ & H1 & C1 & _)].
  - intros tr ->. apply (reserve_swapless _ _ _ _ _ _ E1).
  - left. reflexivity.
  - right. cbn [bind]. destruct o as [tr|]; [|exists h1, s1, ord1, false; auto].
    exists h1, s1, ord1, true. split; [|auto]. pose proof (zi_rl _ _ _ _ _ _ _ _ H1) as L. pose proof (rl_ring _ _ _ _ _ _ L) as R.
    destruct ord1 as [|x0 m].
    + destruct R as ((R1 & R2) & _). rewrite (next_link_ok _ _ _ R1). cbn [bind]. unfold iter_fuel. cbn [z_merge_self_loop]. rewrite (prev_link_ok _ _ _ R2). cbn [bind]. rewrite Z.eqb_refl. reflexivity.
    + assert (Hnx : next_link h1 (os_hdr s1) = Ok (os_base s1 + x0 * sz)) by (destruct R as (R & _); cbn [map path] in R; apply next_link_ok; apply R).
      rewrite Hnx. cbn [bind]. apply (z_merge_self_loop_ok m _ v h1 s1 x0 []); [rewrite app_nil_r; exact H1| |].
      * destruct R as (R & _). destruct (exists_last (l := map (fun i => os_base s1 + i * sz) (x0 :: m)) ltac:(discriminate)) as (l & z & El). rewrite El in R |- *. apply path_app in R. destruct R as (_ & R). rewrite last_last. apply prev_link_ok. apply R.
      * pose proof (rl_len _ _ _ _ _ _ L) as Hlen. cbn [length] in Hlen. unfold iter_fuel. lia.
Qed.
Lemma zself_step : forall v hs l c, zholds hs l -> (env_ok (sv_e v) /\ match c with SelfSpec.LOn c => zcall_ok c | _ => True end) ->
  zlblocked f sz key_of hash keq rep v hs c \/ exists s' r l', zlexec v hs c = Ok (s', r) /\ SelfSpec.lspec (zspec key_of keq rep) eq c l l' r /\ zholds s' l'.
Proof.
  intros v (h, s) l c (ord & H & <-) (Hv & Hc). cbn [fst snd] in *. unfold zlblocked.
  assert (Hm : z_merge_self f sz key_of hash keq v (h, s) = Err BadPlacement \/ exists s' b, z_merge_self f sz key_of hash keq v (h, s) = Ok (s', b) /\ zholds s' (cont s ord)).
  { destruct (z_merge_self_ok v h s ord H Hv) as [X|(h' & s' & ord' & b & X & H' & C')]; [left; exact X|right]. exists (h', s'), b. split; [exact X|]. exists ord'. auto. }
  destruct c as [c| | | | |].
  - destruct (zstep_ok f sz key_of hash keq rep Hsz KL Rep v h s ord c H Hv Hc) as [Hb|(h' & s' & r & ord' & E1 & H' & _ & _ & S')]; [left; exact Hb|right].
    exists (h', s'), (SelfSpec.LRet r), (cont s' ord'). cbn [lexec]. rewrite E1. split; [reflexivity|]. split; [constructor; exact S'|]. exists ord'. auto.
  - right. destruct (z_swap_self_ok h s ord H) as (h' & E1 & H'). exists (h', s), SelfSpec.LDone, (cont s ord). cbn [lexec]. rewrite E1. split; [reflexivity|]. split; [constructor|]. exists ord. auto.
  - right. exists (h, s), SelfSpec.LDone, (cont s ord). split; [reflexivity|]. split; [constructor|]. exists ord. auto.
  - right. exists (h, s), SelfSpec.LDone, (cont s ord). split; [reflexivity|]. split; [constructor|]. exists ord. auto.
  - destruct Hm as [Hm|(s' & b & Hm & Hh)]; [left; exact Hm|right]. exists s', (if b then SelfSpec.LDone else SelfSpec.LThrow), (cont s ord). cbn [lexec]. rewrite Hm. split; [reflexivity|]. split; [destruct b; constructor; reflexivity|exact Hh].
  - cbn [lexec snd]. destruct (s_size (os_t s) =? 0); [right; exists (h, s), SelfSpec.LDone, (cont s ord); split; [reflexivity|]; split; [constructor; reflexivity|]; exists ord; auto|].
    destruct Hm as [Hm|(s' & b & Hm & Hh)]; [left; exact Hm|right]. exists s', (if b then SelfSpec.LDone else SelfSpec.LThrow), (cont s ord). rewrite Hm. split; [reflexivity|]. split; [destruct b; constructor; reflexivity|exact Hh].
Qed.
Lemma zself_all : forall (h0 : heap) a h, h0 a = Some (0, 0) -> lhistory_ok (fun vc => zcall_ok (snd vc)) (fun v => env_ok (sv_e v)) h ->
  lrefines (zexec f sz key_of hash keq rep) (@z_swap_self E) (z_merge_self f sz key_of hash keq) (fun hs => s_size (os_t (snd hs)) =? 0)
    (zspec key_of keq rep) eq (zlists sz) (zlblocked f sz key_of hash keq rep) (h0, s_new a) [] h.
Proof.
  intros h0 a h H0 Hh. apply (generic_ok _ _ _ _ _ _ _ _ zholds (fun vc => env_ok (sv_e (fst vc)) /\ match snd vc with SelfSpec.LOn c => zcall_ok c | _ => True end)).
  - intros (h1, s) l (ord & H & <-). split; [apply (SwissOrderedRefine.iterate_ok f sz key_of hash keq Hsz); exact H|apply (backwards_ok f sz key_of hash keq Hsz); exact H].
  - intros v s l c H (Hv & Hc). apply (zself_step v s l c H). split; [exact Hv|exact Hc].
  - exists []. split; [|reflexivity]. apply SwissOrderedWorldProofs.new_zinv. exact H0.
  - exact Hh.
Qed.
End Sparse.

Section Dense.
Import DenseSpec DenseModel DenseRun DenseInv DenseRefine OrderedSpec OrderedDense OrderedRun OrderedLinks OrderedRefine OrderedWorldProofs.
Context {E K : Type}.
Variable sz : Z.
Variable nk : nat.
Variable key_of : nat -> E -> K.
Variable hash : K -> Z.
Variable keq : K -> K -> bool.
Hypothesis Hsz : 0 < sz.
Hypothesis KL : MapSpec.key_laws hash keq.
Variable rep : E -> E -> E.
Hypothesis rep_key : forall x e, key_of 0%nat (rep x e) = key_of 0%nat x.
Notation dwf := (dwf nk key_of hash keq).
Notation oinv := (oinv sz nk key_of hash keq).

Definition dholds (s : dense E) (l : list E) : Prop := dwf s /\ delems s = l.
Lemma dself_step : forall v s l c, dholds s l -> (denv_ok v /\ match c with SelfSpec.LOn c => dcall_ok nk c | _ => True end) /\ c <> SelfSpec.LMerge /\ c <> SelfSpec.LMergeMove ->
  dlblocked nk key_of hash keq rep v s c \/ exists s' r l', lexec (dexec nk key_of hash keq rep) (@d_swap_self E) no_function (fun s => d_size s =? 0) v s c = Ok (s', r) /\ SelfSpec.lspec (dspec nk key_of keq rep) eq c l l' r /\ dholds s' l'.
Proof.
  intros v s l c (W & <-) ((Hv & Hc) & Hm1 & Hm2). destruct c as [c| | | | |]; try congruence.
  - destruct (step_ok nk key_of hash keq rep KL rep_key v s c W Hv Hc) as [Hb|(s' & r & E1 & W1 & Hs)]; [left; exact Hb|right].
    exists s', (SelfSpec.LRet r), (delems s'). cbn [lexec]. rewrite E1. split; [reflexivity|]. split; [constructor; exact Hs|split; auto].
  - right. exists s, SelfSpec.LDone, (delems s). split; [reflexivity|]. split; [constructor|split; auto].
  - right. exists s, SelfSpec.LDone, (delems s). split; [reflexivity|]. split; [constructor|split; auto].
  - right. exists s, SelfSpec.LDone, (delems s). split; [reflexivity|]. split; [constructor|split; auto].
Qed.
Lemma dself_all : forall h, lhistory_ok (fun vc => dcall_ok nk (snd vc)) denv_ok h -> no_merge h ->
  lrefines (dexec nk key_of hash keq rep) (@d_swap_self E) no_function (fun s => d_size s =? 0)
    (dspec nk key_of keq rep) eq (fun s l => iterate s = Ok l) (dlblocked nk key_of hash keq rep) empty_dense [] h.
Proof.
  intros h Hh Hm. apply (generic_ok _ _ _ _ _ _ _ _ dholds (fun vc => (denv_ok (fst vc) /\ match snd vc with SelfSpec.LOn c => dcall_ok nk c | _ => True end) /\ snd vc <> SelfSpec.LMerge /\ snd vc <> SelfSpec.LMergeMove)).
  - intros s l (W & <-). apply (DenseRefine.iterate_ok nk key_of hash keq s W).
  - intros v s l c H Hc. apply (dself_step v s l c H Hc).
  - split; [apply empty_wf|reflexivity].
  - unfold lhistory_ok, no_merge in *. rewrite Forall_forall in *. intros x Hx. split; [apply (Hh x Hx)|apply (Hm x Hx)].
Qed.

Definition oholds (hs : heap * odense E) (l : list E) : Prop := exists ord, oinv (fst hs) (snd hs) ord /\ ocont (snd hs) ord = l.
Lemma o_swap_self_ok : forall h s ord, oinv h s ord -> exists h', o_swap_self (h, s) = Ok (h', s) /\ oinv h' s ord.
Proof.
  intros h s ord H. destruct (swap_links_self h _ _ (ol_ring _ _ _ _ _ _ _ (proj2 H))) as (h' & E1 & S1).
  exists h'. split; [unfold o_swap_self, o_swap; rewrite E1; cbn [bind]; destruct s; reflexivity|]. apply (oinv_same sz nk key_of hash keq h); [exact H|]. intros a _. apply S1.
Qed.
Lemma oself_step : forall v hs l c, oholds hs l -> (denv_ok (ov_d v) /\ match c with SelfSpec.LOn c => ocall_ok nk c | _ => True end) /\ c <> SelfSpec.LMerge /\ c <> SelfSpec.LMergeMove ->
  olblocked sz nk key_of hash keq rep v hs c \/ exists s' r l', lexec (oexec sz nk key_of hash keq rep) (@o_swap_self E) no_function (fun hs => d_size (o_d (snd hs)) =? 0) v hs c = Ok (s', r) /\ SelfSpec.lspec (ospec nk key_of keq rep) eq c l l' r /\ oholds s' l'.
Proof.
  intros v (h, s) l c (ord & H & <-) ((Hv & Hc) & Hm1 & Hm2). cbn [fst snd] in *. destruct c as [c| | | | |]; try congruence.
  - destruct (ostep_ok sz nk key_of hash keq rep Hsz KL rep_key v h s ord c H Hv Hc) as [Hb|(h' & s' & r & E1 & ord' & H' & F' & S')]; [left; exact Hb|right].
    exists (h', s'), (SelfSpec.LRet r), (ocont s' ord'). cbn [lexec]. rewrite E1. split; [reflexivity|]. split; [constructor; exact S'|]. exists ord'. auto.
  - right. destruct (o_swap_self_ok h s ord H) as (h' & E1 & H'). exists (h', s), SelfSpec.LDone, (ocont s ord). cbn [lexec]. rewrite E1. split; [reflexivity|]. split; [constructor|]. exists ord. auto.
  - right. exists (h, s), SelfSpec.LDone, (ocont s ord). split; [reflexivity|]. split; [constructor|]. exists ord. auto.
  - right. exists (h, s), SelfSpec.LDone, (ocont s ord). split; [reflexivity|]. split; [constructor|]. exists ord. auto.
Qed.
Lemma oself_all : forall (h0 : heap) a h, h0 a = Some (0, 0) -> lhistory_ok (fun vc => ocall_ok nk (snd vc)) (fun v => denv_ok (ov_d v)) h -> no_merge h ->
  lrefines (oexec sz nk key_of hash keq rep) (@o_swap_self E) no_function (fun hs => d_size (o_d (snd hs)) =? 0)
    (ospec nk key_of keq rep) eq (fun hs l => o_iterate sz (fst hs) (snd hs) = Ok l /\ o_backwards sz (fst hs) (snd hs) = Ok (rev l))
    (olblocked sz nk key_of hash keq rep) (h0, o_new a) [] h.
Proof.
  intros h0 a h H0 Hh Hm. apply (generic_ok _ _ _ _ _ _ _ _ oholds (fun vc => (denv_ok (ov_d (fst vc)) /\ match snd vc with SelfSpec.LOn c => ocall_ok nk c | _ => True end) /\ snd vc <> SelfSpec.LMerge /\ snd vc <> SelfSpec.LMergeMove)).
  - intros (h1, s) l (ord & H & <-). split; [apply (o_iterate_ok sz nk key_of hash keq Hsz); exact H|apply (o_backwards_ok sz nk key_of hash keq Hsz); exact H].
  - intros v s l c H Hc. apply (oself_step v s l c H Hc).
  - exists []. split; [|reflexivity]. apply OrderedRefine.new_inv. exact H0.
  - unfold lhistory_ok, no_merge in *. rewrite Forall_forall in *. intros x Hx. split; [apply (Hh x Hx)|apply (Hm x Hx)].
Qed.
End Dense.
