(** Proofs about moves between ordered sparse containers left by a throwing element move. *)
From Coq Require Import ZArith List Bool Lia Permutation Arith.
From Verif Require Import Base BaseLemmas Bits BitsProofs SwissModel SwissArith SwissCap SwissInv SwissOps SwissClean SwissIter SwissRoom MapSpec WorldSpec World WorldProofs SwissRun SwissRefine SwissFinal SwissMore SwissCopy
  LinkModel LinkProofs OrderedLinks OrderedMoves SwissOrderedSpec SwissOrderedWorldSpec SwissOrdered SwissOrderedRun SwissOrderedWorld SwissOrderedLinks SwissOrderedProofs SwissOrderedOps SwissOrderedRefine SwissOrderedStep SwissOrderedMoves SwissOrderedMerge SwissOrderedWorldProofs.
From Verif Require UnequalOrdered.
From Verif Require Import UnequalModel UnequalSwiss CopyModel MoveLeftModel MoveLeftSwiss MoveLeftSparseModel.
Import ListNotations.
Open Scope Z_scope.

Section Links.
Context {E K : Type}.
Variable f : simd.
Variable sz : Z.
Variable key_of : E -> K.
Variable hash : K -> Z.
Variable keq : K -> K -> bool.
Hypothesis Hsz : 0 < sz.
Hypothesis KL : key_laws hash keq.
Notation swiss := (@swiss E).
Notation oswiss := (oswiss E).
Notation wf1 := (wf1 f key_of hash keq).
Notation rl := (rl sz). Notation mine := (mine sz). Notation sslot := (sslot sz).
Notation zinv := (zinv f sz key_of hash keq).
Notation drained := (drained f key_of hash keq).

Lemma until_filter : forall (t : swiss) nb ob, wf1 t -> forall l n h, (forall i, In i l -> 0 <= i < s_cap t) ->
  relink_until f sz n t nb ob l h = foldM (fun h i => relink_from h (nb + i * sz) (ob + i * sz)) (firstn (S n) (filter (full_slot t) l)) h.
Proof.
  intros t nb ob W. pose proof (w_m _ _ _ _ t W) as M. pose proof (w_n _ _ _ _ t W) as N. pose proof (cap_bounds f t M) as Hcb. pose proof (W_pos f) as HW.
  induction l as [|i l IH]; intros n h Hl; [reflexivity|]. pose proof (Hl i (or_introl eq_refl)) as Hi. cbn [filter relink_until]. rewrite get_meta_ok by ((apply (mw_buf f t M)) || lia). cbn [bind].
  rewrite (ncons_occ key_of hash t i N Hi). unfold full_slot at 1. destruct (s_nodes t i) as [x|].
  - cbn [firstn foldM]. destruct (relink_from h (nb + i * sz) (ob + i * sz)) as [h1|]; cbn [bind]; [|reflexivity]. destruct n as [|n]; [reflexivity|]. apply IH. intros k Hk. apply Hl. right. exact Hk.
  - apply IH. intros k Hk. apply Hl. right. exact Hk.
Qed.
Lemma part_ring : forall l h x nb ob ord hd, ring h (x :: map (fun i => ob + i * sz) ord) -> NoDup l -> (forall i, In i l -> In i ord) ->
  (forall i, In i l -> has h (nb + i * sz) /\ nb + i * sz <> hd /\ ~ In (nb + i * sz) (x :: map (fun i => ob + i * sz) ord)) -> hd <> x -> (forall i, In i ord -> ob + i * sz <> hd) ->
  exists h', foldM (fun t i => relink_from t (nb + i * sz) (ob + i * sz)) l h = Ok h' /\ h' hd = h hd /\
    exists r, ring h' (x :: r) /\ length r = length ord /\ forall i, In i l -> In (nb + i * sz) r.
Proof.
  intros l h x nb ob ord hd R Hnd Hl Hnew Hhx Hho. set (mv := map (fun i => (ob + i * sz, nb + i * sz)) l).
  assert (Hf : map fst mv = map (fun i => ob + i * sz) l) by (unfold mv; rewrite map_map; apply map_ext; reflexivity).
  assert (Hs : map snd mv = map (fun i => nb + i * sz) l) by (unfold mv; rewrite map_map; apply map_ext; reflexivity).
  assert (Hmap : forall b, NoDup (map (fun i => b + i * sz) l)) by (intros b; apply FinFun.Injective_map_NoDup; [|exact Hnd]; intros i j X; apply Z.mul_reg_r with sz; lia).
  destruct (moves_ring mv h x (map (fun i => ob + i * sz) ord)) as (h' & E1 & R' & O).
  - exact R.
  - rewrite Hf. apply Hmap.
  - rewrite Hs. apply Hmap.
  - rewrite Hf. intros a Ha. apply in_map_iff in Ha. destruct Ha as (i & <- & Hi). apply in_map_iff. exists i. split; [reflexivity|apply Hl; exact Hi].
  - rewrite Hs. intros b Hb. apply in_map_iff in Hb. destruct Hb as (i & <- & Hi). destruct (Hnew i Hi) as (X1 & _ & X3). auto.
  - exists h'. rewrite UnequalOrdered.shift_foldM. split; [exact E1|]. rewrite Hs in O. split.
    + apply O. intros [Y|Y]; [congruence|]. apply in_app_or in Y. destruct Y as [Y|Y]; apply in_map_iff in Y; destruct Y as (i & Y & Hi); [apply (Hho i Hi); exact Y|]. exact (proj1 (proj2 (Hnew i Hi)) Y).
    + exists (map (dest mv) (map (fun i => ob + i * sz) ord)). split; [exact R'|]. split; [rewrite !map_length; reflexivity|]. intros i Hi. apply in_map_iff. exists (ob + i * sz). split; [|apply in_map_iff; exists i; split; [reflexivity|apply Hl; exact Hi]].
      assert (Hd : In (ob + i * sz, dest mv (ob + i * sz)) mv) by (apply dest_some; rewrite Hf; apply in_map_iff; exists i; auto).
      unfold mv in Hd at 2. apply in_map_iff in Hd. destruct Hd as (k & Ek & _). injection Ek as X1 X2. assert (k = i) by (apply Z.mul_reg_r with sz; lia). subst k. symmetry. exact X2.
Qed.
(** What is left of the source [o] and the target after [n] moves. *)
Definition zleft (n : nat) (o : oswiss) (h' : heap) (s' o' : oswiss) : Prop :=
  size (os_t o') = size (os_t o) /\ next_link h' (os_hdr o') = Ok (os_hdr o') /\ (os_t o' = os_t o \/ (0 < n)%nat /\ drained n (os_t o) (os_t o')) /\
  size (os_t s') = 0 /\ elems (os_t s') = firstn n (elems (os_t o)) /\
  exists a l ks, next_link h' (os_hdr s') = Ok a /\ walk (S (Z.to_nat (size (os_t o)))) h' a (os_hdr s') = Ok l /\ Z.of_nat (length l) = size (os_t o) /\
    NoDup ks /\ length ks = S n /\ forall k, In k ks -> 0 <= k < bucket_count (os_t s') /\ In (sslot s' k) l.

Lemma full_length : forall (t : swiss) l, length (filter (full_slot t) l) = length (flat_map (fun i => match s_nodes t i with Some x => [x] | None => [] end) l).
Proof.
  clear. intros t. induction l as [|i l IH]; [reflexivity|]. cbn [filter flat_map]. unfold full_slot at 1. destruct (s_nodes t i); cbn [length app]; rewrite IH; reflexivity.
Qed.

Lemma left_core : forall n v h (s o : oswiss) os oo t, rl h s os -> zinv h o oo -> (forall a, mine s a -> ~ mine o a) -> cleared s t (os_t o) -> (n < length (elems (os_t o)))%nat -> s_cap (os_t o) <= ev_lim (sv_e v) ->
  exists h1, relink_from h (os_hdr s) (os_hdr o) = Ok h1 /\
  (sm_move_data f sz n v h1 (with_t s t) o = Err BadPlacement \/
   exists h' s' o', sm_move_data f sz n v h1 (with_t s t) o = Ok (h', s', o', false) /\ zleft n o h' s' o').
Proof.
  intros n v h s o os oo t Ls Zo Hdis [C1 C2 C3 C4] Hn Hlim. pose proof (zi_rl _ _ _ _ _ _ _ _ Zo) as Lo. pose proof (zi_tied _ _ _ _ _ _ _ _ Zo) as To.
  destruct (zi_wf _ _ _ _ _ _ _ _ Zo) as [W0|W]; [rewrite (elems_empty (os_t o) (w0_cap _ W0)) in Hn; cbn [length] in Hn; lia|].
  pose proof (wf1_elems_length f key_of hash keq _ W) as Hlen. pose proof (cap_bounds f _ (w_m _ _ _ _ _ W)) as Hcb.
  assert (Hms : mine s (os_hdr s)) by (left; reflexivity). assert (Hmo : mine o (os_hdr o)) by (left; reflexivity).
  assert (Hord : forall i, In i oo -> 0 <= i < s_cap (os_t o)) by (apply (rl_in _ _ _ _ _ _ Lo)).
  assert (Hoh : forall a, mine o a -> has h a) by (intros a; apply (mine_has sz h o oo a Lo)).
  pose proof (rl_area sz h s os Ls) as A. pose proof (rl_area sz h o oo Lo) as Ao.
  assert (Hnhd : forall i, 0 <= i < s_cap (os_t s) -> os_hdr s <> os_base s + i * sz) by (intros i Hi X; apply (ar_ne _ _ _ A i Hi); symmetry; exact X).
  destruct (ring_move h (os_hdr s) (os_hdr o) (map (sslot o) oo)) as (h1 & -> & R & O & Z0).
  { apply (rl_ring _ _ _ _ _ _ Lo). }
  { intros X. apply (Hdis _ Hms). apply (ring_mine sz h o oo _ Lo). exact X. }
  { apply A. }
  exists h1. split; [reflexivity|].
  assert (Hroom : s_cap t < s_cap (os_t o) \/ (s_cap t = s_cap (os_t o) /\ s_buf t = Live /\ forall j, s_nodes t j = None)) by (destruct C4 as [C4|(C4 & C4')]; [left; exact C4|right; auto]).
  destruct (m_move_data_throws f key_of hash keq KL n (ev_lim (sv_e v)) t (os_t o) W Hn C1 Hroom Hlim) as (t1 & o1 & Em & Hu & _ & Ht1 & H0 & H1).
  unfold sm_move_data. cbn [with_t os_t os_hdr os_base]. rewrite Em. cbn [bind]. destruct (Z.eqb_spec (s_size (os_t o)) 0) as [|_]; [lia|].
  destruct (realloc_room (ev_lim (sv_e v)) t (os_t o) ltac:(lia) Hroom C1) as (s1 & okb & -> & _ & Hok & _). rewrite (Hok Hlim). cbn [bind snd negb].
  assert (Hnb : s_realloc sz v h1 (with_t s t) (s_cap (os_t o)) false = Err BadPlacement \/
    exists h2 nb, s_realloc sz v h1 (with_t s t) (s_cap (os_t o)) false = Ok (h2, nb) /\ (forall i, 0 <= i < s_cap (os_t o) -> has h2 (nb + i * sz) /\ nb + i * sz <> os_hdr s /\ ~ mine o (nb + i * sz)) /\
      (forall a, mine o a -> h2 a = h1 a) /\ h2 (os_hdr s) = h1 (os_hdr s)).
  { unfold s_realloc. cbn [with_t os_t os_base]. rewrite C3. destruct (Z.ltb_spec (s_cap (os_t s)) (s_cap (os_t o))) as [Hlt|Hge].
    - set (h0 := unplace h1 (os_base s) sz (s_cap (os_t s))). assert (Hh0 : forall a, (a = os_hdr s \/ ~ mine s a) -> h0 a = h1 a).
      { intros a Ha. unfold h0, unplace. assert (Hx : slot_ix (os_base s) sz (s_cap (os_t s)) a = None); [|rewrite Hx; reflexivity]. destruct Ha as [->|Ha]; [|apply slot_ix_mine; assumption].
        apply slot_ix_none_intro; [exact Hsz|]. exact Hnhd. }
      destruct (place_cases (sv_junk v) h0 (sv_base v) sz (s_cap (os_t o)) Hsz) as [->|(h2 & -> & Hfree & Hnew & Hold)]; cbn [bind]; [left; reflexivity|right].
      exists h2, (sv_base v). split; [reflexivity|].
      assert (Hno : forall a, has h0 a -> slot_ix (sv_base v) sz (s_cap (os_t o)) a = None) by (intros a Ha; apply slot_ix_none_intro; [exact Hsz|]; intros i Hi ->; apply Ha; apply Hfree; exact Hi).
      assert (Hso : forall a, mine o a -> h0 a = h1 a /\ has h0 a) by (intros a Ha; assert (X : h0 a = h1 a) by (apply Hh0; right; intros Y; exact (Hdis a Y Ha)); split; [exact X|unfold has; rewrite X; apply O; apply Hoh; exact Ha]).
      assert (Hshd : has h0 (os_hdr s)) by (unfold has; rewrite Hh0 by (left; reflexivity); apply O; apply A).
      split; [|split].
      + intros i Hi. split; [apply Hnew; exact Hi|]. split; [intros X; apply Hshd; rewrite <- X; apply Hfree; exact Hi|]. intros X. apply (proj2 (Hso _ X)). apply Hfree. exact Hi.
      + intros a Ha. rewrite Hold by (apply Hno; apply Hso; exact Ha). apply Hso. exact Ha.
      + rewrite Hold by (apply Hno; exact Hshd). apply Hh0. left. reflexivity.
    - right. exists h1, (os_base s). split; [reflexivity|]. split; [|split; reflexivity].
      intros i Hi. assert (Hi' : 0 <= i < s_cap (os_t s)) by lia. split; [apply O; apply A; exact Hi'|]. split; [apply A; exact Hi'|]. apply Hdis. right. exists i. auto. }
  destruct Hnb as [->|(h2 & nb & -> & N1 & N2 & N3)]; cbn [bind]; [left; reflexivity|right].
  assert (Hos : forall i, 0 <= i < s_cap (os_t o) -> mine o (os_base o + i * sz)) by (intros i Hi; right; exists i; split; [lia|reflexivity]).
  assert (R2 : ring h2 (os_hdr s :: map (fun i => os_base o + i * sz) oo)).
  { apply (ring_frame h1); [| |exact R]; intros y Hy; (unfold nx, pv; destruct Hy as [<-|Hy]; [rewrite N3; reflexivity|]; apply in_map_iff in Hy; destruct Hy as (i & <- & Hi); rewrite N2 by (apply Hos; apply Hord; exact Hi); reflexivity). }
  rewrite (until_filter (os_t o) nb (os_base o) W (zrange (s_cap (os_t o)))) by (intros i Hi; apply zrange_In; exact Hi).
  set (fl := filter (full_slot (os_t o)) (zrange (s_cap (os_t o)))).
  assert (Hfl : forall i, In i (firstn (S n) fl) -> In i oo).
  { intros i Hi. assert (Hi' : In i fl) by (rewrite <- (firstn_skipn (S n) fl); apply in_or_app; left; exact Hi). unfold fl in Hi'. apply filter_In in Hi'. destruct Hi' as (_ & X). apply To. unfold full_slot in X. intros Y. rewrite Y in X. discriminate. }
  assert (Hnd : NoDup (firstn (S n) fl)).
  { assert (X : NoDup fl) by (apply NoDup_filter; apply zrange_NoDup). rewrite <- (firstn_skipn (S n) fl) in X. clear - X. induction (firstn (S n) fl) as [|a l IH]; [constructor|]. cbn [app] in X. apply NoDup_cons_iff in X. destruct X as (X1 & X2). constructor; [intros Y; apply X1; apply in_or_app; left; exact Y|apply IH; exact X2]. }
  destruct (part_ring (firstn (S n) fl) h2 (os_hdr s) nb (os_base o) oo (os_hdr o) R2 Hnd Hfl) as (h3 & -> & Z3 & l & Rl & Ll & Hin).
  - intros i Hi. apply Hfl in Hi. apply Hord in Hi. destruct (N1 i Hi) as (X1 & X2 & X3). split; [exact X1|]. split; [intros X; apply X3; left; exact X|]. intros [Y|Y]; [congruence|]. apply in_map_iff in Y. destruct Y as (k & Y & Hk). apply X3. rewrite <- Y. apply Hos. apply Hord. exact Hk.
  - intros X. apply (Hdis _ Hms). left. symmetry. exact X.
  - intros i Hi. apply (ar_ne _ _ _ Ao). apply Hord. exact Hi.
  - cbn [bind]. exists h3, (mkos t1 (os_hdr s) nb), (with_t o o1). split; [reflexivity|].
    assert (Zf : h3 (os_hdr o) = Some (0, 0)) by (rewrite Z3, N2 by exact Hmo; exact Z0).
    assert (Hs1 : size o1 = size (os_t o) /\ (o1 = os_t o \/ (0 < n)%nat /\ drained n (os_t o) o1)) by (destruct n as [|n]; [rewrite (H0 eq_refl); auto|split; [apply (H1 ltac:(lia))|right; split; [lia|apply H1; lia]]]).
    destruct Hu as (Hu1 & Hu2 & _). unfold zleft. cbn [with_t os_t os_hdr]. split; [apply Hs1|]. split; [unfold next_link, get_link; rewrite Zf; cbn [bind fst]; rewrite Z.add_0_r; reflexivity|].
    split; [apply Hs1|]. split; [exact Hu1|]. split; [rewrite Hu2; apply map_id|].
    assert (Hoo : Z.of_nat (length oo) = s_size (os_t o)) by (destruct (zi_len _ _ _ _ _ _ _ _ Zo) as (X & Y); lia).
    unfold size. destruct (ring_walk h3 (os_hdr s) l (S (Z.to_nat (s_size (os_t o)))) Rl ltac:(lia)) as (a & Ea & Ew). exists a, l, (firstn (S n) fl). split; [exact Ea|]. split; [exact Ew|]. split; [lia|]. split; [exact Hnd|].
    split; [apply firstn_length_le; unfold fl; rewrite full_length; unfold elems, collect in Hn; rewrite map_length in Hn; lia|]. intros k Hk. split; [unfold bucket_count; rewrite Ht1; apply Hord; apply Hfl; exact Hk|]. apply Hin. exact Hk.
Qed.
End Links.

Section World.
Context {E K : Type}.
Variable f : simd.
Variable sz : Z.
Variable key_of : E -> K.
Variable hash : K -> Z.
Variable keq : K -> K -> bool.
Variable rep : E -> E -> E.
Variable clone : E -> E.
Variables pocca pocma : bool.
Hypothesis Hsz : 0 < sz.
Hypothesis KL : key_laws hash keq.
Hypothesis Hrep : forall a b, keq (key_of a) (key_of b) = true -> key_of (rep a b) = key_of a.
Hypothesis Hclone : forall e, key_of (clone e) = key_of e.
Notation swiss := (@swiss E).
Notation oswiss := (oswiss E).
Notation mine := (mine sz).
Notation zinv := (zinv f sz key_of hash keq).
Notation xoccurs := (xoccurs f sz key_of hash keq rep clone pocca pocma).
Notation zleft := (zleft f sz key_of hash keq).
Notation sslot := (sslot sz).

Lemma shown : forall h (s : oswiss) ord l, zinv h s ord -> s_iterate sz h s = Ok l -> length l = length (elems (os_t s)).
Proof.
  intros h s ord l H Hl. pose proof (iterate_ok f sz key_of hash keq Hsz _ _ _ H) as X. rewrite Hl in X. injection X as ->. destruct (zi_len _ _ _ _ _ _ _ _ H) as (X & Y). rewrite X.
  destruct (zi_wf _ _ _ _ _ _ _ _ H) as [W0|W]; [rewrite (elems_empty (os_t s) (w0_cap _ W0)); pose proof (w0_size _ W0); cbn [length]; lia|]. pose proof (wf1_elems_length f key_of hash keq _ W). lia.
Qed.
Lemma left_assign : forall ne n v (w : xworld E) i j l, xoccurs w -> i <> j -> s_iterate sz (xw_m w) (xw_c w j) = Ok l -> (n < length l)%nat ->
  s_cap (os_t (xw_c w i)) <= s_cap (os_t (xw_c w j)) <= ev_lim (sv_e v) ->
  let r := sm_move_assign f sz ne n v (xw_m w) (xw_c w i) (xw_c w j) in
  r = Err BadPlacement \/ (ne = true /\ r = Err Terminated) \/ exists h' s' o', ne = false /\ r = Ok (h', s', o', false) /\ zleft n (xw_c w j) h' s' o'.
Proof.
  intros ne n v w i j l Ho Hij Hl Hn (Hcap & Hlim) r. destruct (xoccurs_inv f sz key_of hash keq rep clone pocca pocma Hsz KL Hrep Hclone w Ho) as (ords & H).
  rewrite (shown _ _ _ _ (proj1 H j) Hl) in Hn. pose proof (zi_wf _ _ _ _ _ _ _ _ (proj1 H i)) as Wi.
  destruct (erase_nodes_ok f key_of hash keq _ Wi) as (t & Ee & Bf & Ct & _ & _ & S0 & N0).
  assert (Hcl : cleared (xw_c w i) t (os_t (xw_c w j))).
  { constructor; [exact S0|exact N0|exact Ct|]. rewrite Ct, Bf. destruct (zi_wf _ _ _ _ _ _ _ _ (proj1 H j)) as [W0|W1]; [rewrite (elems_empty (os_t (xw_c w j)) (w0_cap _ W0)) in Hn; cbn [length] in Hn; lia|]. pose proof (cap_bounds f _ (w_m _ _ _ _ _ W1)) as Hcb.
    destruct Wi as [W0|Wi]; [left; rewrite (w0_cap _ W0); lia|]. destruct (Z_lt_ge_dec (s_cap (os_t (xw_c w i))) (s_cap (os_t (xw_c w j)))); [left; assumption|right]. split; [lia|]. apply (mw_buf f _ (w_m _ _ _ _ _ Wi)). }
  unfold r, sm_move_assign.
  destruct (left_core f sz key_of hash keq Hsz KL n v (xw_m w) (xw_c w i) (xw_c w j) (ords i) (ords j) t (zi_rl _ _ _ _ _ _ _ _ (proj1 H i)) (proj1 H j) (fun a => proj2 H i j a Hij) Hcl Hn Hlim) as (h1 & -> & Hc). cbn [bind]. rewrite Ee. cbn [bind].
  destruct Hc as [->|(h' & s' & o' & -> & Hc)]; [left; reflexivity|right]. unfold leaves. cbn [bind snd negb andb]. destruct ne; cbn [andb]; [left; auto|right]. exists h', s', o'. auto.
Qed.
Lemma left_ctor : forall ne n v (w : xworld E) i j l, xoccurs w -> i <> j -> s_iterate sz (xw_m w) (xw_c w j) = Ok l -> (n < length l)%nat ->
  s_cap (os_t (xw_c w j)) <= ev_lim (sv_e v) ->
  let r := sm_move_ctor f sz ne n v (x_destroy sz (xw_m w) (xw_c w i)) (os_hdr (xw_c w i)) (xw_c w j) in
  r = Err BadPlacement \/ (ne = true /\ r = Err Terminated) \/ exists h' s' o', ne = false /\ r = Ok (h', s', o', false) /\ zleft n (xw_c w j) h' s' o'.
Proof.
  intros ne n v w i j l Ho Hij Hl Hn Hlim r. destruct (xoccurs_inv f sz key_of hash keq rep clone pocca pocma Hsz KL Hrep Hclone w Ho) as (ords & H).
  rewrite (shown _ _ _ _ (proj1 H j) Hl) in Hn. unfold r. set (h0 := x_destroy sz (xw_m w) (xw_c w i)).
  pose proof (renewed f sz key_of hash keq Hsz (xw_m w) (xw_c w) ords i H) as H0. fold h0 in H0. set (q := s_new (os_hdr (xw_c w i)) : oswiss) in *.
  assert (Hi0 : zinv h0 q []) by (pose proof (proj1 H0 i) as X; rewrite !WorldProofs.setn_same in X; exact X).
  assert (Hj0 : zinv h0 (xw_c w j) (ords j)) by (pose proof (proj1 H0 j) as X; rewrite !WorldProofs.setn_other in X by congruence; exact X).
  assert (Hdis : forall a, mine q a -> ~ mine (xw_c w j) a) by (intros a; pose proof (proj2 H0 i j a Hij) as X; rewrite WorldProofs.setn_same, WorldProofs.setn_other in X by congruence; exact X).
  assert (Hpos : 0 < s_cap (os_t (xw_c w j))).
  { destruct (zi_wf _ _ _ _ _ _ _ _ Hj0) as [W0|W1]; [rewrite (elems_empty (os_t (xw_c w j)) (w0_cap _ W0)) in Hn; cbn [length] in Hn; lia|]. pose proof (cap_bounds f _ (w_m _ _ _ _ _ W1)) as Hcb. lia. }
  assert (Hcl : cleared q (empty_swiss : swiss) (os_t (xw_c w j))) by (constructor; [reflexivity|reflexivity|reflexivity|left; exact Hpos]).
  unfold sm_move_ctor.
  destruct (left_core f sz key_of hash keq Hsz KL n v h0 q (xw_c w j) [] (ords j) empty_swiss (zi_rl _ _ _ _ _ _ _ _ Hi0) Hj0 Hdis Hcl Hn Hlim) as (h1 & Hl1 & Hc).
  change (os_hdr q) with (os_hdr (xw_c w i)) in Hl1. rewrite Hl1. cbn [bind]. change (mkos empty_swiss (os_hdr (xw_c w i)) 0) with (with_t q (empty_swiss : swiss)).
  destruct Hc as [->|(h' & s' & o' & -> & Hc)]; [left; reflexivity|right]. unfold leaves. cbn [bind snd negb andb]. destruct ne; cbn [andb]; [left; auto|right]. exists h', s', o'. auto.
Qed.
Lemma left_moves : forall ne n v (w : xworld E) i j l, xoccurs w -> i <> j -> s_iterate sz (xw_m w) (xw_c w j) = Ok l -> (n < length l)%nat -> bucket_count (os_t (xw_c w j)) <= ev_lim (sv_e v) ->
  let o := os_t (xw_c w j) in
  let broken o1 := size o1 = size o /\ elems o1 = skipn n (elems o) /\ destroy f o1 = Err DeadObject /\ clear f o1 = Err DeadObject /\
    (forall e, In e (firstn n (elems o)) -> contains f key_of hash keq o1 (key_of e) = Err DeadObject) in
  let left h' (s' o' : oswiss) := size (os_t o') = size o /\ next_link h' (os_hdr o') = Ok (os_hdr o') /\ (os_t o' = o \/ (0 < n)%nat /\ broken (os_t o')) /\
    size (os_t s') = 0 /\ elems (os_t s') = firstn n (elems o) /\
    exists a ls ks, next_link h' (os_hdr s') = Ok a /\ walk (S (Z.to_nat (size o))) h' a (os_hdr s') = Ok ls /\ Z.of_nat (length ls) = size o /\
      NoDup ks /\ length ks = S n /\ forall k, In k ks -> 0 <= k < bucket_count (os_t s') /\ In (sslot s' k) ls in
  (bucket_count (os_t (xw_c w i)) <= bucket_count o -> let r := sm_move_assign f sz ne n v (xw_m w) (xw_c w i) (xw_c w j) in
   r = Err BadPlacement \/ (ne = true /\ r = Err Terminated) \/ exists h' s' o', ne = false /\ r = Ok (h', s', o', false) /\ left h' s' o') /\
  (let r := sm_move_ctor f sz ne n v (x_destroy sz (xw_m w) (xw_c w i)) (os_hdr (xw_c w i)) (xw_c w j) in
   r = Err BadPlacement \/ (ne = true /\ r = Err Terminated) \/ exists h' s' o', ne = false /\ r = Ok (h', s', o', false) /\ left h' s' o').
Proof.
  intros ne n v w i j l Ho Hij Hl Hn Hlim o broken left. unfold bucket_count in Hlim.
  assert (Hw : forall h' s' o', zleft n (xw_c w j) h' s' o' -> left h' s' o').
  { intros h' s' o' (H1 & H2 & H3 & H4). split; [exact H1|]. split; [exact H2|]. split; [|exact H4]. destruct H3 as [H3|(H3 & D1 & D2 & D3 & D4 & D5 & _)]; [left; exact H3|right; split; [exact H3|]]. repeat (split; [assumption|]). exact D5. }
  split; [intros Hc r; destruct (left_assign ne n v w i j l Ho Hij Hl Hn (conj Hc Hlim)) as [H|[H|(h' & s' & o' & H1 & H2 & H3)]]|intros r; destruct (left_ctor ne n v w i j l Ho Hij Hl Hn Hlim) as [H|[H|(h' & s' & o' & H1 & H2 & H3)]]];
    [left; exact H|right; left; exact H|right; right|left; exact H|right; left; exact H|right; right]; exists h', s', o'; (split; [exact H1|]); (split; [exact H2|]); apply Hw; exact H3.
Qed.
End World.
