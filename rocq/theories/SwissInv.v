(** Invariant of the open-addressing table and specification of the two probe loops. *)
From Coq Require Import ZArith List Bool Lia Permutation.
From Coq Require Import ZifyBool ZifyNat.
From Verif Require Import Base BaseLemmas Bits BitsProofs SwissModel SwissArith MapSpec.
Import ListNotations.
Open Scope Z_scope.

(** ** Counting slots. *)
Definition cnt (p : Z -> bool) (n : Z) : Z := Z.of_nat (length (filter p (zrange n))).

Lemma cnt_0 : forall p n, n <= 0 -> cnt p n = 0.
Proof. intros. unfold cnt. rewrite zrange_0 by lia. reflexivity. Qed.
Lemma cnt_succ : forall p n, 0 <= n -> cnt p (n + 1) = cnt p n + (if p n then 1 else 0).
Proof.
  intros. unfold cnt. rewrite zrange_succ by lia. rewrite filter_app, app_length.
  cbn [filter]. destruct (p n); cbn [length]; lia.
Qed.
Lemma cnt_ind : forall (P : Z -> Prop), P 0 -> (forall n, 0 <= n -> P n -> P (n + 1)) ->
  forall n, 0 <= n -> P n.
Proof.
  intros P H0 HS n Hn. revert n Hn. apply natlike_ind; [exact H0|]. intros x Hx HP. rewrite <- Z.add_1_r. auto.
Qed.
Lemma cnt_ext : forall p q n, (forall i, 0 <= i < n -> p i = q i) -> cnt p n = cnt q n.
Proof.
  intros p q n. destruct (Z_le_dec n 0); [intros; rewrite !cnt_0 by lia; reflexivity|].
  assert (Hn : 0 <= n) by lia. revert n Hn n0.
  apply (cnt_ind (fun n => ~ n <= 0 -> (forall i, 0 <= i < n -> p i = q i) -> cnt p n = cnt q n)).
  - lia.
  - intros n Hn IH _ H. rewrite !cnt_succ by lia. rewrite (H n) by lia. f_equal.
    destruct (Z_le_dec n 0); [rewrite !cnt_0 by lia; reflexivity|]. apply IH; [lia|]. intros; apply H; lia.
Qed.
Lemma cnt_bounds : forall p n, 0 <= n -> 0 <= cnt p n <= n.
Proof.
  intros p. apply (cnt_ind (fun n => 0 <= cnt p n <= n)); [rewrite cnt_0; lia|].
  intros n Hn IH. rewrite cnt_succ by lia. destruct (p n); lia.
Qed.
Lemma cnt_flip : forall p q i n, 0 <= i < n -> (forall j, 0 <= j < n -> j <> i -> q j = p j) ->
  p i = false -> q i = true -> cnt q n = cnt p n + 1.
Proof.
  intros p q i n Hi. assert (Hn : 0 <= n) by lia. revert n Hn Hi.
  apply (cnt_ind (fun n => 0 <= i < n -> (forall j, 0 <= j < n -> j <> i -> q j = p j) ->
    p i = false -> q i = true -> cnt q n = cnt p n + 1)); [lia|].
  intros n Hn IH Hi H Hp Hq. rewrite !cnt_succ by lia.
  destruct (Z.eq_dec i n) as [->|Hne].
  - rewrite Hp, Hq. rewrite (cnt_ext q p n); [lia|]. intros j Hj. apply H; lia.
  - rewrite (H n) by lia. rewrite IH; [lia|lia| |assumption|assumption]. intros j Hj Hji. apply H; lia.
Qed.
Lemma cnt_pos : forall p n, 0 < cnt p n -> exists i, 0 <= i < n /\ p i = true.
Proof.
  intros p n H. unfold cnt in H. destruct (filter p (zrange n)) as [|i l] eqn:E; [cbn in H; lia|].
  exists i. assert (Hi : In i (i :: l)) by (left; reflexivity). rewrite <- E in Hi.
  apply filter_In in Hi. rewrite zrange_In in Hi. exact Hi.
Qed.
Lemma cnt_zero : forall p n i, cnt p n = 0 -> 0 <= i < n -> p i = false.
Proof.
  intros p n i H Hi. destruct (p i) eqn:E; [|reflexivity]. exfalso. unfold cnt in H.
  assert (HI : In i (filter p (zrange n))) by (apply filter_In; rewrite zrange_In; auto).
  destruct (filter p (zrange n)); [destruct HI|cbn in H; lia].
Qed.
Lemma cnt_le : forall p q n, 0 <= n -> (forall i, 0 <= i < n -> p i = true -> q i = true) -> cnt p n <= cnt q n.
Proof.
  intros p q. apply (cnt_ind (fun n => (forall i, 0 <= i < n -> p i = true -> q i = true) -> cnt p n <= cnt q n)).
  - intros. rewrite !cnt_0; lia.
  - intros n Hn IH H. rewrite !cnt_succ by lia. specialize (IH ltac:(intros; apply H; lia || assumption)).
    destruct (p n) eqn:E; [rewrite (H n) by (assumption || lia); lia|]. destruct (q n); lia.
Qed.
Lemma cnt_all : forall p n, 0 <= n -> (forall i, 0 <= i < n -> p i = true) -> cnt p n = n.
Proof.
  intros p. apply (cnt_ind (fun n => (forall i, 0 <= i < n -> p i = true) -> cnt p n = n)).
  - intros. apply cnt_0; lia.
  - intros n Hn IH H. rewrite cnt_succ by lia. rewrite IH by (intros; apply H; lia). rewrite H by lia. lia.
Qed.
Lemma cnt_compl : forall p n, 0 <= n -> cnt p n + cnt (fun i => negb (p i)) n = n.
Proof.
  intros p. apply (cnt_ind (fun n => cnt p n + cnt (fun i => negb (p i)) n = n)).
  - rewrite !cnt_0; lia.
  - intros n Hn IH. rewrite !cnt_succ by lia. destruct (p n); cbn [negb]; lia.
Qed.
Lemma cnt_or : forall p q n, 0 <= n -> (forall i, 0 <= i < n -> p i = true -> q i = true -> False) ->
  cnt (fun i => p i || q i) n = cnt p n + cnt q n.
Proof.
  intros p q. apply (cnt_ind (fun n => (forall i, 0 <= i < n -> p i = true -> q i = true -> False) ->
    cnt (fun i => p i || q i) n = cnt p n + cnt q n)).
  - intros. rewrite !cnt_0; lia.
  - intros n Hn IH H. rewrite !cnt_succ by lia. rewrite IH by (intros; eapply H; eauto; lia).
    pose proof (H n ltac:(lia)). destruct (p n), (q n); cbn [orb]; lia.
Qed.

(** ** Contents of a node array. *)
Definition collect {A} (nodes : Z -> option A) (n : Z) : list A :=
  flat_map (fun i => match nodes i with Some x => [x] | None => [] end) (zrange n).

Lemma collect_succ : forall A (nodes : Z -> option A) n, 0 <= n ->
  collect nodes (n + 1) = collect nodes n ++ match nodes n with Some x => [x] | None => [] end.
Proof.
  intros. unfold collect. rewrite zrange_succ by lia. rewrite flat_map_app.
  cbn [flat_map]. rewrite app_nil_r. reflexivity.
Qed.
Lemma collect_0 : forall A (nodes : Z -> option A) n, n <= 0 -> collect nodes n = [].
Proof. intros. unfold collect. rewrite zrange_0 by lia. reflexivity. Qed.
Lemma collect_ext : forall A (a b : Z -> option A) n, (forall i, 0 <= i < n -> a i = b i) ->
  collect a n = collect b n.
Proof.
  intros A a b n H. unfold collect. rewrite !flat_map_concat_map. f_equal.
  apply map_ext_in. intros i Hi. apply zrange_In in Hi. rewrite H by lia. reflexivity.
Qed.
Lemma collect_In : forall A (nodes : Z -> option A) n x,
  In x (collect nodes n) <-> exists i, 0 <= i < n /\ nodes i = Some x.
Proof.
  intros. unfold collect. rewrite in_flat_map. split.
  - intros (i & Hi & HI). apply zrange_In in Hi. exists i. split; [assumption|].
    destruct (nodes i) as [y|]; cbn in HI; [destruct HI as [->|[]]; reflexivity|contradiction].
  - intros (i & Hi & E). exists i. split; [apply zrange_In; assumption|]. rewrite E. left. reflexivity.
Qed.
Lemma collect_put : forall A (nodes nodes' : Z -> option A) i x n, 0 <= i < n ->
  nodes i = None -> nodes' i = Some x -> (forall j, 0 <= j < n -> j <> i -> nodes' j = nodes j) ->
  Permutation (collect nodes' n) (x :: collect nodes n).
Proof.
  intros A nodes nodes' i x n Hi Hn Hx. assert (H0 : 0 <= n) by lia. revert n H0 Hi.
  apply (cnt_ind (fun n => 0 <= i < n -> (forall j, 0 <= j < n -> j <> i -> nodes' j = nodes j) ->
    Permutation (collect nodes' n) (x :: collect nodes n))); [lia|].
  intros n H0 IH Hi H. rewrite !collect_succ by lia. destruct (Z.eq_dec i n) as [->|Hne].
  - rewrite Hx, Hn. rewrite app_nil_r. rewrite (collect_ext _ nodes' nodes n).
    + apply Permutation_sym, Permutation_cons_append.
    + intros j Hj. apply H; lia.
  - rewrite (H n) by lia. change (x :: collect nodes n ++ ?l) with ((x :: collect nodes n) ++ l).
    apply Permutation_app_tail. apply IH; [lia|]. intros j Hj Hji. apply H; lia.
Qed.
Lemma collect_length : forall A (nodes : Z -> option A) n, 0 <= n ->
  Z.of_nat (length (collect nodes n)) = cnt (fun i => match nodes i with Some _ => true | None => false end) n.
Proof.
  intros A nodes. apply (cnt_ind (fun n => Z.of_nat (length (collect nodes n))
     = cnt (fun i => match nodes i with Some _ => true | None => false end) n)).
  - rewrite cnt_0, collect_0 by lia. reflexivity.
  - intros n Hn IH. rewrite cnt_succ, collect_succ by lia. rewrite app_length, Nat2Z.inj_add, IH.
    destruct (nodes n); reflexivity.
Qed.
Lemma collect_none : forall A (nodes : Z -> option A) n, (forall i, 0 <= i < n -> nodes i = None) ->
  collect nodes n = [].
Proof.
  intros A nodes n H. destruct (collect nodes n) as [|x l] eqn:E; [reflexivity|].
  assert (In x (collect nodes n)) as HI by (rewrite E; left; reflexivity).
  apply collect_In in HI. destruct HI as (i & Hi & Ei). rewrite H in Ei by assumption. discriminate.
Qed.

Section Swiss.
Context {E K : Type}.
Variable f : simd.
Variable key_of : E -> K.
Variable hash : K -> Z.
Variable keq : K -> K -> bool.

Local Notation key_laws := (key_laws hash keq).
Local Notation W := (W f).
Local Notation swiss := (@swiss E).

(** Bytes of real slots. *)
Definition node_byte (v : Z) : Prop := v = m_empty \/ v = m_deleted \/ 0 <= v <= 127.

(** Metadata well-formedness. *)
Record mwf (s : swiss) : Prop := {
  mw_buf : s_buf s = Live;
  mw_cap : good_cap (s_cap s);
  mw_bytes : forall i, 0 <= i < s_cap s -> node_byte (s_meta s i);
  mw_sent : s_meta s (s_cap s) = m_sentinel;
  mw_mirror : forall j, 0 <= j < W - 1 ->
    s_meta s (s_cap s + 1 + j) = if j <? s_cap s then s_meta s j else m_empty
}.

(** Every live node carries its hash and tag; free slots are marked available. *)
Definition ncons (s : swiss) : Prop :=
  (forall i, 0 <= i < s_cap s ->
    match s_nodes s i with
    | Some (e, h) => h = hash (key_of e) /\ s_meta s i = h2_of h
    | None => is_available (s_meta s i) = true
    end) /\
  (forall i, ~ (0 <= i < s_cap s) -> s_nodes s i = None).

Definition uniq (s : swiss) : Prop := forall i j e e' h h',
  s_nodes s i = Some (e, h) -> s_nodes s j = Some (e', h') ->
  keq (key_of e) (key_of e') = true -> i = j.

(** No empty byte in the groups probed before the one holding an element. *)
Definition probe_ok (s : swiss) : Prop := forall i e h, s_nodes s i = Some (e, h) ->
  forall j, 0 <= j < s_cap s -> vis f (s_cap s) h j < vis f (s_cap s) h i -> s_meta s j <> m_empty.

Definition n_occ (s : swiss) : Z := cnt (fun i => is_occupied (s_meta s i)) (s_cap s).
Definition n_emp (s : swiss) : Z := cnt (fun i => s_meta s i =? m_empty) (s_cap s).

Record wf1 (s : swiss) : Prop := {
  w_m : mwf s;
  w_n : ncons s;
  w_u : uniq s;
  w_p : probe_ok s;
  w_size : s_size s = n_occ s;
  w_nempty : s_nempty s = n_emp s - (s_cap s - capacity_to_max_size f (s_cap s));
  w_nempty0 : 0 <= s_nempty s
}.

(** Tables without slots: never allocated, or allocated with capacity 0. *)
Record wf0 (s : swiss) : Prop := {
  w0_cap : s_cap s = 0;
  w0_size : s_size s = 0;
  w0_nodes : forall i, s_nodes s i = None;
  w0_buf : s_buf s = Null \/ (s_buf s = Live /\ s_meta s 0 = m_sentinel);
  w0_nempty : 0 <= s_nempty s < 2 ^ 59
}.

Definition wf (s : swiss) : Prop := wf0 s \/ wf1 s.

(** The elements of a table, in slot order. *)
Definition elems (s : swiss) : list E := map fst (collect (s_nodes s) (s_cap s)).

(** ** Basic facts. *)
Lemma h2_range : forall h, 0 <= h2_of h <= 127.
Proof.
  intros. unfold h2_of. change 127 with (2 ^ 7 - 1). rewrite land_mask by lia.
  pose proof (Z.mod_pos_bound h (2 ^ 7) ltac:(lia)). change (2 ^ 7) with 128 in *. lia.
Qed.

Lemma occ_h2 : forall h, is_occupied (h2_of h) = true.
Proof. intros. unfold is_occupied, m_sentinel. pose proof (h2_range h). lia. Qed.
Lemma occ_avail : forall v, is_occupied v = true -> is_available v = false.
Proof. unfold is_occupied, is_available. lia. Qed.
Lemma node_byte_cases : forall v, node_byte v ->
  (v = m_empty /\ is_available v = true /\ is_occupied v = false) \/
  (v = m_deleted /\ is_available v = true /\ is_occupied v = false) \/
  (0 <= v <= 127 /\ is_available v = false /\ is_occupied v = true).
Proof.
  unfold node_byte, is_available, is_occupied, m_empty, m_deleted, m_sentinel.
  intros v [->|[->|H]]; [left|right; left|right; right]; repeat split; try reflexivity; lia.
Qed.
Lemma node_byte_valid : forall v, node_byte v -> valid_byte v.
Proof. unfold node_byte, valid_byte. tauto. Qed.
Lemma node_byte_h2 : forall h, node_byte (h2_of h).
Proof. intros. right. right. apply h2_range. Qed.

Lemma W_pos : 8 <= W <= 16.
Proof. destruct (W_cases f); lia. Qed.

Section Meta.
Variable s : swiss.
Hypothesis M : mwf s.
Let cap := s_cap s.

Lemma cap_bounds : 1 <= cap < 2 ^ 59.
Proof. apply good_cap_bounds, (mw_cap s M). Qed.

Lemma check_buf_ok : check_buf s = Ok tt.
Proof. unfold check_buf. rewrite (mw_buf s M). reflexivity. Qed.

(** Physical byte behind a lane, large tables. *)
Lemma phys_big : forall p, W <= cap + 1 -> 0 <= p < cap + W -> s_meta s p = s_meta s (p mod (cap + 1)).
Proof.
  intros p HN Hp. pose proof cap_bounds. destruct (Z_le_dec p cap).
  - rewrite Z.mod_small by lia. reflexivity.
  - pose proof W_pos. replace (p mod (cap + 1)) with (p - (cap + 1)).
    + replace p with (s_cap s + 1 + (p - (cap + 1))) at 1 by (unfold cap; lia).
      rewrite (mw_mirror s M) by lia. destruct (Z.ltb_spec (p - (cap + 1)) (s_cap s)); [reflexivity|].
      unfold cap in *. lia.
    + symmetry. symmetry. apply Z.mod_unique with 1; lia.
Qed.

(** Physical bytes of tables smaller than a group. *)
Lemma phys_small : forall p, cap + 1 < W -> cap < p < cap + W ->
  s_meta s p = if p <=? 2 * cap then s_meta s (p - (cap + 1)) else m_empty.
Proof.
  intros p HN Hp. replace p with (s_cap s + 1 + (p - (cap + 1))) at 1 by (unfold cap; lia).
  rewrite (mw_mirror s M) by lia. fold cap.
  destruct (Z.ltb_spec (p - (cap + 1)) cap), (Z.leb_spec p (2 * cap)); try lia; reflexivity.
Qed.

Lemma phys_valid : forall p, 0 <= p < cap + W -> valid_byte (s_meta s p).
Proof.
  intros p Hp. pose proof cap_bounds.
  assert (Hlow : forall q, 0 <= q <= cap -> valid_byte (s_meta s q)).
  { intros q Hq. destruct (Z.eq_dec q cap) as [->|].
    - unfold cap. rewrite (mw_sent s M). right; right; left; reflexivity.
    - apply node_byte_valid, (mw_bytes s M). unfold cap in *. lia. }
  destruct (Z_le_dec p cap); [apply Hlow; lia|].
  destruct (Z_lt_dec (cap + 1) W).
  - rewrite phys_small by lia. destruct (Z.leb_spec p (2 * cap)); [apply Hlow; lia|left; reflexivity].
  - rewrite phys_big by lia. apply Hlow.
    pose proof (Z.mod_pos_bound p (cap + 1) ltac:(lia)). lia.
Qed.

Lemma load_block_ok : forall p, 0 <= p <= cap ->
  exists b, load_block f s p = Ok b /\ valid_block f b /\
    (forall l, 0 <= l < W -> nth (Z.to_nat l) b 0 = s_meta s (p + l)).
Proof.
  intros p Hp. pose proof W_pos. unfold load_block. rewrite check_buf_ok. cbn [bind].
  unfold cap in Hp. unfold guard.
  destruct (Z.leb_spec 0 p); [|lia]. destruct (Z.leb_spec p (s_cap s)); [|lia]. cbn [andb bind].
  eexists. split; [reflexivity|].
  assert (Hn : forall l, 0 <= l < W -> nth (Z.to_nat l) (map (fun i => s_meta s (p + i)) (zrange W)) 0 = s_meta s (p + l)).
  { intros l Hl. rewrite (nth_map_lt _ _ _ _ 0) by (rewrite zrange_length; lia).
    rewrite zrange_nth by lia. rewrite Z2Nat.id by lia. reflexivity. }
  split; [|exact Hn]. split.
  - rewrite map_length, zrange_length. unfold SwissModel.W. destruct f; reflexivity.
  - apply Forall_forall. intros v Hv. apply in_map_iff in Hv. destruct Hv as (i & <- & Hi).
    apply zrange_In in Hi. apply phys_valid. unfold cap. lia.
Qed.

Lemma width_W : width f = W.
Proof. reflexivity. Qed.

(** Result of find_available. *)
Definition avail_spec (h r : Z) : Prop :=
  (0 <= r < cap /\ is_available (s_meta s r) = true /\
   forall j, 0 <= j < cap -> vis f cap h j < vis f cap h r -> is_available (s_meta s j) = false) \/
  (cap + 1 < W /\ r = cap /\ forall j, 0 <= j < cap -> is_available (s_meta s j) = false).

Lemma sentinel_not_avail : is_available (s_meta s cap) = false.
Proof. unfold cap. rewrite (mw_sent s M). reflexivity. Qed.

Lemma avail_loop_spec : forall h,
  (W <= cap + 1 -> exists j, 0 <= j < cap /\ is_available (s_meta s j) = true) ->
  forall fuel w, 0 <= w < nwin f cap -> nwin f cap - w < Z.of_nat fuel ->
  (forall j, 0 <= j < cap -> vis f cap h j < w -> is_available (s_meta s j) = false) ->
  exists r, avail_loop f fuel s (probe_at f cap h w) = Ok r /\ avail_spec h r.
Proof.
  intros h Hex. induction fuel as [|fuel IH]; intros w Hw Hf Hprev; [lia|].
  pose proof cap_bounds as Hcb. pose proof W_pos as HWb.
  assert (Hgc : good_cap cap) by apply (mw_cap s M).
  pose proof (pos_at_range f cap h w Hgc) as Hpos.
  cbn [avail_loop]. unfold probe_at at 1. cbn [snd].
  destruct (load_block_ok (pos_at f cap h w) Hpos) as (b & -> & Hv & Hnth). cbn [bind].
  pose proof (match_available_between f b Hv) as HB.
  destruct (mask_is_empty (match_available f b)) eqn:Em; cbn [negb].
  - destruct (mask_is_empty_spec _ _ _ _ HB) as [He _]. specialize (He Em). cbv beta in He.
    assert (Hna : forall l, 0 <= l < W -> is_available (s_meta s (pos_at f cap h w + l)) = false).
    { intros l Hl. rewrite <- Hnth by lia. apply He. rewrite width_W. lia. }
    destruct (good_cap_split f cap Hgc) as [(H1 & H2 & H3) | (H1 & H2 & m & Hm & E1 & E2)].
    + exfalso. specialize (Hna (2 * cap + 1 - pos_at f cap h w) ltac:(lia)).
      rewrite phys_small in Hna by lia.
      destruct (Z.leb_spec (pos_at f cap h w + (2 * cap + 1 - pos_at f cap h w)) (2 * cap)); [lia|discriminate].
    + assert (Hw' : forall j, 0 <= j < cap -> vis f cap h j < w + 1 -> is_available (s_meta s j) = false).
      { intros j Hj Hvj. destruct (Z.eq_dec (vis f cap h j) w) as [Ev|]; [|apply Hprev; lia].
        destruct (vis_slot_at f cap h j Hgc H1 ltac:(lia)) as (l & Hl & El). rewrite Ev in El.
        specialize (Hna l Hl). rewrite phys_big in Hna by lia.
        fold (slot_at f cap h w l) in Hna. rewrite El in Hna. exact Hna. }
      assert (Hlt : w + 1 < nwin f cap).
      { destruct (Z_lt_dec (w + 1) (nwin f cap)); [assumption|]. exfalso.
        destruct (Hex H1) as (j & Hj & Ej). rewrite Hw' in Ej; [discriminate|assumption|].
        pose proof (vis_spec f cap h j Hgc). lia. }
      assert (Has : assert_probe s (fst (probe_at f cap h w)) = Ok tt).
      { unfold assert_probe, probe_at, guard. cbn [fst]. fold cap.
        destruct (Z.ltb_spec (W * w) cap); [reflexivity|].
        rewrite E1 in *. destruct (W_cases f) as [EW|EW]; rewrite EW in *; nia. }
      rewrite Has. cbn [bind]. fold cap. rewrite probe_next_at by (assumption || lia).
      apply IH; [lia|lia|exact Hw'].
  - destruct (mask_lsb_spec _ _ _ _ HB Em) as (i & -> & Hi & Hav & Hbefore). cbn [bind].
    cbv beta in Hav, Hbefore. rewrite width_W in Hi.
    rewrite <- (Nat2Z.id i) in Hav. rewrite Hnth in Hav by lia.
    assert (Hbef : forall l, 0 <= l < Z.of_nat i -> is_available (s_meta s (pos_at f cap h w + l)) = false).
    { intros l Hl. rewrite <- Hnth by lia. apply Hbefore. lia. }
    fold cap. rewrite probe_off_at by (assumption || lia).
    eexists. split; [reflexivity|].
    destruct (good_cap_split f cap Hgc) as [(H1 & H2 & H3) | (H1 & H2 & m & Hm & E1 & E2)].
    + set (p := pos_at f cap h w) in *.
      assert (Hall : forall j, 0 <= j < cap -> 2 * cap + 1 <= p + Z.of_nat i -> is_available (s_meta s j) = false).
      { intros j Hj Hfar. destruct (Z_le_dec p j).
        - specialize (Hbef (j - p) ltac:(lia)). replace (p + (j - p)) with j in Hbef by lia. exact Hbef.
        - specialize (Hbef (cap + 1 + j - p) ltac:(lia)).
          replace (p + (cap + 1 + j - p)) with (cap + 1 + j) in Hbef by lia.
          rewrite phys_small in Hbef by lia. destruct (Z.leb_spec (cap + 1 + j) (2 * cap)); [|lia].
          replace (cap + 1 + j - (cap + 1)) with j in Hbef by lia. exact Hbef. }
      unfold slot_at. fold p.
      destruct (Z_lt_dec (p + Z.of_nat i) cap).
      * left. rewrite Z.mod_small by lia. repeat split; try lia; try assumption.
        intros j _ Hvj. rewrite !vis_small in Hvj by assumption. lia.
      * destruct (Z.eq_dec (p + Z.of_nat i) cap) as [Ec|].
        { rewrite Ec in Hav. rewrite sentinel_not_avail in Hav. discriminate. }
        destruct (Z_le_dec (p + Z.of_nat i) (2 * cap)).
        -- left. replace ((p + Z.of_nat i) mod (cap + 1)) with (p + Z.of_nat i - (cap + 1))
             by (apply Z.mod_unique with 1; lia).
           rewrite phys_small in Hav by lia. destruct (Z.leb_spec (p + Z.of_nat i) (2 * cap)); [|lia].
           repeat split; try lia; try assumption.
           intros j _ Hvj. rewrite !vis_small in Hvj by assumption. lia.
        -- right. destruct (Z.eq_dec (p + Z.of_nat i) (2 * cap + 1)) as [Ep|].
           ++ repeat split; [lia| |intros j Hj; apply Hall; lia].
              rewrite Ep. symmetry. apply Z.mod_unique with 1; lia.
           ++ exfalso. specialize (Hbef (2 * cap + 1 - p) ltac:(lia)).
              rewrite phys_small in Hbef by lia.
              destruct (Z.leb_spec (p + (2 * cap + 1 - p)) (2 * cap)); [lia|discriminate].
    + left. destruct (slot_at_vis f cap h w (Z.of_nat i) Hgc H1 Hw ltac:(lia)) as [Hs Hvs].
      rewrite phys_big in Hav by lia. fold (slot_at f cap h w (Z.of_nat i)) in Hav.
      assert (slot_at f cap h w (Z.of_nat i) <> cap).
      { intros Ec. rewrite Ec, sentinel_not_avail in Hav. discriminate. }
      split; [lia|]. split; [exact Hav|]. intros j Hj Hvj. apply Hprev; [lia|]. rewrite Hvs in Hvj. exact Hvj.
Qed.

Lemma probe_fuel_ok : nwin f cap < Z.of_nat (probe_fuel f s).
Proof.
  unfold probe_fuel. fold cap. pose proof cap_bounds. pose proof W_pos.
  unfold nwin. assert (0 <= cap / W) by (apply Z.div_pos; lia).
  assert ((cap + 1) / W <= cap / W + 1).
  { destruct (W_cases f) as [EW|EW]; rewrite EW.
    - pose proof (Z.div_mod (cap + 1) 8 ltac:(lia)). pose proof (Z.mod_pos_bound (cap + 1) 8 ltac:(lia)).
      pose proof (Z.div_mod cap 8 ltac:(lia)). pose proof (Z.mod_pos_bound cap 8 ltac:(lia)). lia.
    - pose proof (Z.div_mod (cap + 1) 16 ltac:(lia)). pose proof (Z.mod_pos_bound (cap + 1) 16 ltac:(lia)).
      pose proof (Z.div_mod cap 16 ltac:(lia)). pose proof (Z.mod_pos_bound cap 16 ltac:(lia)). lia. }
  rewrite Z2Nat.id by lia. lia.
Qed.

Lemma find_available_ok : forall h,
  (W <= cap + 1 -> exists j, 0 <= j < cap /\ is_available (s_meta s j) = true) ->
  exists r, find_available f s h = Ok r /\ avail_spec h r.
Proof.
  intros h Hex. unfold find_available. fold cap.
  assert (Hgc : good_cap cap) by apply (mw_cap s M).
  rewrite (probe_start_at f) by assumption. apply avail_loop_spec.
  - exact Hex.
  - pose proof (nwin_pos f cap). lia.
  - pose proof probe_fuel_ok. lia.
  - intros j Hj Hvj. pose proof (vis_spec f cap h j Hgc). lia.
Qed.

End Meta.

(** ** Lookup. *)
Section Lookup.
Hypothesis KL : key_laws.
Variable s : swiss.
Hypothesis M : mwf s.
Hypothesis N : ncons s.
Hypothesis P : probe_ok s.
Let cap := s_cap s.

Lemma get_node_occ : forall i, 0 <= i < cap -> is_occupied (s_meta s i) = true ->
  exists n, get_node s i = Ok n /\ s_nodes s i = Some n.
Proof.
  intros i Hi Ho. unfold get_node. rewrite (check_buf_ok s M). cbn [bind].
  unfold guard. unfold cap in Hi. destruct (Z.leb_spec 0 i); [|lia]. destruct (Z.ltb_spec i (s_cap s)); [|lia].
  cbn [andb bind]. destruct N as [N1 _]. specialize (N1 i Hi).
  destruct (s_nodes s i) as [n|]; [eauto|]. apply occ_avail in Ho. congruence.
Qed.

Lemma get_node_some : forall i n, s_nodes s i = Some n -> get_node s i = Ok n /\ 0 <= i < cap.
Proof.
  intros i n En. assert (Hi : 0 <= i < cap).
  { destruct N as [_ N2]. destruct (Z_le_dec 0 i), (Z_lt_dec i cap); try lia;
      rewrite N2 in En by (unfold cap in *; lia); discriminate. }
  split; [|exact Hi]. unfold get_node. rewrite (check_buf_ok s M). cbn [bind]. unfold guard.
  unfold cap in Hi. destruct (Z.leb_spec 0 i); [|lia]. destruct (Z.ltb_spec i (s_cap s)); [|lia].
  cbn [andb bind]. rewrite En. reflexivity.
Qed.

Lemma node_hash : forall i e h, s_nodes s i = Some (e, h) -> h = hash (key_of e) /\ s_meta s i = h2_of h.
Proof.
  intros i e h En. destruct (get_node_some _ _ En) as [_ Hi]. destruct N as [N1 _].
  specialize (N1 i Hi). rewrite En in N1. exact N1.
Qed.

(** Slots occupied at the physical position of a lane. *)
Lemma lane_slot_occ : forall h w l, 0 <= w < nwin f cap -> 0 <= l < W ->
  is_occupied (s_meta s (pos_at f cap h w + l)) = true ->
  0 <= slot_at f cap h w l < cap /\ s_meta s (slot_at f cap h w l) = s_meta s (pos_at f cap h w + l).
Proof.
  intros h w l Hw Hl Ho. pose proof (cap_bounds s M) as Hcb. pose proof W_pos. fold cap in Hcb.
  assert (Hgc : good_cap cap) by apply (mw_cap s M).
  pose proof (pos_at_range f cap h w Hgc) as Hpos. set (p := pos_at f cap h w) in *.
  unfold slot_at. fold p.
  destruct (Z_lt_dec (cap + 1) W).
  - destruct (Z_lt_dec (p + l) cap); [rewrite Z.mod_small by lia; split; [lia|reflexivity]|].
    destruct (Z.eq_dec (p + l) cap) as [Ec|].
    { rewrite Ec in Ho. unfold cap in Ho. rewrite (mw_sent s M) in Ho. discriminate. }
    pose proof (phys_small s M (p + l)) as Ep. fold cap in Ep. rewrite Ep in Ho |- * by lia.
    destruct (Z.leb_spec (p + l) (2 * cap)); [|discriminate].
    replace ((p + l) mod (cap + 1)) with (p + l - (cap + 1)) by (apply Z.mod_unique with 1; lia).
    split; [lia|reflexivity].
  - pose proof (phys_big s M (p + l)) as Ep. fold cap in Ep. rewrite Ep in Ho |- * by lia.
    split; [|reflexivity].
    pose proof (Z.mod_pos_bound (p + l) (cap + 1) ltac:(lia)).
    destruct (Z.eq_dec ((p + l) mod (cap + 1)) cap) as [Ec|]; [|lia].
    rewrite Ec in Ho. unfold cap in Ho. rewrite (mw_sent s M) in Ho. discriminate.
Qed.

(** Every slot visited at step w is behind some lane of the group. *)
Lemma slot_lane : forall h w j, 0 <= w < nwin f cap -> 0 <= j < cap -> vis f cap h j = w ->
  exists l, 0 <= l < W /\ slot_at f cap h w l = j /\ s_meta s (pos_at f cap h w + l) = s_meta s j.
Proof.
  intros h w j Hw Hj Hv. pose proof (cap_bounds s M) as Hcb. pose proof W_pos. fold cap in Hcb.
  assert (Hgc : good_cap cap) by apply (mw_cap s M).
  pose proof (pos_at_range f cap h w Hgc) as Hpos. set (p := pos_at f cap h w) in *.
  destruct (good_cap_split f cap Hgc) as [(H1 & H2 & H3) | (H1 & H2 & m & Hm & E1 & E2)].
  - unfold slot_at. fold p. destruct (Z_le_dec p j).
    + exists (j - p). replace (p + (j - p)) with j by lia. rewrite Z.mod_small by lia. split; [lia|auto].
    + exists (cap + 1 + j - p). replace (p + (cap + 1 + j - p)) with (cap + 1 + j) by lia.
      split; [lia|]. split; [symmetry; apply Z.mod_unique with 1; lia|].
      rewrite (phys_small s M) by (fold cap; lia). fold cap.
      destruct (Z.leb_spec (cap + 1 + j) (2 * cap)); [|lia]. f_equal. lia.
  - destruct (vis_slot_at f cap h j Hgc H1 ltac:(lia)) as (l & Hl & El). rewrite Hv in El.
    exists l. split; [exact Hl|]. split; [exact El|].
    rewrite (phys_big s M) by (fold cap; lia). fold cap. unfold slot_at in El. fold p in El. rewrite El. reflexivity.
Qed.

Definition has_key (k : K) (i : Z) : Prop := exists e h, s_nodes s i = Some (e, h) /\ keq (key_of e) k = true.

Lemma scan_lanes_ok : forall k h w lanes, 0 <= w < nwin f cap ->
  (forall l, In l lanes -> 0 <= l < W /\ is_occupied (s_meta s (pos_at f cap h w + l)) = true) ->
  exists r, scan_lanes key_of keq s k (probe_at f cap h w) lanes = Ok r /\
    match r with
    | Some i => 0 <= i < cap /\ has_key k i
    | None => forall l, In l lanes -> ~ has_key k (slot_at f cap h w l)
    end.
Proof.
  intros k h w lanes Hw. induction lanes as [|l lanes IH]; intros Hl.
  - exists None. split; [reflexivity|]. intros l [].
  - cbn [scan_lanes]. assert (Hgc : good_cap cap) by apply (mw_cap s M).
    destruct (Hl l (or_introl eq_refl)) as [Hlr Hlo].
    destruct (lane_slot_occ h w l Hw Hlr Hlo) as [Hs Hm].
    fold cap. rewrite probe_off_at by (assumption || lia).
    destruct (get_node_occ (slot_at f cap h w l) Hs) as ([e hh] & -> & En); [rewrite Hm; exact Hlo|].
    cbn [bind fst]. destruct (keq (key_of e) k) eqn:Ek.
    + exists (Some (slot_at f cap h w l)). split; [reflexivity|]. split; [exact Hs|]. exists e, hh. auto.
    + destruct IH as (r & -> & Hr); [intros x Hx; apply Hl; right; exact Hx|].
      exists r. split; [reflexivity|]. destruct r as [i|]; [exact Hr|].
      intros x [<-|Hx]; [|apply Hr; exact Hx].
      intros (e' & h' & En' & Ek'). rewrite En in En'. injection En' as <- <-. congruence.
Qed.

Lemma find_loop_ok : forall k,
  (W <= cap + 1 -> exists j, 0 <= j < cap /\ s_meta s j = m_empty) ->
  forall fuel w, 0 <= w < nwin f cap -> nwin f cap - w < Z.of_nat fuel ->
  (forall j, 0 <= j < cap -> vis f cap (hash k) j < w -> s_meta s j <> m_empty /\ ~ has_key k j) ->
  exists r, find_loop f key_of keq fuel s k (hash k) (probe_at f cap (hash k) w) = Ok r /\
    ((0 <= r < cap /\ has_key k r) \/ (r = cap /\ forall j, ~ has_key k j)).
Proof.
  intros k Hex. set (h := hash k). induction fuel as [|fuel IH]; intros w Hw Hf Hprev; [lia|].
  pose proof (cap_bounds s M) as Hcb. fold cap in Hcb. pose proof W_pos as HWb.
  assert (Hgc : good_cap cap) by apply (mw_cap s M).
  pose proof (pos_at_range f cap h w Hgc) as Hpos.
  cbn [find_loop]. unfold probe_at at 1. cbn [snd].
  destruct (load_block_ok s M (pos_at f cap h w) Hpos) as (b & -> & Hv & Hnth). cbn [bind].
  destruct (eq_lanes_spec f b (h2_of h) Hv ltac:(pose proof (h2_range h); lia)) as (lanes & -> & Hl1 & Hl2).
  cbn [bind]. rewrite width_W in *.
  destruct (scan_lanes_ok k h w lanes Hw) as (r & -> & Hr).
  { intros l Hl. destruct (Hl1 l Hl) as [Hlr Hlo]. split; [exact Hlr|]. rewrite Hnth in Hlo by lia. exact Hlo. }
  cbn [bind]. destruct r as [i|].
  { exists i. split; [reflexivity|]. left. exact Hr. }
  assert (Hnk : forall j, 0 <= j < cap -> vis f cap h j = w -> ~ has_key k j).
  { intros j Hj Hvj (e & hh & En & Ek). destruct (slot_lane h w j Hw Hj Hvj) as (l & Hl & El & Em).
    destruct (node_hash j e hh En) as [Eh Emj].
    assert (Ehh : hash (key_of e) = h) by (apply (kl_hash hash keq KL); exact Ek). rewrite Ehh in Eh. rewrite Eh in En, Emj.
    apply (Hr l); [|rewrite El; exists e, h; auto].
    apply Hl2; [lia|]. rewrite Hnth by lia. congruence. }
  pose proof (match_empty_between f b Hv) as HB.
  destruct (mask_is_empty (match_empty f b)) eqn:Em; cbn [negb].
  - destruct (mask_is_empty_spec _ _ _ _ HB) as [He _]. specialize (He Em). cbv beta in He.
    assert (Hne : forall l, 0 <= l < W -> s_meta s (pos_at f cap h w + l) <> m_empty).
    { intros l Hl. rewrite <- Hnth by lia. pose proof (He (Z.to_nat l)) as H. rewrite width_W in H.
      specialize (H ltac:(lia)). lia. }
    destruct (good_cap_split f cap Hgc) as [(H1 & H2 & H3) | (H1 & H2 & m & Hm & E1 & E2)].
    + exfalso. specialize (Hne (2 * cap + 1 - pos_at f cap h w) ltac:(lia)).
      rewrite (phys_small s M) in Hne by (fold cap; lia). fold cap in Hne.
      destruct (Z.leb_spec (pos_at f cap h w + (2 * cap + 1 - pos_at f cap h w)) (2 * cap)); [lia|congruence].
    + assert (Hw' : forall j, 0 <= j < cap -> vis f cap h j < w + 1 -> s_meta s j <> m_empty /\ ~ has_key k j).
      { intros j Hj Hvj. destruct (Z.eq_dec (vis f cap h j) w) as [Ev|]; [|apply Hprev; lia].
        split; [|apply Hnk; assumption].
        destruct (slot_lane h w j Hw Hj Ev) as (l & Hl & El & Eml). rewrite <- Eml. apply Hne. exact Hl. }
      assert (Hlt : w + 1 < nwin f cap).
      { destruct (Z_lt_dec (w + 1) (nwin f cap)); [assumption|]. exfalso.
        destruct (Hex H1) as (j & Hj & Ej). destruct (Hw' j Hj) as [Hn _]; [|exact (Hn Ej)].
        pose proof (vis_spec f cap h j Hgc). lia. }
      assert (Has : assert_probe s (fst (probe_at f cap h w)) = Ok tt).
      { unfold assert_probe, probe_at, guard. cbn [fst]. fold cap.
        destruct (Z.ltb_spec (W * w) cap); [reflexivity|].
        rewrite E1 in *. destruct (W_cases f) as [EW|EW]; rewrite EW in *; nia. }
      rewrite Has. cbn [bind]. fold cap. rewrite probe_next_at by (assumption || lia).
      apply IH; [lia|lia|exact Hw'].
  - exists (s_cap s). split; [reflexivity|]. right. split; [reflexivity|].
    intros j Hk. assert (Hj : 0 <= j < cap).
    { destruct Hk as (e & hh & En & _). apply get_node_some in En. tauto. }
    destruct (Z_lt_dec (vis f cap h j) w); [destruct (Hprev j Hj) as [_ Hn]; [assumption|exact (Hn Hk)]|].
    destruct (Z.eq_dec (vis f cap h j) w); [exact (Hnk j Hj e Hk)|].
    destruct (mask_is_empty_spec _ _ _ _ HB) as [_ He]. destruct (He Em) as (i & Hi & Hie).
    cbv beta in Hie. rewrite width_W in Hi. rewrite <- (Nat2Z.id i), Hnth in Hie by lia.
    destruct (good_cap_split f cap Hgc) as [(H1 & H2 & H3) | (H1 & H2 & m & Hm & E1 & E2)].
    { rewrite (vis_small f) in * by assumption. lia. }
    destruct (slot_at_vis f cap h w (Z.of_nat i) Hgc H1 Hw ltac:(lia)) as [Hsl Hvs].
    rewrite (phys_big s M) in Hie by (fold cap; lia). fold cap in Hie.
    fold (slot_at f cap h w (Z.of_nat i)) in Hie.
    assert (Hnc : slot_at f cap h w (Z.of_nat i) <> cap).
    { intros Ec. rewrite Ec in Hie. unfold cap in Hie. rewrite (mw_sent s M) in Hie. discriminate. }
    destruct Hk as (e & hh & En & Ek). destruct (node_hash j e hh En) as [Eh Emj].
    assert (Ehh : hash (key_of e) = h) by (apply (kl_hash hash keq KL); exact Ek). rewrite Ehh in Eh. rewrite Eh in En, Emj.
    apply (P j e h En (slot_at f cap h w (Z.of_nat i))); fold cap; lia.
Qed.

Lemma find_node_ok : forall k,
  s_size s = n_occ s ->
  (W <= cap + 1 -> exists j, 0 <= j < cap /\ s_meta s j = m_empty) ->
  exists r, find_node f key_of keq s k (hash k) = Ok r /\
    ((0 <= r < cap /\ has_key k r) \/ (r = cap /\ forall j, ~ has_key k j)).
Proof.
  intros k Hsz Hex. unfold find_node. destruct (Z.eqb_spec (s_size s) 0) as [E0|].
  - exists (s_cap s). split; [reflexivity|]. right. split; [reflexivity|].
    intros j (e & h & En & _). destruct (get_node_some _ _ En) as [_ Hj].
    destruct (node_hash j e h En) as [_ Em].
    rewrite E0 in Hsz. symmetry in Hsz. unfold n_occ in Hsz.
    pose proof (cnt_zero _ _ j Hsz Hj) as Hz. cbv beta in Hz. rewrite Em, occ_h2 in Hz. discriminate.
  - fold cap. assert (Hgc : good_cap cap) by apply (mw_cap s M).
    rewrite (probe_start_at f) by assumption. apply find_loop_ok.
    + exact Hex.
    + pose proof (nwin_pos f cap). lia.
    + pose proof (probe_fuel_ok s M). fold cap in H. lia.
    + intros j Hj Hvj. pose proof (vis_spec f cap (hash k) j Hgc). lia.
Qed.

End Lookup.

End Swiss.
