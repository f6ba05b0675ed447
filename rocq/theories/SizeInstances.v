(** Containers whose capacity() is not what an insertion goes by. *)
From Coq Require Import ZArith List Bool Lia.
From Verif Require Import Base BaseLemmas MapSpec Float32 Float32Facts DenseSpec DenseModel DenseRun DenseChain DenseInv DenseOps DenseEdit DenseErase DenseRefine DenseMono DenseMore DenseReserve BoundsSpec DenseBounds LoadSpec DenseLoad Instances DenseInstances SizeModel SizeProofs.
Import ListNotations.
Open Scope Z_scope.
Notation srun := (drun 1 key1 ehash ekeq erep).
Notation sexec := (dexec 1 key1 ehash ekeq erep).
Notation swf := (dwf 1 key1 ehash ekeq).

(** 2^25 buckets take 29360128 = 7/8 * 2^25 elements; up to 29360126 the table stays as it is. *)
Lemma below_early : forall n, 0 <= n <= 29360126 -> rle (7, 8) (f32_div (f32_of n) (f32_of (2 ^ 25))) = false.
Proof.
  intros n Hn. unfold rle, f32_div. cbn [fst snd]. apply Z.leb_gt. assert (Hb : f32_of (2 ^ 25) = (2 ^ 25, 1)) by (vm_compute; reflexivity). rewrite Hb. cbn [fst snd]. unfold f32_of.
  pose proof (f32_le n 1 14680063 1 ltac:(lia) ltac:(lia) ltac:(lia)) as H1. change (2 ^ Z.max 0 (- (1))) with 1 in H1. change (2 ^ Z.max 0 1) with 2 in H1. specialize (H1 ltac:(lia)).
  pose proof (f32_pos n 1 ltac:(lia) ltac:(lia)) as [Ha1 Ha2]. set (x := f32 (n, 1)) in *. clearbody x.
  pose proof (f32_le (fst x * 1) (snd x * 2 ^ 25) 14680063 (-24) ltac:(lia) ltac:(lia) ltac:(lia)) as H2. change (2 ^ Z.max 0 (- -24)) with (2 ^ 24) in H2. change (2 ^ Z.max 0 (-24)) with 1 in H2. specialize (H2 ltac:(lia)).
  pose proof (f32_pos (fst x * 1) (snd x * 2 ^ 25) ltac:(lia) ltac:(lia)) as [Hc1 Hc2]. set (z := f32 (fst x * 1, snd x * 2 ^ 25)) in *. clearbody z. lia.
Qed.

(** A table with [n] elements, with keys below [n], in 2^25 buckets. *)
Definition filled (n : Z) (s : dense entry) : Prop :=
  swf s /\ d_mlf s = (7, 8) /\ d_bc s = 2 ^ 25 /\ d_size s = n /\ d_cap s <= 2 * n + 1 /\ forall e, In e (delems s) -> fst e < n.
Lemma empty_filled : exists s : dense entry, sexec dv0 empty_dense (DRehash (2 ^ 25)) = Ok (s, QUnit) /\ filled 0 s.
Proof.
  destruct (rehash_ok 1 key1 ehash ekeq (dv_slim dv0) empty_dense (2 ^ 25) (empty_wf 1 key1 ehash ekeq) ltac:(reflexivity) ltac:(lia)) as (s & o & Hr & [He Hw] & Ho & Hn).
  destruct o as [[]|].
  2:{ exfalso. destruct (Hn eq_refl) as [H|(m & Hm & H)]; [vm_compute in H; discriminate H|].
      assert (Hm2 : f32_trunc (f32_div (f32_of (d_size (@empty_dense entry))) (d_mlf (@empty_dense entry))) = Ok 0) by (vm_compute; reflexivity). rewrite Hm2 in Hm. injection Hm as <-. vm_compute in H. discriminate H. }
  destruct (Ho ltac:(discriminate)) as (Hc & _ & _ & _ & Hq). destruct (rehash_exact 1 key1 _ _ _ _ _ Hr ltac:(lia)) as (m & Ht & _ & _ & Hb). specialize (Hb ltac:(discriminate)).
  assert (Hm2 : f32_trunc (f32_div (f32_of (d_size (@empty_dense entry))) (d_mlf (@empty_dense entry))) = Ok 0) by (vm_compute; reflexivity). rewrite Hm2 in Ht. injection Ht as <-.
  exists s. cbn [DenseRun.dexec]. rewrite Hr. split; [reflexivity|]. assert (Hs : d_size s = 0) by (destruct He as [He _]; rewrite He; reflexivity).
  split; [exact Hw|]. split; [rewrite Hq; reflexivity|]. split; [rewrite Hb; vm_compute; reflexivity|]. split; [exact Hs|]. split; [rewrite Hc; cbn; lia|].
  rewrite (size0_delems s Hs). intros e [].
Qed.
Lemma room_filled : forall n s, filled n s -> 0 <= n <= 29360126 -> exists s1, make_room 1 (dv_dlim dv0) (dv_slim dv0) s = Ok (s1, Some tt) /\ filled n s1 /\ n < d_cap s1 <= 2 * n + 1 /\ delems s1 = delems s.
Proof.
  intros n s (W & Hq & Hb & Hs & Hc & Hk) Hn. pose proof (w_size _ _ _ _ _ W) as Hsz.
  destruct (maybe_resize_ok 1 key1 ehash ekeq (dv_dlim dv0) s W ltac:(reflexivity)) as [Hr|(s1 & Hr & W1 & He & Hlt & Hb1 & Hq1)].
  { exfalso. unfold maybe_resize in Hr. destruct (Z.eqb_spec (d_cap s) (d_size s)) as [Hx|Hx]; [|discriminate].
    unfold resize_data in Hr. match type of Hr with (if ?a <? ?c then _ else _) = _ => assert (Hcap : c <= a) end.
    { destruct (Z.eqb_spec (d_cap s) 0); [vm_compute; discriminate|]. rewrite Z.mod_small by (unfold two64; lia). cbn. lia. }
    destruct (Z.ltb_spec (dv_dlim dv0) (if d_cap s =? 0 then 1 else d_cap s * 2 mod two64)) as [Hy|_]; [lia|].
    destruct (foldM _ _ _) in Hr; cbn [bind] in Hr; discriminate. }
  exists s1. pose proof (delems_same _ _ He) as Hde. assert (Hs1 : d_size s1 = n) by (destruct He as [He _]; rewrite He; exact Hs).
  assert (Hc1 : n < d_cap s1 <= 2 * n + 1).
  { split; [lia|]. unfold maybe_resize in Hr. destruct (Z.eqb_spec (d_cap s) (d_size s)) as [Hx|Hx]; [|injection Hr as <-; exact Hc].
    unfold resize_data in Hr. destruct (_ <? _) in Hr; [discriminate|]. apply bind_Ok in Hr. destruct Hr as (mm & _ & Hr). injection Hr as <-. cbn [d_cap].
    destruct (Z.eqb_spec (d_cap s) 0); [lia|]. rewrite Z.mod_small by (unfold two64; lia). lia. }
  split.
  - unfold make_room. rewrite Hr. cbn [bind]. unfold maybe_rehash. destruct (Z.eqb_spec (d_bc s1) 0); [lia|]. unfold overloaded. rewrite Hq1, Hq, Hs1, Hb1, Hb, (below_early n Hn). reflexivity.
  - split; [|split; [exact Hc1|exact Hde]]. split; [exact W1|]. split; [congruence|]. split; [congruence|]. split; [exact Hs1|]. split; [lia|]. rewrite Hde. exact Hk.
Qed.
Lemma step_filled : forall n s, filled n s -> 0 <= n <= 29360126 -> exists s', sexec dv0 s (DInsert (n, n)) = Ok (s', QInserted (n, n) true) /\ filled (n + 1) s'.
Proof.
  intros n s F Hn. destruct (room_filled n s F Hn) as (s1 & Hro & (W1 & Hq1 & Hb1 & Hs1 & _ & Hk1) & Hc1 & _).
  destruct (insert_after_room 1 key1 ehash ekeq elaws (dv_dlim dv0) (dv_slim dv0) s s1 (n, n) Hro W1 ltac:(lia) ltac:(lia)) as (s' & p & b & Hi & W' & (nd & Hnd) & Hb' & Hc' & Hq' & Hcase).
  destruct Hcase as [(-> & _ & Hd & Hs')|(_ & _ & x & j & _ & Hx & Hke & _)].
  2:{ exfalso. specialize (Hk1 x Hx). unfold ekeq, key1 in Hke. apply Z.eqb_eq in Hke. cbn [fst] in Hke. lia. }
  assert (F' : filled (n + 1) s').
  { split; [exact W'|]. split; [congruence|]. split; [congruence|]. split; [lia|]. split; [lia|]. rewrite Hd. intros e He. apply in_app_or in He. destruct He as [He|[<-|[]]]; [specialize (Hk1 e He); lia|cbn [fst]; lia]. }
  exists s'. split; [|exact F'].
  destruct (step_ok 1 key1 ehash ekeq erep elaws key1_rep dv0 s (DInsert (n, n)) (proj1 F) ltac:(split; vm_compute; reflexivity) I) as [Hbl|(t & r & He & Wt & Hsp)].
  - exfalso. destruct Hbl as [Hp|[(H0 & _)|(_ & t & Ht & _)]]; [apply Hp; exact I|destruct F as (_ & _ & Hb & _); rewrite Hb in H0; discriminate H0|].
    cbn [DenseRun.dexec] in Ht. rewrite Hi in Ht. cbn [bind give_inserted] in Ht. rewrite (get_node_ok s' p nd (w_mem _ _ _ _ _ W') Hnd) in Ht. discriminate Ht.
  - rewrite He. cbn [DenseRun.dexec] in He. rewrite Hi in He. cbn [bind give_inserted] in He. rewrite (get_node_ok s' p nd (w_mem _ _ _ _ _ W') Hnd) in He. cbn [bind] in He. injection He as <- <-.
    inversion Hsp; subst; reflexivity.
Qed.
Definition filling (n : nat) : list (denv * dcall entry Z) := map (fun i => (dv0, DInsert (i, i))) (map Z.of_nat (seq 0 n)).
Lemma run_filled : forall n, Z.of_nat n <= 29360127 -> exists s rs, srun empty_dense ((dv0, DRehash (2 ^ 25)) :: filling n) = Ok (s, rs) /\ filled (Z.of_nat n) s /\
  (forall r, In r rs -> r = QUnit \/ exists e, r = QInserted e true).
Proof.
  induction n as [|n IH]; intros Hn.
  - destruct empty_filled as (s & Hr & F). exists s, [QUnit]. split; [unfold filling; cbn [seq map DenseRun.drun]; rewrite Hr; reflexivity|]. split; [exact F|]. intros r [<-|[]]. left. reflexivity.
  - destruct (IH ltac:(lia)) as (s & rs & Hr & F & Hq). destruct (step_filled (Z.of_nat n) s F ltac:(lia)) as (s' & He & F').
    exists s', (rs ++ [QInserted (Z.of_nat n, Z.of_nat n) true]). split.
    + unfold filling. rewrite seq_S, !map_app. rewrite app_comm_cons. unfold filling in Hr. rewrite (drun_app _ _ _ _ _ _ _ _ _ _ _ _ Hr). cbn [map Nat.add DenseRun.drun]. rewrite He. reflexivity.
    + split; [replace (Z.of_nat (S n)) with (Z.of_nat n + 1) by lia; exact F'|]. intros r Hi. apply in_app_or in Hi. destruct Hi as [Hi|[<-|[]]]; [exact (Hq r Hi)|right; eexists; reflexivity].
Qed.

(** With 29360127 elements, one below capacity(), the next insertion doubles the buckets. *)
Lemma early : exists h s rs t r, dhistory_ok 1 h /\ Forall (fun vc => keeps_policy (snd vc)) h /\ srun empty_dense h = Ok (s, rs) /\ (forall r, In r rs -> r <> QThrow) /\
  size s = 29360127 /\ d_capacity s = Ok 29360128 /\ sexec dv0 s (DInsert (-1, 0)) = Ok (t, r) /\ r <> QThrow /\ d_bc t = 2 * d_bc s.
Proof.
  assert (Hw : exists w, Z.of_nat w = 29360127) by (exists (Z.to_nat 29360127); apply Z2Nat.id; discriminate). destruct Hw as (w & Hw).
  destruct (run_filled w) as (s & rs & Hr & (W & Hq & Hb & Hs & Hc & Hk) & Hrs); [rewrite Hw; discriminate|].
  exists ((dv0, DRehash (2 ^ 25)) :: filling w), s, rs.
  assert (Hcap : d_capacity s = Ok 29360128) by (unfold d_capacity, to_load_factor; rewrite Hb, Hq; vm_compute; reflexivity).
  pose proof (w_size _ _ _ _ _ W) as Hsz.
  destruct (maybe_resize_ok 1 key1 ehash ekeq (dv_dlim dv0) s W ltac:(reflexivity)) as [Hre|(s1 & Hre & W1 & He & Hlt & Hb1 & Hq1)].
  { exfalso. unfold maybe_resize in Hre. destruct (Z.eqb_spec (d_cap s) (d_size s)) as [Hx|Hx]; [|discriminate].
    unfold resize_data in Hre. destruct (Z.eqb_spec (d_cap s) 0) as [H0|H0]; [lia|].
    rewrite Z.mod_small in Hre by (unfold two64; lia). destruct (Z.ltb_spec (dv_dlim dv0) (d_cap s * 2)) as [Hy|_]; [cbn in Hy; lia|].
    destruct (foldM _ _ _) in Hre; cbn [bind] in Hre; discriminate. }
  assert (Hs1 : d_size s1 = 29360127) by (destruct He as [He _]; rewrite He; lia).
  assert (Hov : overloaded s1 = true) by (unfold overloaded; rewrite Hq1, Hq, Hs1, Hb1, Hb; vm_compute; reflexivity).
  destruct (rehash_ok 1 key1 ehash ekeq (dv_slim dv0) s1 (2 ^ 26) W1 ltac:(reflexivity) ltac:(lia)) as (s2 & o & Hrh & [Hes Hw2] & Ho & Hno).
  assert (Hm2 : f32_trunc (f32_div (f32_of 29360127) (7, 8)) = Ok 33554432) by (vm_compute; reflexivity).
  destruct o as [[]|].
  2:{ exfalso. destruct (Hno eq_refl) as [H|(m & Hm & H)]; [vm_compute in H; discriminate H|]. rewrite Hs1, Hq1, Hq, Hm2 in Hm. injection Hm as <-. vm_compute in H. discriminate H. }
  destruct (Ho ltac:(discriminate)) as (Hc2 & Hbp2 & _ & _ & Hq2). specialize (Hbp2 ltac:(lia)).
  destruct (rehash_exact 1 key1 _ _ _ _ _ Hrh ltac:(lia)) as (m & Ht & _ & _ & Hb2). specialize (Hb2 ltac:(discriminate)). rewrite Hs1, Hq1, Hq, Hm2 in Ht. injection Ht as <-.
  assert (Hroom : make_room 1 (dv_dlim dv0) (dv_slim dv0) s = Ok (s2, Some tt)).
  { unfold make_room. rewrite Hre. cbn [bind]. unfold maybe_rehash. destruct (Z.eqb_spec (d_bc s1) 0); [lia|]. rewrite Hov, Hb1, Hb. change (2 ^ 25 * 2 mod two64) with (2 ^ 26). exact Hrh. }
  assert (Hsz2 : d_size s2 = d_size s1) by apply Hes.
  destruct (insert_after_room 1 key1 ehash ekeq elaws (dv_dlim dv0) (dv_slim dv0) s s2 (-1, 0) Hroom Hw2 ltac:(lia) ltac:(lia)) as (s3 & p & b & Hi & W3 & (nd & Hnd) & Hb3 & _).
  exists s3, (QInserted (n_val nd) b). split.
  { constructor; [split; [split; vm_compute; reflexivity|cbn; lia]|]. unfold filling. rewrite !Forall_map, Forall_forall. intros i _. split; [split; vm_compute; reflexivity|exact I]. }
  split; [constructor; [right; exists 22; split; [lia|reflexivity]|]; unfold filling; rewrite !Forall_map, Forall_forall; intros i _; exact I|].
  split; [exact Hr|]. split; [intros r0 Hi0; destruct (Hrs r0 Hi0) as [->|(e & ->)]; discriminate|]. split; [unfold size; lia|]. split; [exact Hcap|].
  split; [cbn [DenseRun.dexec]; rewrite Hi; cbn [bind give_inserted]; rewrite (get_node_ok s3 p nd (w_mem _ _ _ _ _ W3) Hnd); reflexivity|].
  split; [discriminate|]. rewrite Hb3, Hb2, Hb1, Hb. reflexivity.
Qed.

(** More elements than capacity(), which forgets what was reserved. *)
Definition sizes (h : list (denv * dcall entry Z)) : res (Z * Z * res Z) := let* x := srun empty_dense h in Ok (size (fst x), d_bc (fst x), d_capacity (fst x)).
Lemma sizes_run : forall h n b c, sizes h = Ok (n, b, Ok c) -> exists s rs, srun empty_dense h = Ok (s, rs) /\ size s = n /\ d_bc s = b /\ d_capacity s = Ok c.
Proof. intros h n b c H. unfold sizes in H. destruct (srun empty_dense h) as [[s rs]|]; [|discriminate]. cbn [bind fst] in H. injection H as H1 H2 H3. exists s, rs. auto. Qed.
Lemma over_capacity : exists h s rs, dhistory_ok 1 h /\ Forall (fun vc => keeps_max (snd vc)) h /\ srun empty_dense h = Ok (s, rs) /\ size s = 1 /\ d_capacity s = Ok 0.
Proof.
  destruct (sizes_run (dcalls [DRehash 1; DInsert (5, 50)]) 1 1 0) as (s & rs & H1 & H2 & _ & H3); [vm_compute; reflexivity|].
  exists (dcalls [DRehash 1; DInsert (5, 50)]), s, rs. split; [repeat constructor; cbn; lia|]. split; [repeat constructor|auto].
Qed.
Lemma reserved_capacity : exists s rs, srun empty_dense (dcalls [DReserve 10]) = Ok (s, rs) /\ d_capacity s = Ok 9.
Proof. destruct (sizes_run (dcalls [DReserve 10]) 0 11 9) as (s & rs & H1 & _ & _ & H3); [vm_compute; reflexivity|]. exists s, rs. auto. Qed.
