(** Concrete dense tables used in the examples and counterexamples. *)
From Coq Require Import ZArith List Bool Lia Arith.
From Verif Require Import Base BaseLemmas MapSpec Instances Float32 Float32Facts DenseSpec DenseWorldSpec World DenseModel DenseRun DenseChain DenseInv DenseOps DenseEdit DenseErase DenseRefine DenseMono DenseMore DenseReserve DenseWorld.
Import ListNotations.
Open Scope Z_scope.

(** Checking that no statement of a concrete program is of the kind not covered. *)
Section Check.
Context {E K : Type}.
Variable nk : nat.
Variable key_of : nat -> E -> K.
Variable hash : K -> Z.
Variable keq : K -> K -> bool.
Variable rep : E -> E -> E.
Variable clone : E -> E.
Variables pocca pocma : bool.
Notation xexec := (xexec nk key_of hash keq rep clone pocca pocma).
Notation xrun := (xrun nk key_of hash keq rep clone pocca pocma).
Notation xblocked := (xblocked nk key_of hash keq rep clone pocca pocma).

Definition isnil {A} (l : list A) : bool := match l with [] => true | _ => false end.
Definition preb (c : dcall E K) (l : list E) : bool :=
  match c with
  | DEraseAt i => (0 <=? i) && (i <? Z.of_nat (length l))
  | DEraseRange a b => (0 <=? a) && (a <=? b) && (b <=? Z.of_nat (length l))
  | _ => true
  end.
Definition bad_throw (x : res (dense E * dret E)) : bool :=
  match x with Ok (s', QThrow) => negb (d_sok s') | _ => false end.
Definition isthrow (x : res (@xworld E * xret E)) : bool :=
  match x with Ok (_, XThrow) => true | _ => false end.
Definition blockedb (v : denv) (s : dense E) (c : dcall E K) : bool :=
  negb (preb c (delems s)) ||
  ((d_bc s =? 0) && match c with DErase _ _ => true | _ => false end) ||
  bad_throw (dexec nk key_of hash keq rep v s c).
Definition xblockedb (v : denv) (w : @xworld E) (c : xcall E K) : bool :=
  match c with
  | XOn i c => blockedb v (w i) c
  | XEraseIf i pred => existsb pred (delems (w i))
  | XInsertRange i ra l => isthrow (xexec v w c)
  | XCopy i j => (negb pocca && isnil (delems (w j)) && negb (isnil (delems (w i)))) || isthrow (xexec v w c)
  | XMove i j => negb pocma && negb (isnil (delems (w i)))
  | _ => false
  end.
Fixpoint xclear (w : @xworld E) (h : list (denv * xcall E K)) : bool :=
  match h with
  | [] => true
  | (v, c) :: r => negb (xblockedb v w c) && match xexec v w c with Ok (w1, _) => xclear w1 r | Err _ => false end
  end.

Lemma preb_ok : forall c l, preb c l = true -> dcall_pre c l.
Proof.
  intros [] l H; cbn [preb dcall_pre] in *; try exact I; repeat (apply andb_true_iff in H; destruct H as [H ?]);
    repeat match goal with X : (_ <=? _) = true |- _ => apply Z.leb_le in X | X : (_ <? _) = true |- _ => apply Z.ltb_lt in X end; lia.
Qed.
Lemma blockedb_ok : forall v s c, blockedb v s c = false -> ~ blocked nk key_of hash keq rep v s c.
Proof.
  intros v s c H [Hp|[(Hb & j & k & ->)|(_ & s' & He & Hs)]]; unfold blockedb in H; apply orb_false_iff in H; destruct H as [H H3]; apply orb_false_iff in H; destruct H as [H1 H2].
  - apply Hp, preb_ok. apply negb_false_iff. exact H1.
  - rewrite Hb in H2. discriminate.
  - rewrite He in H3. cbn [bad_throw] in H3. rewrite Hs in H3. discriminate.
Qed.
Lemma xblockedb_ok : forall v w c, xblockedb v w c = false -> ~ xblocked v w c.
Proof.
  intros v w [] H Hb; cbn [xblockedb DenseWorld.xblocked] in *; try contradiction.
  - exact (blockedb_ok v _ _ H Hb).
  - assert (Ht : existsb pred (delems (w i)) = true) by (apply existsb_exists; exact Hb). congruence.
  - destruct Hb as (w' & He & _). rewrite He in H. discriminate.
  - apply orb_false_iff in H. destruct H as [H1 H2]. destruct Hb as [(Hp & Hj & Hi)|(w' & He)]; [|rewrite He in H2; discriminate].
    rewrite Hp, Hj in H1. destruct (delems (w i)); [contradiction|discriminate].
  - destruct Hb as [Hp Hi]. rewrite Hp in H. destruct (delems (w i)); [contradiction|discriminate].
Qed.
Lemma xclear_run : forall h w, xclear w h = true -> exists w' rs, xrun w h = Ok (w', rs) /\
  forall h1 v c h2 w1 rs1, h = h1 ++ (v, c) :: h2 -> xrun w h1 = Ok (w1, rs1) -> ~ xblocked v w1 c.
Proof.
  induction h as [|[v c] h IH]; intros w H.
  - exists w, []. split; [reflexivity|]. intros [] v c h2 w1 rs1 He; discriminate He.
  - cbn [xclear] in H. apply andb_true_iff in H. destruct H as [H1 H2]. apply negb_true_iff in H1.
    destruct (xexec v w c) as [[w1 r]|] eqn:Ex; [|discriminate]. destruct (IH w1 H2) as (w' & rs & Hr & Hb).
    exists w', (r :: rs). split; [cbn [DenseWorld.xrun]; rewrite Ex; cbn [bind]; rewrite Hr; reflexivity|].
    intros [|[v' c'] h1] v1 c1 h2 w2 rs2 He Hx; cbn [app] in He.
    + injection He as -> -> ->. cbn [DenseWorld.xrun] in Hx. injection Hx as <- <-. apply xblockedb_ok. exact H1.
    + injection He as <- <- He. cbn [DenseWorld.xrun] in Hx. rewrite Ex in Hx. cbn [bind] in Hx. destruct (xrun w1 h1) as [[w3 rs3]|] eqn:E3; [|discriminate].
      cbn [bind] in Hx. injection Hx as <- <-. exact (Hb h1 v1 c1 h2 w3 rs3 He E3).
Qed.
(** The containers at the end of a program. *)
Definition xstate (h : list (denv * xcall E K)) (i : nat) : dense E :=
  match xrun xinit h with Ok (w, _) => w i | Err _ => empty_dense end.
Lemma xclear_occurs : forall h i, xhistory_ok nk h -> xclear xinit h = true -> doccurs nk key_of hash keq rep clone pocca pocma (xstate h i).
Proof.
  intros h i Hh Hc. destruct (xclear_run h xinit Hc) as (w & rs & Hr & Hb). exists h, w, rs, i. unfold xstate. rewrite Hr. auto.
Qed.
End Check.

(** Checking that the statements of a program are admissible. *)
Definition dcallb {E K} (nk : nat) (c : dcall E K) : bool :=
  match c with
  | DErase j _ | DFind j _ | DContains j _ => Nat.ltb j nk
  | DAssign _ => Nat.eqb nk 1
  | DReserve n => (0 <=? n) && (n <? 2 ^ 59)
  | DRehash n => (0 <=? n) && (n <? 2 ^ 64)
  | DMaxLoad p q => (0 <? p) && (0 <? q) && (q <=? 16 * p)
  | _ => true
  end.
Definition xcallb {E K} (nk : nat) (c : xcall E K) : bool :=
  match c with
  | XOn _ c => dcallb nk c
  | XInsertRange _ _ l => Z.of_nat (length l) <? 2 ^ 58
  | XNew _ n => (0 <=? n) && (n <? 2 ^ 64)
  | XRange _ _ l n => (Z.of_nat (length l) <? 2 ^ 59) && (0 <=? n) && (n <? 2 ^ 64)
  | XMoveNew i j => negb (Nat.eqb i j)
  | _ => true
  end.
(** Every allocation up to 2^40 slots succeeds. *)
Definition dv0 : denv := mkdv (2 ^ 40) (2 ^ 40).
Definition prog {E K} (l : list (xcall E K)) : list (denv * xcall E K) := map (fun c => (dv0, c)) l.
Definition dcalls {E K} (l : list (dcall E K)) : list (denv * dcall E K) := map (fun c => (dv0, c)) l.
Lemma dv0_ok : denv_ok dv0.
Proof. split; reflexivity. Qed.
Lemma dcallb_ok : forall E K nk (c : dcall E K), dcallb nk c = true -> dcall_ok nk c.
Proof.
  intros E K nk [] H; cbn [dcallb dcall_ok] in *; try exact I; repeat (apply andb_true_iff in H; destruct H as [H ?]);
    repeat match goal with X : (_ <=? _) = true |- _ => apply Z.leb_le in X | X : (_ <? _) = true |- _ => apply Z.ltb_lt in X
      | X : Nat.ltb _ _ = true |- _ => apply Nat.ltb_lt in X | X : Nat.eqb _ _ = true |- _ => apply Nat.eqb_eq in X end; auto.
Qed.
Lemma xcallb_ok : forall E K nk (c : xcall E K), xcallb nk c = true -> xcall_ok nk c.
Proof.
  intros E K nk [] H; cbn [xcallb xcall_ok] in *; try exact I; try (apply dcallb_ok; exact H); repeat (apply andb_true_iff in H; destruct H as [H ?]);
    repeat match goal with X : (_ <=? _) = true |- _ => apply Z.leb_le in X | X : (_ <? _) = true |- _ => apply Z.ltb_lt in X end; auto.
  apply negb_true_iff, Nat.eqb_neq in H. exact H.
Qed.
Lemma prog_ok : forall E K nk (l : list (xcall E K)), forallb (xcallb nk) l = true -> xhistory_ok nk (prog l).
Proof.
  intros E K nk l H. unfold xhistory_ok, prog. rewrite Forall_map, Forall_forall. rewrite forallb_forall in H.
  intros c Hc. cbn [fst snd]. split; [apply dv0_ok|apply xcallb_ok, H, Hc].
Qed.
Lemma dcalls_ok : forall E K nk (l : list (dcall E K)), forallb (dcallb nk) l = true -> dhistory_ok nk (dcalls l).
Proof.
  intros E K nk l H. unfold dhistory_ok, dcalls. rewrite Forall_map, Forall_forall. rewrite forallb_forall in H.
  intros c Hc. cbn [fst snd]. split; [apply dv0_ok|apply dcallb_ok, H, Hc].
Qed.

(** Maps with integer keys, and elements with two integer keys. *)
Definition key1 (j : nat) (e : entry) : Z := fst e.
Definition key2 (j : nat) (e : entry) : Z := match j with O => fst e | _ => snd e end.
Lemma key1_rep : forall x e, key1 0 (erep x e) = key1 0 x.
Proof. reflexivity. Qed.
Lemma key2_rep : forall x e, key2 0 (erep x e) = key2 0 x.
Proof. reflexivity. Qed.
Definition sameel (e : entry) : entry := e.
Lemma sameel_key : forall nk (key : nat -> entry -> Z) j e, (j < nk)%nat -> key j (sameel e) = key j e.
Proof. reflexivity. Qed.
(** std::allocator propagates on move assignment only. *)
Notation dnormal := (@doccurs entry Z 1 key1 ehash ekeq erep sameel false true) (only parsing).
Definition dmap (l : list (xcall entry Z)) (i : nat) : dense entry := xstate 1 key1 ehash ekeq erep sameel false true (prog l) i.
Definition dset2 (l : list (xcall entry Z)) (i : nat) : dense entry := xstate 2 key2 ehash ekeq erep sameel false true (prog l) i.
Lemma dmap_occurs : forall l i, forallb (xcallb 1) l && xclear 1 key1 ehash ekeq erep sameel false true xinit (prog l) = true ->
  doccurs 1 key1 ehash ekeq erep sameel false true (dmap l i).
Proof. intros l i H. apply andb_true_iff in H. destruct H as [H1 H2]. apply xclear_occurs; [apply prog_ok; exact H1|exact H2]. Qed.
Lemma dset2_occurs : forall l i, forallb (xcallb 2) l && xclear 2 key2 ehash ekeq erep sameel false true xinit (prog l) = true ->
  doccurs 2 key2 ehash ekeq erep sameel false true (dset2 l i).
Proof. intros l i H. apply andb_true_iff in H. destruct H as [H1 H2]. apply xclear_occurs; [apply prog_ok; exact H1|exact H2]. Qed.

(** ** A count for which reserve does not suffice. *)
Lemma drun_app : forall E K nk (key_of : nat -> E -> K) hash keq rep h1 h2 (s s1 : dense E) rs1, drun nk key_of hash keq rep s h1 = Ok (s1, rs1) ->
  drun nk key_of hash keq rep s (h1 ++ h2) = (let* y := drun nk key_of hash keq rep s1 h2 in let '(s2, rs2) := y in Ok (s2, rs1 ++ rs2)).
Proof.
  intros E K nk key_of hash keq rep. induction h1 as [|[v c] h1 IH]; intros h2 s s1 rs1 H; cbn [app DenseRun.drun] in *.
  - injection H as <- <-. destruct (drun nk key_of hash keq rep s h2) as [[s2 rs2]|]; reflexivity.
  - destruct (dexec nk key_of hash keq rep v s c) as [[s2 r]|]; [|discriminate]. cbn [bind] in *. destruct (drun nk key_of hash keq rep s2 h1) as [[s3 rs3]|] eqn:E3; [|discriminate].
    cbn [bind] in H. injection H as <- <-. rewrite (IH h2 s2 s3 rs3 E3). destruct (drun nk key_of hash keq rep s3 h2) as [[s4 rs4]|]; reflexivity.
Qed.

Lemma gap_run : forall (es : list entry) e (s : dense entry), dwf 1 key1 ehash ekeq s -> d_mlf s = (7, 8) -> d_size s = 0 -> d_bc s = 16777222 -> 14680070 <= d_cap s ->
  Z.of_nat (length es) = 14680069 -> ForallOrdPairs (fun a b => fst a <> fst b) es ->
  exists s2 rs, drun 1 key1 ehash ekeq erep s (inserts dv0 (es ++ [e])) = Ok (s2, rs) /\ d_bc s < d_bc s2.
Proof.
  intros es e s W Hq Hs Hb Hc Hl Hd.
  destruct (fill_run 1 key1 ehash ekeq elaws erep es dv0 s 16777222 W Hq) as (s1 & rs & Hr & W1 & Hb1 & Hc1 & Hq1 & _ & Ha).
  - reflexivity.
  - lia.
  - rewrite Hb. vm_compute. discriminate.
  - lia.
  - rewrite Hs, Hl. vm_compute. discriminate.
  - rewrite Hs, Hl. vm_compute. reflexivity.
  - assert (He1 : delems s1 = es).
    { rewrite (size0_delems s Hs) in Ha. apply (appended_distinct 1 key1 ekeq es [] (delems s1)) in Ha.
      - exact Ha.
      - lia.
      - clear - Hd. induction Hd as [|a l Hf Hd' IH]; constructor; [|exact IH]. eapply Forall_impl; [|exact Hf]. intros b Hb j _. unfold key1, ekeq. apply Z.eqb_neq. exact Hb.
      - intros x y []. }
    assert (Hs1 : d_size s1 = 14680069).
    { pose proof (delems_len 1 key1 ehash ekeq s1 W1) as HL. pose proof (w_size _ _ _ _ _ W1). rewrite He1 in HL. lia. }
    assert (Hov : overloaded s1 = true) by (unfold overloaded; rewrite Hq1, Hs1, Hb1, Hb; vm_compute; reflexivity).
    destruct (rehash_ok 1 key1 ehash ekeq (dv_slim dv0) s1 33554444 W1 ltac:(reflexivity) ltac:(lia)) as (s2 & o & Hre & [Hes Hw] & Ho & Hn).
    destruct o as [[]|].
    2:{ exfalso. destruct (Hn eq_refl) as [H|(m & Hm & H)]; [vm_compute in H; discriminate H|]. rewrite Hs1, Hq1 in Hm.
        assert (Hm2 : f32_trunc (f32_div (f32_of 14680069) (7, 8)) = Ok 16777222) by (vm_compute; reflexivity). rewrite Hm2 in Hm. injection Hm as <-. vm_compute in H. discriminate H. }
    destruct (Ho ltac:(discriminate)) as (Hc2 & _ & Hb2 & _ & Hq2).
    assert (Hroom : make_room 1 (dv_dlim dv0) (dv_slim dv0) s1 = Ok (s2, Some tt)).
    { unfold make_room, maybe_resize. destruct (Z.eqb_spec (d_cap s1) (d_size s1)); [lia|]. cbn [bind]. unfold maybe_rehash. destruct (Z.eqb_spec (d_bc s1) 0); [lia|].
      rewrite Hov. rewrite Hb1, Hb. change (16777222 * 2 mod two64) with 33554444. exact Hre. }
    assert (Hsz2 : d_size s2 = d_size s1) by apply Hes.
    destruct (insert_after_room 1 key1 ehash ekeq elaws (dv_dlim dv0) (dv_slim dv0) s1 s2 e Hroom Hw ltac:(lia) ltac:(lia)) as (s3 & p & b & Hi & W3 & (n & Hnn) & Hb3 & _).
    exists s3. unfold inserts. rewrite map_app. rewrite (drun_app _ _ _ _ _ _ _ _ _ _ _ _ Hr). cbn [map DenseRun.drun DenseRun.dexec]. rewrite Hi. cbn [bind give_inserted].
    rewrite (get_node_ok s3 p n (w_mem _ _ _ _ _ W3) Hnn). cbn [bind]. eexists. split; [reflexivity|]. lia.
Qed.

Lemma zrange_distinct : forall n, ForallOrdPairs (fun a b : entry => fst a <> fst b) (map (fun i => (i, i)) (zrange n)).
Proof.
  intros n. pose proof (zrange_NoDup n) as H. induction H as [|x l Hx Hl IH]; cbn [map]; constructor; [|exact IH].
  rewrite Forall_map, Forall_forall. intros y Hy. cbn [fst]. intros ->. contradiction.
Qed.
Lemma reserve_gap_state : exists s1 : dense entry, reserve 1 (dv_dlim dv0) (dv_slim dv0) empty_dense 14680070 = Ok (s1, Some tt) /\ d_mlf s1 = (7, 8) /\ d_size s1 = 0 /\ d_bc s1 = 16777222 /\ 14680070 <= d_cap s1.
Proof. eexists. split; [vm_compute; reflexivity|]. cbn [d_mlf d_size d_bc d_cap]. split; [reflexivity|]. split; [reflexivity|]. split; [reflexivity|]. vm_compute. discriminate. Qed.
Lemma reserve_gap : exists (s1 s2 : dense entry) (es : list entry) (rs : list (dret entry)),
  dexec 1 key1 ehash ekeq erep dv0 (@empty_dense entry) (DReserve 14680070) = Ok (s1, QUnit) /\ d_mlf s1 = (7, 8) /\
  Z.of_nat (length (delems s1)) + Z.of_nat (length es) <= 14680070 /\ ForallOrdPairs (fun a b => fst a <> fst b) es /\
  drun 1 key1 ehash ekeq erep s1 (inserts dv0 es) = Ok (s2, rs) /\ d_bc s1 < d_bc s2.
Proof.
  destruct reserve_gap_state as (s1 & Hr & Hq & Hs & Hb & Hc).
  assert (W1 : dwf 1 key1 ehash ekeq s1).
  { destruct (reserve_ok 1 key1 ehash ekeq (dv_dlim dv0) (dv_slim dv0) empty_dense 14680070 (empty_wf 1 key1 ehash ekeq) ltac:(reflexivity) ltac:(reflexivity) ltac:(split; [discriminate|reflexivity])) as (s' & o & He & [_ Hw] & _).
    rewrite Hr in He. injection He as <- <-. exact Hw. }
  assert (Hl : exists es : list entry, Z.of_nat (length es) = 14680069 /\ ForallOrdPairs (fun a b => fst a <> fst b) (es ++ [(14680069, 14680069)])).
  { assert (Hg : forall n, 0 <= n -> exists es : list entry, Z.of_nat (length es) = n /\ ForallOrdPairs (fun a b => fst a <> fst b) (es ++ [(n, n)])).
    { intros n Hn. exists (map (fun i => (i, i)) (zrange n)). split; [rewrite map_length, zrange_length; lia|].
      pose proof (zrange_distinct (n + 1)) as H. rewrite (zrange_succ n Hn), map_app in H. exact H. }
    apply Hg. discriminate. }
  destruct Hl as (es & Hl & Hd).
  assert (Hd1 : ForallOrdPairs (fun a b : entry => fst a <> fst b) es).
  { clear - Hd. set (x := (14680069, 14680069)) in Hd. clearbody x. induction es as [|a es IH]; constructor; inversion Hd as [|? ? Hf Hd']; subst; [|apply IH; exact Hd'].
    apply Forall_app in Hf. apply Hf. }
  destruct (gap_run es (14680069, 14680069) s1 W1 Hq Hs Hb Hc Hl Hd1) as (s2 & rs & Hx & Hlt).
  exists s1, s2, (es ++ [(14680069, 14680069)]), rs. split; [cbn [DenseRun.dexec]; rewrite Hr; reflexivity|]. split; [exact Hq|].
  split; [|split; [exact Hd|split; [exact Hx|exact Hlt]]].
  rewrite (size0_delems s1 Hs), app_length. cbn [length]. lia.
Qed.
