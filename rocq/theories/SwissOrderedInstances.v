(** Concrete ordered sparse and stable containers used in the examples and counterexamples. *)
From Coq Require Import ZArith List Bool Lia Arith.
From Verif Require Import Base BaseLemmas Bits MapSpec World WorldSpec SwissModel SwissRun LinkModel SwissOrderedSpec SwissOrdered SwissOrderedRun SwissOrderedWorldSpec SwissOrderedWorld Instances OrderedInstances.
Import ListNotations.
Open Scope Z_scope.

(** Checking that no statement of a concrete program is of the kind not covered. *)
Section Check.
Context {E K : Type}.
Variable f : simd.
Variable sz : Z.
Variable key_of : E -> K.
Variable hash : K -> Z.
Variable keq : K -> K -> bool.
Variable rep : E -> E -> E.
Variable clone : E -> E.
Variables pocca pocma : bool.
Notation oswiss := (oswiss E).
Notation xworld := (xworld E).
Notation zexec := (zexec f sz key_of hash keq rep).
Notation xexec := (xexec f sz key_of hash keq rep clone pocca pocma).
Notation xrun := (xrun f sz key_of hash keq rep clone pocca pocma).
Notation xblocked := (xblocked f sz key_of hash keq rep clone pocca pocma).

Definition is_swap (x : ev) : bool := match x with EvSwap _ _ => true | _ => false end.
Definition zswapsb (v : senv) (s : oswiss) (e : E) : bool :=
  match make_room f (ev_lim (sv_e v)) (os_t s) (hash (key_of e)) with Ok (_, Some (_, tr)) => existsb is_swap tr | _ => false end.
Definition zblockedb (v : senv) (hs : zstate) (c : zcall E K) : bool :=
  let n := s_size (os_t (snd hs)) in
  match c with
  | ZEraseAt i => negb ((0 <=? i) && (i <? n))
  | ZEraseRange i j => negb ((0 <=? i) && (i <=? j) && (j <=? n)) || ((i =? j) && (j <? n))
  | ZFront | ZBack => n =? 0
  | ZInsert e | ZAssign e => zswapsb v (snd hs) e
  | _ => false
  end || misplaced (zexec v hs c).
Definition xlosesb (v : senv) (w : xworld) (c : xcall E K) (i j : nat) : bool :=
  match xexec v w c, s_iterate sz (xw_m w) (xw_c w j) with
  | Ok (w', _), Ok l => existsb (fun x => match contains f key_of hash keq (os_t (xw_c w' i)) (key_of x) with Ok true => false | _ => true end) l
  | _, _ => false
  end.
Definition xthrow (x : res (xworld * xret E)) : bool := match x with Ok (_, XThrow) => true | _ => false end.
Definition xblockedb (v : senv) (w : xworld) (c : xcall E K) : bool :=
  let t i := os_t (xw_c w i) in
  misplaced (xexec v w c) ||
  match c with
  | XOn i c => zblockedb v (xw_m w, xw_c w i) c
  | XCopyNew i j => xlosesb v w c i j
  | XCopy i j =>
    (negb pocca && negb (s_size (t j) =? 0) && (s_cap (t j) <? s_cap (t i))) ||
    (negb pocca && (s_size (t j) =? 0) && existsb (fun k => negb (s_meta (t i) k =? m_empty)) (zrange (s_cap (t i)))) ||
    xthrow (xexec v w c) || xlosesb v w c i j
  | XMove i j => negb pocma && negb (s_size (t i) =? 0)
  | XSwap i j => (s_size (t i) =? 0) || (s_size (t j) =? 0)
  | XInsertNode i j | XAssignNode i j => match xw_h w j with Some e => zswapsb v (xw_c w i) e | None => false end
  | XMerge i j =>
    match s_front sz (xw_m w) (xw_c w j) with
    | Ok x => match contains f key_of hash keq (t i) (key_of x) with Ok false => true | _ => false end
    | Err _ => false
    end || ((s_cap (t i) =? 0) && negb (s_nempty (t i) =? 0))
  | _ => false
  end.
Fixpoint xclear (w : xworld) (h : list (senv * xcall E K)) : bool :=
  match h with
  | [] => true
  | (v, c) :: r => negb (xblockedb v w c) && match xexec v w c with Ok (w1, _) => xclear w1 r | Err _ => false end
  end.

Lemma zswapsb_ok : forall v (s : oswiss) e, zswapsb v s e = false -> ~ zswaps f key_of hash keq v s e.
Proof.
  intros v s e H (_ & t & p & tr & a & b & He & Hi). unfold zswapsb in H. rewrite He in H. assert (X : existsb is_swap tr = true) by (apply existsb_exists; exists (EvSwap a b); auto). congruence.
Qed.
Lemma misplaced_ok : forall A (x : res A), misplaced x = false -> x <> Err BadPlacement.
Proof. intros A x H ->. discriminate H. Qed.
Lemma zblockedb_ok : forall v hs c, zblockedb v hs c = false -> ~ zblocked f sz key_of hash keq rep v hs c.
Proof.
  intros v hs c H. unfold zblockedb in H. apply orb_false_iff in H. destruct H as (H1 & H2). intros [Hb|He]; [|apply (misplaced_ok _ _ H2 He)].
  destruct c; try contradiction; try (apply (zswapsb_ok _ _ _ H1 Hb)); try lia.
Qed.
Lemma xlosesb_ok : forall v w c i j, xlosesb v w c i j = false -> ~ xloses f sz key_of hash keq rep clone pocca pocma v w c i j.
Proof.
  intros v w c i j H (w' & l & x & He & Hl & Hi & Hc). unfold xlosesb in H. rewrite He, Hl in H.
  match type of H with existsb ?g l = _ => assert (X : existsb g l = true) end; [|congruence]. apply existsb_exists. exists x. split; [exact Hi|].
  destruct (contains f key_of hash keq (os_t (xw_c w' i)) (key_of x)) as [[|]|]; try reflexivity. contradiction Hc. reflexivity.
Qed.
Lemma in_zrange : forall k n, 0 <= k < n -> In k (zrange n).
Proof. intros k n H. unfold zrange. apply in_map_iff. exists (Z.to_nat k). split; [lia|]. apply in_seq. lia. Qed.
Lemma xblockedb_ok : forall v w c, xblockedb v w c = false -> ~ xblocked v w c.
Proof.
  intros v w c H. unfold xblockedb in H. apply orb_false_iff in H. destruct H as (H1 & H2). intros [He|Hb]; [apply (misplaced_ok _ _ H1 He)|].
  destruct c; try contradiction.
  - exact (zblockedb_ok _ _ _ H2 Hb).
  - exact (xlosesb_ok _ _ _ _ _ H2 Hb).
  - apply orb_false_iff in H2. destruct H2 as (H2 & D). apply orb_false_iff in H2. destruct H2 as (H2 & C). apply orb_false_iff in H2. destruct H2 as (A & B).
    destruct Hb as [(P & X & Y)|[(P & X & k & Hk & Y)|[(w' & X)|X]]].
    + rewrite P in A. cbn [negb andb] in A. destruct (Z.eqb_spec (s_size (os_t (xw_c w j))) 0); [contradiction|]. cbn [negb andb] in A. lia.
    + rewrite P in B. cbn [negb andb] in B. rewrite X in B. cbn [Z.eqb andb] in B.
      match type of B with existsb ?g ?l = _ => assert (Z0 : existsb g l = true) end; [|congruence]. apply existsb_exists. exists k. split; [apply in_zrange; exact Hk|]. apply negb_true_iff. apply Z.eqb_neq. exact Y.
    + rewrite X in C. discriminate C.
    + exact (xlosesb_ok _ _ _ _ _ D X).
  - destruct Hb as (P & X). rewrite P in H2. cbn [negb andb] in H2. lia.
  - lia.
  - destruct Hb as (e & X & Y). rewrite X in H2. exact (zswapsb_ok _ _ _ H2 Y).
  - destruct Hb as (e & X & Y). rewrite X in H2. exact (zswapsb_ok _ _ _ H2 Y).
  - apply orb_false_iff in H2. destruct H2 as (A & B). destruct Hb as [(x & X & Y)|(X & Y)]; [rewrite X, Y in A; discriminate A|]. lia.
Qed.
Lemma xclear_run : forall h w, xclear w h = true -> exists w' rs, xrun w h = Ok (w', rs) /\
  forall h1 v c h2 w1 rs1, h = h1 ++ (v, c) :: h2 -> xrun w h1 = Ok (w1, rs1) -> ~ xblocked v w1 c.
Proof.
  induction h as [|[v c] h IH]; intros w H.
  - exists w, []. split; [reflexivity|]. intros [] v c h2 w1 rs1 He; discriminate He.
  - cbn [xclear] in H. apply andb_true_iff in H. destruct H as [H1 H2]. apply negb_true_iff in H1.
    destruct (xexec v w c) as [[w1 r]|] eqn:Ex; [|discriminate H2]. destruct (IH w1 H2) as (w' & rs & Hr & Hb).
    exists w', (r :: rs). split; [cbn [SwissOrderedWorld.xrun]; rewrite Ex; cbn [bind]; rewrite Hr; reflexivity|].
    intros [|[v' c'] h1] v1 c1 h2 w2 rs2 He Hx; cbn [app] in He.
    + injection He as -> -> ->. cbn [SwissOrderedWorld.xrun] in Hx. injection Hx as <- <-. apply xblockedb_ok. exact H1.
    + injection He as <- <- He. cbn [SwissOrderedWorld.xrun] in Hx. rewrite Ex in Hx. cbn [bind] in Hx. destruct (xrun w1 h1) as [[w3 rs3]|] eqn:E3; [|discriminate Hx].
      cbn [bind] in Hx. injection Hx as <- <-. exact (Hb h1 v1 c1 h2 w3 rs3 He E3).
Qed.
(** Memory and containers at the end of a program. *)
Definition xend (addr : nat -> Z) (h0 : heap) (h : list (senv * xcall E K)) : xworld :=
  match xrun (xinit addr h0) h with Ok (w, _) => w | Err _ => xinit addr h0 end.
Lemma xclear_occurs : forall addr h0 h, xinit_ok addr h0 -> xhistory_ok h -> xclear (xinit addr h0) h = true ->
  xoccurs f sz key_of hash keq rep clone pocca pocma (xend addr h0 h).
Proof.
  intros addr h0 h Ha Hh Hc. destruct (xclear_run h _ Hc) as (w & rs & Hr & Hb). exists addr, h0, h, rs. unfold xend. rewrite Hr. auto.
Qed.
End Check.

(** Checking that the statements of a program are admissible. *)
Definition zcallb {E K} (c : zcall E K) : bool :=
  match c with
  | ZReserve n => (0 <=? n) && (n <? 2 ^ 64)
  | ZRehash n => (0 <? n) && (n <? 2 ^ 64)
  | _ => true
  end.
Definition xcallb {E K} (c : xcall E K) : bool :=
  match c with
  | XOn _ c => zcallb c
  | XCopyNew i j | XMoveNew i j | XSwap i j | XMerge i j => negb (Nat.eqb i j)
  | _ => true
  end.
Lemma zcallb_ok : forall E K (c : zcall E K), zcallb c = true -> zcall_ok c.
Proof. intros E K [] H; cbn [zcallb zcall_ok] in *; try exact I; lia. Qed.
Lemma xcallb_ok : forall E K (c : xcall E K), xcallb c = true -> xcall_ok c.
Proof. intros E K [] H; cbn [xcallb xcall_ok] in *; try exact I; [apply zcallb_ok; exact H|..]; apply negb_true_iff, Nat.eqb_neq in H; exact H. Qed.
(** The i-th statement places its array at 2^16 * i; allocations up to 2^40 slots succeed;
    fresh memory contains arbitrary values. *)
Definition sat (base : Z) : senv := mksv v0 base (fun a => (a mod 7, 5)).
Fixpoint placed_from {C} (base : Z) (l : list C) : list (senv * C) :=
  match l with [] => [] | c :: r => (sat base, c) :: placed_from (base + 2 ^ 16) r end.
Definition xprog {C} (l : list C) : list (senv * C) := placed_from (2 ^ 16) l.
Lemma sat_ok : forall b, env_ok (sv_e (sat b)). Proof. reflexivity. Qed.
Lemma placed_ok : forall E K (l : list (xcall E K)) b, forallb xcallb l = true -> xhistory_ok (placed_from b l).
Proof.
  intros E K l. induction l as [|c l IH]; intros b H; cbn [placed_from]; constructor; cbn [forallb] in H; apply andb_true_iff in H; destruct H as (A & B).
  - split; [apply sat_ok|apply xcallb_ok; exact A].
  - apply IH. exact B.
Qed.
Lemma placed_calls : forall E K (l : list (zcall E K)) b, forallb zcallb l = true -> zhistory_ok (placed_from b l).
Proof.
  intros E K l. induction l as [|c l IH]; intros b H; cbn [placed_from]; constructor; cbn [forallb] in H; apply andb_true_iff in H; destruct H as (A & B).
  - split; [apply sat_ok|apply zcallb_ok; exact A].
  - apply IH. exact B.
Qed.
Lemma xinit0 : xinit_ok addr0 heap0.
Proof. destruct init0 as (A & B). split; assumption. Qed.
Definition same_entry (e : entry) : entry := e.
Notation xnormal f := (@xoccurs entry Z f 48 ekey ehash ekeq erep same_entry false true) (only parsing).
Notation xexec1 f := (@xexec entry Z f 48 ekey ehash ekeq erep same_entry false true) (only parsing).
Notation xrun1 f := (@xrun entry Z f 48 ekey ehash ekeq erep same_entry false true) (only parsing).
Definition smaps (f : simd) (l : list (xcall entry Z)) : xworld entry := xend f 48 ekey ehash ekeq erep same_entry false true addr0 heap0 (xprog l).
Lemma smaps_occur : forall f l, forallb xcallb l && xclear f 48 ekey ehash ekeq erep same_entry false true (xinit addr0 heap0) (xprog l) = true -> xnormal f (smaps f l).
Proof. intros f l H. apply andb_true_iff in H. destruct H as [H1 H2]. apply xclear_occurs; [apply xinit0|apply placed_ok; exact H1|exact H2]. Qed.
