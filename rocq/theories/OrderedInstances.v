(** Concrete ordered dense containers used in the examples and counterexamples. *)
From Coq Require Import ZArith List Bool Lia Arith.
From Verif Require Import Base BaseLemmas MapSpec Instances DenseSpec World DenseModel DenseRun LinkModel OrderedSpec OrderedWorldSpec OrderedDense OrderedRun OrderedWorld DenseInstances.
Import ListNotations.
Open Scope Z_scope.

(** Checking that no statement of a concrete program is of the kind not covered. *)
Section Check.
Context {E K : Type}.
Variable sz : Z.
Variable nk : nat.
Variable key_of : nat -> E -> K.
Variable hash : K -> Z.
Variable keq : K -> K -> bool.
Variable rep : E -> E -> E.
Variable clone : E -> E.
Variables pocca pocma : bool.
Notation oexec := (oexec sz nk key_of hash keq rep).
Notation yexec := (yexec sz nk key_of hash keq rep clone pocca pocma).
Notation yrun := (yrun sz nk key_of hash keq rep clone pocca pocma).
Notation yblocked := (yblocked sz nk key_of hash keq rep clone pocca pocma).

Definition misplaced {A} (x : res A) : bool := match x with Err BadPlacement => true | _ => false end.
Definition oblockedb (v : oenv) (hs : @ostate E) (c : ocall E K) : bool :=
  match c with
  | OEraseAt i => negb ((0 <=? i) && (i <? d_size (o_d (snd hs))))
  | OErase _ _ => d_bc (o_d (snd hs)) =? 0
  | _ => false
  end || match oexec v hs c with Ok (hs', QThrow) => negb (d_sok (o_d (snd hs'))) | x => misplaced x end.
Definition ythrow (x : res (@yworld E * yret E)) : bool := match x with Ok (_, YThrow) => true | _ => false end.
Definition yblockedb (v : oenv) (hw : @yworld E) (c : ycall E K) : bool :=
  misplaced (yexec v hw c) ||
  match c with
  | YOn i c => oblockedb v (fst hw, snd hw i) c
  | YCopy i j => (negb pocca && (d_size (o_d (snd hw j)) =? 0) && negb (d_size (o_d (snd hw i)) =? 0)) || ythrow (yexec v hw c)
  | YMove i j => negb pocma && negb (d_size (o_d (snd hw i)) =? 0)
  | YSwap i j => (d_size (o_d (snd hw i)) =? 0) || (d_size (o_d (snd hw j)) =? 0)
  | _ => false
  end.
Fixpoint yclear (hw : @yworld E) (h : list (oenv * ycall E K)) : bool :=
  match h with
  | [] => true
  | (v, c) :: r => negb (yblockedb v hw c) && match yexec v hw c with Ok (hw1, _) => yclear hw1 r | Err _ => false end
  end.

Lemma oblockedb_ok : forall v hs c, oblockedb v hs c = false -> ~ oblocked sz nk key_of hash keq rep v hs c.
Proof.
  intros v hs c H. unfold oblockedb in H. apply orb_false_iff in H. destruct H as (H1 & H2). intros [(i & -> & Hi)|[(Hb & j & k & ->)|[(_ & hs' & He & Hs)|He]]].
  - apply Hi. apply negb_false_iff, andb_true_iff in H1. destruct H1 as (A & B). apply Z.leb_le in A. apply Z.ltb_lt in B. lia.
  - apply Z.eqb_neq in H1. contradiction.
  - rewrite He in H2. rewrite Hs in H2. discriminate H2.
  - rewrite He in H2. discriminate H2.
Qed.
Lemma yblockedb_ok : forall v hw c, yblockedb v hw c = false -> ~ yblocked v hw c.
Proof.
  intros v hw c H. unfold yblockedb in H. apply orb_false_iff in H. destruct H as (H1 & H2). intros [He|Hb]; [rewrite He in H1; discriminate H1|].
  destruct c; try contradiction.
  - exact (oblockedb_ok _ _ _ H2 Hb).
  - apply orb_false_iff in H2. destruct H2 as (A & B). destruct Hb as [(Hp & Hj & Hi)|(w' & He)]; [|rewrite He in B; discriminate B].
    rewrite Hp, Hj in A. apply Z.eqb_neq in Hi. rewrite Hi in A. discriminate A.
  - destruct Hb as (Hp & Hi). rewrite Hp in H2. apply Z.eqb_neq in Hi. rewrite Hi in H2. discriminate H2.
  - apply orb_false_iff in H2. destruct H2 as (A & B). apply Z.eqb_neq in A, B. destruct Hb; contradiction.
Qed.
Lemma yclear_run : forall h hw, yclear hw h = true -> exists hw' rs, yrun hw h = Ok (hw', rs) /\
  forall h1 v c h2 hw1 rs1, h = h1 ++ (v, c) :: h2 -> yrun hw h1 = Ok (hw1, rs1) -> ~ yblocked v hw1 c.
Proof.
  induction h as [|[v c] h IH]; intros w H.
  - exists w, []. split; [reflexivity|]. intros [] v c h2 w1 rs1 He; discriminate He.
  - cbn [yclear] in H. apply andb_true_iff in H. destruct H as [H1 H2]. apply negb_true_iff in H1.
    destruct (yexec v w c) as [[w1 r]|] eqn:Ex; [|discriminate H2]. destruct (IH w1 H2) as (w' & rs & Hr & Hb).
    exists w', (r :: rs). split; [cbn [OrderedWorld.yrun]; rewrite Ex; cbn [bind]; rewrite Hr; reflexivity|].
    intros [|[v' c'] h1] v1 c1 h2 w2 rs2 He Hx; cbn [app] in He.
    + injection He as -> -> ->. cbn [OrderedWorld.yrun] in Hx. injection Hx as <- <-. apply yblockedb_ok. exact H1.
    + injection He as <- <- He. cbn [OrderedWorld.yrun] in Hx. rewrite Ex in Hx. cbn [bind] in Hx. destruct (yrun w1 h1) as [[w3 rs3]|] eqn:E3; [|discriminate Hx].
      cbn [bind] in Hx. injection Hx as <- <-. exact (Hb h1 v1 c1 h2 w3 rs3 He E3).
Qed.
(** Memory and containers at the end of a program. *)
Definition yend (addr : nat -> Z) (h0 : heap) (h : list (oenv * ycall E K)) : @yworld E :=
  match yrun (yinit addr h0) h with Ok (hw, _) => hw | Err _ => yinit addr h0 end.
Lemma yclear_occurs : forall addr h0 h, yinit_ok addr h0 -> yhistory_ok nk h -> yclear (yinit addr h0) h = true ->
  yoccurs sz nk key_of hash keq rep clone pocca pocma (yend addr h0 h).
Proof.
  intros addr h0 h Ha Hh Hc. destruct (yclear_run h _ Hc) as (w & rs & Hr & Hb). exists addr, h0, h, rs. unfold yend. rewrite Hr. auto.
Qed.
End Check.

(** Checking that the statements of a program are admissible. *)
Definition ocallb {E K} (nk : nat) (c : ocall E K) : bool :=
  match c with
  | OErase j _ | OFind j _ | OContains j _ => Nat.ltb j nk
  | OAssign _ => Nat.eqb nk 1
  | OReserve n => (0 <=? n) && (n <? 2 ^ 59)
  | ORehash n => (0 <=? n) && (n <? 2 ^ 64)
  | OMaxLoad p q => (0 <? p) && (0 <? q) && (q <=? 16 * p)
  | _ => true
  end.
Definition ycallb {E K} (nk : nat) (c : ycall E K) : bool :=
  match c with
  | YOn _ c => ocallb nk c
  | YCopyNew i j | YMoveNew i j | YSwap i j => negb (Nat.eqb i j)
  | _ => true
  end.
Lemma ocallb_ok : forall E K nk (c : ocall E K), ocallb nk c = true -> ocall_ok nk c.
Proof.
  intros E K nk [] H; cbn [ocallb ocall_ok] in *; try exact I; repeat (apply andb_true_iff in H; destruct H as [H ?]);
    repeat match goal with X : (_ <=? _) = true |- _ => apply Z.leb_le in X | X : (_ <? _) = true |- _ => apply Z.ltb_lt in X
      | X : Nat.ltb _ _ = true |- _ => apply Nat.ltb_lt in X | X : Nat.eqb _ _ = true |- _ => apply Nat.eqb_eq in X end; auto.
Qed.
Lemma ycallb_ok : forall E K nk (c : ycall E K), ycallb nk c = true -> ycall_ok nk c.
Proof.
  intros E K nk [] H; cbn [ycallb ycall_ok] in *; try exact I; [apply ocallb_ok; exact H|..]; apply negb_true_iff, Nat.eqb_neq in H; exact H.
Qed.
(** The i-th statement places its array at 4096 * i; allocations up to 2^40 slots succeed;
    fresh memory contains arbitrary values. *)
Definition at_ (base : Z) : oenv := mkov dv0 base (fun a => (a mod 7, 5)).
Fixpoint place_from {C} (base : Z) (l : list C) : list (oenv * C) :=
  match l with [] => [] | c :: r => (at_ base, c) :: place_from (base + 4096) r end.
Definition yprog {C} (l : list C) : list (oenv * C) := place_from 4096 l.
Lemma place_from_ok : forall E K nk (l : list (ycall E K)) b, forallb (ycallb nk) l = true -> yhistory_ok nk (place_from b l).
Proof.
  intros E K nk l. induction l as [|c l IH]; intros b H; cbn [place_from]; constructor; cbn [forallb] in H; apply andb_true_iff in H; destruct H as (A & B).
  - split; [apply dv0_ok|apply ycallb_ok; exact A].
  - apply IH. exact B.
Qed.
Lemma place_from_calls : forall E K nk (l : list (ocall E K)) b, forallb (ocallb nk) l = true -> ohistory_ok nk (place_from b l).
Proof.
  intros E K nk l. induction l as [|c l IH]; intros b H; cbn [place_from]; constructor; cbn [forallb] in H; apply andb_true_iff in H; destruct H as (A & B).
  - split; [apply dv0_ok|apply ocallb_ok; exact A].
  - apply IH. exact B.
Qed.
(** Headers from 2^48 upwards, 2^30 bytes apart; nodes of 48 bytes. *)
Definition addr0 (i : nat) : Z := 2 ^ 48 + 2 ^ 30 * Z.of_nat i.
Definition heap0 : heap := fun a => if (2 ^ 48 <=? a) && (a mod 2 ^ 30 =? 0) then Some (0, 0) else None.
Lemma init0 : yinit_ok addr0 heap0.
Proof.
  split; [intros i j H; unfold addr0 in H; lia|]. intros i. unfold heap0, addr0. destruct (Z.leb_spec (2 ^ 48) (2 ^ 48 + 2 ^ 30 * Z.of_nat i)); [|lia].
  replace (2 ^ 48 + 2 ^ 30 * Z.of_nat i) with ((2 ^ 18 + Z.of_nat i) * 2 ^ 30) by lia. rewrite Z.mod_mul by lia. reflexivity.
Qed.
Notation ynormal := (@yoccurs entry Z 48 1 key1 ehash ekeq erep sameel false true) (only parsing).
Notation yexec1 := (@yexec entry Z 48 1 key1 ehash ekeq erep sameel false true) (only parsing).
Notation yrun1 := (@yrun entry Z 48 1 key1 ehash ekeq erep sameel false true) (only parsing).
Definition omaps (l : list (ycall entry Z)) : yworld := yend 48 1 key1 ehash ekeq erep sameel false true addr0 heap0 (yprog l).
Lemma omaps_occur : forall l, forallb (ycallb 1) l && yclear 48 1 key1 ehash ekeq erep sameel false true (yinit addr0 heap0) (yprog l) = true -> ynormal (omaps l).
Proof. intros l H. apply andb_true_iff in H. destruct H as [H1 H2]. apply yclear_occurs; [apply init0|apply place_from_ok; exact H1|exact H2]. Qed.
