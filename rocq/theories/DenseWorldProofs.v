(** Programs over several dense containers refine lists. *)
From Coq Require Import ZArith List Bool Lia Arith.
From Verif Require Import Base BaseLemmas MapSpec Float32 DenseSpec DenseWorldSpec World DenseModel DenseRun DenseChain DenseInv DenseOps DenseEdit DenseErase DenseRefine DenseMore DenseWorld WorldProofs.
Import ListNotations.
Open Scope Z_scope.

Section Proofs.
Context {E K : Type}.
Variable nk : nat.
Variable key_of : nat -> E -> K.
Variable hash : K -> Z.
Variable keq : K -> K -> bool.
Variable rep : E -> E -> E.
Variable clone : E -> E.
Variables pocca pocma : bool.
Hypothesis KL : key_laws hash keq.
Hypothesis rep_key : forall x e, key_of 0 (rep x e) = key_of 0 x.
Hypothesis clone_key : forall j e, (j < nk)%nat -> key_of j (clone e) = key_of j e.
Notation dense := (dense E).
Notation dwf := (dwf nk key_of hash keq).
Notation xexec := (xexec nk key_of hash keq rep clone pocca pocma).
Notation xrun := (xrun nk key_of hash keq rep clone pocca pocma).
Notation xblocked := (xblocked nk key_of hash keq rep clone pocca pocma).
Notation xspec := (xspec nk key_of keq rep clone).
Notation xspec_run := (xspec_run nk key_of keq rep clone).

Definition xwf (w : @xworld E) : Prop := forall i, dwf (w i).
Definition xabs (w : @xworld E) : xconts := fun i => delems (w i).

Lemma xwf_set : forall w i s, xwf w -> dwf s -> xwf (setn w i s).
Proof. intros w i s H Hs j. unfold setn. destruct (Nat.eqb j i); [exact Hs|apply H]. Qed.
Lemma xo1 : forall w i s, xothers [i] (xabs w) (xabs (setn w i s)).
Proof. intros w i s j Hj. unfold xabs. rewrite setn_other; [reflexivity|]. intros ->. apply Hj. left. reflexivity. Qed.
Lemma xo2 : forall w i s j o, xothers [i; j] (xabs w) (xabs (setn (setn w i s) j o)).
Proof. intros w i s j o x Hx. unfold xabs. rewrite !setn_other; [reflexivity| |]; intros ->; apply Hx; [left|right; left]; reflexivity. Qed.
Lemma xo0 : forall w, xothers [] (xabs w) (xabs w). Proof. intros w j _. reflexivity. Qed.
Lemma xat : forall w i s, xabs (setn w i s) i = delems s. Proof. intros. unfold xabs. rewrite setn_same. reflexivity. Qed.

Lemma filter_all : forall A (f : A -> bool) l, (forall x, In x l -> f x = false) -> filter f l = [] /\ filter (fun x => negb (f x)) l = l.
Proof.
  induction l as [|x l IH]; intros H; cbn [filter]; [split; reflexivity|]. rewrite (H x (or_introl eq_refl)). cbn [negb].
  destruct IH as [H1 H2]; [intros y Hy; apply H; right; exact Hy|]. rewrite H1, H2. split; reflexivity.
Qed.

Lemma xstep_ok : forall v w c, xwf w -> denv_ok v -> xcall_ok nk c ->
  xblocked v w c \/ exists w' r, xexec v w c = Ok (w', r) /\ xwf w' /\ xspec c (xabs w) (xabs w') r.
Proof.
  intros v w c W [Hdl Hsl] Hok. destruct c as [i c|i pred|i ra l|i n|i ra l n|i j|i j|i j|i j|i j]; cbn [xcall_ok] in Hok.
  - cbn [DenseWorld.xblocked DenseWorld.xexec]. destruct (step_ok nk key_of hash keq rep KL rep_key v (w i) c (W i) (conj Hdl Hsl) Hok) as [Hb|(s & r & -> & Ws & Hs)]; [left; exact Hb|right].
    cbn [bind]. eexists. eexists. split; [reflexivity|]. split; [apply xwf_set; assumption|]. apply xs_on; [rewrite xat; exact Hs|apply xo1].
  - cbn [DenseWorld.xblocked DenseWorld.xexec]. destruct (existsb pred (delems (w i))) eqn:Ex.
    + left. apply existsb_exists in Ex. exact Ex.
    + right. assert (Hp : forall x, In x (delems (w i)) -> pred x = false).
      { intros x Hx. destruct (pred x) eqn:Ep; [|reflexivity]. assert (existsb pred (delems (w i)) = true); [|congruence]. apply existsb_exists. exists x. auto. }
      rewrite (erase_if_none nk key_of hash keq pred (w i) (W i) Hp). cbn [bind]. eexists. eexists. split; [reflexivity|]. split; [apply xwf_set; auto|].
      destruct (filter_all _ pred (delems (w i)) Hp) as [F1 F2].
      replace 0 with (Z.of_nat (length (filter pred (xabs w i)))) by (unfold xabs; rewrite F1; reflexivity).
      apply xs_erase_if; [rewrite xat; unfold xabs; rewrite F2; reflexivity|apply xo1].
  - assert (Hsz : d_size (w i) < 2 ^ 59) by (pose proof (w_size _ _ _ _ _ (W i)); pose proof (w_cap _ _ _ _ _ (W i)); lia).
    destruct (insert_range_gen nk key_of hash keq KL ra l (dv_dlim v) (dv_slim v) (w i) (W i) Hdl Hsl Hok) as (s & b & He & Hs).
    destruct Hs as [(-> & Ws & Ha)|(-> & Hw & l1 & l2 & -> & Ha)].
    + right. cbn [DenseWorld.xexec]. rewrite He. cbn [bind]. eexists. eexists. split; [reflexivity|]. split; [apply xwf_set; auto|]. apply xs_insert_range; [rewrite xat; exact Ha|apply xo1].
    + destruct Hw as [Ws|Hbr].
      * right. cbn [DenseWorld.xexec]. rewrite He. cbn [bind]. eexists. eexists. split; [reflexivity|]. split; [apply xwf_set; auto|]. apply xs_insert_range_throw; [rewrite xat; exact Ha|apply xo1].
      * left. exists (setn w i s). cbn [DenseWorld.xexec]. rewrite He. cbn [bind]. split; [reflexivity|]. rewrite setn_same. exact Hbr.
  - right. cbn [DenseWorld.xexec]. destruct (ctor_n (dv_dlim v) (dv_slim v) n) as [s|] eqn:Ec.
    + destruct (ctor_n_ok nk key_of hash keq _ _ n s (proj1 Hok) Hdl Hsl Ec) as (Ws & He & _). eexists. eexists. split; [reflexivity|]. split; [apply xwf_set; auto|].
      apply xs_new; [rewrite xat; exact He|apply xo1].
    + eexists. eexists. split; [reflexivity|]. split; [exact W|]. apply xs_new_throw. apply xo0.
  - right. cbn [DenseWorld.xexec]. destruct Hok as [Hl Hn].
    destruct (ctor_range_ok nk key_of hash keq KL ra l n (dv_dlim v) (dv_slim v) (proj1 Hn) Hl Hdl Hsl) as [->|(s & b & -> & H)]; cbn [bind].
    + eexists. eexists. split; [reflexivity|]. split; [exact W|]. apply xs_range_throw. apply xo0.
    + destruct b.
      * destruct (H eq_refl) as [Ws Ha]. eexists. eexists. split; [reflexivity|]. split; [apply xwf_set; auto|]. apply xs_range; [rewrite xat; exact Ha|apply xo1].
      * eexists. eexists. split; [reflexivity|]. split; [exact W|]. apply xs_range_throw. apply xo0.
  - right. cbn [DenseWorld.xexec]. destruct (copy_ctor_ok nk key_of hash keq clone clone_key (dv_dlim v) (dv_slim v) (w j) Hdl Hsl (W j)) as (s & b & -> & H). cbn [bind]. destruct b.
    + destruct (H eq_refl) as [Ws He]. eexists. eexists. split; [reflexivity|]. split; [apply xwf_set; auto|]. apply xs_copy_new; [rewrite xat; exact He|apply xo1].
    + eexists. eexists. split; [reflexivity|]. split; [exact W|]. apply xs_copy_new_throw. apply xo0.
  - destruct (Nat.eqb_spec i j) as [->|Hij].
    + right. cbn [DenseWorld.xexec]. rewrite Nat.eqb_refl. eexists. eexists. split; [reflexivity|]. split; [exact W|]. apply xs_copy_self. apply xo0.
    + assert (Hc : (pocca = false /\ delems (w j) = [] /\ delems (w i) <> []) \/ (pocca = true \/ 0 < d_size (w j) \/ d_size (w i) = 0)).
      { pose proof (delems_len nk key_of hash keq (w i) (W i)) as Li. pose proof (delems_len nk key_of hash keq (w j) (W j)) as Lj.
        pose proof (w_size _ _ _ _ _ (W i)). pose proof (w_size _ _ _ _ _ (W j)).
        destruct pocca; [auto|]. destruct (Z.eq_dec (d_size (w j)) 0) as [Hz0|Hz0]; [|right; right; left; lia]. destruct (Z.eq_dec (d_size (w i)) 0) as [Hz1|Hz1]; [auto|].
        left. split; [reflexivity|]. split; [apply size0_delems; exact Hz0|]. intros Hn. rewrite Hn in Li. cbn [length] in Li. lia. }
      destruct Hc as [Hc|Hc]; [left; left; exact Hc|].
      destruct (copy_assign_ok nk key_of hash keq clone clone_key pocca (dv_dlim v) (dv_slim v) (w i) (w j) Hdl Hsl (W i) (W j) Hc) as (s & b & He & H).
      destruct b.
      * right. cbn [DenseWorld.xexec]. destruct (Nat.eqb_spec i j) as [|_]; [contradiction|]. rewrite He. cbn [bind]. destruct (H eq_refl) as [Ws Hs].
        eexists. eexists. split; [reflexivity|]. split; [apply xwf_set; auto|]. apply xs_copy; [exact Hij|rewrite xat; exact Hs|apply xo1].
      * left. right. cbn [DenseWorld.xexec]. destruct (Nat.eqb_spec i j) as [|_]; [contradiction|]. rewrite He. cbn [bind]. eexists. reflexivity.
  - right. cbn [DenseWorld.xexec]. destruct (move_ctor_ok nk key_of hash keq (dv_dlim v) (dv_slim v) (w j) (W j)) as (s & o & -> & Ws & Hs & Wo & Ho). cbn [bind].
    eexists. eexists. split; [reflexivity|]. split; [apply xwf_set; [apply xwf_set; auto|exact Wo]|]. apply xs_move_new; [exact Hok| | |apply xo2].
    + unfold xabs. rewrite setn_other by exact Hok. rewrite setn_same. exact Hs.
    + rewrite xat. exact Ho.
  - destruct (Nat.eqb_spec i j) as [->|Hij].
    + right. cbn [DenseWorld.xexec]. rewrite Nat.eqb_refl. eexists. eexists. split; [reflexivity|]. split; [exact W|]. apply xs_move_self. apply xo0.
    + assert (Hc : (pocma = false /\ delems (w i) <> []) \/ (pocma = true \/ d_size (w i) = 0)).
      { pose proof (delems_len nk key_of hash keq (w i) (W i)) as Li. pose proof (w_size _ _ _ _ _ (W i)).
        destruct pocma; [auto|]. destruct (Z.eq_dec (d_size (w i)) 0) as [Hz1|Hz1]; [auto|].
        left. split; [reflexivity|]. intros Hn. rewrite Hn in Li. cbn [length] in Li. lia. }
      destruct Hc as [Hc|Hc]; [left; exact Hc|right]. cbn [DenseWorld.xexec]. destruct (Nat.eqb_spec i j) as [|_]; [contradiction|].
      destruct (move_assign_ok nk key_of hash keq pocma (dv_dlim v) (dv_slim v) (w i) (w j) (W i) (W j)) as (s & o & -> & Ws & Hs & Ho & _ & Wo). cbn [bind].
      eexists. eexists. split; [reflexivity|]. split; [apply xwf_set; [apply xwf_set; auto|apply Wo; exact Hc]|]. apply xs_move; [exact Hij| | |apply xo2].
      * unfold xabs. rewrite setn_other by exact Hij. rewrite setn_same. exact Hs.
      * rewrite xat. exact Ho.
  - right. cbn [DenseWorld.xexec swap guard bind]. eexists. eexists. split; [reflexivity|]. split; [apply xwf_set; [apply xwf_set; auto|]; apply W|].
    apply xs_swap; unfold xabs.
    + rewrite setn_same. reflexivity.
    + unfold setn. rewrite Nat.eqb_refl. destruct (Nat.eqb_spec j i) as [->|]; reflexivity.
    + intros x Hx. rewrite !setn_other; [reflexivity| |]; intros ->; apply Hx; [right; left|left]; reflexivity.
Qed.

Lemma xrun_ok : forall h w, xwf w -> xhistory_ok nk h ->
  (exists w' rs, xrun w h = Ok (w', rs) /\ xwf w' /\ xspec_run (map snd h) (xabs w) (xabs w') rs) \/
  (exists h1 v c h2 w1 rs1, h = h1 ++ (v, c) :: h2 /\ xrun w h1 = Ok (w1, rs1) /\ xwf w1 /\ xspec_run (map snd h1) (xabs w) (xabs w1) rs1 /\ xblocked v w1 c).
Proof.
  induction h as [|[v c] h IH]; intros w W Hh.
  - left. exists w, []. split; [reflexivity|]. split; [exact W|constructor].
  - inversion Hh as [|? ? [Hv Hc] Hh']; subst. cbn [fst snd] in *. destruct (xstep_ok v w c W Hv Hc) as [Hb|(w1 & r & He & W1 & Hs)].
    + right. exists [], v, c, h, w, []. split; [reflexivity|]. split; [reflexivity|]. split; [exact W|]. split; [constructor|exact Hb].
    + destruct (IH w1 W1 Hh') as [(w' & rs & Hr & W' & Hsr)|(h1 & v1 & c1 & h2 & w2 & rs & -> & Hr & W2 & Hsr & Hb)].
      * left. exists w', (r :: rs). cbn [DenseWorld.xrun map snd]. rewrite He. cbn [bind]. rewrite Hr. cbn [bind]. split; [reflexivity|]. split; [exact W'|]. econstructor; eassumption.
      * right. exists ((v, c) :: h1), v1, c1, h2, w2, (r :: rs). cbn [DenseWorld.xrun map snd]. rewrite He. cbn [bind]. rewrite Hr. cbn [bind].
        split; [reflexivity|]. split; [reflexivity|]. split; [exact W2|]. split; [econstructor; eassumption|exact Hb].
Qed.

Lemma xinit_wf : xwf xinit. Proof. intros i. apply empty_wf. Qed.
End Proofs.
