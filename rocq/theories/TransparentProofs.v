(** Calls with another key type refine the list specification. *)
From Coq Require Import ZArith List Bool Lia Permutation.
From Verif Require Import Base BaseLemmas Bits BitsProofs SwissModel SwissArith SwissCap SwissInv SwissOps SwissClean
  SwissIter SwissRoom MapSpec SwissRun SwissRefine TransparentSpec TransparentModel.
Import ListNotations.
Open Scope Z_scope.

(** The search compares only the keys of nodes with the key argument. *)
Lemma scan_lanes_ext : forall E K1 K2 (key1 : E -> K1) (eq1 : K1 -> K1 -> bool) (key2 : E -> K2) (eq2 : K2 -> K2 -> bool) (s : @swiss E) k1 k2 p lanes,
  (forall e, eq1 (key1 e) k1 = eq2 (key2 e) k2) -> scan_lanes key1 eq1 s k1 p lanes = scan_lanes key2 eq2 s k2 p lanes.
Proof.
  intros E K1 K2 key1 eq1 key2 eq2 s k1 k2 p lanes H. induction lanes as [|l r IH]; [reflexivity|]. cbn [scan_lanes].
  destruct (get_node s (probe_off (s_cap s) p l)) as [n|]; [|reflexivity]. cbn [bind]. rewrite H, IH. reflexivity.
Qed.
Lemma find_node_ext : forall E K1 K2 f (key1 : E -> K1) (eq1 : K1 -> K1 -> bool) (key2 : E -> K2) (eq2 : K2 -> K2 -> bool) (s : @swiss E) k1 k2 h,
  (forall e, eq1 (key1 e) k1 = eq2 (key2 e) k2) -> find_node f key1 eq1 s k1 h = find_node f key2 eq2 s k2 h.
Proof.
  intros E K1 K2 f key1 eq1 key2 eq2 s k1 k2 h H. unfold find_node. destruct (s_size s =? 0); [reflexivity|].
  generalize (probe_start (s_cap s) h). induction (probe_fuel f s) as [|fu IH]; intros p; [reflexivity|]. cbn [find_loop].
  destruct (load_block f s (snd p)) as [blk|]; [|reflexivity]. cbn [bind].
  destruct (eq_lanes f blk (h2_of h)) as [lanes|]; [|reflexivity]. cbn [bind].
  rewrite (scan_lanes_ext E K1 K2 key1 eq1 key2 eq2 s k1 k2 p lanes H).
  destruct (scan_lanes key2 eq2 s k2 p lanes) as [[off|]|]; cbn [bind]; [reflexivity| |reflexivity].
  destruct (negb _); [reflexivity|]. destruct (assert_probe s (fst p)); [|reflexivity]. cbn [bind]. apply IH.
Qed.

Section Proofs.
Context {E K T V : Type}.
Variable f : simd.
Variable key_of : E -> K.
Variable hash : K -> Z.
Variable keq : K -> K -> bool.
Hypothesis KL : key_laws hash keq.
Variable rep : E -> E -> E.
Hypothesis Rep : forall a b, keq (key_of a) (key_of b) = true -> key_of (rep a b) = key_of a.
Variable hasht : T -> Z.
Variable eqt : K -> T -> bool.
Variable make : T -> V -> E.
Hypothesis TL : transparent_laws key_of hash keq hasht eqt make.

Local Notation swiss := (@swiss E).
Local Notation wf := (wf f key_of hash keq).
Local Notation texec := (texec f key_of hash keq rep hasht eqt make).
Local Notation trun := (trun f key_of hash keq rep hasht eqt make).
Local Notation tspec := (tspec key_of keq rep eqt make).
Local Notation tspec_run := (tspec_run key_of keq rep eqt make).
Local Notation either_eq := (either_eq keq eqt).
Local Notation either_hash := (either_hash hash hasht).
Local Notation either_key := (@either_key E K T key_of).

(** One argument [t] at a time, the keys together with [t] satisfy the laws. *)
Section One.
Variable t : T.
Definition ukey (e : E) : K + unit := inl (key_of e).
Definition uhash (k : K + unit) : Z := match k with inl k => hash k | inr _ => hasht t end.
Definition ueq (a b : K + unit) : bool :=
  match a, b with inl a, inl b => keq a b | inl a, inr _ => eqt a t | inr _, inl b => eqt b t | inr _, inr _ => true end.

Lemma ulaws : key_laws uhash ueq.
Proof.
  constructor.
  - intros [a|[]]; cbn; [apply (kl_refl _ _ KL)|reflexivity].
  - intros [a|[]] [b|[]]; cbn; auto. apply (kl_sym _ _ KL).
  - intros [a|[]] [b|[]] [c|[]]; cbn; auto.
    + apply (kl_trans _ _ KL).
    + apply (tl_resp _ _ _ _ _ _ TL).
    + apply (tl_same _ _ _ _ _ _ TL).
    + intros H1 H2. apply (tl_resp _ _ _ _ _ _ TL c b); [apply (kl_sym _ _ KL); exact H2|exact H1].
  - intros [a|[]] [b|[]]; cbn; auto.
    + apply (kl_hash _ _ KL).
    + apply (tl_hash _ _ _ _ _ _ TL).
    + intros H. symmetry. apply (tl_hash _ _ _ _ _ _ TL). exact H.
  - intros [a|[]]; cbn; [apply (kl_range _ _ KL)|apply (tl_range _ _ _ _ _ _ TL)].
Qed.
Lemma uwf : forall s : swiss, wf s -> SwissInv.wf f ukey uhash ueq s.
Proof. intros s [H|H]; [left; exact H|right]. destruct H. constructor; assumption. Qed.
Lemma uwf_back : forall s : swiss, SwissInv.wf f ukey uhash ueq s -> wf s.
Proof. intros s [H|H]; [left; exact H|right]. destruct H. constructor; assumption. Qed.
Lemma find_u : forall (s : swiss) h, find_node f either_key either_eq s (inr t) h = find_node f ukey ueq s (inr tt) h.
Proof. intros s h. apply find_node_ext. reflexivity. Qed.
End One.

Lemma urep : forall t a b, ueq t (ukey a) (ukey b) = true -> ukey (rep a b) = ukey a.
Proof. intros t a b H. unfold ukey. rewrite (Rep a b H). reflexivity. Qed.

(** For an element made from [t]: the search for [t] is the search for its key. *)
Lemma eqt_make : forall t v e, eqt (key_of e) t = keq (key_of e) (key_of (make t v)).
Proof.
  intros t v e. pose proof (tl_make _ _ _ _ _ _ TL t v) as Hm. destruct (eqt (key_of e) t) eqn:Et; symmetry.
  - apply (tl_same _ _ _ _ _ _ TL _ _ t); assumption.
  - destruct (keq (key_of e) (key_of (make t v))) eqn:Ek; [|reflexivity].
    rewrite (tl_resp _ _ _ _ _ _ TL _ _ t Ek Hm) in Et. discriminate.
Qed.
Lemma try_insert : forall lim ctor (s : swiss) t v, t_try f key_of keq hasht eqt make lim ctor s t v = do_insert f key_of hash keq lim ctor s (make t v).
Proof.
  intros lim ctor s t v. unfold t_try, do_insert. rewrite (tl_hash _ _ _ _ _ _ TL _ t (tl_make _ _ _ _ _ _ TL t v)).
  rewrite (find_node_ext E (K + T) K f either_key either_eq key_of keq s (inr t) (key_of (make t v))); [reflexivity|]. intros e. apply eqt_make.
Qed.
Lemma assign_insert : forall lim ctor (s : swiss) t v,
  t_assign f key_of keq rep hasht eqt make lim ctor s t v = do_insert_or_assign f key_of hash keq rep lim ctor s (make t v).
Proof.
  intros lim ctor s t v. unfold t_assign, do_insert_or_assign. rewrite (tl_hash _ _ _ _ _ _ TL _ t (tl_make _ _ _ _ _ _ TL t v)).
  rewrite (find_node_ext E (K + T) K f either_key either_eq key_of keq s (inr t) (key_of (make t v))); [reflexivity|]. intros e. apply eqt_make.
Qed.

Definition tok (v : env) (s : swiss) (c : tcall E K T V) : Prop :=
  (exists s' r, texec v s c = Ok (s', r) /\ wf s' /\ tspec c (elems s) (elems s') r) \/
  (narrow f /\ tscanning c /\ texec v s c = Err BitScanZero).

Lemma texec_ok : forall v s c, wf s -> env_ok v -> tcall_ok c -> tok v s c.
Proof.
  intros v s c H Hv Hc. unfold tok. destruct c as [c|t|t|t|t u|t u].
  - destruct (exec_ok f key_of hash keq KL rep Rep v s c H Hv Hc) as [(s' & r & E1 & [W1 _] & Hs)|Hn]; [left|right; exact Hn].
    exists s', r. split; [exact E1|]. split; [exact W1|]. apply ts_on. exact Hs.
  - assert (E0 : texec v s (TFind t) = exec f ukey (uhash t) (ueq t) rep v s (CFind (inr tt))).
    { cbn [TransparentModel.texec exec]. unfold find. rewrite (find_u t). reflexivity. }
    rewrite E0. destruct (exec_ok f ukey (uhash t) (ueq t) (ulaws t) rep (urep t) v s (CFind (inr tt)) (uwf t s H) Hv I) as [(s' & r & E1 & [W1 _] & Hs)|(_ & [] & _)].
    left. exists s', r. split; [exact E1|]. split; [apply (uwf_back t); exact W1|]. inversion Hs; subst; [apply ts_find_absent; assumption|].
    match goal with Hl : located _ _ _ _ _ _ _ |- _ => destruct Hl as [Lc Lk] end. eapply ts_find. split; [exact Lc|exact Lk].
  - assert (E0 : texec v s (TContains t) = exec f ukey (uhash t) (ueq t) rep v s (CContains (inr tt))).
    { cbn [TransparentModel.texec exec]. unfold contains. rewrite (find_u t). reflexivity. }
    rewrite E0. destruct (exec_ok f ukey (uhash t) (ueq t) (ulaws t) rep (urep t) v s (CContains (inr tt)) (uwf t s H) Hv I) as [(s' & r & E1 & [W1 _] & Hs)|(_ & [] & _)].
    left. exists s', r. split; [exact E1|]. split; [apply (uwf_back t); exact W1|]. inversion Hs; subst; [apply ts_contains_absent; assumption|].
    match goal with Hl : located _ _ _ _ _ _ _ |- _ => destruct Hl as [Lc Lk] end. eapply ts_contains. split; [exact Lc|exact Lk].
  - assert (E0 : texec v s (TErase t) = exec f ukey (uhash t) (ueq t) rep v s (CErase (inr tt))).
    { cbn [TransparentModel.texec exec]. unfold erase_key. rewrite (find_u t). reflexivity. }
    rewrite E0. destruct (exec_ok f ukey (uhash t) (ueq t) (ulaws t) rep (urep t) v s (CErase (inr tt)) (uwf t s H) Hv I) as [(s' & r & E1 & [W1 _] & Hs)|(Hn & _ & E1)].
    + left. exists s', r. split; [exact E1|]. split; [apply (uwf_back t); exact W1|]. inversion Hs; subst; [apply ts_erase_absent; assumption|].
      match goal with Hl : located _ _ _ _ _ _ _ |- _ => destruct Hl as [Lc Lk] end. apply (ts_erase _ _ _ _ _ t _ a x b). split; [exact Lc|exact Lk].
    + right. split; [exact Hn|]. split; [exact I|exact E1].
  - assert (E0 : texec v s (TTry t u) = exec f key_of hash keq rep v s (CInsert (make t u))).
    { cbn [TransparentModel.texec exec]. rewrite try_insert. reflexivity. }
    rewrite E0. destruct (exec_ok f key_of hash keq KL rep Rep v s (CInsert (make t u)) H Hv I) as [(s' & r & E1 & [W1 _] & Hs)|(_ & [] & _)].
    left. exists s', r. split; [exact E1|]. split; [exact W1|].
    assert (Ha : absent key_of keq (key_of (make t u)) (elems s) -> tabsent key_of eqt t (elems s)).
    { intros Ha x Hx. rewrite (eqt_make t u). apply Ha. exact Hx. }
    inversion Hs; subst.
    + apply ts_try_new; [apply Ha; assumption|assumption].
    + match goal with Hl : located _ _ _ _ _ _ _ |- _ => destruct Hl as [Lc Lk] end. eapply ts_try_old. split; [exact Lc|]. rewrite (eqt_make t u). exact Lk.
    + apply ts_try_throw; [apply Ha; assumption|assumption].
  - assert (E0 : texec v s (TAssign t u) = exec f key_of hash keq rep v s (CAssign (make t u))).
    { cbn [TransparentModel.texec exec]. rewrite assign_insert. reflexivity. }
    rewrite E0. destruct (exec_ok f key_of hash keq KL rep Rep v s (CAssign (make t u)) H Hv I) as [(s' & r & E1 & [W1 _] & Hs)|(_ & [] & _)].
    left. exists s', r. split; [exact E1|]. split; [exact W1|].
    assert (Ha : absent key_of keq (key_of (make t u)) (elems s) -> tabsent key_of eqt t (elems s)).
    { intros Ha x Hx. rewrite (eqt_make t u). apply Ha. exact Hx. }
    inversion Hs; subst.
    + apply ts_assign_new; [apply Ha; assumption|assumption].
    + match goal with Hl : located _ _ _ _ _ _ _ |- _ => destruct Hl as [Lc Lk] end. apply (ts_assign_old _ _ _ _ _ t u _ a x b). split; [exact Lc|]. rewrite (eqt_make t u). exact Lk.
    + apply ts_assign_throw; [apply Ha; assumption|assumption].
Qed.

Lemma trun_ok : forall h s, wf s -> thistory_ok h ->
  (exists s' rs, trun s h = Ok (s', rs) /\ wf s' /\ tspec_run (map snd h) (elems s) (elems s') rs) \/
  (narrow f /\ (exists v c, In (v, c) h /\ tscanning c) /\ trun s h = Err BitScanZero).
Proof.
  induction h as [|[v c] h IH]; intros s Hi Hh.
  - left. exists s, []. split; [reflexivity|]. split; [exact Hi|]. constructor.
  - inversion Hh as [|? ? [Hv Hc] Hh']; subst. cbn [TransparentModel.trun fst snd] in *.
    destruct (texec_ok v s c Hi Hv Hc) as [(s1 & r & -> & Hi1 & Hst)|(Hn & Hsc & ->)].
    + cbn [bind]. destruct (IH s1 Hi1 Hh') as [(s2 & rs & -> & Hi2 & Hr)|(Hn & (v' & c' & Hin & Hsc) & ->)].
      * left. cbn [bind]. exists s2, (r :: rs). split; [reflexivity|]. split; [exact Hi2|]. cbn [map snd]. econstructor; eassumption.
      * right. split; [exact Hn|]. split; [|reflexivity]. exists v', c'. split; [right; exact Hin|exact Hsc].
    + right. split; [exact Hn|]. split; [|reflexivity]. exists v, c. split; [left; reflexivity|exact Hsc].
Qed.

Lemma transparent_all : forall h, thistory_ok h ->
  (exists s rs, trun empty_swiss h = Ok (s, rs) /\ tspec_run (map snd h) [] (elems s) rs) \/
  ((f = NEON \/ f = WORD) /\ (exists v c, In (v, c) h /\ tscanning c) /\ trun empty_swiss h = Err BitScanZero).
Proof.
  intros h Hh. destruct (trun_ok h empty_swiss (proj1 (empty_inv f key_of hash keq)) Hh) as [(s & rs & E1 & _ & Hr)|Hn]; [left|right; exact Hn].
  exists s, rs. split; [exact E1|exact Hr].
Qed.
Lemma transparent_wide : forall h, f = SSE2 \/ f = SSSE3 -> thistory_ok h ->
  exists s rs, trun empty_swiss h = Ok (s, rs) /\ tspec_run (map snd h) [] (elems s) rs.
Proof. intros h Hf Hh. destruct (transparent_all h Hh) as [H|(Hn & _)]; [exact H|]. destruct Hf, Hn; congruence. Qed.
End Proofs.
