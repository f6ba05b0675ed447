(** The bucket array of a dense table never shrinks. *)
From Coq Require Import ZArith List Bool Lia.
From Verif Require Import Base BaseLemmas MapSpec Float32 DenseSpec DenseModel DenseRun DenseChain DenseInv DenseOps DenseEdit DenseErase DenseRefine.
Import ListNotations.
Open Scope Z_scope.

(** Inversion of a successful sequence of steps. *)
Ltac bstep H :=
  match type of H with
  | bind ?x ?f = Ok _ => let E := fresh "Eb" in destruct x eqn:E; cbn [bind] in H; [|discriminate H]
  | guard ?b _ = Ok _ => let E := fresh "Eg" in destruct b eqn:E; cbn [guard] in H; [|discriminate H]
  | match ?x with _ => _ end = Ok _ => let E := fresh "Em" in destruct x eqn:E; try discriminate H
  | (if ?b then _ else _) = Ok _ => let E := fresh "Ei" in destruct b eqn:E; try discriminate H
  | Ok _ = Ok _ => injection H; clear H; intros; subst
  | (let '(a, b) := ?x in _) = Ok _ => let E := fresh "Ep" in destruct x eqn:E
  end.
Ltac binv H := repeat (bstep H).

Section Mono.
Context {E K : Type}.
Variable nk : nat.
Variable key_of : nat -> E -> K.
Variable hash : K -> Z.
Variable keq : K -> K -> bool.
Variable rep : E -> E -> E.
Notation dense := (dense E).

Lemma put_bc : forall (s t : dense) i n, put_node s i n = Ok t -> d_bc t = d_bc s. Proof. intros s t i n H. unfold put_node in H. binv H. reflexivity. Qed.
Lemma kill_bc : forall (s t : dense) i, kill_node s i = Ok t -> d_bc t = d_bc s. Proof. intros s t i H. unfold kill_node in H. binv H. reflexivity. Qed.
Lemma new_bc : forall (s t : dense) i n, new_node s i n = Ok t -> d_bc t = d_bc s. Proof. intros s t i n H. unfold new_node in H. binv H. reflexivity. Qed.
Lemma store_bc : forall (s t : dense) j p v, store s j p v = Ok t -> d_bc t = d_bc s.
Proof. intros s t j [b|i] v H; cbn [store] in H; bstep H; [injection H as <-; reflexivity|]. exact (put_bc _ _ _ _ H). Qed.
Lemma fold_bc : forall A (f : dense -> A -> res dense) (l : list A) (s t : dense),
  (forall x s t, f s x = Ok t -> d_bc t = d_bc s) -> foldM f l s = Ok t -> d_bc t = d_bc s.
Proof.
  intros A f l s t Hf. revert s. induction l as [|x l IH]; intros s H; cbn [foldM] in H; [injection H as ->; reflexivity|].
  bstep H. rewrite (IH _ H). apply (Hf x). exact Eb.
Qed.
Lemma insert_node_bc : forall pos (s t : dense) j, insert_node pos s j = Ok t -> d_bc t = d_bc s.
Proof. intros pos s t j H. unfold insert_node in H. do 4 bstep H. rewrite (store_bc _ _ _ _ _ H). exact (put_bc _ _ _ _ Eb2). Qed.
Lemma move_chain_bc : forall a b (s t : dense) j, move_chain a b s j = Ok t -> d_bc t = d_bc s.
Proof. intros a b s t j H. unfold move_chain in H. do 5 bstep H. exact (store_bc _ _ _ _ _ H). Qed.
Lemma commit_bc : forall (s t : dense) pos sl hs, commit_node s pos sl hs = Ok t -> d_bc t = d_bc s.
Proof.
  intros s t pos sl hs H. unfold commit_node in H. do 2 bstep H. rewrite (put_bc _ _ _ _ H). revert Eb. apply fold_bc. intros [j p] x y. apply store_bc.
Qed.
Lemma pop_bc : forall (s t : dense), pop_node s = Ok t -> d_bc t = d_bc s.
Proof. intros s t H. unfold pop_node in H. apply kill_bc in H. exact H. Qed.
Lemma push_bc : forall c (s t : dense) e o, push_node c s e = Ok (t, o) -> d_bc t = d_bc s.
Proof. intros c s t e o H. unfold push_node in H. destruct c; [|injection H as <- <-; reflexivity]. bstep H. injection H as <- <-. apply new_bc in Eb. exact Eb. Qed.
Lemma emplace_node_bc : forall c (s t : dense) sl hs e o, emplace_node c s sl hs e = Ok (t, o) -> d_bc t = d_bc s.
Proof.
  intros c s t sl hs e o H. unfold emplace_node in H. bstep H. destruct a as [s1 [p|]]; [|injection H as <- <-; exact (push_bc _ _ _ _ _ Eb)].
  bstep H. injection H as <- <-. rewrite (commit_bc _ _ _ _ _ Eb0). exact (push_bc _ _ _ _ _ Eb).
Qed.
Lemma erase_node_bc : forall (s t : dense) pos sl p, erase_node s pos sl = Ok (t, p) -> d_bc t = d_bc s.
Proof.
  intros s t pos sl p H. unfold erase_node in H. bstep H. bstep H. bstep H. bstep H. injection H as <- <-. rewrite (pop_bc _ _ Eb2).
  assert (H1 : d_bc a0 = d_bc s).
  { revert Eb0. apply fold_bc. intros [j q] x y Hx. bstep Hx. exact (store_bc _ _ _ _ _ Hx). }
  destruct (pos =? d_size a0 - 1); [injection Eb1 as <-; exact H1|]. bstep Eb1. bstep Eb1. rewrite (put_bc _ _ _ _ Eb1), <- H1. revert Eb3. apply fold_bc. intros j x y. apply move_chain_bc.
Qed.
Lemma resize_bc : forall lim (s t : dense) c o, resize_data lim s c = Ok (t, o) -> d_bc t = d_bc s.
Proof. intros lim s t c o H. unfold resize_data in H. binv H; reflexivity. Qed.
Lemma maybe_resize_bc : forall lim (s t : dense) o, maybe_resize lim s = Ok (t, o) -> d_bc t = d_bc s.
Proof. intros lim s t o H. unfold maybe_resize in H. destruct (d_cap s =? d_size s); [exact (resize_bc _ _ _ _ _ H)|injection H as <- _; reflexivity]. Qed.
Lemma do_rehash_bc : forall lim (s t : dense) n o, do_rehash nk lim s n = Ok (t, o) -> d_bc s <= d_bc t.
Proof.
  intros lim s t n o H. unfold do_rehash in H. destruct (realloc_sparse lim s n) as [s1 b] eqn:Er.
  assert (H1 : d_bc s <= d_bc s1) by (unfold realloc_sparse in Er; destruct (Z.ltb_spec (d_bc s) n); [destruct (lim <? n)|]; injection Er as <- _; cbn [d_bc]; lia).
  destruct b; [|injection H as <- _; exact H1]. bstep H. bstep H. injection H as <- _.
  assert (H2 : d_bc a = d_bc s1) by (unfold fill_sparse in Eb; binv Eb; reflexivity).
  assert (H3 : d_bc a0 = d_bc a); [|lia]. revert Eb0. apply fold_bc. intros i x y. unfold insert_step. apply fold_bc. intros j u w. apply insert_node_bc.
Qed.
Lemma rehash_bc : forall lim (s t : dense) n o, rehash nk lim s n = Ok (t, o) -> d_bc s <= d_bc t.
Proof.
  intros lim s t n o H. unfold rehash in H. destruct ((n =? 0) && (d_size s =? 0)); [injection H as <- _; lia|]. bstep H.
  destruct ((n =? 0) || negb (Z.max a n =? d_bc s)); [exact (do_rehash_bc _ _ _ _ _ H)|injection H as <- _; lia].
Qed.
Lemma make_room_bc : forall dl sl (s t : dense) o, make_room nk dl sl s = Ok (t, o) -> d_bc s <= d_bc t.
Proof.
  intros dl sl s t o H. unfold make_room in H. bstep H. destruct a as [s1 [u|]]; [|injection H as <- _; apply maybe_resize_bc in Eb; lia].
  apply maybe_resize_bc in Eb. rewrite <- Eb. unfold maybe_rehash in H. destruct (d_bc s1 =? 0); [exact (rehash_bc _ _ _ _ _ H)|].
  destruct (overloaded s1); [exact (rehash_bc _ _ _ _ _ H)|injection H as <- _; lia].
Qed.
Lemma reserve_bc : forall dl sl (s t : dense) n o, reserve nk dl sl s n = Ok (t, o) -> d_bc s <= d_bc t.
Proof.
  intros dl sl s t n o H. unfold reserve in H. bstep H. destruct a as [s1 o1].
  assert (H1 : d_bc s1 = d_bc s) by (destruct (d_cap s <? n); [exact (resize_bc _ _ _ _ _ Eb)|injection Eb as <- _; reflexivity]).
  destruct o1; [|injection H as <- _; lia]. bstep H. rewrite <- H1. exact (rehash_bc _ _ _ _ _ H).
Qed.
Lemma do_insert_bc : forall dl sl c (s t : dense) e o, do_insert nk key_of hash keq dl sl c s e = Ok (t, o) -> d_bc s <= d_bc t.
Proof.
  intros dl sl c s t e o H. unfold do_insert in H. bstep H. destruct a as [s1 [u|]]; [|injection H as <- _; exact (make_room_bc _ _ _ _ _ Eb)].
  apply make_room_bc in Eb. do 2 bstep H. destruct a0 as [i|]; [injection H as <- _; exact Eb|]. do 2 bstep H. destruct a1 as [s2 o2]. injection H as <- _.
  rewrite (emplace_node_bc _ _ _ _ _ _ _ Eb3). exact Eb.
Qed.
Lemma do_emplace_bc : forall dl sl c (s t : dense) e o, do_emplace nk key_of hash keq dl sl c s e = Ok (t, o) -> d_bc s <= d_bc t.
Proof.
  intros dl sl c s t e o H. unfold do_emplace in H. bstep H. destruct a as [s1 [u|]]; [|injection H as <- _; exact (make_room_bc _ _ _ _ _ Eb)].
  apply make_room_bc in Eb. bstep H. destruct a as [s2 [p|]]; apply push_bc in Eb0; [|injection H as <- _; lia].
  do 3 bstep H. destruct a1 as [i|].
  - bstep H. injection H as <- _. apply pop_bc in Eb4. lia.
  - do 2 bstep H. injection H as <- _. apply commit_bc in Eb5. lia.
Qed.
Lemma do_assign_bc : forall dl sl c (s t : dense) e o, do_insert_or_assign nk key_of hash keq rep dl sl c s e = Ok (t, o) -> d_bc s <= d_bc t.
Proof.
  intros dl sl c s t e o H. unfold do_insert_or_assign in H. bstep H. destruct a as [s1 [u|]]; [|injection H as <- _; exact (make_room_bc _ _ _ _ _ Eb)].
  apply make_room_bc in Eb. bstep H. destruct a as [i op]. bstep H. destruct a.
  - do 2 bstep H. destruct a0 as [s2 o2]. injection H as <- _. rewrite (emplace_node_bc _ _ _ _ _ _ _ Eb3). exact Eb.
  - do 2 bstep H. injection H as <- _. apply put_bc in Eb3. lia.
Qed.
Lemma erase_at_bc : forall (s t : dense) i p, erase_at nk s i = Ok (t, p) -> d_bc t = d_bc s.
Proof. intros s t i p H. unfold erase_at in H. destruct (i =? d_size s); [injection H as <- _; reflexivity|]. do 2 bstep H. exact (erase_node_bc _ _ _ _ _ H). Qed.
Lemma erase_loop_bc : forall fu (s t : dense) j k h p q, erase_loop nk key_of keq fu s j k h p = Ok (t, q) -> d_bc t = d_bc s.
Proof.
  induction fu as [|fu IH]; intros s t j k h p q H; cbn [erase_loop] in H; [discriminate|]. bstep H. destruct (a =? npos); [injection H as <- _; reflexivity|].
  bstep H. destruct ((n_hash a0 j =? h) && keq k (key_of j (n_val a0))); [|exact (IH _ _ _ _ _ _ _ H)]. bstep H. exact (erase_node_bc _ _ _ _ _ H).
Qed.
Lemma erase_range_bc : forall n (s t : dense) a r p, erase_range_loop nk n s a r = Ok (t, p) -> d_bc t = d_bc s.
Proof.
  induction n as [|n IH]; intros s t a r p H; cbn [erase_range_loop] in H; [injection H as <- _; reflexivity|]. bstep H. destruct a0 as [s1 q].
  rewrite (IH _ _ _ _ _ H). exact (erase_at_bc _ _ _ _ Eb).
Qed.
Lemma clear_bc : forall (s t : dense), clear s = Ok t -> d_bc t = d_bc s.
Proof.
  intros s t H. unfold clear in H. bstep H. assert (H1 : d_bc a = d_bc s) by (unfold fill_sparse in Eb; binv Eb; reflexivity). rewrite <- H1.
  unfold clear_data in H. apply (fold_bc _ kill_node) in H; [exact H|]. intros i x y. apply kill_bc.
Qed.

Lemma dexec_bc : forall v (s t : dense) c r, dexec nk key_of hash keq rep v s c = Ok (t, r) -> d_bc s <= d_bc t.
Proof.
  intros v s t c r H. destruct c; cbn [dexec] in H.
  - bstep H. destruct a as [s1 o]. apply do_insert_bc in Eb. cbn [give_inserted] in H. destruct o as [[p b]|]; [bstep H|]; injection H as <- _; exact Eb.
  - bstep H. destruct a as [s1 o]. apply do_emplace_bc in Eb. cbn [give_inserted] in H. destruct o as [[p b]|]; [bstep H|]; injection H as <- _; exact Eb.
  - bstep H. destruct a as [s1 o]. apply do_assign_bc in Eb. cbn [give_inserted] in H. destruct o as [[p b]|]; [bstep H|]; injection H as <- _; exact Eb.
  - bstep H. destruct a as [s1 o]. unfold erase_key in Eb. bstep Eb. apply erase_loop_bc in Eb. cbn [give_next] in H. bstep H. injection H as <- _. lia.
  - bstep H. destruct a as [s1 o]. apply erase_at_bc in Eb. cbn [give_next] in H. bstep H. injection H as <- _. lia.
  - bstep H. destruct a0 as [s1 o]. unfold erase_range in Eb. apply erase_range_bc in Eb. cbn [give_next] in H. bstep H. injection H as <- _. lia.
  - bstep H. injection H as <- _. lia.
  - bstep H. injection H as <- _. lia.
  - bstep H. injection H as <- _. apply clear_bc in Eb. lia.
  - bstep H. destruct a as [s1 o]. apply reserve_bc in Eb. injection H as <- _. exact Eb.
  - bstep H. destruct a as [s1 o]. apply rehash_bc in Eb. injection H as <- _. exact Eb.
  - injection H as <- _. cbn [set_mlf d_bc]. lia.
  - injection H as <- _. lia.
  - bstep H. injection H as <- _. lia.
Qed.
Lemma drun_bc : forall h (s t : dense) rs, drun nk key_of hash keq rep s h = Ok (t, rs) -> d_bc s <= d_bc t.
Proof.
  induction h as [|[v c] h IH]; intros s t rs H; cbn [drun] in H; [injection H as <- _; lia|]. bstep H. destruct a as [s1 r]. bstep H. destruct a as [s2 os]. injection H as <- _.
  apply dexec_bc in Eb. apply IH in Eb0. lia.
Qed.

(** Once an insertion has returned there are buckets. *)
Hypothesis KL : key_laws hash keq.
Hypothesis rep_key : forall x e, key_of 0 (rep x e) = key_of 0 x.
Notation dwf := (dwf nk key_of hash keq).
Notation dexec := (dexec nk key_of hash keq rep).
Notation drun := (drun nk key_of hash keq rep).
Notation dspec_run := (dspec_run nk key_of keq rep).
Lemma inserted_nonempty : forall c l l' e b, dspec nk key_of keq rep c l l' (QInserted e b) -> l' <> [].
Proof.
  intros c l l' e b H He. inversion H; subst; try match goal with H : _ ++ _ = [] |- _ => apply app_eq_nil in H; destruct H; discriminate end;
    match goal with H : dclash _ _ _ _ _ _ |- _ => destruct H as (? & _ & Hx & _); exact Hx end.
Qed.
Lemma run_full : forall h (s : dense), dwf s -> dhistory_ok nk h ->
  (exists s' rs, drun s h = Ok (s', rs) /\ dwf s' /\ dspec_run (map snd h) (delems s) (delems s') rs /\ (forall e b, In (QInserted e b) rs -> 0 < d_bc s')) \/
  (exists h1 v c h2 s1 rs1, h = h1 ++ (v, c) :: h2 /\ drun s h1 = Ok (s1, rs1) /\ dwf s1 /\ dspec_run (map snd h1) (delems s) (delems s1) rs1 /\
     blocked nk key_of hash keq rep v s1 c /\ (forall e b, In (QInserted e b) rs1 -> 0 < d_bc s1)).
Proof.
  induction h as [|[v c] h IH]; intros s W Hh.
  - left. exists s, []. split; [reflexivity|]. split; [exact W|]. split; [constructor|intros e b []].
  - inversion Hh as [|? ? [Hv Hc] Hh']; subst. cbn [fst snd] in *. destruct (step_ok nk key_of hash keq rep KL rep_key v s c W Hv Hc) as [Hb|(s1 & r & He & W1 & Hs)].
    + right. exists [], v, c, h, s, []. split; [reflexivity|]. split; [reflexivity|]. split; [exact W|]. split; [constructor|]. split; [exact Hb|intros e b []].
    + assert (H1 : forall e b, r = QInserted e b -> 0 < d_bc s1).
      { intros e b ->. apply inserted_nonempty in Hs. apply (w_bucket _ _ _ _ _ W1). pose proof (delems_len nk key_of hash keq s1 W1) as Hl. pose proof (w_size _ _ _ _ _ W1).
        destruct (Z.eq_dec (d_size s1) 0) as [Hz|]; [|lia]. exfalso. apply Hs. apply size0_delems. exact Hz. }
      destruct (IH s1 W1 Hh') as [(s' & rs & Hr & W' & Hsr & Hi)|(h1 & v1 & c1 & h2 & s2 & rs & -> & Hr & W2 & Hsr & Hb & Hi)].
      * left. exists s', (r :: rs). cbn [DenseRun.drun map snd]. rewrite He. cbn [bind]. rewrite Hr. cbn [bind]. split; [reflexivity|]. split; [exact W'|]. split; [econstructor; eassumption|].
        intros e b [Hx|Hx]; [|exact (Hi e b Hx)]. specialize (H1 e b Hx). apply drun_bc in Hr. lia.
      * right. exists ((v, c) :: h1), v1, c1, h2, s2, (r :: rs). cbn [DenseRun.drun map snd]. rewrite He. cbn [bind]. rewrite Hr. cbn [bind].
        split; [reflexivity|]. split; [reflexivity|]. split; [exact W2|]. split; [econstructor; eassumption|]. split; [exact Hb|].
        intros e b [Hx|Hx]; [|exact (Hi e b Hx)]. specialize (H1 e b Hx). apply drun_bc in Hr. lia.
Qed.
End Mono.
