(** The erase loop of callers of dense containers, and its effect. *)
From Coq Require Import ZArith List Bool Lia Arith Permutation.
From Verif Require Import Base BaseLemmas MapSpec DenseSpec DenseWorldSpec DenseModel DenseRun DenseChain DenseInv DenseOps DenseEdit DenseErase DenseRefine DenseMore DenseWorld DenseWorldProofs DenseFinal.
Import ListNotations.
Open Scope Z_scope.

Section Loop.
Context {E K : Type}.
Variable nk : nat.
Variable key_of : nat -> E -> K.
Variable hash : K -> Z.
Variable keq : K -> K -> bool.
Notation dense := (dense E).
Notation dwf := (dwf nk key_of hash keq).

(** for (auto it = c.begin(); it != c.end();) if (pred( *it)) it = c.erase(it); else ++it;
    -- caller's code, over begin, end (dense_table.hpp 311-318) and erase(iterator) (lines
    430-434, 725-737).  Unlike in erase_if (dense_set.hpp 339-353), end() is called in each
    round.  The second result lists the elements pred was applied to. *)
Fixpoint erase_each_loop (fuel : nat) (pred : E -> bool) (s : dense) (i : Z) (seen : list E) : res (dense * list E) :=
  match fuel with
  | O => Err Diverges
  | S fu =>
    if i =? d_size s then Ok (s, rev seen)
    else
      let* n := get_node s i in
      if pred (n_val n) then
        let* x := erase_at nk s i in erase_each_loop fu pred (fst x) (snd x) (n_val n :: seen)
      else erase_each_loop fu pred s (i + 1) (n_val n :: seen)
  end.
Definition erase_each (pred : E -> bool) (s : dense) : res (dense * list E) := erase_each_loop (chain_fuel s) pred s 0 [].

Lemma erase_each_ok : forall pred fuel (s : dense) a b seen, dwf s -> delems s = a ++ b -> (length b < fuel)%nat ->
  exists s' vs, erase_each_loop fuel pred s (Z.of_nat (length a)) seen = Ok (s', rev seen ++ vs) /\ dwf s' /\
    Permutation vs b /\ exists b', delems s' = a ++ b' /\ Permutation b' (filter (fun x => negb (pred x)) b).
Proof.
  intros pred. induction fuel as [|fu IH]; intros s a b seen W Hd Hf; [lia|]. cbn [erase_each_loop].
  pose proof (delems_len nk key_of hash keq s W) as Hlen. pose proof (w_size _ _ _ _ _ W) as Hsz. rewrite Hd, app_length in Hlen.
  destruct b as [|x b].
  - destruct (Z.eqb_spec (Z.of_nat (length a)) (d_size s)) as [_|Hne]; [|cbn [length] in Hlen; lia].
    exists s, []. rewrite app_nil_r. split; [reflexivity|]. split; [exact W|]. split; [constructor|]. exists []. split; [exact Hd|constructor].
  - cbn [length] in Hlen, Hf. assert (HL : live s (Z.of_nat (length a))) by (unfold live; lia).
    destruct (Z.eqb_spec (Z.of_nat (length a)) (d_size s)) as [He|_]; [lia|].
    destruct (live_get nk key_of hash keq s _ W HL) as (n & -> & _ & Hn). cbn [bind].
    rewrite Nat2Z.id, Hd, nth_error_app2, Nat.sub_diag in Hn by lia. cbn [nth_error] in Hn. injection Hn as Hx. rewrite <- Hx. cbn [filter].
    destruct (pred x) eqn:Ep; cbn [negb].
    + destruct (erase_at_ok nk key_of hash keq s _ W HL) as (s' & a1 & y & b1 & -> & W' & Hd1 & Ha1 & Hd' & Hs' & _). cbn [bind fst snd].
      rewrite Nat2Z.id in Ha1. rewrite Hd in Hd1.
      assert (Ha : a1 = a).
      { transitivity (firstn (length a) (a1 ++ y :: b1)); [rewrite <- Ha1, firstn_app, Nat.sub_diag, firstn_all, firstn_O, app_nil_r; reflexivity|].
        rewrite <- Hd1, firstn_app, Nat.sub_diag, firstn_all, firstn_O, app_nil_r. reflexivity. }
      subst a1. apply app_inv_head in Hd1. injection Hd1 as <- <-.
      destruct (snoc_cases b) as [->|(b2 & z & ->)].
      * unfold swap_remove in Hd'. cbn [rev] in Hd'. destruct (IH s' a [] (x :: seen) W') as (t & vs & Hr & Wt & Hp & b' & Hb & Hq); [rewrite app_nil_r; exact Hd'|cbn [length]; lia|].
        exists t, (x :: vs). rewrite Hr. split; [cbn [rev]; rewrite <- app_assoc; reflexivity|]. split; [exact Wt|]. split; [constructor; exact Hp|]. exists b'. split; assumption.
      * unfold swap_remove in Hd'. rewrite rev_app_distr in Hd'. cbn [rev app] in Hd'. rewrite rev_involutive in Hd'. rewrite app_length in Hf, Hlen. cbn [length] in Hf, Hlen.
        assert (Hz : Permutation (z :: b2) (b2 ++ [z])) by apply Permutation_cons_append.
        destruct (IH s' a (z :: b2) (x :: seen) W' Hd') as (t & vs & Hr & Wt & Hp & b' & Hb & Hq); [cbn [length]; lia|].
        exists t, (x :: vs). rewrite Hr. split; [cbn [rev]; rewrite <- app_assoc; reflexivity|]. split; [exact Wt|]. split; [constructor; rewrite Hp; exact Hz|]. exists b'. split; [exact Hb|].
        rewrite Hq. rewrite filter_app. cbn [filter]. destruct (negb (pred z)); [apply Permutation_cons_append|rewrite app_nil_r; reflexivity].
    + replace (Z.of_nat (length a) + 1) with (Z.of_nat (length (a ++ [x]))) by (rewrite app_length; cbn [length]; lia).
      destruct (IH s (a ++ [x]) b (x :: seen) W) as (t & vs & Hr & Wt & Hp & b' & Hb & Hq); [rewrite <- app_assoc; exact Hd|lia|].
      exists t, (x :: vs). rewrite Hr. split; [cbn [rev]; rewrite <- app_assoc; reflexivity|]. split; [exact Wt|]. split; [constructor; exact Hp|].
      exists (x :: b'). split; [rewrite Hb, <- app_assoc; reflexivity|constructor; exact Hq].
Qed.
End Loop.

Section Final.
Context {E K : Type}.
Variable nk : nat.
Variable key_of : nat -> E -> K.
Variable hash : K -> Z.
Variable keq : K -> K -> bool.
Variable rep : E -> E -> E.
Variable clone : E -> E.
Variables pocca pocma : bool.
Hypothesis KL : key_laws hash keq.
Hypothesis rep_key : forall x e, key_of 0%nat (rep x e) = key_of 0%nat x.
Hypothesis clone_key : forall j e, (j < nk)%nat -> key_of j (clone e) = key_of j e.

Lemma erase_each_final : forall (s : dense E) pred, doccurs nk key_of hash keq rep clone pocca pocma s ->
  exists s' seen, erase_each nk pred s = Ok (s', seen) /\ Permutation seen (delems s) /\
    Permutation (delems s') (filter (fun x => negb (pred x)) (delems s)) /\
    forall h, dhistory_ok nk h -> drefines nk key_of hash keq rep s' (delems s') h.
Proof.
  intros s pred Ho. pose proof (occurs_wf nk key_of hash keq rep clone pocca pocma KL rep_key clone_key s Ho) as W.
  pose proof (w_size _ _ _ _ _ W) as Hsz. pose proof (delems_len nk key_of hash keq s W) as Hlen.
  destruct (erase_each_ok nk key_of hash keq pred (chain_fuel s) s [] (delems s) [] W eq_refl) as (s' & vs & Hr & W' & Hp & b' & Hb & Hq); [unfold chain_fuel; lia|].
  exists s', vs. split; [exact Hr|]. split; [exact Hp|]. split; [rewrite Hb; exact Hq|].
  intros h Hh. apply wf_refines; assumption.
Qed.
End Final.
