(** erase_if on ordered dense containers: exactly when it is defined. *)
From Coq Require Import ZArith List Bool Lia Permutation Arith.
From Verif Require Import Base BaseLemmas MapSpec Float32 DenseSpec World WorldProofs DenseModel DenseRun DenseChain DenseInv DenseOps DenseEdit DenseErase DenseRefine DenseMore
  LinkSpec LinkModel LinkProofs OrderedSpec OrderedWorldSpec OrderedDense OrderedRun OrderedWorld OrderedLinks OrderedProofs OrderedRefine OrderedMoves OrderedWorldProofs OrderedFinal.
Import ListNotations.
Open Scope Z_scope.

Section Sweep.
Context {E K : Type}.
Variable sz : Z.
Variable nk : nat.
Variable key_of : nat -> E -> K.
Variable hash : K -> Z.
Variable keq : K -> K -> bool.
Variable rep : E -> E -> E.
Variable clone : E -> E.
Variables pocca pocma : bool.
Hypothesis Hsz : 0 < sz.
Hypothesis KL : key_laws hash keq.
Hypothesis rep_key : forall x e, key_of 0%nat (rep x e) = key_of 0%nat x.
Hypothesis clone_key : forall j e, (j < nk)%nat -> key_of j (clone e) = key_of j e.
Notation odense := (odense E).
Notation lnk := (lnk sz). Notation slot := (slot sz).
Notation oinv := (oinv sz nk key_of hash keq).
Notation yoccurs := (yoccurs sz nk key_of hash keq rep clone pocca pocma).

Definition swept (pred : E -> bool) (b : bool) (p l : list E) (cnt : Z) (x : res (heap * odense * Z)) : Prop :=
  if b then exists h' s' ord', x = Ok (h', s', cnt + matches pred l) /\ oinv h' s' ord' /\ ocont s' ord' = p ++ filter (fun e => negb (pred e)) l
  else x = Err DeadObject.

Lemma sweep_loop : forall pred l now fuel h s o1 p b cnt,
  oinv h s (o1 ++ map now (map fst l)) -> ocont s (o1 ++ map now (map fst l)) = p ++ map snd l -> length o1 = length p ->
  (length l < fuel)%nat -> b = match l with [] => o_hdr s | (k, _) :: _ => slot s (now k) end ->
  swept pred (sweeps pred (d_size (o_d s)) now l) p (map snd l) cnt (o_erase_if_loop sz nk fuel pred h s b cnt).
Proof. clear KL rep_key clone_key rep clone pocca pocma.
  intros pred. induction l as [|(k, x) l IH]; intros now [|fuel] h s o1 p b cnt H Hc Hlen Hf ->; cbn [length] in Hf; try lia; cbn [o_erase_if_loop sweeps map fst snd] in *.
  - rewrite Z.eqb_refl. unfold swept. exists h, s, (o1 ++ []). split; [unfold matches; cbn [filter length]; rewrite Z.add_0_r; reflexivity|]. split; [exact H|exact Hc].
  - pose proof H as (W & L). assert (Hk : In (now k) (o1 ++ now k :: map now (map fst l))) by (apply in_or_app; right; left; reflexivity).
    destruct (slot_index sz Hsz h s _ (now k) L Hk) as (Hne & Hix). destruct (Z.eqb_spec (slot s (now k)) (o_hdr s)) as [|_]; [contradiction|].
    rewrite Hix. cbn [bind]. destruct (node_of sz nk key_of hash keq h s _ (now k) H Hk) as (n & Hn & Hg & Hv). rewrite Hg. cbn [bind].
    assert (Hx : n_val n = x).
    { assert (X : nth_error (ocont s (o1 ++ now k :: map now (map fst l))) (length o1) = Some (n_val n)).
      { unfold ocont. rewrite pick_nth by (intros j Hj; apply (inv_in sz nk key_of hash keq _ _ _ _ H); exact Hj). rewrite nth_error_app2 by lia. rewrite Nat.sub_diag. exact Hv. }
      rewrite Hc, Hlen, nth_error_app2, Nat.sub_diag in X by lia. injection X as X. symmetry. exact X. }
    rewrite Hx. destruct (pred x) eqn:Ep.
    + destruct (erase_one sz nk key_of hash keq Hsz h s o1 (now k) (map now (map fst l)) p x (map snd l) H Hc Hlen) as (h' & s' & ord' & He & H' & Hc' & Ho' & Hh & Hb & Hcap & Hn'). rewrite He. cbn [bind].
      set (now' := fun i => if now i =? d_size (o_d s) - 1 then now k else now i).
      assert (Hm : map (subst_last (now k) (d_size (o_d s) - 1)) (map now (map fst l)) = map now' (map fst l)) by (rewrite map_map; apply map_ext; intros i; reflexivity).
      rewrite map_app, Hm in Ho'. subst ord'.
      assert (Hsl : forall i, slot s' i = slot s i) by (intros i; unfold OrderedDense.slot; rewrite Hb; reflexivity).
      destruct l as [|(k2, x2) l]; [|cbn [map fst]; destruct (Z.eqb_spec (now k2) (d_size (o_d s) - 1)) as [Hl|Hl]]; cbn [negb andb].
      * cbn [map fst]. specialize (IH now' fuel h' s' (map (subst_last (now k) (d_size (o_d s) - 1)) o1) p (o_hdr s) (cnt + 1) H' Hc'). rewrite map_length in IH.
        specialize (IH Hlen ltac:(cbn [length] in *; lia) (eq_sym Hh)). rewrite Hn' in IH. unfold swept in *. destruct (sweeps pred (d_size (o_d s) - 1) now' []); [|exact IH].
        destruct IH as (h2 & s2 & ord2 & R & I & C). exists h2, s2, ord2. rewrite R. unfold matches. cbn [map filter]. rewrite Ep. cbn [negb length]. split; [f_equal; f_equal; lia|]. split; [exact I|exact C].
      * cbn [swept]. destruct fuel as [|fuel]; [cbn [length] in Hf; lia|]. cbn [o_erase_if_loop].
        assert (Hk2 : In (now k2) (o1 ++ now k :: map now (map fst ((k2, x2) :: l)))) by (apply in_or_app; right; right; left; reflexivity).
        destruct (slot_index sz Hsz h s _ (now k2) L Hk2) as (Hne2 & _). rewrite <- Hh in Hne2. rewrite <- Hsl in *. destruct (Z.eqb_spec (slot s' (now k2)) (o_hdr s')) as [|_]; [contradiction|].
        pose proof (ol_le _ _ _ _ _ _ _ L) as Hle. apply (ol_in _ _ _ _ _ _ _ L) in Hk2.
        assert (D : o_at sz s' (slot s' (now k2)) = Err DeadObject) by (apply (dead_slot sz nk key_of hash keq Hsz h' s' _ _ H'); rewrite Hn', Hcap; lia).
        unfold o_at in D. destruct (Z.eqb_spec (slot s' (now k2)) (o_hdr s')) as [|_]; [contradiction|]. unfold index_of, OrderedDense.slot in *. rewrite slot_ix_of in * by lia. cbn [bind] in *.
        destruct (get_node (o_d s') (now k2)) as [nd|er]; cbn [bind] in *; [discriminate D|]. injection D as ->. reflexivity.
      * specialize (IH now' fuel h' s' (map (subst_last (now k) (d_size (o_d s) - 1)) o1) p (slot s (now k2)) (cnt + 1) H' Hc'). rewrite map_length in IH.
        specialize (IH Hlen ltac:(cbn [length] in *; lia)). rewrite Hsl in IH. cbn [map fst] in IH.
        assert (Hnow : now' k2 = now k2) by (unfold now'; destruct (Z.eqb_spec (now k2) (d_size (o_d s) - 1)); [contradiction|reflexivity]). specialize (IH ltac:(rewrite Hnow; reflexivity)).
        rewrite Hn' in IH. unfold swept in *. destruct (sweeps pred (d_size (o_d s) - 1) now' ((k2, x2) :: l)); [|exact IH].
        destruct IH as (h2 & s2 & ord2 & R & I & C). exists h2, s2, ord2. rewrite R. unfold matches. cbn [filter]. rewrite Ep. cbn [negb length]. split; [f_equal; f_equal; lia|]. split; [exact I|exact C].
    + pose proof (ol_ring _ _ _ _ _ _ _ L) as R. change (fun i => o_base s + i * sz) with (slot s) in R.
      assert (Hnx : next_link h (slot s (now k)) = Ok (match l with [] => o_hdr s | (k2, _) :: _ => slot s (now k2) end)).
      { rewrite map_app in R. cbn [map] in R. destruct l as [|(k2, x2) l]; cbn [map fst] in R.
        - apply ring_rot in R. rewrite <- app_assoc in R. cbn [app] in R. apply (ring_consecutive h _ _ _ [] R).
        - apply (ring_consecutive h (o_hdr s :: map (slot s) o1) _ _ _ R). }
      rewrite Hnx. cbn [bind]. specialize (IH now fuel h s (o1 ++ [now k]) (p ++ [x]) (match l with [] => o_hdr s | (k2, _) :: _ => slot s (now k2) end) cnt). rewrite <- !app_assoc in IH. cbn [app] in IH.
      specialize (IH H Hc ltac:(rewrite !app_length; cbn [length]; lia) ltac:(lia) eq_refl). unfold swept in *. destruct (sweeps pred (d_size (o_d s)) now l); [|exact IH].
      destruct IH as (h2 & s2 & ord2 & R2 & I & C). exists h2, s2, ord2. rewrite R2. unfold matches. cbn [filter]. rewrite Ep. cbn [negb]. split; [reflexivity|]. split; [exact I|]. rewrite C, <- app_assoc. reflexivity.
Qed.

Lemma erase_if_exact : forall hw i pred l slots, let h := fst hw in let s := snd hw i in yoccurs hw -> o_iterate sz h s = Ok l -> length slots = length l ->
  (forall k p, nth_error slots k = Some p -> o_nth h s (Z.of_nat k) = Ok (o_base s + p * sz)) ->
  if sweeps pred (Z.of_nat (length l)) (fun i => i) (combine slots l)
  then exists h' s', o_erase_if sz nk pred h s = Ok (h', s', matches pred l) /\ o_iterate sz h' s' = Ok (filter (fun e => negb (pred e)) l)
  else o_erase_if sz nk pred h s = Err DeadObject.
Proof.
  intros (h0, w) i pred l slots h s Hy Hi Hlen Hs. destruct (occurs_oinv sz nk key_of hash keq rep clone pocca pocma Hsz KL rep_key clone_key (h0, w) i Hy) as (ord & H & Hc). cbn [fst snd] in *. fold h s in H, Hc. rewrite Hc in Hi. injection Hi as Hl.
  pose proof (inv_len sz nk key_of hash keq h s ord H) as Hn. rewrite Hl in Hn. pose proof (olinks_len _ _ _ _ _ _ _ (proj2 H)) as Ho.
  assert (slots = ord).
  { apply nth_error_ext. intros k. destruct (nth_error slots k) as [p|] eqn:Ek.
    - assert (k < length slots)%nat by (apply nth_error_Some; congruence). destruct (nth_error ord k) as [p'|] eqn:Ek'; [|apply nth_error_None in Ek'; lia].
      specialize (Hs k p Ek). rewrite (nth_iter sz h s ord k p' (proj2 H) Ek') in Hs. injection Hs as Hs. unfold OrderedDense.slot in Hs. apply slot_inj in Hs; [congruence|exact Hsz].
    - apply nth_error_None in Ek. symmetry. apply nth_error_None. lia. }
  subst slots. assert (Hf : map fst (combine ord l) = ord) 
    by (clear - Hlen; revert l Hlen; induction ord as [|a o IH]; intros [|b l] X; cbn [length combine map fst] in *; try discriminate X; [reflexivity|]; f_equal; apply IH; congruence). assert (Hd : map snd (combine ord l) = l).
  { clear - Hlen. revert l Hlen. induction ord as [|a o IH]; intros [|b l] X; cbn [length combine map snd] in *; try discriminate X; [reflexivity|]. f_equal. apply IH. congruence. }
  pose proof (ol_ring _ _ _ _ _ _ _ (proj2 H)) as R. change (fun k => o_base s + k * sz) with (slot s) in R.
  unfold o_erase_if. assert (Hb : next_link h (o_hdr s) = Ok (match combine ord l with [] => o_hdr s | (k, _) :: _ => slot s k end)).
  { destruct ord as [|k ord']; destruct l as [|x l]; try discriminate Hlen; cbn [map combine] in *; [|apply (ring_consecutive h [] _ _ _ R)]. destruct R as ((R & _) & _). apply next_link_ok. exact R. }
  rewrite Hb. cbn [bind].
  pose proof (fun b => sweep_loop pred (combine ord l) (fun i => i) (chain_fuel (o_d s)) h s [] [] b 0) as G. rewrite map_id, Hf, Hd in G. cbn [app] in G.
  specialize (G _ H Hl eq_refl ltac:(rewrite combine_length; unfold chain_fuel; lia) eq_refl). rewrite <- Hn in G. unfold swept in G. destruct (sweeps pred (Z.of_nat (length l)) (fun i0 => i0) (combine ord l)); [|exact G].
  destruct G as (h' & s' & ord' & A & B & C). exists h', s'. split; [exact A|]. cbn [app] in C. rewrite <- C. apply (o_iterate_ok sz nk key_of hash keq Hsz). exact B.
Qed.
End Sweep.
