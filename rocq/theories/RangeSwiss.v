(** Range insertion, assignment and construction: unordered and ordered open-addressing tables. *)
From Coq Require Import ZArith List Bool Lia Permutation.
From Verif Require Import Base BaseLemmas MapSpec Bits SwissModel SwissArith SwissCap SwissInv SwissOps SwissClean SwissIter SwissRun SwissRoom SwissRefine WorldSpec SwissMore SwissBounds SwissPlace
  LinkModel LinkProofs OrderedLinks SwissOrderedSpec SwissOrdered SwissOrderedRun SwissOrderedLinks SwissOrderedProofs SwissOrderedOps SwissOrderedRefine SwissOrderedStep SwissOrderedMoves SwissOrderedFinal
  RangeSpec RangeModel.
From Verif Require RangeProofs.
Import ListNotations.
Open Scope Z_scope.

Section Swiss.
Context {E K : Type}.
Variable f : simd.
Variable sz : Z.
Variable key_of : E -> K.
Variable hash : K -> Z.
Variable keq : K -> K -> bool.
Variable rep : E -> E -> E.
Hypothesis Hsz : 0 < sz.
Hypothesis KL : key_laws hash keq.
Hypothesis Hrep : forall a b, keq (key_of a) (key_of b) = true -> key_of (rep a b) = key_of a.
Notation swiss := (@swiss E).
Notation oswiss := (oswiss E).
Notation wf1 := (wf1 f key_of hash keq).
Notation wf := (wf f key_of hash keq).
Notation inv := (inv f key_of hash keq).
Notation absent := (absent key_of keq).
Notation zinv := (zinv f sz key_of hash keq).
Notation sfr := (sfr sz).
Notation has := (has_key keq key_of).
Notation full := (full f).
Notation max_of := (capacity_to_max_size f).

(** ** Unordered. *)
Lemma added_firsts : forall xs l b, Permutation l b -> Permutation (added has l xs) (firsts key_of keq b xs ++ l).
Proof. clear - keq key_of.
  induction xs as [|e xs IH]; intros l b P; [reflexivity|]. cbn [added firsts]. change (has l e) with (present key_of keq l e). rewrite (present_perm key_of keq l b e P).
  destruct (present key_of keq b e); [apply IH; exact P|].
  rewrite (IH (l ++ [e]) (e :: b)) by (rewrite Permutation_app_comm; cbn [app]; rewrite P; reflexivity).
  cbn [app]. rewrite app_assoc, Permutation_app_comm. reflexivity.
Qed.
Lemma added_prefix : forall l1 l2 n, n = length l1 -> firstn n (l1 ++ l2) = l1 :> list E.
Proof. intros l1 l2 n ->. rewrite firstn_app, firstn_all, Nat.sub_diag, firstn_O, app_nil_r. reflexivity. Qed.
Lemma t_range : forall ra l lim (s : swiss), wf s -> lim < 2 ^ 59 -> s_size s + Z.of_nat (length l) < 2 ^ 64 ->
  exists s' b n, insert_range f key_of hash keq ra lim s l = Ok (s', b) /\ wf s' /\ (inv s -> inv s') /\
    Permutation (elems s') (added has (elems s) (firstn n l)) /\ (b = true -> firstn n l = l).
Proof.
  intros ra l lim s H Hlim Hl. destruct (insert_range_firsts f key_of hash keq KL ra l lim s H Hlim Hl) as (s' & b & He & W' & I' & l1 & l2 & -> & P & Hb).
  exists s', b, (length l1). split; [exact He|]. split; [exact W'|]. split; [exact I'|]. rewrite (added_prefix l1 l2) by reflexivity. split.
  - rewrite P. symmetry. apply added_firsts. reflexivity.
  - intros ->. rewrite (Hb eq_refl), app_nil_r. reflexivity.
Qed.
Lemma clear_good : forall (s s' : swiss), wf s' -> (s_cap s = 0 -> s' = s) -> s_cap s' = s_cap s -> inv s -> inv s'.
Proof. intros s s' W Hz Hc (_ & Hi). split; [exact W|]. intros H0. rewrite Hz in * by lia. apply Hi. exact H0. Qed.
Lemma t_assign : forall ra l lim (s : swiss), wf s -> lim < 2 ^ 59 -> Z.of_nat (length l) < 2 ^ 64 ->
  exists s' b n, assign_range hash keq f key_of ra lim s l = Ok (s', b) /\ wf s' /\ (inv s -> inv s') /\
    Permutation (elems s') (added has [] (firstn n l)) /\ (b = true -> firstn n l = l).
Proof.
  intros ra l lim s H Hlim Hl. unfold assign_range. destruct (clear_ok f key_of hash keq s H) as (s1 & -> & W1 & E1 & C1 & S1 & Z1). cbn [bind].
  destruct (t_range ra l lim s1 W1 Hlim ltac:(lia)) as (s' & b & n & -> & W' & I' & R). rewrite E1 in R. exists s', b, n. split; [reflexivity|]. split; [exact W'|]. split; [|exact R].
  intros Hi. apply I'. apply (clear_good s s1); assumption.
Qed.

(** ** Ordered. *)
(** An insertion finds room for [n] new elements without swapping nodes. *)
Definition roomy (t : swiss) (n : Z) : Prop := full t \/ (s_cap t <> 0 /\ n <= s_nempty t).
Lemma roomy_free : forall v (s : oswiss) n e, wf (os_t s) -> env_ok (sv_e v) -> 0 < n -> roomy (os_t s) n -> ~ zswaps f key_of hash keq v s e.
Proof.
  intros v s n e H V Hn [R|(R1 & R2)]; [apply full_swaps; assumption|]. intros (_ & t & p & tr & a & b & He & Hi).
  destruct (make_room_quiet f key_of hash keq _ _ _ _ _ H R1 ltac:(lia) He) as (_ & q & Hq). injection Hq as <- ->. destruct Hi.
Qed.
Lemma has_absent : forall l e, has l e = false <-> absent (key_of e) l.
Proof. clear - keq key_of.
  intros l e. unfold has_key, MapSpec.absent. split.
  - intros H x Hx. destruct (keq (key_of x) (key_of e)) eqn:Ek; [|reflexivity]. exfalso. assert (X : existsb (fun x => keq (key_of x) (key_of e)) l = true) by (apply existsb_exists; exists x; auto). congruence.
  - intros H. destruct (existsb _ l) eqn:Ex; [|reflexivity]. apply existsb_exists in Ex. destruct Ex as (x & Hx & Hk). rewrite (H x Hx) in Hk. discriminate.
Qed.

Notation s_do_insert := (s_do_insert f sz key_of hash keq).
Lemma s_insert_one : forall v h s ord e, zinv h s ord -> env_ok (sv_e v) ->
  zswaps f key_of hash keq v s e \/ s_do_insert v h s 0 e = Err BadPlacement \/
  exists h' s' o ord', s_do_insert v h s 0 e = Ok (h', s', o) /\ zinv h' s' ord' /\ sfr h s h' s' /\ (forall n, 0 <= n -> roomy (os_t s) (n + 1) -> roomy (os_t s') n) /\
    cont s' ord' = match o with None => cont s ord | Some _ => if has (cont s ord) e then cont s ord else cont s ord ++ [e] end.
Proof.
  intros v h s ord e H V. unfold SwissOrdered.s_do_insert.
  destruct (find_zinv f sz key_of hash keq rep KL Hrep h s ord (key_of e) H) as (r & Er & [(-> & Ha & Ha')|(Hne & x & hh & o1 & o2 & W1 & Ho & Hn & Hg & Hk & Hl)]).
  - destruct (insert_absent f sz key_of hash keq Hsz KL v h s ord e H V Er Ha') as [Hs|[Hb|(h' & s' & o & ord' & E1 & I1 & F1 & _ & Hx)]]; [left; exact Hs|right; left; rewrite Er; cbn [bind]; rewrite Z.eqb_refl, Hb; reflexivity|].
    right. right. rewrite Er. cbn [bind]. rewrite Z.eqb_refl, E1. cbn [bind]. eexists h', s', _, ord'. split; [reflexivity|]. split; [exact I1|]. split; [exact F1|]. split.
    + intros n Hn [R|(R1 & R2)].
      * left. apply (emplace_full f sz key_of hash keq rep KL _ _ _ _ _ _ _ _ _ (zi_wf _ _ _ _ _ _ _ _ H) R V Ha' E1).
      * rewrite <- (app_nil_r ord) in H.
        assert (Hq : forall t p tr, make_room f (ev_lim (sv_e v)) (os_t s) (hash (key_of e)) = Ok (t, Some (p, tr)) -> tr = []).
        { intros t p tr Em. destruct (make_room_quiet f key_of hash keq _ _ _ _ _ (zi_wf _ _ _ _ _ _ _ _ H) R1 ltac:(lia) Em) as (_ & q & Hq). injection Hq as <- ->. reflexivity. }
        right. destruct (ev_ctor (sv_e v)) eqn:Ec.
        -- destruct (emplace_ok f sz key_of hash keq Hsz KL v true h s ord [] 0 e H V Ha') as [(Hb & _)|(h2 & s2 & p2 & ord2 & E2 & _ & _ & _ & _ & X)].
           { intros t p tr Em. rewrite (Hq _ _ _ Em). split; [intros a b []|left; auto]. }
           { rewrite Hb in E1. discriminate. }
           rewrite E2 in E1. injection E1 as -> -> ->. destruct (X R1 ltac:(lia) eq_refl) as (_ & X1 & _ & X2 & _). split; lia.
        -- unfold s_emplace_node in E1. destruct (make_room f (ev_lim (sv_e v)) (os_t s) (hash (key_of e))) as [(t, [(p, tr)|])|] eqn:Em; cbn [bind] in E1; [| |discriminate].
           ++ destruct (make_room_quiet f key_of hash keq _ _ _ _ _ (zi_wf _ _ _ _ _ _ _ _ H) R1 ltac:(lia) Em) as (-> & q & Eq). injection Eq as <- ->.
              destruct (s_events sz v h s [] (os_t s)) as [(h2, s2)|] eqn:Ee; cbn [bind negb] in E1; [|discriminate]. injection E1 as <- <- <-. rewrite (events_t sz _ _ _ _ _ _ _ Ee). split; [exact R1|lia].
           ++ destruct (make_room_quiet f key_of hash keq _ _ _ _ _ (zi_wf _ _ _ _ _ _ _ _ H) R1 ltac:(lia) Em) as (_ & q & Eq). discriminate.
    + destruct o as [q|]; [|exact Hx]. rewrite (proj2 (has_absent _ _) Ha). apply Hx.
  - right. right. rewrite Er. cbn [bind]. destruct (Z.eqb_spec r (s_cap (os_t s))) as [|_]; [contradiction|]. eexists h, s, _, ord. split; [reflexivity|]. split; [exact H|]. split; [apply sfr_refl|]. split.
    + intros n Hn0 [R|(R1 & R2)]; [left; exact R|right; split; [exact R1|lia]].
    + destruct (has (cont s ord) e) eqn:Eh; [reflexivity|]. exfalso. apply has_absent in Eh. destruct Hl as (El & _). rewrite (Eh x) in Hk; [discriminate|]. rewrite El. apply in_or_app. right. left. reflexivity.
Qed.

Definition sdone (h : heap) (s : oswiss) (l0 xs : list E) (x : res (heap * oswiss * bool)) : Prop :=
  x = Err BadPlacement \/
  exists h' s' b n ord', x = Ok (h', s', b) /\ zinv h' s' ord' /\ sfr h s h' s' /\ cont s' ord' = added has l0 (firstn n xs) /\ (b = true -> firstn n xs = xs).
Definition stopped (h : heap) (s : oswiss) (l0 : list E) (l : list (senv * E)) : Prop :=
  exists l1 v e l2 h' s' ord', l = l1 ++ (v, e) :: l2 /\ s_insert_all f sz key_of hash keq h s l1 = Ok (h', s', true) /\ zinv h' s' ord' /\ sfr h s h' s' /\
    cont s' ord' = added has l0 (map snd l1) /\ zswaps f key_of hash keq v s' e.
Lemma s_insert_all_ok : forall l h s ord, zinv h s ord -> Forall (fun x => env_ok (sv_e (fst x))) l ->
  sdone h s (cont s ord) (map snd l) (s_insert_all f sz key_of hash keq h s l) \/ stopped h s (cont s ord) l /\ ~ roomy (os_t s) (Z.of_nat (length l)).
Proof.
  induction l as [|(v, e) l IH]; intros h s ord H V.
  - left. right. exists h, s, true, 0%nat, ord. split; [reflexivity|]. split; [exact H|]. split; [apply sfr_refl|]. split; reflexivity.
  - inversion V as [|? ? V1 V2]; subst. cbn [fst] in V1. cbn [s_insert_all map snd].
    destruct (s_insert_one v h s ord e H V1) as [Hs|[->|(h1 & s1 & o & ord1 & E1 & I1 & F1 & R1 & C1)]].
    + right. split; [|intros R; revert Hs; apply (roomy_free v s _ e (zi_wf _ _ _ _ _ _ _ _ H) V1) in R; [exact R|cbn [length]; lia]].
      exists [], v, e, l, h, s, ord. split; [reflexivity|]. split; [reflexivity|]. split; [exact H|]. split; [apply sfr_refl|]. split; [reflexivity|exact Hs].
    + left. left. reflexivity.
    + rewrite E1. cbn [bind]. destruct o as [a|].
      * destruct (IH h1 s1 ord1 I1 V2) as [[->|(h' & s' & b & n & ord' & -> & I' & F' & C' & B')]|((l1 & v' & e' & l2 & h' & s' & ord' & El & Er & I' & F' & C' & S') & Hr)].
        -- left. left. reflexivity.
        -- left. right. exists h', s', b, (S n), ord'. split; [reflexivity|]. split; [exact I'|]. split; [apply (sfr_trans sz _ _ _ _ _ _ F1 F')|]. cbn [firstn added]. rewrite C', C1. split; [reflexivity|intros ->; rewrite (B' eq_refl); reflexivity].
        -- right. split; [|intros R; apply Hr; apply R1; [lia|cbn [length] in R; replace (Z.of_nat (length l) + 1) with (Z.of_nat (S (length l))) by lia; exact R]].
           exists ((v, e) :: l1), v', e', l2, h', s', ord'. split; [rewrite El; reflexivity|]. split; [cbn [s_insert_all]; rewrite E1; cbn [bind]; exact Er|]. split; [exact I'|]. split; [apply (sfr_trans sz _ _ _ _ _ _ F1 F')|].
           split; [cbn [map added snd]; rewrite C', C1; reflexivity|exact S'].
      * left. right. exists h1, s1, false, 0%nat, ord1. split; [reflexivity|]. split; [exact I1|]. split; [exact F1|]. split; [exact C1|discriminate].
Qed.
Lemma s_range : forall v l h s ord, zinv h s ord -> env_ok (sv_e v) -> Forall (fun x => env_ok (sv_e (fst x))) l -> s_size (os_t s) + Z.of_nat (length l) < 2 ^ 64 ->
  sdone h s (cont s ord) (map snd l) (s_insert_range f sz key_of hash keq true v h s l).
Proof.
  intros v l h s ord H V Vl Hl. unfold s_insert_range, s_reserve. pose proof (zi_wf _ _ _ _ _ _ _ _ H) as W. destruct (wf_size f key_of hash keq _ W) as (Hs0 & _).
  rewrite add64_small by (rewrite two64_val; lia).
  destruct (SwissRoom.reserve_ok f key_of hash keq KL (ev_lim (sv_e v)) (os_t s) (s_size (os_t s) + Z.of_nat (length l)) W V ltac:(rewrite two64_val; lia)) as (t1 & r & Er & R & Rn). rewrite Er. cbn [bind].
  destruct (resized_ok f sz key_of hash keq Hsz v h s ord t1 r H R) as [->|(h1 & s1 & ord1 & -> & Et & I1 & C1 & F1)]; [intros tr ->; apply (reserve_swapless f _ _ _ _ _ Er)|left; reflexivity|]. cbn [bind]. destruct r as [tr|].
  - destruct (s_insert_all_ok l h1 s1 ord1 I1 Vl) as [[->|(h' & s' & b & n & ord' & -> & I' & F' & C' & B')]|(_ & Hr)].
    + left. reflexivity.
    + right. exists h', s', b, n, ord'. split; [reflexivity|]. split; [exact I'|]. split; [apply (sfr_trans sz _ _ _ _ _ _ F1 F')|]. rewrite C1 in C'. split; [exact C'|exact B'].
    + exfalso. apply Hr. rewrite Et. destruct (Rn ltac:(discriminate)) as (Rn1 & _). cbn [resized] in R. destruct R as (_ & _ & S1 & _). destruct (Z.eq_dec (s_cap t1) 0) as [C0|C0]; [left; intros X; contradiction|right; split; [exact C0|lia]].
  - right. exists h1, s1, false, 0%nat, ord1. split; [reflexivity|]. split; [exact I1|]. split; [exact F1|]. split; [exact C1|discriminate].
Qed.
(** With forward iterators: up to the first insertion that swaps nodes. *)
Lemma s_range_forward : forall v l h s ord, zinv h s ord -> Forall (fun x => env_ok (sv_e (fst x))) l ->
  sdone h s (cont s ord) (map snd l) (s_insert_range f sz key_of hash keq false v h s l) \/ stopped h s (cont s ord) l /\ ~ full (os_t s).
Proof.
  intros v l h s ord H Vl. unfold s_insert_range. cbn [bind]. destruct (s_insert_all_ok l h s ord H Vl) as [R|(R & Hr)]; [left; exact R|right; split; [exact R|]]. intros X. apply Hr. left. exact X.
Qed.
Lemma clear_makes_full : forall (t t' : swiss), wf t -> s_size t <> 0 -> clear f t = Ok t' -> full t'.
Proof.
  intros t t' H F He. destruct (clear_ok f key_of hash keq t H) as (t1 & He1 & _ & _ & Hc & Hs & _). rewrite He1 in He. injection He as ->. unfold clear in He1.
  destruct (Z.eqb_spec (s_size t) 0); [contradiction|]. destruct (erase_nodes f t) as [t2|]; cbn [bind] in He1; [|discriminate]. destruct (fill_empty t2) as [t3|]; cbn [bind] in He1; [|discriminate].
  injection He1 as <-. intros _. cbn [set_nempty set_size s_nempty s_size s_cap] in *. lia.
Qed.
Lemma s_assign : forall ra v l h s ord, zinv h s ord -> env_ok (sv_e v) -> Forall (fun x => env_ok (sv_e (fst x))) l -> Z.of_nat (length l) < 2 ^ 64 -> ra = true \/ cont s ord <> [] ->
  sdone h s [] (map snd l) (s_assign_range f sz key_of hash keq ra v h s l).
Proof.
  intros ra v l h s ord H V Vl Hl Hc. unfold s_assign_range. destruct (clear_links f sz key_of hash keq h s ord H) as (h1 & s1 & E1 & I1 & F1 & _ & C1). rewrite E1. cbn [bind fst snd].
  assert (X : sdone h1 s1 [] (map snd l) (s_insert_range f sz key_of hash keq ra v h1 s1 l)).
  { destruct ra.
    - apply (s_range v l h1 s1 []); try assumption. destruct (zi_len f sz key_of hash keq _ _ _ I1) as (_ & X). rewrite X. cbn [length]. lia.
    - destruct Hc as [Hc|Hc]; [discriminate|]. destruct (s_range_forward v l h1 s1 [] I1 Vl) as [R|(_ & R)]; [exact R|]. exfalso. apply R.
      unfold s_clear in E1. destruct (if s_size (os_t s) =? 0 then _ else _) as [h2|]; cbn [bind] in E1; [|discriminate]. destruct (clear f (os_t s)) as [t|] eqn:Et; cbn [bind] in E1; [|discriminate]. injection E1 as <- <-. cbn [with_t os_t].
      apply (clear_makes_full (os_t s)); [apply (zi_wf _ _ _ _ _ _ _ _ H)| |exact Et]. destruct (zi_len f sz key_of hash keq _ _ _ H) as (X1 & X2). intros X0. apply Hc. destruct (cont s ord); [reflexivity|]. cbn [length] in X1. lia. }
  destruct X as [->|(h' & s' & b & n & ord' & -> & I' & F' & C' & B')]; [left; reflexivity|right]. exists h', s', b, n, ord'. split; [reflexivity|]. split; [exact I'|]. split; [apply (sfr_trans sz _ _ _ _ _ _ F1 F')|]. split; assumption.
Qed.
(** Construction. *)
Lemma s_ctor : forall v h hdr n k, h hdr = Some (0, 0) -> ev_lim (sv_e v) < 2 ^ 59 -> 0 <= k -> n = 2 ^ k - 1 ->
  s_ctor_n (E := E) f sz v h hdr n = Err BadPlacement \/ s_ctor_n (E := E) f sz v h hdr n = Ok None \/
  exists h' s, s_ctor_n f sz v h hdr n = Ok (Some (h', s)) /\ zinv h' s [] /\ full (os_t s) /\ s_size (os_t s) = 0 /\ os_hdr s = hdr /\
    (forall a, h a <> None -> h' a = h a /\ slot_ix (os_base s) sz (s_cap (os_t s)) a = None).
Proof.
  intros v h hdr n k Hh V Hk ->. unfold s_ctor_n, ctor_n. destruct (Z.ltb_spec (ev_lim (sv_e v)) (2 ^ k - 1)) as [Hlt|Hge]; [right; left; reflexivity|].
  assert (Hk2 : 2 ^ k - 1 < 2 ^ 59) by (unfold env_ok in V; lia).
  assert (Hpos : 0 < 2 ^ k) by (apply Z.pow_pos_nonneg; lia).
  assert (Ea : add64 (2 ^ k - 1) 1 = 2 ^ k) by (unfold add64; rewrite Z.mod_small; [lia|unfold two64; lia]).
  assert (Hz : Z.land (2 ^ k) (2 ^ k - 1) = 0).
  { replace (2 ^ k - 1) with (Z.ones k) by (rewrite Z.ones_equiv; lia). rewrite Z.land_ones by lia. rewrite Z.mod_same by lia. reflexivity. }
  rewrite Ea, Hz. cbn [Z.eqb guard bind].
  set (t := mk Live (2 ^ k - 1) (fill_empty_meta (2 ^ k - 1)) (fun _ : Z => @None (E * Z)) 0 (capacity_to_max_size f (2 ^ k - 1))).
  assert (W : wf t).
  { destruct (Z.eq_dec k 0) as [->|Hk0].
    - left. subst t. change (2 ^ 0 - 1) with 0. replace (capacity_to_max_size f 0) with 0 by (unfold capacity_to_max_size; destruct (SwissModel.W f =? 8); reflexivity). apply fresh_zero.
    - right. apply (fresh_wf1 f key_of hash keq (2 ^ k - 1)). apply good_cap_of_pow; lia. }
  destruct (place_cases (sv_junk v) h (sv_base v) sz (2 ^ k - 1) Hsz) as [->|(h1 & -> & P1 & P2 & P3)]; [left; reflexivity|]. cbn [bind]. right. right. exists h1, (mkos t hdr (sv_base v)). split; [reflexivity|].
  assert (P5 : forall a, h a <> None -> slot_ix (sv_base v) sz (2 ^ k - 1) a = None).
  { intros a Ha. destruct (slot_ix (sv_base v) sz (2 ^ k - 1) a) as [i|] eqn:Es; [|reflexivity]. exfalso. apply slot_ix_inv in Es; [|exact Hsz]. destruct Es as (-> & Hi). apply Ha. apply P1. exact Hi. }
  assert (P4 : forall a, h a <> None -> h1 a = h a) by (intros a Ha; apply P3, P5, Ha).
  cbn [os_t os_hdr os_base]. split; [|split; [|split; [reflexivity|split; [reflexivity|intros a Ha; split; [apply P4; exact Ha|exact (P5 a Ha)]]]]].
  - constructor; cbn [os_t os_hdr os_base]; [exact W| |].
    + unfold rl. cbn [os_t os_hdr os_base]. change (s_cap t) with (2 ^ k - 1). apply rl_empty; [lia|rewrite P4; [exact Hh|rewrite Hh; discriminate]|exact P2|]. intros i Hi <-. rewrite P1 in Hh by exact Hi. discriminate.
    + intros i. change (s_nodes t i) with (@None (E * Z)). split; [intros []|congruence].
  - intros _. change (s_nempty t) with (max_of (2 ^ k - 1)). change (s_cap t) with (2 ^ k - 1). change (s_size t) with 0. lia.
Qed.
Notation s_holds := (s_holds f sz key_of hash keq rep).
Lemma zinv_holds : forall h s ord, zinv h s ord -> s_holds h s (cont s ord).
Proof. intros h s ord H. split; [apply (zi_lists f sz key_of hash keq Hsz); exact H|]. intros hist Hh. apply zinv_refines; assumption. Qed.
Lemma sfr_skeeps : forall h (s : oswiss) h' s', sfr h s h' s' -> s_keeps sz h s h'.
Proof. intros h s h' s' F a A1 A2 A3. apply (sfr_keeps sz Hsz _ _ _ _ F); [apply (SwissOrderedFinal.slot_ix_none sz Hsz); assumption|exact A3]. Qed.
Lemma sdone_holds : forall h s l0 xs x, sdone h s l0 xs x ->
  x = Err BadPlacement \/
  exists h' s' b n, x = Ok (h', s', b) /\ s_keeps sz h s h' /\ s_holds h' s' (added has l0 (firstn n xs)) /\ (b = true -> firstn n xs = xs).
Proof.
  intros h s l0 xs x [->|(h' & s' & b & n & ord' & -> & I' & F' & C' & B')]; [left; reflexivity|right]. exists h', s', b, n. split; [reflexivity|]. split; [apply (sfr_skeeps _ _ _ _ F')|]. rewrite <- C'. split; [apply zinv_holds; exact I'|exact B'].
Qed.
Lemma s_ctor_range_ok : forall ra v0 v l h hdr n, h hdr = Some (0, 0) -> env_ok (sv_e v0) -> env_ok (sv_e v) -> Forall (fun x => env_ok (sv_e (fst x))) l -> Z.of_nat (length l) < 2 ^ 64 ->
  (exists k, 0 <= k /\ distance_or_n ra (map snd l) n = 2 ^ k - 1) ->
  let x := s_ctor_range f sz key_of hash keq ra v0 v h hdr l n in
  x = Err BadPlacement \/ x = Ok None \/
  exists h' s' b, x = Ok (Some (h', s', b)) /\ (forall a, a <> hdr -> h a <> None -> h' a = h a) /\
    (b = true -> s_holds h' s' (added has [] (map snd l))).
Proof.
  intros ra v0 v l h hdr n Hh V0 V Vl Hl (k & Hk & Ek) x. subst x. unfold s_ctor_range. rewrite Ek.
  destruct (s_ctor v0 h hdr _ k Hh V0 Hk eq_refl) as [->|[->|(h1 & s & -> & H & Hf & H0 & Hhd & Kp)]]; [left; reflexivity|right; left; reflexivity|]. cbn [bind].
  assert (X : sdone h1 s [] (map snd l) (s_insert_range f sz key_of hash keq ra v h1 s l)).
  { destruct ra; [apply (s_range v l h1 s []); try assumption; lia|]. destruct (s_range_forward v l h1 s [] H Vl) as [R|(_ & R)]; [exact R|contradiction]. }
  destruct (sdone_holds h1 s [] (map snd l) _ X) as [->|(h' & s' & b & m & -> & K' & R & B)]; [left; reflexivity|]. cbn [bind]. right. right. exists h', s', b. split; [reflexivity|]. split.
  - intros a A1 A2. destruct (Kp a A2) as (X1 & X2). rewrite <- X1. apply K'; [rewrite Hhd; exact A1|exact X2|rewrite X1; exact A2].
  - intros ->. rewrite (B eq_refl) in R. exact R.
Qed.
End Swiss.

(** ** Containers that occur in programs. *)
From Verif Require Import World WorldProofs SwissOrderedWorld.
Section Final.
Context {E K : Type}.
Variable f : simd.
Variable sz : Z.
Variable key_of : E -> K.
Variable hash : K -> Z.
Variable keq : K -> K -> bool.
Variable rep : E -> E -> E.
Variable clone : E -> E.
Variables pocca pocma : bool.
Hypothesis KL : key_laws hash keq.
Hypothesis Hrep : forall a b, keq (key_of a) (key_of b) = true -> key_of (rep a b) = key_of a.
Hypothesis Hclone : forall e, key_of (clone e) = key_of e.
Notation has := (has_key keq key_of).
Notation occurs := (occurs f key_of hash keq rep).
Notation behaves := (behaves f key_of hash keq rep).
Notation xoccurs := (xoccurs f sz key_of hash keq rep clone pocca pocma).
Lemma t_range_occurs : forall ra l lim (s : @swiss E), occurs s -> lim < 2 ^ 59 -> s_size s + Z.of_nat (length l) < 2 ^ 64 ->
  exists s' b n, insert_range f key_of hash keq ra lim s l = Ok (s', b) /\ behaves s' (elems s') /\
    Permutation (elems s') (added has (elems s) (firstn n l)) /\ (b = true -> firstn n l = l).
Proof.
  intros ra l lim s Ho Hlim Hl. destruct (t_range f key_of hash keq KL ra l lim s (occurs_wf f key_of hash keq KL rep Hrep s Ho) Hlim Hl) as (s' & b & n & He & W' & _ & R).
  exists s', b, n. split; [exact He|]. split; [apply wf_behaves; assumption|exact R].
Qed.
Lemma t_assign_occurs : forall ra l lim (s : @swiss E), occurs s -> lim < 2 ^ 59 -> Z.of_nat (length l) < 2 ^ 64 ->
  exists s' b n, assign_range hash keq f key_of ra lim s l = Ok (s', b) /\ behaves s' (elems s') /\
    Permutation (elems s') (added has [] (firstn n l)) /\ (b = true -> firstn n l = l).
Proof.
  intros ra l lim s Ho Hlim Hl. destruct (t_assign f key_of hash keq KL ra l lim s (occurs_wf f key_of hash keq KL rep Hrep s Ho) Hlim Hl) as (s' & b & n & He & W' & _ & R).
  exists s', b, n. split; [exact He|]. split; [apply wf_behaves; assumption|exact R].
Qed.

Hypothesis Hsz : 0 < sz.
Notation s_holds := (s_holds f sz key_of hash keq rep).
Definition s_outcome (h : heap) (s : oswiss E) (l0 xs : list E) (x : res (heap * oswiss E * bool)) : Prop :=
  x = Err BadPlacement \/
  exists h' s' b n, x = Ok (h', s', b) /\ s_keeps sz h s h' /\ s_holds h' s' (added has l0 (firstn n xs)) /\ (b = true -> firstn n xs = xs).
Lemma s_range_occurs : forall v l w i l0, xoccurs w -> s_iterate sz (xw_m w) (xw_c w i) = Ok l0 -> env_ok (sv_e v) -> Forall (fun x => env_ok (sv_e (fst x))) l ->
  Z.of_nat (length l0) + Z.of_nat (length l) < 2 ^ 64 ->
  s_outcome (xw_m w) (xw_c w i) l0 (map snd l) (s_insert_range f sz key_of hash keq true v (xw_m w) (xw_c w i) l).
Proof.
  intros v l w i l0 Ho Hi V Vl Hl. destruct (occurs_zinv f sz key_of hash keq rep clone pocca pocma Hsz KL Hrep Hclone w i l0 Ho Hi) as (ord & H & ->).
  apply (sdone_holds f sz key_of hash keq rep Hsz KL Hrep). apply (s_range f sz key_of hash keq rep Hsz KL Hrep); try assumption. destruct (zi_len f sz key_of hash keq _ _ _ H). lia.
Qed.
Lemma s_forward_occurs : forall v l w i l0, xoccurs w -> s_iterate sz (xw_m w) (xw_c w i) = Ok l0 -> Forall (fun x => env_ok (sv_e (fst x))) l ->
  s_outcome (xw_m w) (xw_c w i) l0 (map snd l) (s_insert_range f sz key_of hash keq false v (xw_m w) (xw_c w i) l) \/
  exists l1 v' e l2 h' s', l = l1 ++ (v', e) :: l2 /\ s_insert_range f sz key_of hash keq false v (xw_m w) (xw_c w i) l1 = Ok (h', s', true) /\
    s_keeps sz (xw_m w) (xw_c w i) h' /\ s_holds h' s' (added has l0 (map snd l1)) /\ zswaps f key_of hash keq v' s' e.
Proof.
  intros v l w i l0 Ho Hi Vl. destruct (occurs_zinv f sz key_of hash keq rep clone pocca pocma Hsz KL Hrep Hclone w i l0 Ho Hi) as (ord & H & ->).
  destruct (s_range_forward f sz key_of hash keq rep Hsz KL Hrep v l _ _ ord H Vl) as [R|((l1 & v' & e & l2 & h' & s' & ord' & El & Er & I' & F' & C' & S') & _)].
  - left. apply (sdone_holds f sz key_of hash keq rep Hsz KL Hrep). exact R.
  - right. exists l1, v', e, l2, h', s'. split; [exact El|]. split; [exact Er|]. split; [apply (sfr_skeeps sz Hsz _ _ _ _ F')|]. split; [|exact S']. rewrite <- C'. apply zinv_holds; assumption.
Qed.
Lemma s_assign_occurs : forall ra v l w i l0, xoccurs w -> s_iterate sz (xw_m w) (xw_c w i) = Ok l0 -> env_ok (sv_e v) -> Forall (fun x => env_ok (sv_e (fst x))) l -> Z.of_nat (length l) < 2 ^ 64 ->
  ra = true \/ l0 <> [] ->
  s_outcome (xw_m w) (xw_c w i) [] (map snd l) (s_assign_range f sz key_of hash keq ra v (xw_m w) (xw_c w i) l).
Proof.
  intros ra v l w i l0 Ho Hi V Vl Hl Hc. destruct (occurs_zinv f sz key_of hash keq rep clone pocca pocma Hsz KL Hrep Hclone w i l0 Ho Hi) as (ord & H & ->).
  apply (sdone_holds f sz key_of hash keq rep Hsz KL Hrep). apply (s_assign f sz key_of hash keq rep Hsz KL Hrep) with (ord := ord); assumption.
Qed.
End Final.
