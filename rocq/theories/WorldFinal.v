(** Final forms of the statements about several containers, in terms of containers that
    occur in programs. *)
From Coq Require Import ZArith List Bool Lia Permutation.
From Verif Require Import Base BaseLemmas Bits BitsProofs SwissModel SwissArith SwissCap SwissInv SwissOps SwissClean
  SwissIter SwissRoom MapSpec WorldSpec SwissRun SwissRefine SwissFinal SwissMore SwissCopy World WorldProofs.
Import ListNotations.
Open Scope Z_scope.

Section Final.
Context {E K : Type}.
Variable f : simd.
Variable key_of : E -> K.
Variable hash : K -> Z.
Variable keq : K -> K -> bool.
Hypothesis KL : key_laws hash keq.
Variable rep : E -> E -> E.
Hypothesis Rep : forall a b, keq (key_of a) (key_of b) = true -> key_of (rep a b) = key_of a.

Local Notation swiss := (@swiss E).
Local Notation occurs := (occurs f key_of hash keq rep).
Local Notation behaves := (behaves f key_of hash keq rep).
Local Notation contains := (contains f key_of hash keq).

Lemma occ_wf : forall s, occurs s -> wf f key_of hash keq s.
Proof. exact (occurs_wf f key_of hash keq KL rep Rep). Qed.
Lemma beh : forall s l, wf f key_of hash keq s -> elems s = l -> behaves s l.
Proof. intros s l H <-. apply (wf_behaves f key_of hash keq KL rep Rep). exact H. Qed.

Lemma move_swap_final : forall lim s o, occurs s -> occurs o ->
  (exists o', move_assign f true true lim s o = Ok (o, o', true) /\ behaves o' []) /\
  (elems s = [] -> exists o', move_assign f false true lim s o = Ok (o, o', true) /\ behaves o' []) /\
  (exists o', move_ctor f true lim o = Ok (o, o', true) /\ behaves o' []) /\
  swap true s o = Ok (o, s) /\ behaves o (elems o) /\ behaves s (elems s).
Proof.
  intros lim s o Hs Ho. apply occ_wf in Hs, Ho. split; [|split; [|split]].
  - destruct (move_assign_ok f key_of hash keq true lim s o Hs Ho (or_introl eq_refl)) as (o' & E1 & W & Ee). exists o'. split; [exact E1|apply beh; assumption].
  - intros He. destruct (move_assign_ok f key_of hash keq false lim s o Hs Ho (or_intror He)) as (o' & E1 & W & Ee). exists o'. split; [exact E1|apply beh; assumption].
  - exists empty_swiss. split; [reflexivity|]. apply beh; [exact (proj1 (empty_inv f key_of hash keq))|reflexivity].
  - split; [reflexivity|]. split; apply beh; auto.
Qed.

(** Unequal allocators: the elements are moved one by one. *)
Lemma move_unequal_final : forall lim s o, occurs s -> occurs o -> elems o <> [] -> bucket_count o <= lim ->
  bucket_count s <= bucket_count o ->
  exists s' o', move_assign f false false lim s o = Ok (s', o', true) /\ elems s' = elems o /\ behaves o' [] /\
    (clean f o -> behaves s' (elems o)).
Proof.
  intros lim s o Hs Ho Hne Hlim Hc. unfold bucket_count in *. apply occ_wf in Hs, Ho. unfold move_assign.
  destruct (erase_nodes_ok f key_of hash keq s Hs) as (s1 & -> & B & C & M & Ne & S & N). cbn [bind buffer_assign move_from].
  destruct Ho as [Ho|Ho]; [rewrite (elems_empty o (w0_cap o Ho)) in Hne; congruence|].
  assert (Hc1 : s_cap s1 < s_cap o \/ (s_cap s1 = s_cap o /\ s_buf s1 = Live /\ forall j, s_nodes s1 j = None)).
  { rewrite C, B. destruct (Z.eq_dec (s_cap s) (s_cap o)) as [Ec|]; [right|left; lia]. split; [exact Ec|]. split; [|exact N].
    pose proof (cap_bounds f o (w_m _ _ _ _ o Ho)). destruct Hs as [Hs|Hs]; [rewrite (w0_cap s Hs) in Ec; lia|]. apply (mw_buf f s (w_m _ _ _ _ s Hs)). }
  destruct (move_data_ok f key_of hash keq lim s1 o Ho Hne S Hc1 Hlim) as (s' & o' & E1 & E2 & S2 & Hcl & Wo & Eo).
  exists s', o'. split; [exact E1|]. split; [exact E2|]. split; [apply beh; [right; exact Wo|exact Eo]|].
  intros Hx. apply beh; [right; apply Hcl; exact Hx|exact E2].
Qed.

Lemma erase_if_final : forall pred s, occurs s ->
  (exists s' m, erase_if f pred s = Ok (s', m) /\ elems s' = filter (fun x => negb (pred x)) (elems s) /\
     m = Z.of_nat (length (filter pred (elems s))) /\ behaves s' (filter (fun x => negb (pred x)) (elems s))) \/
  ((f = NEON \/ f = WORD) /\ erase_if f pred s = Err BitScanZero).
Proof.
  intros pred s Hs. apply occ_wf in Hs. destruct (erase_if_ok f key_of hash keq KL pred s Hs) as [([s' m] & E1 & (W & _ & Ee & Em))|H]; [left|right; exact H].
  exists s', m. split; [exact E1|]. split; [exact Ee|]. split; [exact Em|]. apply beh; assumption.
Qed.

Lemma merge_final : forall lim s o, occurs s -> occurs o -> lim < 2 ^ 59 ->
  (exists s' o' b, merge f key_of hash keq lim s o = Ok (s', o', b) /\ behaves s' (elems s') /\ behaves o' (elems o') /\
     (b = true -> Permutation (elems s') (filter (fun x => negb (present key_of keq (elems s) x)) (elems o) ++ elems s) /\
                  elems o' = filter (present key_of keq (elems s)) (elems o)) /\
     (b = false -> s' = s /\ o' = o)) \/
  ((f = NEON \/ f = WORD) /\ merge f key_of hash keq lim s o = Err BitScanZero) \/
  (bucket_count s = 0 /\ elems o <> [] /\ merge f key_of hash keq lim s o = Err Terminated).
Proof.
  intros lim s o Hs Ho Hlim. apply occ_wf in Hs, Ho.
  destruct (merge_ok f key_of hash keq KL lim s o Hs Ho Hlim) as [[([[s' o'] b] & E1 & (W & _ & Wo & _ & Hm))|H]|(C0 & Hne & _ & H)]; [left|right; left; exact H|right; right; auto].
  exists s', o', b. split; [exact E1|]. split; [apply beh; auto|]. split; [apply beh; auto|].
  destruct b; [split; [intros _; exact Hm|discriminate]|]. split; [discriminate|auto].
Qed.

Lemma extract_final : forall s k, occurs s ->
  (exists s' o, extract_key f key_of hash keq s k = Ok (s', o) /\
     match o with
     | None => s' = s /\ absent key_of keq k (elems s)
     | Some e => exists a b, located key_of keq k (elems s) a e b /\ behaves s' (a ++ b)
     end) \/
  ((f = NEON \/ f = WORD) /\ extract_key f key_of hash keq s k = Err BitScanZero).
Proof.
  intros s k Hs. apply occ_wf in Hs. destruct (extract_key_ok f key_of hash keq KL s k Hs) as [([s' o] & E1 & (W & _ & Ho))|H]; [left|right; exact H].
  exists s', o. split; [exact E1|]. destruct o as [e|]; [|exact Ho]. destruct Ho as (a & b & Hl & Ee). exists a, b. split; [exact Hl|]. apply beh; assumption.
Qed.
Lemma insert_handle_final : forall lim s e, occurs s -> lim < 2 ^ 59 ->
  exists s' o, insert_handle f key_of hash keq lim s (Some e) = Ok (s', o) /\ behaves s' (elems s') /\
    match o with
    | None => s' = s /\ absent key_of keq (key_of e) (elems s)
    | Some (p, true, h, _) => h = None /\ absent key_of keq (key_of e) (elems s) /\ Permutation (elems s') (e :: elems s) /\ holds s' p e
    | Some (p, false, h, _) => h = Some e /\ s' = s /\ exists x, holds s p x /\ keq (key_of x) (key_of e) = true
    end.
Proof.
  intros lim s e Hs Hlim. apply occ_wf in Hs. destruct (insert_handle_ok f key_of hash keq KL lim s e Hs Hlim) as (s' & o & E1 & W & _ & Ho).
  exists s', o. split; [exact E1|]. split; [apply beh; auto|]. destruct o as [[[[p b] h] tr]|]; [destruct b|]; exact Ho.
Qed.

Lemma range_final : forall (ra : bool) (l : list E) n lim, lim < 2 ^ 59 -> Z.of_nat (length l) < 2 ^ 64 ->
  (exists k, 0 <= k /\ (if ra then Z.max (Z.of_nat (length l)) n else n) = 2 ^ k - 1) ->
  exists o, ctor_range f key_of hash keq ra lim l n = Ok o /\
    match o with
    | None => lim < (if ra then Z.max (Z.of_nat (length l)) n else n)
    | Some (s, b) => b = true -> Permutation (elems s) (firsts key_of keq [] l) /\ behaves s (elems s)
    end.
Proof.
  intros ra l n lim Hlim Hlen Hk. destruct (ctor_range_ok f key_of hash keq KL ra l n lim Hlim Hlen Hk) as (o & E1 & Ho).
  exists o. split; [exact E1|]. destruct o as [[s b]|]; [|exact Ho]. intros ->. destruct Ho as (Hi & l1 & l2 & Hl & P & Hb).
  rewrite (Hb eq_refl), app_nil_r in Hl. subst l1. split; [exact P|]. apply beh; [apply Hi|reflexivity].
Qed.

Lemma wf_contains : forall s k, wf f key_of hash keq s -> exists b, contains s k = Ok b /\
  (b = true <-> exists e, In e (elems s) /\ keq (key_of e) k = true).
Proof. intros s k H. apply (lookup_defined f key_of hash keq KL s k H). Qed.

Lemma copied_found : forall (clone : E -> E) (s o : swiss), (forall e, key_of (clone e) = key_of e) -> wf f key_of hash keq s ->
  elems s = map clone (elems o) -> forall x, In x (elems o) -> contains s (key_of x) = Ok true.
Proof.
  intros clone s o Hc H He x Hx. destruct (wf_contains s (key_of x) H) as (b & -> & Hb). f_equal. apply Hb.
  exists (clone x). rewrite He, Hc. split; [apply in_map; exact Hx|apply (kl_refl hash keq KL)].
Qed.

Lemma occurs_small : forall s, occurs s -> bucket_count s < width f -> clean f s.
Proof.
  intros s Hs Hb. apply occ_wf in Hs. unfold bucket_count in Hb. rewrite width_W in Hb. destruct Hs as [Hs|Hs].
  - intros i e h Ei j Hj. rewrite (w0_cap s Hs) in Hj. lia.
  - apply (clean_small f); [apply (w_m _ _ _ _ s Hs)|lia].
Qed.

Lemma copy_ctor_final : forall clone lim o, (forall e, key_of (clone e) = key_of e) -> occurs o -> bucket_count o <= lim ->
  exists c, copy_ctor f clone lim o = Ok (c, true) /\ elems c = map clone (elems o) /\ size c = size o /\
    (clean f o <-> forall x, In x (elems o) -> contains c (key_of x) = Ok true) /\
    (clean f o -> behaves c (map clone (elems o))).
Proof.
  intros clone lim o Hc Ho Hlim. apply occ_wf in Ho.
  destruct (copy_ctor_ok f key_of hash keq clone Hc KL lim o Ho Hlim) as (c & E1 & Ee & Es & Hcl & Hx).
  exists c. split; [exact E1|]. split; [exact Ee|]. split; [exact Es|]. split; [split; [|exact Hx]|].
  - intros H. apply (copied_found clone c o Hc); [apply (Hcl H)|exact Ee].
  - intros H. apply beh; [apply (Hcl H)|exact Ee].
Qed.

Lemma copy_assign_final : forall clone pocca lim s o, (forall e, key_of (clone e) = key_of e) -> occurs s -> occurs o ->
  bucket_count o <= lim -> elems o <> [] -> pocca = true \/ bucket_count s <= bucket_count o ->
  exists c, copy_assign f clone pocca lim s o = Ok (c, true) /\ elems c = map clone (elems o) /\ size c = size o /\
    (clean f o <-> forall x, In x (elems o) -> contains c (key_of x) = Ok true) /\
    (clean f o -> behaves c (map clone (elems o))).
Proof.
  intros clone pocca lim s o Hc Hs Ho Hlim Hne Hp. apply occ_wf in Hs, Ho.
  destruct (copy_assign_ok f key_of hash keq clone Hc KL pocca lim s o Hs Ho Hlim Hne Hp) as (c & E1 & Ee & Es & Hcl & Hx).
  exists c. split; [exact E1|]. split; [exact Ee|]. split; [exact Es|]. split; [split; [|exact Hx]|].
  - intros H. apply (copied_found clone c o Hc); [apply (Hcl H)|exact Ee].
  - intros H. apply beh; [apply (Hcl H)|exact Ee].
Qed.

Lemma copy_assign_empty_final : forall (clone : E -> E) pocca lim s o, occurs s -> occurs o -> elems o = [] ->
  pocca = true \/ (forall j, 0 <= j < bucket_count s -> s_meta s j = m_empty) ->
  exists c, copy_assign f clone pocca lim s o = Ok (c, true) /\ size c = 0 /\ behaves c [].
Proof.
  intros clone pocca lim s o Hs Ho He Hp. apply occ_wf in Hs, Ho.
  destruct (copy_assign_empty_ok f key_of hash keq clone pocca lim s o Hs Ho He Hp) as (c & E1 & Ee & Es & Hi).
  exists c. split; [exact E1|]. split; [exact Es|]. apply beh; [apply Hi|exact Ee].
Qed.

(** ** Addresses. *)
Section Addresses.
Context {A : Type}.
Variable addr : E -> A.
Hypothesis Addr : forall a b, addr (rep a b) = addr a.

(** The call does not remove the element with key [k]. *)
Definition spares (k : K) (c : call E K) : Prop :=
  match c with CClear => False | CErase k' => keq k k' = false | _ => True end.

Lemma spec_step_addr : forall c l l' r e, spec_step key_of keq rep c l l' r -> In e l -> spares (key_of e) c ->
  exists e', In e' l' /\ addr e' = addr e /\ key_of e' = key_of e.
Proof.
  intros c l l' r e H Hin Hsp.
  assert (Hperm : forall m, Permutation l' (m ++ l) -> exists e', In e' l' /\ addr e' = addr e /\ key_of e' = key_of e).
  { intros m P. exists e. split; [|auto]. apply (Permutation_in e (Permutation_sym P)). apply in_or_app. right. exact Hin. }
  inversion H; subst; cbn [spares] in Hsp; try (exists e; auto; fail); try contradiction;
    try (match goal with P : Permutation _ (?x :: _) |- _ => exact (Hperm [x] P) end);
    try (match goal with P : Permutation _ l |- _ => exact (Hperm [] P) end).
  - (* insert_or_assign of a present key *)
    match goal with L : located _ _ _ _ ?a ?x ?b |- _ => destruct L as [-> Lk] end.
    apply in_app_or in Hin. destruct Hin as [Hin|[->|Hin]].
    + exists e. split; [apply in_or_app; left; exact Hin|auto].
    + eexists. split; [apply in_or_app; right; left; reflexivity|]. split; [apply Addr|]. apply Rep. exact Lk.
    + exists e. split; [apply in_or_app; right; right; exact Hin|auto].
  - (* erase of another key *)
    match goal with L : located _ _ _ _ ?a ?x ?b |- _ => destruct L as [-> Lk] end.
    apply in_app_or in Hin. exists e. split; [|auto]. apply in_or_app. destruct Hin as [Hin|[->|Hin]]; [left; exact Hin|congruence|right; exact Hin].
Qed.

Lemma spec_run_addr : forall cs l l' rs, spec_run key_of keq rep cs l l' rs -> forall e, In e l -> Forall (spares (key_of e)) cs ->
  exists e', In e' l' /\ addr e' = addr e /\ key_of e' = key_of e.
Proof.
  induction 1 as [l|c cs l l1 l2 r rs H1 H2 IH]; intros e Hin Hsp; [exists e; auto|].
  inversion Hsp; subst. destruct (spec_step_addr c l l1 r e H1 Hin) as (e1 & Hin1 & Ha & Hk); [assumption|].
  destruct (IH e1 Hin1) as (e' & Hin' & Ha' & Hk'); [rewrite Hk; assumption|]. exists e'. split; [exact Hin'|]. split; congruence.
Qed.

Lemma stable_final : forall s h s' rs, occurs s -> history_ok h -> run f key_of hash keq rep s h = Ok (s', rs) ->
  forall e, In e (elems s) -> Forall (spares (key_of e)) (map snd h) ->
  exists e', In e' (elems s') /\ addr e' = addr e /\ key_of e' = key_of e.
Proof.
  intros s h s' rs Hs Hh Er e Hin Hsp. apply occ_wf in Hs.
  destruct (run_ok f key_of hash keq KL rep Rep h s Hs Hh) as [(s1 & rs1 & E1 & _ & Hr)|(_ & _ & E1)]; [|congruence].
  rewrite Er in E1. injection E1 as <- <-. exact (spec_run_addr _ _ _ _ Hr e Hin Hsp).
Qed.
End Addresses.

(** Inserting a key that is present. *)
Lemma insert_present_final : forall v (s : swiss) e, occurs s -> (exists x, In x (elems s) /\ keq (key_of x) (key_of e) = true) ->
  exists x, In x (elems s) /\ keq (key_of x) (key_of e) = true /\ exec f key_of hash keq rep v s (CInsert e) = Ok (s, RInserted x false).
Proof.
  intros v s e Ho (x & Hx & Hk). pose proof (occ_wf s Ho) as H. cbn [exec]. unfold do_insert.
  destruct (find_located f key_of hash keq KL s (key_of e) H) as (r & -> & Hr). cbn [bind].
  destruct Hr as [(y & h & W1 & Hr & En & Eg & Ha & Hl1 & Hl2)|(-> & Habs)].
  - destruct (Z.eqb_spec r (s_cap s)); [lia|]. exists y. split; [rewrite Hl1; apply in_or_app; right; left; reflexivity|]. split; [exact Hl2|].
    cbn [bind]. unfold give_inserted. rewrite to_iter_here by ((apply (w_m _ _ _ _ s W1)) || assumption || lia). cbn [bind]. rewrite Eg. reflexivity.
  - exfalso. rewrite (Habs x Hx) in Hk. discriminate.
Qed.
End Final.
