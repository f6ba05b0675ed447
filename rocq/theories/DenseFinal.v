(** The results about dense tables in the form used by Props_Dense.v. *)
From Coq Require Import ZArith List Bool Lia Arith Permutation.
From Verif Require Import Base BaseLemmas MapSpec Float32 DenseSpec DenseWorldSpec World DenseModel DenseRun DenseChain DenseInv DenseOps DenseEdit DenseErase DenseRefine DenseMono DenseMore DenseReserve DenseWorld DenseWorldProofs.
Import ListNotations.
Open Scope Z_scope.

Section Final.
Context {E K : Type}.
Variable nk : nat.
Variable key_of : nat -> E -> K.
Variable hash : K -> Z.
Variable keq : K -> K -> bool.
Variable rep : E -> E -> E.
Variable clone : E -> E.
Variables pocca pocma : bool.
Hypothesis KL : key_laws hash keq.
Hypothesis rep_key : forall x e, key_of 0 (rep x e) = key_of 0 x.
Hypothesis clone_key : forall j e, (j < nk)%nat -> key_of j (clone e) = key_of j e.
Notation dense := (dense E).
Notation dwf := (dwf nk key_of hash keq).
Notation dexec := (dexec nk key_of hash keq rep).
Notation drun := (drun nk key_of hash keq rep).
Notation drefines := (drefines nk key_of hash keq rep).
Notation blocked := (blocked nk key_of hash keq rep).
Notation doccurs := (doccurs nk key_of hash keq rep clone pocca pocma).
Notation xrefines := (xrefines nk key_of hash keq rep clone pocca pocma).

Lemma wf_refines : forall (s : dense) h, dwf s -> dhistory_ok nk h -> drefines s (delems s) h.
Proof.
  intros s h W Hh. destruct (run_full nk key_of hash keq rep KL rep_key h s W Hh) as [(s' & rs & Hr & W' & Hs & _)|(h1 & v & c & h2 & s1 & rs1 & He & Hr & W1 & Hs & Hb & Hi)].
  - left. exists s', rs. split; [exact Hr|]. split; [exact Hs|]. apply (wf_distinct nk key_of hash keq rep rep_key). exact W'.
  - right. exists h1, v, c, h2, s1, rs1. auto.
Qed.
Lemma histories : forall h, dhistory_ok nk h -> drefines empty_dense [] h.
Proof. intros h Hh. exact (wf_refines empty_dense h (empty_wf nk key_of hash keq) Hh). Qed.

Lemma programs : forall h, xhistory_ok nk h -> xrefines h.
Proof.
  intros h Hh. destruct (xrun_ok nk key_of hash keq rep clone pocca pocma KL rep_key clone_key h xinit (xinit_wf nk key_of hash keq) Hh)
    as [(w & rs & Hr & _ & Hs)|(h1 & v & c & h2 & w1 & rs1 & He & Hr & _ & Hs & Hb)].
  - left. exists w, rs. split; [exact Hr|exact Hs].
  - right. exists h1, v, c, h2, w1, rs1. auto.
Qed.
Lemma occurs_wf : forall s : dense, doccurs s -> dwf s.
Proof.
  intros s (h & w & rs & i & Hh & Hr & -> & Hb).
  destruct (xrun_ok nk key_of hash keq rep clone pocca pocma KL rep_key clone_key h xinit (xinit_wf nk key_of hash keq) Hh)
    as [(w' & rs' & Hr' & W & _)|(h1 & v & c & h2 & w1 & rs1 & He & Hr' & _ & _ & Hbl)].
  - rewrite Hr in Hr'. injection Hr' as -> ->. apply W.
  - exfalso. exact (Hb h1 v c h2 w1 rs1 He Hr' Hbl).
Qed.
Lemma occurs_refines : forall (s : dense) h, doccurs s -> dhistory_ok nk h -> drefines s (delems s) h.
Proof. intros s h Ho. apply wf_refines. apply occurs_wf. exact Ho. Qed.

(** ** Every element is found under each of its keys. *)
Lemma found_all : forall (s : dense) x j v, doccurs s -> In x (delems s) -> (j < nk)%nat -> dexec v s (DFind j (key_of j x)) = Ok (s, QFound (Some x)).
Proof.
  intros s x j v Ho Hx Hj. pose proof (occurs_wf s Ho) as W. cbn [DenseRun.dexec]. unfold find.
  apply (delems_in nk key_of hash keq s x W) in Hx. destruct Hx as (i & n & Hn & Hv).
  destruct (find_node_ok nk key_of hash keq KL s j (key_of j x) W Hj) as [(i' & n' & p & Hn' & Hk & -> & _)|(Hno & _)].
  - cbn [bind fst]. assert (i' = i) by (apply (w_uniq _ _ _ _ _ W i' i n' n j Hj Hn' Hn); rewrite Hv; exact Hk). subst i'. rewrite Hn in Hn'. injection Hn' as <-.
    pose proof (node_live nk key_of hash keq s i n W Hn) as Hl. destruct (Z.eqb_spec i (d_size s)) as [He|_]; [unfold live in Hl; lia|].
    rewrite (get_node_ok s i n (w_mem _ _ _ _ _ W) Hn). cbn [bind]. rewrite Hv. reflexivity.
  - exfalso. apply (Hno i (node_live nk key_of hash keq s i n W Hn)). exists n. split; [exact Hn|]. rewrite Hv. apply (kl_refl _ _ KL).
Qed.
(** ... and an erased element under none of them. *)
Lemma erased_all : forall (s s' : dense) x j v r, doccurs s -> In x (delems s) -> (j < nk)%nat -> dexec v s (DErase j (key_of j x)) = Ok (s', r) ->
  forall j' v', (j' < nk)%nat -> dexec v' s' (DFind j' (key_of j' x)) = Ok (s', QFound None).
Proof.
  intros s s' x j v r Ho Hx Hj He j' v' Hj'. pose proof (occurs_wf s Ho) as W. cbn [DenseRun.dexec] in He.
  assert (Hb : 0 < d_bc s).
  { apply (w_bucket _ _ _ _ _ W). pose proof (delems_len nk key_of hash keq s W). destruct (delems s); [destruct Hx|]. cbn [length] in *. lia. }
  destruct (erase_key_ok nk key_of hash keq KL s j (key_of j x) W Hj Hb) as [(Hno & _)|(s1 & pos & a & y & b & Hek & W1 & Hd & Hk & Hla & Hlp & Hd1 & Hs1 & _)].
  - exfalso. apply (delems_in nk key_of hash keq s x W) in Hx. destruct Hx as (i & n & Hn & Hv).
    apply (Hno i (node_live nk key_of hash keq s i n W Hn)). exists n. split; [exact Hn|]. rewrite Hv. apply (kl_refl _ _ KL).
  - rewrite Hek in He. cbn [bind give_next] in He. destruct (at_pos s1 pos); [|discriminate]. cbn [bind] in He. injection He as <- <-.
    (* the erased element is x itself *)
    assert (Hnx : forall l : list E, ForallOrdPairs (fun p q => keq (key_of j p) (key_of j q) = false) l -> forall p q, In p l -> In q l -> keq (key_of j p) (key_of j q) = true -> p = q).
    { induction 1 as [|u l Hf Hl IH]; intros p q Hp Hq Hpq; [destruct Hp|]. rewrite Forall_forall in Hf. destruct Hp as [<-|Hp], Hq as [<-|Hq]; auto.
      - exfalso. rewrite (Hf q Hq) in Hpq. discriminate.
      - exfalso. apply (kl_sym _ _ KL) in Hpq. rewrite (Hf p Hp) in Hpq. discriminate. }
    assert (Hyx : y = x) by (apply (Hnx _ (wf_distinct nk key_of hash keq rep rep_key s W j Hj)); auto; rewrite Hd; apply in_or_app; right; left; reflexivity). subst y.
    cbn [DenseRun.dexec]. unfold find. destruct (find_node_ok nk key_of hash keq KL s1 j' (key_of j' x) W1 Hj') as [(i & n & p & Hn & Hkn & _)|(_ & o & ->)].
    + exfalso. assert (Hin : In (n_val n) (delems s1)) by (apply (delems_in nk key_of hash keq s1 _ W1); exists i, n; auto).
      assert (Hsub : In (n_val n) (a ++ b)).
      { rewrite Hd1 in Hin. unfold swap_remove in Hin. apply in_or_app. destruct (rev b) as [|z l] eqn:Er; [left; exact Hin|].
        apply in_app_or in Hin. destruct Hin as [Hin|Hin]; [left; exact Hin|right]. apply in_rev. rewrite Er. destruct Hin as [Hin|Hin]; [left; exact Hin|right; apply in_rev in Hin; exact Hin]. }
      pose proof (wf_distinct nk key_of hash keq rep rep_key s W j' Hj') as Hdis. rewrite Hd in Hdis.
      assert (Hmid : forall a9 : list E, ForallOrdPairs (fun p q => keq (key_of j' p) (key_of j' q) = false) (a9 ++ x :: b) -> forall p, In p (a9 ++ b) -> keq (key_of j' p) (key_of j' x) = false).
      { induction a9 as [|u a9 IHa]; intros Hf q Hq; cbn [app] in *; inversion Hf as [|? ? Hu Hf']; subst; rewrite Forall_forall in Hu.
        - specialize (Hu q Hq). destruct (keq (key_of j' q) (key_of j' x)) eqn:Ek; [|reflexivity]. apply (kl_sym _ _ KL) in Ek. congruence.
        - destruct Hq as [<-|Hq]; [apply Hu; apply in_or_app; right; left; reflexivity|apply IHa; assumption]. }
      rewrite (Hmid a Hdis _ Hsub) in Hkn. discriminate.
    + cbn [bind fst]. rewrite Z.eqb_refl. reflexivity.
Qed.

(** ** Failed allocations. *)
Lemma throw_contents : forall (s s' : dense) v c, doccurs s -> denv_ok v -> dcall_ok nk c -> dcall_pre c (delems s) -> dexec v s c = Ok (s', QThrow) ->
  delems s' = delems s /\ (d_sok s' = true -> forall h, dhistory_ok nk h -> drefines s' (delems s) h) /\ (d_sok s' = false -> 0 < d_bc s).
Proof.
  intros s s' v c Ho Hv Hc Hp He. pose proof (occurs_wf s Ho) as W.
  assert (H : delems s' = delems s /\ (dwf s' \/ (0 < d_bc s /\ broken s'))).
  { destruct Hv as [Hdl Hsl]. destruct c; cbn [DenseRun.dexec dcall_ok] in *.
    - destruct (do_insert_ok nk key_of hash keq rep KL (dv_dlim v) (dv_slim v) s e W Hdl Hsl) as ((s1, o) & H & Hi). rewrite H in He. cbn [bind give_inserted] in He.
      destruct o as [[p b]|]; [destruct (get_node s1 p); discriminate|]. injection He as <-. cbn [ins_ok] in Hi. destruct Hi as [Hi1 Hi2]. split; [apply delems_same; exact Hi1|exact Hi2].
    - destruct (do_emplace_ok nk key_of hash keq rep KL (dv_dlim v) (dv_slim v) s e W Hdl Hsl) as ((s1, o) & H & Hi). rewrite H in He. cbn [bind give_inserted] in He.
      destruct o as [[p b]|]; [destruct (get_node s1 p); discriminate|]. injection He as <-. cbn [ins_ok] in Hi. destruct Hi as [Hi1 Hi2]. split; [apply delems_same; exact Hi1|exact Hi2].
    - destruct (do_assign_ok nk key_of hash keq rep KL rep_key (dv_dlim v) (dv_slim v) s e W Hdl Hsl Hc) as ((s1, o) & H & Hi). rewrite H in He. cbn [bind give_inserted] in He.
      destruct o as [[p b]|]; [destruct (get_node s1 p); discriminate|]. injection He as <-. cbn [assign_ok] in Hi. destruct Hi as [Hi1 Hi2]. split; [apply delems_same; exact Hi1|exact Hi2].
    - exfalso. bstep He. destruct a as [s1 p]. cbn [give_next] in He. bstep He. discriminate.
    - exfalso. bstep He. destruct a as [s1 p]. cbn [give_next] in He. bstep He. discriminate.
    - exfalso. bstep He. destruct a0 as [s1 p]. cbn [give_next] in He. bstep He. discriminate.
    - exfalso. bstep He. discriminate.
    - exfalso. bstep He. discriminate.
    - exfalso. bstep He. discriminate.
    - destruct (reserve_ok nk key_of hash keq (dv_dlim v) (dv_slim v) s n W Hdl Hsl Hc) as (s1 & o & H & [Hr1 Hr2] & _). rewrite H in He. cbn [bind give_unit] in He.
      destruct o; [discriminate|]. injection He as <-. split; [apply delems_same; exact Hr1|exact Hr2].
    - destruct (rehash_ok nk key_of hash keq (dv_slim v) s n W Hsl (proj1 Hc)) as (s1 & o & H & [Hr1 Hr2] & _). rewrite H in He. cbn [bind give_unit] in He.
      destruct o; [discriminate|]. injection He as <-. split; [apply delems_same; exact Hr1|exact Hr2].
    - discriminate.
    - discriminate.
    - exfalso. bstep He. discriminate. }
  destruct H as [H1 H2]. split; [exact H1|]. split.
  - intros Hs h Hh. rewrite <- H1. apply wf_refines; [|exact Hh]. destruct H2 as [H2|[_ H2]]; [exact H2|]. unfold broken in H2. congruence.
  - intros Hs. destruct H2 as [H2|[H2 _]]; [|exact H2]. pose proof (om_sok _ (w_mem _ _ _ _ _ H2)). congruence.
Qed.

(** An element is inserted iff none of its keys is taken. *)
Lemma inserted_iff : forall (s : dense) e v, doccurs s -> denv_ok v ->
  exists s' r, dexec v s (DInsert e) = Ok (s', r) /\ delems s' = delems s ++ (match r with QInserted _ true => [e] | _ => [] end) /\
    (r = QThrow \/ (r = QInserted e true /\ dnew nk key_of keq e (delems s)) \/ exists x, r = QInserted x false /\ dclash nk key_of keq e (delems s) x).
Proof.
  intros s e v Ho Hv. assert (Hh : dhistory_ok nk [(v, DInsert e : dcall E K)]) by (constructor; [split; [exact Hv|exact I]|constructor]).
  destruct (occurs_refines s _ Ho Hh) as [(s' & rs & Hr & Hs & _)|(h1 & v1 & c1 & h2 & s1 & rs1 & He & Hr & Hs & Hb & _)].
  - cbn [DenseRun.drun] in Hr. destruct (dexec v s (DInsert e)) as [[s1 r]|] eqn:Ex; [|discriminate]. cbn [bind] in Hr. injection Hr as <- <-.
    exists s1, r. split; [reflexivity|]. cbn [map snd] in Hs. inversion Hs as [|? ? ? l1 ? ? ? H1 H2]; subst. inversion H2; subst.
    inversion H1; subst; cbn [app]; rewrite ?app_nil_r; (split; [auto|]); eauto 6.
  - destruct h1 as [|? [|]]; [|discriminate|discriminate]. injection He as <- <- <-. cbn in Hr. injection Hr as <- <-.
    destruct Hb as [Hb|[(_ & j & k & Hb)|(_ & s' & Hx & _)]]; [exfalso; apply Hb; exact I|discriminate|].
    exists s', QThrow. split; [exact Hx|]. split; [|left; reflexivity]. rewrite app_nil_r. exact (proj1 (throw_contents s s' v (DInsert e) Ho Hv I I Hx)).
Qed.

(** ** erase(key) of an absent key. *)
Lemma erase_absent : forall (s : dense) v j k, doccurs s -> (j < nk)%nat -> dabsent key_of keq j k (delems s) ->
  (0 < d_bc s -> dexec v s (DErase j k) = Ok (s, QNext None)) /\ (d_bc s = 0 -> dexec v s (DErase j k) = Err NullDeref).
Proof.
  intros s v j k Ho Hj Ha. pose proof (occurs_wf s Ho) as W. split; intros Hb; cbn [DenseRun.dexec].
  - destruct (erase_key_ok nk key_of hash keq KL s j k W Hj Hb) as [(_ & ->)|(s1 & pos & a & x & b & _ & _ & Hd & Hk & _)].
    + cbn [bind give_next]. unfold at_pos. rewrite Z.eqb_refl. reflexivity.
    + exfalso. rewrite (Ha x) in Hk; [discriminate|]. rewrite Hd. apply in_or_app. right. left. reflexivity.
  - unfold erase_key, get_chain. rewrite Hb. reflexivity.
Qed.

(** ** Range erase. *)
Lemma remove_range_perm : forall n a (l : list E), (a + n <= length l)%nat -> Permutation (remove_range a n l) (firstn a l ++ skipn (a + n) l).
Proof.
  induction n as [|n IH]; intros a l Hl; cbn [remove_range].
  - rewrite Nat.add_0_r, firstn_skipn. reflexivity.
  - set (l1 := swap_remove (firstn (a + n) l) (skipn (S (a + n)) l)).
    assert (Hsw : forall p q : list E, Permutation (swap_remove p q) (p ++ q)).
    { intros p q. unfold swap_remove. destruct (rev q) as [|y r] eqn:Er.
      - assert (q = []) by (rewrite <- (rev_involutive q), Er; reflexivity). subst q. rewrite app_nil_r. reflexivity.
      - assert (Hq : q = rev r ++ [y]) by (rewrite <- (rev_involutive q), Er; reflexivity). rewrite Hq. apply Permutation_app_head. apply Permutation_cons_append. }
    assert (Hlen : length l1 = (length l - 1)%nat).
    { unfold l1. rewrite (swap_remove_len nk key_of), firstn_length, skipn_length. lia. }
    rewrite (IH a l1) by lia.
    assert (Hf : firstn (a + n) l1 = firstn (a + n) l).
    { unfold l1, swap_remove. set (p := firstn (a + n) l). assert (Hp : length p = (a + n)%nat) by (unfold p; rewrite firstn_length; lia).
      destruct (rev (skipn (S (a + n)) l)); [rewrite firstn_all2; [reflexivity|lia]|]. rewrite firstn_app, Hp, Nat.sub_diag, firstn_O, app_nil_r. apply firstn_all2. lia. }
    assert (Hfa : firstn a l1 = firstn a l) by (rewrite <- (firstn_firstn l1 a (a + n)) || idtac; replace a with (Nat.min a (a + n)) by lia; rewrite <- !firstn_firstn, Hf; reflexivity).
    assert (Hp : Permutation l1 (firstn (a + n) l ++ skipn (S (a + n)) l)) by apply Hsw.
    rewrite <- (firstn_skipn (a + n) l1), Hf in Hp. apply Permutation_app_inv_l in Hp. rewrite Hfa. replace (a + S n)%nat with (S (a + n)) by lia.
    apply Permutation_app_head. exact Hp.
Qed.
Lemma erase_range_final : forall (s : dense) v a n, doccurs s -> (a + n <= length (delems s))%nat ->
  exists s' r, dexec v s (DEraseRange (Z.of_nat a) (Z.of_nat (a + n))) = Ok (s', QNext r) /\
    Permutation (delems s') (firstn a (delems s) ++ skipn (a + n) (delems s)) /\
    (forall h, dhistory_ok nk h -> drefines s' (delems s') h) /\
    (forall x j v', In x (delems s') -> (j < nk)%nat -> dexec v' s' (DFind j (key_of j x)) = Ok (s', QFound (Some x))) /\
    (n = O -> r = None).
Proof.
  intros s v a n Ho Hl. pose proof (occurs_wf s Ho) as W. pose proof (delems_len nk key_of hash keq s W) as Hlen. pose proof (w_size _ _ _ _ _ W) as Hsz.
  cbn [DenseRun.dexec]. unfold erase_range. replace (Z.to_nat (Z.of_nat (a + n) - Z.of_nat a)) with n by lia.
  destruct (erase_range_ok nk key_of hash keq rep rep_key n s (Z.of_nat a) (d_size s) W ltac:(lia) ltac:(lia)) as (s' & -> & W' & Hd & Hs'). cbn [bind give_next].
  rewrite (at_pos_ok nk key_of hash keq s' (if Nat.eqb n 0 then d_size s else Z.of_nat a) W') by (destruct (Nat.eqb_spec n 0); lia). cbn [bind].
  eexists. eexists. split; [reflexivity|]. rewrite Nat2Z.id in Hd. split; [rewrite Hd; apply remove_range_perm; exact Hl|]. split; [intros h; apply wf_refines; exact W'|]. split.
  - intros x j v' Hx Hj. cbn [DenseRun.dexec]. unfold find. apply (delems_in nk key_of hash keq s' x W') in Hx. destruct Hx as (i & m & Hm & Hv).
    destruct (find_node_ok nk key_of hash keq KL s' j (key_of j x) W' Hj) as [(i' & n' & p & Hn' & Hk & -> & _)|(Hno & _)].
    + cbn [bind fst]. assert (i' = i) by (apply (w_uniq _ _ _ _ _ W' i' i n' m j Hj Hn' Hm); rewrite Hv; exact Hk). subst i'. rewrite Hm in Hn'. injection Hn' as <-.
      pose proof (node_live nk key_of hash keq s' i m W' Hm) as Hlv. destruct (Z.eqb_spec i (d_size s')) as [He|_]; [unfold live in Hlv; lia|].
      rewrite (get_node_ok s' i m (w_mem _ _ _ _ _ W') Hm). cbn [bind]. rewrite Hv. reflexivity.
    + exfalso. apply (Hno i (node_live nk key_of hash keq s' i m W' Hm)). exists m. split; [exact Hm|]. rewrite Hv. apply (kl_refl _ _ KL).
  - intros ->. rewrite Nat.eqb_refl. apply nth_error_None. rewrite (delems_len nk key_of hash keq s' W'). lia.
Qed.

(** ** erase_if. *)
Lemma erase_if_final : forall (s : dense) pred, doccurs s ->
  ((forall x, In x (delems s) -> pred x = false) -> erase_if nk pred s = Ok (s, 0)) /\
  ((exists x, In x (delems s) /\ pred x = true) -> erase_if nk pred s = Err DeadObject).
Proof.
  intros s pred Ho. pose proof (occurs_wf s Ho) as W. split; intros H.
  - exact (erase_if_none nk key_of hash keq pred s W H).
  - exact (erase_if_some nk key_of hash keq pred s W H).
Qed.

(** ** Copies and moves. *)
Lemma copy_ctor_final : forall (o : dense) v, doccurs o -> denv_ok v ->
  exists s b, copy_ctor nk clone (dv_dlim v) (dv_slim v) o = Ok (s, b) /\
    (b = true -> delems s = map clone (delems o) /\ forall h, dhistory_ok nk h -> drefines s (map clone (delems o)) h).
Proof.
  intros o v Ho [Hdl Hsl]. destruct (copy_ctor_ok nk key_of hash keq clone clone_key _ _ o Hdl Hsl (occurs_wf o Ho)) as (s & b & He & H). exists s, b. split; [exact He|].
  intros Hb. destruct (H Hb) as [W Hd]. split; [exact Hd|]. intros h Hh. rewrite <- Hd. apply wf_refines; assumption.
Qed.
Lemma copy_assign_final : forall (s o : dense) v, doccurs s -> doccurs o -> denv_ok v -> pocca = true \/ delems o <> [] \/ delems s = [] ->
  exists s' b, copy_assign nk clone pocca (dv_dlim v) (dv_slim v) s o = Ok (s', b) /\
    (b = true -> delems s' = map clone (delems o) /\ forall h, dhistory_ok nk h -> drefines s' (map clone (delems o)) h).
Proof.
  intros s o v Hs Ho [Hdl Hsl] Hc. pose proof (occurs_wf s Hs) as Ws. pose proof (occurs_wf o Ho) as Wo.
  pose proof (delems_len nk key_of hash keq s Ws) as Ls. pose proof (delems_len nk key_of hash keq o Wo) as Lo. pose proof (w_size _ _ _ _ _ Ws). pose proof (w_size _ _ _ _ _ Wo).
  destruct (copy_assign_ok nk key_of hash keq clone clone_key pocca _ _ s o Hdl Hsl Ws Wo) as (s' & b & He & H').
  { destruct Hc as [Hc|[Hc|Hc]]; [left; exact Hc|right; left|right; right].
    - destruct (Z.eq_dec (d_size o) 0) as [Hz|]; [|lia]. exfalso. apply Hc. apply size0_delems. exact Hz.
    - rewrite Hc in Ls. cbn [length] in Ls. lia. }
  exists s', b. split; [exact He|]. intros Hb. destruct (H' Hb) as [W Hd]. split; [exact Hd|]. intros h Hh. rewrite <- Hd. apply wf_refines; assumption.
Qed.
Lemma move_assign_final : forall (s o : dense) v, doccurs s -> doccurs o -> pocma = true \/ delems s = [] ->
  exists s' o', move_assign nk pocma true (dv_dlim v) (dv_slim v) s o = Ok (s', o', true) /\ delems s' = delems o /\ delems o' = [] /\
    (forall h, dhistory_ok nk h -> drefines s' (delems o) h) /\ (forall h, dhistory_ok nk h -> drefines o' [] h).
Proof.
  intros s o v Hs Ho Hc. pose proof (occurs_wf s Hs) as Ws. pose proof (occurs_wf o Ho) as Wo.
  pose proof (delems_len nk key_of hash keq s Ws) as Ls. pose proof (w_size _ _ _ _ _ Ws).
  destruct (move_assign_ok nk key_of hash keq pocma (dv_dlim v) (dv_slim v) s o Ws Wo) as (s' & o' & He & W1 & Hd1 & Hd2 & _ & W2).
  exists s', o'. split; [exact He|]. split; [exact Hd1|]. split; [exact Hd2|]. split; intros h Hh.
  - rewrite <- Hd1. apply wf_refines; assumption.
  - rewrite <- Hd2. apply wf_refines; [|exact Hh]. apply W2. destruct Hc as [Hc|Hc]; [left; exact Hc|right]. rewrite Hc in Ls. cbn [length] in Ls. lia.
Qed.
Lemma move_ctor_final : forall (o : dense) v, doccurs o ->
  exists s o', move_ctor nk true (dv_dlim v) (dv_slim v) o = Ok (s, o', true) /\ delems s = delems o /\ delems o' = [] /\
    (forall h, dhistory_ok nk h -> drefines s (delems o) h) /\ (forall h, dhistory_ok nk h -> drefines o' [] h).
Proof.
  intros o v Ho. destruct (move_ctor_ok nk key_of hash keq (dv_dlim v) (dv_slim v) o (occurs_wf o Ho)) as (s & o' & He & W1 & Hd1 & W2 & Hd2).
  exists s, o'. split; [exact He|]. split; [exact Hd1|]. split; [exact Hd2|]. split; intros h Hh; [rewrite <- Hd1|rewrite <- Hd2]; apply wf_refines; assumption.
Qed.
Lemma swap_final : forall (s o : dense), doccurs s -> doccurs o ->
  exists s' o', swap true s o = Ok (s', o') /\ delems s' = delems o /\ delems o' = delems s /\
    (forall h, dhistory_ok nk h -> drefines s' (delems o) h) /\ (forall h, dhistory_ok nk h -> drefines o' (delems s) h).
Proof.
  intros s o Hs Ho. exists o, s. split; [reflexivity|]. split; [reflexivity|]. split; [reflexivity|]. split; intros h Hh; apply wf_refines; auto; apply occurs_wf; assumption.
Qed.

(** ** reserve. *)
Lemma reserve_final : forall v0 v n (s s1 : dense) es, doccurs s -> d_mlf s = (7, 8) -> denv_ok v0 -> 0 <= n < 14680064 ->
  dexec v0 s (DReserve n) = Ok (s1, QUnit) -> Z.of_nat (length (delems s1)) + Z.of_nat (length es) <= n ->
  exists s2 rs, drun s1 (inserts v es) = Ok (s2, rs) /\ d_bc s2 = d_bc s1 /\ d_cap s2 = d_cap s1 /\ ~ In QThrow rs.
Proof.
  intros v0 v n s s1 es Ho Hq Hv Hn He Hl. pose proof (occurs_wf s Ho) as W.
  assert (W1 : dwf s1).
  { destruct Hv as [Hdl Hsl]. cbn [DenseRun.dexec] in He. destruct (reserve_ok nk key_of hash keq (dv_dlim v0) (dv_slim v0) s n W Hdl Hsl ltac:(lia)) as (s1' & o & Hr & [_ Hw] & _).
    rewrite Hr in He. cbn [bind give_unit] in He. destruct o; [|discriminate]. injection He as <-. exact Hw. }
  pose proof (w_size _ _ _ _ _ W1). rewrite (delems_len nk key_of hash keq s1 W1) in Hl.
  destruct (reserve_enough nk key_of hash keq KL rep v0 v n s s1 es W Hq Hv ltac:(lia) ltac:(lia) He ltac:(lia)) as (s2 & rs & H1 & H2 & H3 & H4 & _).
  exists s2, rs. auto.
Qed.

(** ** Insertion of a present key when there is room. *)
Lemma insert_present_quiet : forall v (s : dense) e, doccurs s -> (exists j x, (j < nk)%nat /\ In x (delems s) /\ keq (key_of j x) (key_of j e) = true) ->
  d_size s < d_cap s -> overloaded s = false -> exists x, dexec v s (DInsert e) = Ok (s, QInserted x false).
Proof.
  intros v s e Ho (j & x & Hj & Hx & Hk) Hc Hov. pose proof (occurs_wf s Ho) as W.
  assert (Hb : 0 < d_bc s).
  { apply (w_bucket _ _ _ _ _ W). pose proof (delems_len nk key_of hash keq s W). destruct (delems s); [destruct Hx|]. cbn [length] in *. lia. }
  destruct (insert_after_room nk key_of hash keq KL (dv_dlim v) (dv_slim v) s s e (room_quiet nk key_of _ _ s Hc Hb Hov) W Hc Hb) as (s' & p & b & He & W' & (n & Hn) & _ & _ & _ & Hcase).
  destruct Hcase as [(_ & Hnew & _)|(-> & -> & _)].
  - exfalso. specialize (Hnew j Hj x Hx). congruence.
  - exists (n_val n). cbn [DenseRun.dexec]. rewrite He. cbn [bind give_inserted]. rewrite (get_node_ok s p n (w_mem _ _ _ _ _ W) Hn). reflexivity.
Qed.
End Final.
