(** Rehashing, lookup, insertion and erasure on the dense table under its invariant. *)
From Coq Require Import ZArith List Bool Lia.
From Verif Require Import Base BaseLemmas MapSpec Float32 Float32Facts DenseSpec DenseModel DenseRun DenseChain DenseInv DenseOps.
Import ListNotations.
Open Scope Z_scope.

(** ** Lists *)
Lemma list_ext : forall {A} (l l' : list A), (forall i, nth_error l i = nth_error l' i) -> l = l'.
Proof.
  induction l as [|x l IH]; intros [|y l'] H; [reflexivity|specialize (H 0%nat); discriminate|specialize (H 0%nat); discriminate|].
  pose proof (H 0%nat) as H0. injection H0 as <-. f_equal. apply IH. intros i. exact (H (S i)).
Qed.
Section Vals.
Context {E : Type}.
Definition vals (f : Z -> option E) (n : Z) : list E := flat_map (fun i => match f i with Some x => [x] | None => [] end) (zrange n).
Lemma vals_succ : forall f n x, 0 <= n -> f n = Some x -> vals f (n + 1) = vals f n ++ [x].
Proof. intros f n x Hn Hx. unfold vals. rewrite zrange_succ by exact Hn. rewrite flat_map_app. cbn [flat_map]. rewrite Hx. reflexivity. Qed.
Lemma vals_ext : forall f g n, (forall i, 0 <= i < n -> f i = g i) -> vals f n = vals g n.
Proof.
  intros f g n H. unfold vals. assert (Hl : forall i, In i (zrange n) -> f i = g i) by (intros i Hi; apply H; apply zrange_In; exact Hi).
  induction (zrange n) as [|x l IH]; [reflexivity|]. cbn [flat_map]. rewrite (Hl x (or_introl eq_refl)). f_equal. apply IH. intros i Hi. apply Hl. right. exact Hi.
Qed.
Lemma vals_spec : forall f n, 0 <= n -> (forall i, 0 <= i < n -> exists x, f i = Some x) ->
  length (vals f n) = Z.to_nat n /\ forall i, 0 <= i < n -> nth_error (vals f n) (Z.to_nat i) = f i.
Proof.
  intros f n Hn. revert n Hn. apply (natlike_ind (fun n => (forall i, 0 <= i < n -> exists x, f i = Some x) -> length (vals f n) = Z.to_nat n /\ forall i, 0 <= i < n -> nth_error (vals f n) (Z.to_nat i) = f i)).
  - intros _. split; [reflexivity|]. intros i Hi. lia.
  - intros n Hn IH H. rewrite <- Z.add_1_r in *. destruct IH as (IH1 & IH2); [intros i Hi; apply H; lia|]. destruct (H n) as (x & Hx); [lia|].
    rewrite (vals_succ f n x Hn Hx). split.
    + rewrite app_length, IH1. cbn [length]. lia.
    + intros i Hi. destruct (Z.eq_dec i n) as [->|Hne].
      * rewrite nth_error_app2 by lia. rewrite IH1, Nat.sub_diag. cbn [nth_error]. symmetry. exact Hx.
      * rewrite nth_error_app1 by lia. apply IH2. lia.
Qed.
End Vals.

Section Edit.
Context {E K : Type}.
Variable nk : nat.
Variable key_of : nat -> E -> K.
Variable hash : K -> Z.
Variable keq : K -> K -> bool.
Hypothesis KL : key_laws hash keq.
Notation dense := (dense E).
Notation dwf := (dwf nk key_of hash keq).
Notation matches := (matches key_of keq).

(** ** Contents *)
Definition val (s : dense) (i : Z) : option E := option_map n_val (d_nodes s i).
Lemma delems_vals : forall s : dense, delems s = vals (val s) (d_size s).
Proof. intros s. unfold delems, vals. apply flat_map_ext. intros i. unfold val. destruct (d_nodes s i); reflexivity. Qed.
Lemma val_live : forall (s : dense), dwf s -> forall i, live s i -> exists x, val s i = Some x.
Proof. intros s W i Hi. destruct (w_live _ _ _ _ _ W i Hi) as (n & Hn). unfold val. rewrite Hn. exists (n_val n). reflexivity. Qed.
Lemma delems_len : forall s : dense, dwf s -> length (delems s) = Z.to_nat (d_size s).
Proof. intros s W. rewrite delems_vals. apply vals_spec; [apply (w_size _ _ _ _ _ W)|]. intros i Hi. apply val_live; [exact W|exact Hi]. Qed.
Lemma delems_nth : forall (s : dense) i, dwf s -> live s i -> nth_error (delems s) (Z.to_nat i) = val s i.
Proof. intros s i W Hi. rewrite delems_vals. apply vals_spec; [apply (w_size _ _ _ _ _ W)| |exact Hi]. intros k Hk. apply val_live; [exact W|exact Hk]. Qed.
Lemma node_live : forall (s : dense) i n, dwf s -> d_nodes s i = Some n -> live s i.
Proof.
  intros s i n W Hn. unfold live. destruct (Z_le_dec 0 i), (Z_lt_dec i (d_size s)); try (split; assumption); rewrite (w_dead _ _ _ _ _ W i) in Hn by (unfold live; lia); discriminate.
Qed.
Lemma delems_in : forall (s : dense) x, dwf s -> (In x (delems s) <-> exists i n, d_nodes s i = Some n /\ n_val n = x).
Proof.
  intros s x W. split.
  - intros Hx. unfold delems in Hx. apply in_flat_map in Hx. destruct Hx as (i & _ & Hx). destruct (d_nodes s i) as [n|] eqn:En; [|destruct Hx].
    destruct Hx as [<-|[]]. exists i, n. auto.
  - intros (i & n & Hn & <-). unfold delems. apply in_flat_map. exists i. split; [|rewrite Hn; left; reflexivity]. apply zrange_In. exact (node_live s i n W Hn).
Qed.
Lemma delems_split : forall (s : dense) i n, dwf s -> d_nodes s i = Some n -> exists a b, delems s = a ++ n_val n :: b /\ length a = Z.to_nat i.
Proof.
  intros s i n W Hn. pose proof (node_live s i n W Hn) as Hi. pose proof (delems_nth s i W Hi) as Hx. unfold val in Hx. rewrite Hn in Hx. cbn [option_map] in Hx.
  apply nth_error_split in Hx. destruct Hx as (a & b & H1 & H2). exists a, b. auto.
Qed.
Lemma absent_iff : forall (s : dense) j k, dwf s -> (dabsent key_of keq j k (delems s) <-> forall i, live s i -> ~ matches s j k i).
Proof.
  intros s j k W. unfold dabsent. split.
  - intros H i Hi (n & Hn & Hk). rewrite (H (n_val n)) in Hk; [discriminate|]. apply (delems_in s _ W). exists i, n. auto.
  - intros H x Hx. apply (delems_in s x W) in Hx. destruct Hx as (i & n & Hn & <-). destruct (keq (key_of j (n_val n)) k) eqn:Ek; [|reflexivity].
    exfalso. apply (H i (node_live s i n W Hn)). exists n. auto.
Qed.

(** ** Growing *)
Definition room (s s' : dense) (o : option unit) : Prop :=
  elems_same s s' /\ match o with Some _ => dwf s' | None => dwf s' \/ (0 < d_bc s /\ broken s') end.

Lemma rehash_ok : forall lim (s : dense) n, dwf s -> lim < 2 ^ 60 -> 0 <= n ->
  exists s' o, rehash nk lim s n = Ok (s', o) /\ room s s' o /\ (o <> None -> d_cap s' = d_cap s /\ (0 < n -> 0 < d_bc s') /\ n <= d_bc s' /\ d_bc s <= d_bc s' /\ d_mlf s' = d_mlf s) /\
    (o = None -> lim < n \/ exists m, f32_trunc (f32_div (f32_of (d_size s)) (d_mlf s)) = Ok m /\ lim < m).
Proof.
  intros lim s n W Hlim Hn. unfold rehash. pose proof (w_bc _ _ _ _ _ W) as Hbc. pose proof (w_size _ _ _ _ _ W) as Hsz. pose proof (w_cap _ _ _ _ _ W) as Hcap.
  destruct (w_mlf _ _ _ _ _ W) as (Hp & Hq & Hpq).
  destruct (Z.eqb_spec n 0) as [->|Hn0]; [destruct (Z.eqb_spec (d_size s) 0) as [Hz|Hz]|]; cbn [andb orb].
  - exists s, (Some tt). split; [reflexivity|]. split; [split; [apply es_refl|exact W]|]. split; [intros _|discriminate]. split; [reflexivity|]. split; [lia|]. split; [lia|]. split; [lia|reflexivity].
  - destruct (trunc_ok (d_size s) (d_mlf s)) as (m & Hm & Hm0); try lia. rewrite Hm. cbn [bind].
    destruct (do_rehash_ok nk key_of hash keq lim s (Z.max m 0) W Hlim ltac:(lia)) as [(H1 & H2 & s' & H3 & H4 & H5 & H6)|(H1 & s' & H3 & H4 & H5 & H6 & H7 & H8)]; rewrite H3.
    + exists s', None. split; [reflexivity|]. split; [split; [exact H4|]|split; [congruence|intros _; right; exists m; split; [reflexivity|lia]]].
      destruct (Z.eq_dec (d_bc s) 0) as [Hb|Hb]; [left; rewrite (H5 Hb); exact W|right; split; [lia|apply H6; lia]].
    + exists s', (Some tt). split; [reflexivity|]. split; [split; assumption|]. split; [intros _|discriminate]. split; [exact H6|]. rewrite H7. split; [lia|]. split; [lia|]. split; [lia|exact H8].
  - destruct (trunc_ok (d_size s) (d_mlf s)) as (m & Hm & Hm0); try lia. rewrite Hm. cbn [bind].
    destruct (Z.eqb_spec (Z.max m n) (d_bc s)) as [Hb|Hb]; cbn [negb].
    + exists s, (Some tt). split; [reflexivity|]. split; [split; [apply es_refl|exact W]|]. split; [intros _|discriminate]. split; [reflexivity|]. split; [lia|]. split; [lia|]. split; [lia|reflexivity].
    + destruct (do_rehash_ok nk key_of hash keq lim s (Z.max m n) W Hlim ltac:(lia)) as [(H1 & H2 & s' & H3 & H4 & H5 & H6)|(H1 & s' & H3 & H4 & H5 & H6 & H7 & H8)]; rewrite H3.
      * exists s', None. split; [reflexivity|]. split; [split; [exact H4|]|split; [congruence|intros _]].
        -- destruct (Z.eq_dec (d_bc s) 0) as [Hb0|Hb0]; [left; rewrite (H5 Hb0); exact W|right; split; [lia|apply H6; lia]].
        -- destruct (Z.le_gt_cases m n); [left; lia|right; exists m; split; [reflexivity|lia]].
      * exists s', (Some tt). split; [reflexivity|]. split; [split; assumption|]. split; [intros _|discriminate]. split; [exact H6|]. rewrite H7. split; [lia|]. split; [lia|]. split; [lia|exact H8].
Qed.

Lemma maybe_rehash_ok : forall lim (s : dense), dwf s -> lim < 2 ^ 60 ->
  exists s' o, maybe_rehash nk lim s = Ok (s', o) /\ room s s' o /\ (o <> None -> d_cap s' = d_cap s /\ 0 < d_bc s' /\ d_mlf s' = d_mlf s).
Proof.
  intros lim s W Hlim. unfold maybe_rehash. pose proof (w_bc _ _ _ _ _ W) as Hbc. destruct (Z.eqb_spec (d_bc s) 0) as [Hz|Hz].
  - destruct (rehash_ok lim s 8 W Hlim ltac:(lia)) as (s' & o & H1 & H2 & H3 & _). exists s', o. split; [exact H1|]. split; [exact H2|]. intros Ho. destruct (H3 Ho) as (Ha & Hb & _ & _ & Hc). split; [exact Ha|]. split; [lia|exact Hc].
  - destruct (overloaded s).
    + destruct (rehash_ok lim s (d_bc s * 2 mod two64) W Hlim) as (s' & o & H1 & H2 & H3 & _); [apply Z.mod_pos_bound; reflexivity|].
      exists s', o. split; [exact H1|]. split; [exact H2|]. intros Ho. destruct (H3 Ho) as (Ha & _ & _ & Hb & Hc). split; [exact Ha|]. split; [lia|exact Hc].
    + exists s, (Some tt). split; [reflexivity|]. split; [split; [apply es_refl|exact W]|]. intros _. split; [reflexivity|]. split; [lia|reflexivity].
Qed.

Lemma room_trans : forall a b (c : dense) o, elems_same a b -> d_bc b = d_bc a -> room b c o -> room a c o.
Proof. intros a b c o H1 H2 (H3 & H4). split; [eapply es_trans; eassumption|]. rewrite H2 in H4. exact H4. Qed.

Lemma make_room_ok : forall dlim slim (s : dense), dwf s -> dlim < 2 ^ 59 -> slim < 2 ^ 60 ->
  exists s' o, make_room nk dlim slim s = Ok (s', o) /\ room s s' o /\ (o <> None -> d_size s' < d_cap s' /\ 0 < d_bc s').
Proof.
  intros dlim slim s W Hd Hs. unfold make_room. destruct (maybe_resize_ok nk key_of hash keq dlim s W Hd) as [H|(s1 & H & W1 & He & Hc & Hb & Hm)]; rewrite H; cbn [bind].
  - exists s, None. split; [reflexivity|]. split; [split; [apply es_refl|left; exact W]|congruence].
  - destruct (maybe_rehash_ok slim s1 W1 Hs) as (s2 & o & H1 & H2 & H3). rewrite H1. exists s2, o. split; [reflexivity|]. split; [eapply room_trans; eassumption|].
    intros Ho. destruct (H3 Ho) as (Ha & Hb2 & _). split; [|exact Hb2]. destruct H2 as ((Hsz & _) & _). lia.
Qed.

Lemma reserve_ok : forall dlim slim (s : dense) n, dwf s -> dlim < 2 ^ 59 -> slim < 2 ^ 60 -> 0 <= n < 2 ^ 59 ->
  exists s' o, reserve nk dlim slim s n = Ok (s', o) /\ room s s' o /\
    (o <> None -> n <= d_cap s' /\ d_mlf s' = d_mlf s /\ d_bc s <= d_bc s' /\ exists m, f32_trunc (f32_div (f32_of n) (d_mlf s)) = Ok m /\ m <= d_bc s').
Proof.
  intros dlim slim s n W Hd Hs Hn. unfold reserve. pose proof (w_size _ _ _ _ _ W) as Hsz.
  assert (Hgen : forall s1, dwf s1 -> elems_same s s1 -> d_bc s1 = d_bc s -> d_mlf s1 = d_mlf s -> n <= d_cap s1 ->
    exists s' o, (let* m := f32_trunc (f32_div (f32_of n) (d_mlf s1)) in rehash nk slim s1 m) = Ok (s', o) /\ room s s' o /\
      (o <> None -> n <= d_cap s' /\ d_mlf s' = d_mlf s /\ d_bc s <= d_bc s' /\ exists m, f32_trunc (f32_div (f32_of n) (d_mlf s)) = Ok m /\ m <= d_bc s')).
  { intros s1 W1 He Hb Hm Hc. destruct (w_mlf _ _ _ _ _ W1) as (Hp & Hq & Hpq). destruct (trunc_ok n (d_mlf s1)) as (m & Hm' & Hm0); try lia. rewrite Hm'. cbn [bind].
    destruct (rehash_ok slim s1 m W1 Hs Hm0) as (s2 & o & H1 & H2 & H3 & _). exists s2, o. split; [exact H1|]. split; [eapply room_trans; eassumption|].
    intros Ho. destruct (H3 Ho) as (Ha & _ & Hb2 & Hb3 & Hc2). split; [lia|]. split; [congruence|]. split; [lia|]. exists m. rewrite <- Hm. split; [exact Hm'|exact Hb2]. }
  destruct (Z.ltb_spec (d_cap s) n) as [Hlt|Hge].
  - destruct (resize_data_ok nk key_of hash keq dlim s n W ltac:(lia) Hd) as [(_ & H)|(_ & s1 & H & W1 & He & Hc & Hb & Hm & _)]; rewrite H; cbn [bind].
    + exists s, None. split; [reflexivity|]. split; [split; [apply es_refl|left; exact W]|congruence].
    + apply Hgen; auto. lia.
  - cbn [bind]. apply Hgen; auto. apply es_refl.
Qed.

(** ** Lookup *)
Lemma find_node_ok : forall (s : dense) j k, dwf s -> (j < nk)%nat ->
  (exists i n p, d_nodes s i = Some n /\ keq (key_of j (n_val n)) k = true /\ find_node key_of keq s j k (hash k) = Ok (i, Some p) /\ load s j p = Ok i) \/
  ((forall i, live s i -> ~ matches s j k i) /\ exists o, find_node key_of keq s j k (hash k) = Ok (d_size s, o)).
Proof.
  intros s j k W Hj. pose proof (w_mem _ _ _ _ _ W) as Hm. pose proof (w_bc _ _ _ _ _ W) as Hbc. pose proof (w_size _ _ _ _ _ W) as Hsz. destruct (Z.eq_dec (d_bc s) 0) as [Hz|Hz].
  - right. pose proof (w_bucket _ _ _ _ _ W) as Hb. split; [intros i Hi; unfold live in Hi; lia|]. unfold find_node, get_chain. rewrite Hz. exists None. reflexivity.
  - destruct (find_node_gen key_of hash keq KL s (live s) j k Hm) as (b & l & Hb & Hbe & Hs & Hnd & Hin & Hlen & [(a & i & r & -> & (n & Hn & Hk) & Hf & _)|(Hno & Hf)]); try lia.
    + intros i Hi. split; [exact Hi|]. destruct (w_live _ _ _ _ _ W i Hi) as (n & Hn). exists n. split; [exact Hn|]. apply (w_hash _ _ _ _ _ W i n j Hn Hj).
    + apply (w_chain _ _ _ _ _ W j Hj).
    + left. exists i, n, (ptr_at b a). split; [exact Hn|]. split; [exact Hk|]. split; [exact Hf|]. rewrite (load_ok s j _ Hm).
      * rewrite (ldp_at _ _ b a (i :: r) Hs). reflexivity.
      * apply vptr_at; [exact Hb|]. intros x Hx. apply (w_live _ _ _ _ _ W). apply (Hin x). apply in_or_app. left. exact Hx.
    + right. split; [exact Hno|]. eexists. exact Hf.
Qed.

(** A pointer at the end of the chain of the bucket of key [j] of [e]. *)
Definition slot_free (s : dense) (L : Z -> Prop) (e : E) (j : nat) (p : cptr) : Prop :=
  exists l, seg (nxj s j) (hdj s j (hash (key_of j e) mod d_bc s)) l /\ NoDup l /\
    (forall i, In i l <-> L i /\ bkj s j i = hash (key_of j e) mod d_bc s) /\ p = ptr_at (hash (key_of j e) mod d_bc s) l.

Lemma lookup_all : forall (s : dense) (L : Z -> Prop) e l, okm s -> 0 < d_bc s -> 0 <= d_size s ->
  (forall i j, L i -> In j l -> 0 <= i < d_size s /\ exists n, d_nodes s i = Some n /\ n_hash n j = hash (key_of j (n_val n))) ->
  (forall j, In j l -> chains (hdj s j) (nxj s j) L (bkj s j) (d_bc s)) ->
  exists xs, find_all key_of hash keq s e l = Ok xs /\
    ((exists pre j post i, l = pre ++ j :: post /\ first_clash s xs = Ok (Some i) /\ L i /\ matches s j (key_of j e) i /\
        forall j', In j' pre -> forall x, L x -> ~ matches s j' (key_of j' e) x) \/
     (first_clash s xs = Ok None /\ (forall j', In j' l -> forall x, L x -> ~ matches s j' (key_of j' e) x) /\
      exists sl, slices xs = Ok sl /\ map fst sl = l /\ forall j p, In (j, p) sl -> slot_free s L e j p)).
Proof.
  intros s L e l Hm Hbc Hsz. induction l as [|j l IH]; intros HL Hc.
  - exists []. split; [reflexivity|]. right. split; [reflexivity|]. split; [intros ? []|]. exists []. split; [reflexivity|]. split; [reflexivity|]. intros ? ? [].
  - destruct IH as (xs & Hxs & IH); [intros i j' Hi Hj; apply HL; [exact Hi|right; exact Hj]|intros j' Hj; apply Hc; right; exact Hj|].
    destruct (find_node_gen key_of hash keq KL s L j (key_of j e) Hm Hbc Hsz) as (b & c & Hb & Hbe & Hs & Hnd & Hin & Hlen & Hcase).
    + intros i Hi. apply HL; [exact Hi|left; reflexivity].
    + apply Hc. left. reflexivity.
    + assert (Hcn : forall x, In x c -> exists n, d_nodes s x = Some n).
      { intros x Hx. apply Hin in Hx. destruct (HL x j (proj1 Hx) (or_introl eq_refl)) as (_ & n & Hn & _). exists n. exact Hn. }
      cbn [find_all]. destruct Hcase as [(a & i & r & -> & Hmt & Hf & _)|(Hno & Hf)]; rewrite Hf; cbn [bind]; rewrite Hxs; cbn [bind]; eexists; (split; [reflexivity|]); cbn [first_clash slices].
      * rewrite (load_ok s j (ptr_at b a) Hm) by (apply vptr_at; [exact Hb|]; intros x Hx; apply Hcn; apply in_or_app; left; exact Hx). cbn [bind].
        rewrite (ldp_at _ _ b a (i :: r) Hs). destruct (Z.eqb_spec i npos) as [Hi|Hi]; [exfalso; apply (seg_npos _ _ _ i Hs); [apply in_or_app; right; left; reflexivity|exact Hi]|].
        left. exists [], j, l, i. split; [reflexivity|]. split; [reflexivity|]. split; [apply (Hin i); apply in_or_app; right; left; reflexivity|]. split; [exact Hmt|]. intros ? [].
      * rewrite (load_ok s j (ptr_at b c) Hm) by (apply vptr_at; [exact Hb|exact Hcn]). cbn [bind].
        rewrite (ldp_at _ _ b c []) by (rewrite app_nil_r; exact Hs). rewrite Z.eqb_refl.
        destruct IH as [(pre & j0 & post & i & -> & H1 & H2 & H3 & H4)|(H1 & H2 & sl & H3 & H4 & H5)].
        -- left. exists (j :: pre), j0, post, i. split; [reflexivity|]. split; [exact H1|]. split; [exact H2|]. split; [exact H3|]. intros j' [<-|Hj']; [exact Hno|apply H4; exact Hj'].
        -- right. split; [exact H1|]. split; [intros j' [<-|Hj']; [exact Hno|apply H2; exact Hj']|]. cbn [deref bind]. rewrite H3. cbn [bind]. eexists. split; [reflexivity|].
           split; [cbn [map fst]; rewrite H4; reflexivity|]. intros j' p [He|Hp]; [|apply H5; exact Hp]. injection He as <- <-. exists c. rewrite <- Hbe. auto.
Qed.

(** ** Appending a node *)
Definition pushed (s : dense) (e : E) : dense :=
  set_nodes (set_size s (d_size s + 1)) (upd (d_nodes s) (d_size s) (Some (mkn e (fun _ => 0) (fun _ => npos)))).
Lemma push_node_ok : forall (s : dense) e, dwf s -> d_size s < d_cap s -> push_node true s e = Ok (pushed s e, Some (d_size s)).
Proof.
  intros s e W Hc. pose proof (w_size _ _ _ _ _ W) as Hsz. unfold push_node.
  rewrite new_node_ok; [reflexivity| |cbn [set_size d_cap]; lia|cbn [set_size d_nodes]; apply (w_dead _ _ _ _ _ W); unfold live; lia].
  destruct (w_mem _ _ _ _ _ W) as [H1 H2 H3]. constructor; assumption.
Qed.
Lemma pushed_okm : forall (s : dense) e, dwf s -> d_size s < d_cap s -> okm (pushed s e).
Proof.
  intros s e W Hc. pose proof (w_size _ _ _ _ _ W) as Hsz. destruct (w_mem _ _ _ _ _ W) as [H1 H2 H3]. constructor; [exact H1|exact H2|].
  intros i n. unfold pushed. cbn [set_nodes set_size d_nodes d_cap]. unfold upd. destruct (Z.eqb_spec i (d_size s)) as [->|_]; [lia|]. apply H3.
Qed.
Lemma pushed_nodes : forall (s : dense) e i, i <> d_size s -> d_nodes (pushed s e) i = d_nodes s i.
Proof. intros s e i Hi. unfold pushed. cbn [set_nodes set_size d_nodes]. apply upd_other. exact Hi. Qed.
Lemma pushed_new : forall (s : dense) e, d_nodes (pushed s e) (d_size s) = Some (mkn e (fun _ => 0) (fun _ => npos)).
Proof. intros s e. unfold pushed. cbn [set_nodes set_size d_nodes]. apply upd_same. Qed.
Lemma pushed_chain : forall (s : dense) e j, dwf s -> (j < nk)%nat -> chains (hdj (pushed s e) j) (nxj (pushed s e) j) (live s) (bkj (pushed s e) j) (d_bc (pushed s e)).
Proof.
  intros s e j W Hj. change (d_bc (pushed s e)) with (d_bc s). apply (chains_ext (hdj s j) (nxj s j) (live s) (bkj s j)); [apply (w_chain _ _ _ _ _ W j Hj)|reflexivity| |].
  - intros i Hi _. unfold nxj. rewrite pushed_nodes by (unfold live in Hi; lia). reflexivity.
  - intros i b _. assert (live s i -> bkj (pushed s e) j i = bkj s j i) by (intros Hi; unfold bkj, hsj; rewrite pushed_nodes by (unfold live in Hi; lia); reflexivity).
    split; intros (Ha & Hb); (split; [exact Ha|]); rewrite <- Hb; [symmetry|]; apply H; exact Ha.
Qed.
Lemma pushed_free : forall (s : dense) e x j p, slot_free s (live s) x j p -> slot_free (pushed s e) (live s) x j p.
Proof.
  intros s e x j p (l & Hs & Hnd & Hin & ->). exists l. change (d_bc (pushed s e)) with (d_bc s). change (hdj (pushed s e) j) with (hdj s j).
  assert (Hl : forall i, live s i -> bkj (pushed s e) j i = bkj s j i) by (intros i Hi; unfold bkj, hsj; rewrite pushed_nodes by (unfold live in Hi; lia); reflexivity).
  split; [|split; [exact Hnd|split; [|reflexivity]]].
  - apply (seg_ext l (nxj s j)); [|exact Hs]. intros i Hi. apply Hin in Hi. unfold nxj. rewrite pushed_nodes by (unfold live in Hi; lia). reflexivity.
  - intros i. rewrite Hin. split; intros (Ha & Hb); (split; [exact Ha|]); rewrite <- Hb; [|symmetry]; apply Hl; exact Ha.
Qed.

Lemma commit_gen : forall (s : dense) e sl hs, (forall j, (j < nk)%nat -> hs j = hash (key_of j e)) -> dwf s -> d_size s < d_cap s -> 0 < d_bc s ->
  (forall j, (j < nk)%nat -> forall i, live s i -> ~ matches s j (key_of j e) i) ->
  map fst sl = js nk -> (forall j p, In (j, p) sl -> slot_free (pushed s e) (live s) e j p) ->
  exists s' n, commit_node (pushed s e) (d_size s) sl hs = Ok s' /\ dwf s' /\ d_nodes s' (d_size s) = Some n /\ n_val n = e /\
    delems s' = delems s ++ [e] /\ d_size s' = d_size s + 1 /\ d_cap s' = d_cap s /\ d_bc s' = d_bc s /\ d_mlf s' = d_mlf s.
Proof.
  intros s e sl hs Hhs W Hcap Hbc Hnew Hsl Hfree. pose proof (w_size _ _ _ _ _ W) as Hsz. pose proof (w_cap _ _ _ _ _ W) as Hcp. pose proof (w_bc _ _ _ _ _ W) as Hb60. pose proof (pushed_okm s e W Hcap) as Hm.
  set (s1 := pushed s e) in *. set (pos := d_size s) in *.
  (* the final bucket of every position *)
  set (bkf := fun j i => if i =? pos then hash (key_of j e) mod d_bc s else bkj s j i).
  destruct (fold_idx (fun t jp => store t (fst jp) (snd jp) pos) fst (fun jp h n => chains h n (fun i => live s i \/ i = pos) (bkf (fst jp)) (d_bc s)) sl s1) as (s2 & Hf & Hs2 & Hd & _).
  - rewrite Hsl. apply js_nodup.
  - intros (j, p) t Hjp Hst (Hv1 & Hv2). cbn [fst snd] in *. pose proof (Hfree j p Hjp) as (l & Hseg & Hnd & Hin & ->). change (d_bc s1) with (d_bc s) in *.
    assert (Hj : (j < nk)%nat) by (apply js_in; rewrite <- Hsl; apply (in_map fst) in Hjp; exact Hjp).
    set (b := hash (key_of j e) mod d_bc s) in *. assert (Hb : 0 <= b < d_bc s) by (apply Z.mod_pos_bound; exact Hbc).
    assert (Hlv : forall i, In i l -> exists n, d_nodes s1 i = Some n).
    { intros i Hi. apply Hin in Hi. destruct (w_live _ _ _ _ _ W i (proj1 Hi)) as (n & Hn). exists n. unfold s1. rewrite pushed_nodes; [exact Hn|]. destruct Hi as (Hi & _). unfold live in Hi. lia. }
    destruct (store_ok t j (ptr_at b l) pos (same_okm _ _ Hst Hm)) as (t' & Hst' & Htt & Hh & Hn & Ho); [apply (same_vptr s1 t _ Hst); apply vptr_at; assumption|].
    exists t', (sth (hdj s1 j) (ptr_at b l) pos), (stn (nxj s1 j) (ptr_at b l) pos). split; [exact Hst'|]. split; [exact Htt|]. split; [|split; [|split]].
    + apply (chains_append (hdj s1 j) (nxj s1 j) (live s) (bkf j) (d_bc s) pos b l).
      * apply (chains_ext (hdj s1 j) (nxj s1 j) (live s) (bkj s1 j)); [exact (pushed_chain s e j W Hj)|reflexivity|reflexivity|].
        intros i c _. assert (live s i -> bkf j i = bkj s1 j i).
        { intros Hi. unfold bkf. unfold live in Hi. destruct (Z.eqb_spec i pos) as [->|]; [lia|]. unfold bkj, hsj, s1. rewrite pushed_nodes by assumption. reflexivity. }
        split; intros (Ha & Hb'); (split; [exact Ha|]); rewrite <- Hb'; [symmetry|]; apply H; exact Ha.
      * exact Hb.
      * unfold live. lia.
      * unfold npos, pos. lia.
      * unfold nxj, s1. unfold pos. rewrite pushed_new. reflexivity.
      * unfold bkf. rewrite Z.eqb_refl. reflexivity.
      * exact Hseg.
      * exact Hnd.
      * intros i. rewrite Hin. assert (live s i -> bkf j i = bkj s1 j i).
        { intros Hi. unfold bkf. unfold live in Hi. destruct (Z.eqb_spec i pos) as [->|]; [lia|]. unfold bkj, hsj, s1. rewrite pushed_nodes by assumption. reflexivity. }
        split; intros (Ha & Hb'); (split; [exact Ha|]); rewrite <- Hb'; [|symmetry]; apply H; exact Ha.
    + intros c. rewrite Hh. destruct (ptr_at b l); cbn [sth]; [unfold upd; destruct (c =? b0); [reflexivity|apply Hv1]|apply Hv1].
    + intros i. rewrite Hn. destruct (ptr_at b l); cbn [stn]; [apply Hv2|unfold upd; destruct (i =? i0); [reflexivity|apply Hv2]].
    + exact Ho.
  - unfold commit_node. rewrite Hf. cbn [bind].
    destruct (same_node s1 s2 pos _ Hs2 (pushed_new s e)) as (n & Hn & Hnv & _). cbn [n_val] in Hnv.
    pose proof (same_okm _ _ Hs2 Hm) as Hm2. rewrite (get_node_ok s2 pos n Hm2 Hn). cbn [bind]. rewrite (put_node_ok s2 pos n _ Hm2 Hn).
    set (nf := mkn (n_val n) hs (n_next n)). set (s3 := set_nodes s2 _).
    assert (Hsz3 : d_size s3 = pos + 1) by (unfold s3; cbn [set_nodes d_size]; rewrite (sm_size _ _ Hs2); reflexivity).
    assert (Hcp3 : d_cap s3 = d_cap s) by (unfold s3; cbn [set_nodes d_cap]; rewrite (sm_cap _ _ Hs2); reflexivity).
    assert (Hbc3 : d_bc s3 = d_bc s) by (unfold s3; cbn [set_nodes d_bc]; rewrite (sm_bc _ _ Hs2); reflexivity).
    assert (Hml3 : d_mlf s3 = d_mlf s) by (unfold s3; cbn [set_nodes d_mlf]; rewrite (sm_mlf _ _ Hs2); reflexivity).
    assert (Hpos : d_nodes s3 pos = Some nf) by (unfold s3; cbn [set_nodes d_nodes]; apply upd_same).
    assert (Hvo : forall i, i <> pos -> vh s3 i = vh s i).
    { intros i Hi. unfold s3, vh. cbn [set_nodes d_nodes]. rewrite upd_other by exact Hi. fold (vh s2 i). rewrite (sm_vh _ _ Hs2). unfold vh, s1. rewrite pushed_nodes by exact Hi. reflexivity. }
    assert (Hback : forall i m, i <> pos -> d_nodes s3 i = Some m -> exists m', d_nodes s i = Some m' /\ n_val m' = n_val m /\ n_hash m' = n_hash m).
    { intros i m Hi H. pose proof (Hvo i Hi) as Hv. unfold vh in Hv. rewrite H in Hv. destruct (d_nodes s i) as [m'|]; cbn [option_map] in Hv; [|discriminate]. injection Hv as Ha Hb. exists m'. auto. }
    assert (Hbk3 : forall j i, (j < nk)%nat -> live s i \/ i = pos -> bkj s3 j i = bkf j i).
    { intros j i Hj Hi. unfold bkf. destruct (Z.eqb_spec i pos) as [->|Hne].
      - unfold bkj, hsj. rewrite Hpos, Hbc3. unfold nf. cbn [n_hash]. rewrite (Hhs j Hj). reflexivity.
      - pose proof (Hvo i Hne) as Hv. unfold bkj, hsj. rewrite Hbc3. unfold vh in Hv. destruct (d_nodes s3 i), (d_nodes s i); cbn [option_map] in Hv; congruence. }
    exists s3, nf. split; [reflexivity|].
    assert (W3 : dwf s3).
    { constructor; rewrite ?Hcp3, ?Hbc3, ?Hsz3, ?Hml3; try lia.
      - constructor; [exact (om_sok _ Hm2)|exact (om_dok _ Hm2)|]. intros i m. unfold s3. cbn [set_nodes d_nodes d_cap]. unfold upd. destruct (Z.eqb_spec i pos) as [->|_]; [intros _|apply (om_in _ Hm2)].
        rewrite (sm_cap _ _ Hs2). change (d_cap s1) with (d_cap s). lia.
      - intros i Hi. unfold live in Hi. rewrite Hsz3 in Hi. destruct (Z.eq_dec i pos) as [->|Hne]; [exists nf; exact Hpos|].
        destruct (w_live _ _ _ _ _ W i) as (m & Hmi); [unfold live; lia|]. pose proof (Hvo i Hne) as Hv. unfold vh in Hv. rewrite Hmi in Hv. destruct (d_nodes s3 i) as [m'|]; [exists m'; reflexivity|discriminate].
      - intros i Hi. unfold live in Hi. rewrite Hsz3 in Hi. assert (Hne : i <> pos) by lia. pose proof (Hvo i Hne) as Hv. unfold vh in Hv.
        rewrite (w_dead _ _ _ _ _ W i) in Hv by (unfold live; lia). destruct (d_nodes s3 i); [discriminate|reflexivity].
      - intros i m j Hi Hj. destruct (Z.eq_dec i pos) as [->|Hne].
        + rewrite Hpos in Hi. injection Hi as <-. unfold nf. cbn [n_hash n_val]. rewrite Hnv. apply Hhs. exact Hj.
        + destruct (Hback i m Hne Hi) as (m' & Hm' & <- & <-). apply (w_hash _ _ _ _ _ W i m' j Hm' Hj).
      - intros j Hj. assert (Hjl : exists p, In (j, p) sl).
        { assert (Hi : In j (map fst sl)) by (rewrite Hsl; apply js_in; exact Hj). apply in_map_iff in Hi. destruct Hi as ((j0, p) & Hj0 & Hi). cbn [fst] in Hj0. subst j0. exists p. exact Hi. }
        destruct Hjl as (p & Hjp). destruct (Hd (j, p) Hjp) as (h & m & HR & H1 & H2). cbn [fst] in *.
        apply (chains_ext h m (fun i => live s i \/ i = pos) (bkf j)); [exact HR|intros b _; exact (H1 b)| |].
        + intros i _ _. rewrite <- H2. unfold nxj, s3. cbn [set_nodes d_nodes]. unfold upd. destruct (Z.eqb_spec i pos) as [->|]; [rewrite Hn; reflexivity|reflexivity].
        + intros i b _. unfold live at 1. rewrite Hsz3. assert (HL : 0 <= i < pos + 1 <-> live s i \/ i = pos) by (unfold live; lia). rewrite HL.
          split; intros (Ha & Hb'); (split; [exact Ha|]); rewrite <- Hb'; [symmetry|]; apply (Hbk3 j i Hj Ha).
      - intros i i' m m' j Hj H1 H2 Hk. destruct (Z.eq_dec i pos) as [->|Hi], (Z.eq_dec i' pos) as [->|Hi']; [reflexivity| | |].
        + exfalso. rewrite Hpos in H1. injection H1 as <-. destruct (Hback i' m' Hi' H2) as (a & Ha & Hva & _). apply (Hnew j Hj i' (node_live s i' a W Ha)). exists a. split; [exact Ha|].
          apply (kl_sym _ _ KL). rewrite Hva. unfold nf in Hk. cbn [n_val] in Hk. rewrite Hnv in Hk. exact Hk.
        + exfalso. rewrite Hpos in H2. injection H2 as <-. destruct (Hback i m Hi H1) as (a & Ha & Hva & _). apply (Hnew j Hj i (node_live s i a W Ha)). exists a. split; [exact Ha|].
          rewrite Hva. unfold nf in Hk. cbn [n_val] in Hk. rewrite Hnv in Hk. exact Hk.
        + destruct (Hback i m Hi H1) as (a & Ha & Hva & _). destruct (Hback i' m' Hi' H2) as (a' & Ha' & Hva' & _). apply (w_uniq _ _ _ _ _ W i i' a a' j Hj Ha Ha'). rewrite Hva, Hva'. exact Hk.
      - apply (w_mlf _ _ _ _ _ W). }
    split; [exact W3|]. split; [exact Hpos|]. split; [exact Hnv|]. split; [|auto].
    rewrite !delems_vals, Hsz3. fold pos. rewrite (vals_succ (val s3) pos e); [|unfold pos; lia|unfold val; rewrite Hpos; cbn [option_map nf n_val]; rewrite Hnv; reflexivity].
    f_equal. apply vals_ext. intros i Hi. assert (Hne : i <> pos) by lia. pose proof (Hvo i Hne) as Hv. unfold vh in Hv. unfold val. destruct (d_nodes s3 i), (d_nodes s i); cbn [option_map] in *; congruence.
Qed.
Lemma commit_ok : forall (s : dense) e sl, dwf s -> d_size s < d_cap s -> 0 < d_bc s ->
  (forall j, (j < nk)%nat -> forall i, live s i -> ~ matches s j (key_of j e) i) ->
  map fst sl = js nk -> (forall j p, In (j, p) sl -> slot_free (pushed s e) (live s) e j p) ->
  exists s' n, commit_node (pushed s e) (d_size s) sl (fun j => hash (key_of j e)) = Ok s' /\ dwf s' /\ d_nodes s' (d_size s) = Some n /\ n_val n = e /\
    delems s' = delems s ++ [e] /\ d_size s' = d_size s + 1 /\ d_cap s' = d_cap s /\ d_bc s' = d_bc s /\ d_mlf s' = d_mlf s.
Proof. intros s e sl. apply commit_gen. reflexivity. Qed.
End Edit.
