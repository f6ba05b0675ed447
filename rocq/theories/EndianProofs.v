(** Byte order: the word a group is read as, and what the table makes of it. *)
From Coq Require Import ZArith List Bool Lia.
From Verif Require Import Base BaseLemmas BitsSpec Bits BitsFinal SwissModel SwissInv EndianSpec EndianModel.
Import ListNotations.
Open Scope Z_scope.

Lemma merge : forall x y k, 0 <= k -> 0 <= y < 2 ^ k -> Z.lor (x * 2 ^ k) y = x * 2 ^ k + y.
Proof.
  intros x y k Hk Hy. assert (H : Z.land (x * 2 ^ k) y = 0).
  { apply Z.bits_inj'. intros n Hn. rewrite Z.land_spec, Z.bits_0. destruct (Z.lt_ge_cases n k) as [Hl|Hl].
    - rewrite Z.mul_pow2_bits_low by exact Hl. reflexivity.
    - rewrite andb_comm. destruct (Z.eq_dec y 0) as [->|Hne]; [rewrite Z.bits_0; reflexivity|]. rewrite (Z.bits_above_log2 y n); [reflexivity|lia|]. apply Z.lt_le_trans with k; [|exact Hl]. apply Z.log2_lt_pow2; lia. }
  rewrite <- Z.lxor_lor by exact H. symmetry. apply Z.add_nocarry_lxor. exact H.
Qed.
Lemma byte_at_sh : forall l i sh, is_byte (nth i l 0) -> 0 <= sh <= 56 -> byte l i sh = nth i l 0 * 2 ^ sh.
Proof.
  intros l i sh Hb Hs. unfold byte, shl64. apply Z.mod_small. unfold is_byte in Hb. unfold two64. pose proof (Z.pow_le_mono_r 2 sh 56 ltac:(lia) ltac:(lia)) as H. assert (0 < 2 ^ sh) by (apply Z.pow_pos_nonneg; lia).
  change (2 ^ 64) with (256 * 2 ^ 56) in *. nia.
Qed.
Lemma merge2 : forall a b k, 0 <= k -> is_byte b -> Z.lor (a * 2 ^ (k + 8)) (b * 2 ^ k) = (a * 256 + b) * 2 ^ k.
Proof.
  intros a b k Hk Hb. unfold is_byte in Hb. assert (Hp : 0 < 2 ^ k) by (apply Z.pow_pos_nonneg; lia). rewrite merge; [rewrite Z.pow_add_r by lia; change (2 ^ 8) with 256; ring|lia|].
  rewrite Z.pow_add_r by lia. change (2 ^ 8) with 256. nia.
Qed.
Lemma merge0 : forall a b, is_byte b -> Z.lor (a * 2 ^ 8) b = a * 256 + b.
Proof. intros a b Hb. rewrite merge; [reflexivity|lia|exact Hb]. Qed.

(** The emulated unaligned load is the native one. *)
Lemma read_native : forall o l, Forall is_byte l -> length l = 1%nat \/ length l = 2%nat \/ length l = 4%nat \/ length l = 8%nat -> read_unaligned o l = Some (stored o l).
Proof.
  intros o l Hl Hn.
  assert (Hb : forall i, is_byte (nth i l 0)).
  { intros i. destruct (Nat.lt_ge_cases i (length l)) as [Hi|Hi]; [apply Forall_nth; assumption|rewrite nth_overflow by exact Hi; split; reflexivity || lia]. }
  assert (M : forall a i k, 0 <= k -> Z.lor (a * 2 ^ (k + 8)) (nth i l 0 * 2 ^ k) = (a * 256 + nth i l 0) * 2 ^ k) by (intros; apply merge2; auto).
  assert (M0 : forall a i, Z.lor (a * 2 ^ 8) (nth i l 0) = a * 256 + nth i l 0) by (intros; apply merge0; auto).
  pose proof (fun a i => M a i 8 ltac:(lia)) as N1. pose proof (fun a i => M a i 16 ltac:(lia)) as N2. pose proof (fun a i => M a i 24 ltac:(lia)) as N3. pose proof (fun a i => M a i 32 ltac:(lia)) as N4.
  pose proof (fun a i => M a i 40 ltac:(lia)) as N5. pose proof (fun a i => M a i 48 ltac:(lia)) as N6. clear M.
  change (8 + 8) with 16 in N1. change (16 + 8) with 24 in N2. change (24 + 8) with 32 in N3. change (32 + 8) with 40 in N4. change (40 + 8) with 48 in N5. change (48 + 8) with 56 in N6.
  unfold read_unaligned. destruct Hn as [Hn|[Hn|[Hn|Hn]]]; rewrite Hn;
    (destruct o; f_equal; rewrite ?byte_at_sh by (auto; lia); rewrite ?N6, ?N5, ?N4, ?N3, ?N2, ?N1, ?M0; clear N1 N2 N3 N4 N5 N6 M0 Hb Hl;
     destruct l as [|b0 l]; try discriminate Hn; cbn [length] in Hn; try (destruct l as [|b1 l]; try discriminate Hn; cbn [length] in Hn); try (destruct l as [|b2 l]; try discriminate Hn; cbn [length] in Hn); try (destruct l as [|b3 l]; try discriminate Hn; cbn [length] in Hn);
     try (destruct l as [|b4 l]; try discriminate Hn; cbn [length] in Hn); try (destruct l as [|b5 l]; try discriminate Hn; cbn [length] in Hn); try (destruct l as [|b6 l]; try discriminate Hn; cbn [length] in Hn); try (destruct l as [|b7 l]; try discriminate Hn; cbn [length] in Hn); try (destruct l; try discriminate Hn);
     cbn [stored rev app nth digits]; lia).
Qed.
(** The word of a group is the one that [lanes_of] describes. *)
Lemma lanes_word : forall o g, word_of_bytes (lanes_of o g) = stored o (map (fun b => b mod 256) g).
Proof.
  assert (H : forall g, word_of_bytes g = digits (map (fun b => b mod 256) g)) by (induction g as [|b g IH]; [reflexivity|cbn [word_of_bytes map digits]; rewrite IH; reflexivity]).
  intros o g. destruct o; cbn [lanes_of stored]; [apply H|]. rewrite <- map_rev. apply H.
Qed.

(** Lanes on a big-endian machine are counted from the other end. *)
Lemma group_rev : forall w g, group_ok w g -> group_ok w (rev g).
Proof. intros w g (Hl & Hg). split; [rewrite rev_length; exact Hl|apply Forall_rev; exact Hg]. Qed.
Lemma byte_rev : forall g i, group_ok 8 g -> 0 <= i < 8 -> byte_at (rev g) i = byte_at g (7 - i).
Proof. intros g i (Hl & _) Hi. unfold byte_at. rewrite rev_nth by lia. f_equal. lia. Qed.
Lemma available_be : forall g, group_ok 8 g -> exists ls, mask_lanes 65 3 (bo_match_available Big g) = Ok ls /\ forall i, In i ls <-> 0 <= i < 8 /\ free (byte_at g (7 - i)).
Proof.
  intros g Hg. destruct (match_available_lanes WORD (rev g) (group_rev _ _ Hg)) as (ls & Hls & HI). exists ls. split; [exact Hls|]. intros i. rewrite HI. cbn [width]. split; intros (Hi & H); (split; [exact Hi|]); [rewrite byte_rev in H by assumption|rewrite byte_rev by assumption]; exact H.
Qed.
Lemma empty_be : forall g, group_ok 8 g -> exists ls, mask_lanes 65 3 (bo_match_empty Big g) = Ok ls /\ forall i, In i ls <-> 0 <= i < 8 /\ byte_at g (7 - i) = -128.
Proof.
  intros g Hg. destruct (match_empty_lanes WORD (rev g) (group_rev _ _ Hg)) as (ls & Hls & HI). exists ls. split; [exact Hls|]. intros i. rewrite HI. cbn [width]. split; intros (Hi & H); (split; [exact Hi|]); [rewrite byte_rev in H by assumption|rewrite byte_rev by assumption]; exact H.
Qed.
Lemma eq_be : forall g h, group_ok 8 g -> 0 <= h < 128 -> exists ls, mask_lanes 65 3 (bo_match_eq Big g h) = Ok ls /\
  (forall i, In i ls -> 0 <= i < 8 /\ tagged (byte_at g (7 - i))) /\ (forall i, 0 <= i < 8 -> byte_at g (7 - i) = h -> In i ls).
Proof.
  intros g h Hg Hh. destruct (match_eq_lanes WORD (rev g) h (group_rev _ _ Hg) Hh) as (ls & Hls & H1 & H2 & _). exists ls. split; [exact Hls|]. split.
  - intros i Hi. destruct (H1 i Hi) as (A & B). cbn [width] in A. split; [exact A|]. rewrite byte_rev in B by assumption. exact B.
  - intros i Hi Hb. apply H2; [exact Hi|]. rewrite byte_rev by assumption. exact Hb.
Qed.
Lemma count_be : forall g, group_ok 8 g -> (exists i, 0 <= i < 8 /\ ~ free (byte_at g i)) -> exists n, bo_count_available Big g = Ok n /\ leading_free (rev g) n.
Proof.
  intros g Hg (i & Hi & Hn). apply (count_available_narrow WORD (rev g) (group_rev _ _ Hg)). exists (7 - i). split; [cbn [width]; lia|]. rewrite byte_rev by (assumption || lia). replace (7 - (7 - i)) with i by lia. exact Hn.
Qed.
Lemma reset_order : forall o g, group_ok 8 g -> length (bo_reset_occupied o g) = length g /\
  forall i, 0 <= i < 8 -> (tagged (byte_at g i) -> byte_at (bo_reset_occupied o g) i = -2) /\ (~ tagged (byte_at g i) -> byte_at (bo_reset_occupied o g) i = -128).
Proof.
  intros [|] g Hg; [apply (reset_occupied_bytes WORD g Hg)|]. unfold bo_reset_occupied. cbn [lanes_of].
  destruct (reset_occupied_bytes WORD (rev g) (group_rev _ _ Hg)) as (Hl & Hb). rewrite rev_length in *. split; [exact Hl|]. intros i Hi. destruct Hg as (Hg & Hf).
  assert (E1 : byte_at (rev (reset_occupied WORD (rev g))) i = byte_at (reset_occupied WORD (rev g)) (7 - i)) by (unfold byte_at; rewrite rev_nth by lia; f_equal; lia).
  rewrite E1. specialize (Hb (7 - i) ltac:(cbn [width]; lia)). rewrite byte_rev in Hb by (split; assumption) || lia. replace (7 - (7 - i)) with i in Hb by lia. exact Hb.
Qed.

(** With the bytes in the order of the lanes the functions are those of the table model. *)
Section Table.
Context {E K : Type}.
Variable key_of : E -> K.
Variable hash : K -> Z.
Variable keq : K -> K -> bool.
Notation swiss := (@swiss E).
Lemma find_little : forall (s : swiss) k h, bo_find_node Little key_of keq s k h = find_node WORD key_of keq s k h.
Proof.
  intros s k h. unfold bo_find_node, find_node. destruct (s_size s =? 0); [reflexivity|]. generalize (probe_start (s_cap s) h). generalize (probe_fuel WORD s). induction n as [|n IH]; intros p; [reflexivity|].
  cbn [bo_find_loop find_loop]. unfold bo_match_eq, bo_match_empty, eq_lanes. cbn [lanes_of mask_shift]. destruct (load_block WORD s (snd p)); [|reflexivity]. cbn [bind].
  destruct (mask_lanes 65 3 (match_eq WORD a (h2_of h))); [|reflexivity]. cbn [bind]. destruct (scan_lanes key_of keq s k p a0) as [[q|]|]; reflexivity.
Qed.
Lemma available_little : forall (s : swiss) h, bo_find_available Little s h = find_available WORD s h.
Proof.
  intros s h. unfold bo_find_available, find_available. generalize (probe_start (s_cap s) h). generalize (probe_fuel WORD s). induction n as [|n IH]; intros p; [reflexivity|].
  cbn [bo_avail_loop avail_loop]. unfold bo_match_available. cbn [lanes_of mask_shift]. destruct (load_block WORD s (snd p)); [|reflexivity]. cbn [bind]. rewrite IH. reflexivity.
Qed.
Lemma first_little : forall lim e, bo_first_insert Little key_of hash keq lim e =
  let* x := do_insert WORD key_of hash keq lim true empty_swiss e in Ok (fst x, option_map (fun y => fst (fst y)) (snd x)).
Proof.
  intros lim e. unfold bo_first_insert, do_insert. rewrite find_little. unfold find_node. cbn [empty_swiss s_size s_cap Z.eqb bind]. unfold emplace_node, make_room, do_rehash. cbn [empty_swiss s_size s_cap s_nempty s_nodes s_meta Z.eqb].
  destruct (lim <? 1); [reflexivity|]. change (zrange 0) with (@nil Z). cbn [foldM bind set_nempty s_buf s_cap s_meta s_nodes s_size s_nempty].
  change (sub64 (capacity_to_max_size WORD 1) 0) with (capacity_to_max_size WORD 1). rewrite available_little. destruct (find_available WORD _ _); [|reflexivity]. cbn [bind negb].
  destruct (put_node _ _ _); [|reflexivity]. cbn [bind]. destruct (get_meta _ _ _); [|reflexivity]. cbn [bind]. destruct (set_metadata _ _ _ _); reflexivity.
Qed.

(** On a big-endian machine the first insertion or the next lookup leaves the array. *)
Definition one : swiss := mk Live 1 (fill_empty_meta 1) (fun _ => None) 0 (capacity_to_max_size WORD 1).
Lemma avail_one : forall a, a = 0 \/ a = 1 -> bo_avail_loop Big 2 one (0, a) = Ok a.
Proof. intros a [-> | ->]; reflexivity. Qed.
Definition single (e : E) (h b : Z) : swiss := mk Live 1 (upd (upd (fill_empty_meta 1) 2 b) 0 b) (upd (fun _ => None) 0 (Some (e, h))) 1 0.
Lemma first_big : forall lim e, 1 <= lim -> bo_first_insert Big key_of hash keq lim e = Err OutOfBounds \/
  exists s, bo_first_insert Big key_of hash keq lim e = Ok (s, Some 0) /\ bo_find_node Big key_of keq s (key_of e) (hash (key_of e)) = Err OutOfBounds.
Proof.
  intros lim e Hl. unfold bo_first_insert. unfold bo_find_node at 1 2. cbn [empty_swiss s_size s_cap]. rewrite Z.eqb_refl. cbn [bind]. rewrite Z.eqb_refl. destruct (Z.ltb_spec lim 1) as [H|_]; [lia|].
  fold one. set (h := hash (key_of e)).
  assert (Ha : Z.land (h1_of h) 1 = 0 \/ Z.land (h1_of h) 1 = 1) by (assert (X : Z.land (h1_of h) 1 = h1_of h mod 2) by (apply (Z.land_ones (h1_of h) 1); lia); rewrite X; pose proof (Z.mod_pos_bound (h1_of h) 2 ltac:(lia)); lia).
  assert (A : bo_find_available Big one h = Ok (Z.land (h1_of h) 1)) by (apply avail_one; exact Ha). rewrite A. cbn [bind]. destruct Ha as [Ha|Ha]; rewrite Ha; [right|left; reflexivity].
  exists (single e h (h2_of h)). split; [reflexivity|]. unfold bo_find_node. cbn [single s_size]. change (1 =? 0) with false. cbv iota. change (probe_fuel WORD (single e h (h2_of h))) with 2%nat. unfold probe_start. cbn [s_cap single]. rewrite Ha. fold (single e h (h2_of h)).
  pose proof (h2_range h) as Hb. set (b := h2_of h) in *. cbn [bo_find_loop]. set (g := [b; -1; b; -128; -128; -128; -128; -128]). assert (L : load_block WORD (single e h b) (snd (0, 0)) = Ok g) by reflexivity. rewrite L. cbn [bind].
  assert (Hg : group_ok 8 g) by (split; [reflexivity|]; unfold g; repeat (apply Forall_cons; [unfold byte_ok; lia|]); apply Forall_nil).
  destruct (eq_be g b Hg ltac:(lia)) as (ls & Hls & H1 & H2). fold b. rewrite Hls. cbn [bind].
  assert (H7 : In 7 ls) by (apply H2; [lia|reflexivity]). destruct ls as [|l ls]; [destruct H7|]. destruct (H1 l (or_introl eq_refl)) as (Hr & Ht).
  assert (Hl7 : l = 7 \/ l = 5) by (assert (C : l = 0 \/ l = 1 \/ l = 2 \/ l = 3 \/ l = 4 \/ l = 5 \/ l = 6 \/ l = 7) by lia; unfold tagged in Ht; destruct C as [->|[->|[->|[->|[->|[->|[->| ->]]]]]]]; auto; vm_compute in Ht; destruct Ht as (Ht & _); exfalso; apply Ht; reflexivity).
  cbn [scan_lanes]. destruct Hl7 as [-> | ->]; reflexivity.
Qed.
(** The same for the call [contains]. *)
Lemma first_contains : forall lim e, 1 <= lim -> (let* x := bo_first_insert Big key_of hash keq lim e in bo_contains Big key_of hash keq (fst x) (key_of e)) = Err OutOfBounds.
Proof.
  intros lim e Hl. destruct (first_big lim e Hl) as [->|(s & -> & H)]; [reflexivity|]. cbn [bind fst]. unfold bo_contains. rewrite H. reflexivity.
Qed.
End Table.
(** Whether there is such a byte at all is answered right on either machine. *)
Lemma some_order : forall o g, group_ok 8 g ->
  (mask_is_empty (bo_match_available o g) = true <-> forall i, 0 <= i < 8 -> ~ free (byte_at g i)) /\
  (mask_is_empty (bo_match_empty o g) = true <-> forall i, 0 <= i < 8 -> byte_at g i <> -128).
Proof.
  intros [|] g Hg; [destruct (mask_first WORD g Hg) as (A & B & _); split; assumption|]. destruct (mask_first WORD (rev g) (group_rev _ _ Hg)) as (A & B & _). cbn [width] in *.
  unfold bo_match_available, bo_match_empty. cbn [lanes_of]. rewrite A, B. split; split; intros H i Hi; specialize (H (7 - i) ltac:(lia)).
  - rewrite byte_rev in H by (assumption || lia). replace (7 - (7 - i)) with i in H by lia. exact H.
  - rewrite byte_rev by assumption. exact H.
  - rewrite byte_rev in H by (assumption || lia). replace (7 - (7 - i)) with i in H by lia. exact H.
  - rewrite byte_rev by assumption. exact H.
Qed.
