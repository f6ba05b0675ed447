(** C80: the portable build and the byte order of the machine. *)
From Coq Require Import ZArith List Bool Lia.
From Verif Require Import Base BitsSpec Bits BitsFinal SwissModel SwissRun MapSpec Instances EndianSpec EndianModel EndianProofs.
Import ListNotations.
Open Scope Z_scope.

(** The emulated unaligned read gives the integer that the machine stores in those bytes, for
    either byte order and every size that compiles; groups are read as such words. *)
Theorem C80_read : forall o l, Forall is_byte l -> length l = 1%nat \/ length l = 2%nat \/ length l = 4%nat \/ length l = 8%nat ->
  read_unaligned o l = Some (stored o l).
Proof. exact read_native. Qed.
Print Assumptions C80_read.
Example C80_case_read : read_unaligned Little [1; 2; 3; 4] = Some 0x04030201 /\ read_unaligned Big [1; 2; 3; 4] = Some 0x01020304 /\
  read_unaligned Big [255; 0; 254; 7; 128; 1; 2; 3] = Some 0xff00fe0780010203 /\ read_unaligned Little [1; 2; 3] = None.
Proof. vm_compute. auto. Qed.
Theorem C80_word : forall o g, word_of_bytes (lanes_of o g) = stored o (map (fun b => b mod 256) g).
Proof. exact lanes_word. Qed.
Print Assumptions C80_word.

(** C80 as far as it holds on either machine: whether a group has a free or an unused byte, and
    reset_occupied.  Missing: which byte it is, see [C80_mirrored]. *)
Theorem C80_partial : forall o g, group_ok 8 g ->
  (mask_is_empty (bo_match_available o g) = true <-> forall i, 0 <= i < 8 -> ~ free (byte_at g i)) /\
  (mask_is_empty (bo_match_empty o g) = true <-> forall i, 0 <= i < 8 -> byte_at g i <> -128) /\
  (length (bo_reset_occupied o g) = length g /\
   forall i, 0 <= i < 8 -> (tagged (byte_at g i) -> byte_at (bo_reset_occupied o g) i = -2) /\ (~ tagged (byte_at g i) -> byte_at (bo_reset_occupied o g) i = -128)).
Proof. exact (fun o g H => conj (proj1 (some_order o g H)) (conj (proj2 (some_order o g H)) (reset_order o g H))). Qed.
Print Assumptions C80_partial.
Example C80_case_partial : bo_reset_occupied Big [5; -2; -128; -1; 0; 127; -2; 9] = [-2; -128; -128; -128; -2; -2; -128; -2] /\
  mask_is_empty (bo_match_available Big [5; 6; 7; 8; 9; 10; -1; 12]) = true /\ mask_is_empty (bo_match_empty Big [5; -2; 7; 8; 9; 10; -1; 12]) = true.
Proof. vm_compute. auto. Qed.

(** On big-endian machines every mask names the lanes counted from the other end of the group,
    and the count of leading free bytes is that of the trailing ones. *)
Theorem C80_mirrored : forall g, group_ok 8 g ->
  (exists ls, mask_lanes 65 3 (bo_match_available Big g) = Ok ls /\ forall i, In i ls <-> 0 <= i < 8 /\ free (byte_at g (7 - i))) /\
  (exists ls, mask_lanes 65 3 (bo_match_empty Big g) = Ok ls /\ forall i, In i ls <-> 0 <= i < 8 /\ byte_at g (7 - i) = -128) /\
  (forall h, 0 <= h < 128 -> exists ls, mask_lanes 65 3 (bo_match_eq Big g h) = Ok ls /\
     (forall i, In i ls -> 0 <= i < 8 /\ tagged (byte_at g (7 - i))) /\ (forall i, 0 <= i < 8 -> byte_at g (7 - i) = h -> In i ls)) /\
  ((exists i, 0 <= i < 8 /\ ~ free (byte_at g i)) -> exists n, bo_count_available Big g = Ok n /\ leading_free (rev g) n).
Proof. exact (fun g H => conj (available_be g H) (conj (empty_be g H) (conj (fun h => eq_be g h H) (count_be g H)))). Qed.
Print Assumptions C80_mirrored.
Example C80_case_mirrored : let g := [4; -128; 9; -1; -128; -128; -2; -128] in
  mask_lanes 65 3 (bo_match_eq Little g 4) = Ok [0] /\ mask_lanes 65 3 (bo_match_eq Big g 4) = Ok [7] /\
  mask_lanes 65 3 (bo_match_available Little g) = Ok [1; 4; 5; 6; 7] /\ mask_lanes 65 3 (bo_match_available Big g) = Ok [0; 1; 2; 3; 6] /\
  bo_count_available Little g = Ok 0 /\ bo_count_available Big g = Ok 4.
Proof. vm_compute. auto 6. Qed.

(** So on big-endian machines no container of the portable build works: for all types, hash
    functions and elements, inserting an element into a new container and asking for it
    accesses a slot outside of the array.  With the other byte order the same functions are
    those of the table model, for which C01 is proved. *)
Theorem C80_undefined : forall (E K : Type) (key_of : E -> K) hash keq lim e, 1 <= lim ->
  (let* x := bo_first_insert Big key_of hash keq lim e in bo_contains Big key_of hash keq (fst x) (key_of e)) = Err OutOfBounds.
Proof. exact (fun E K key_of hash keq => first_contains key_of hash keq). Qed.
Print Assumptions C80_undefined.
Theorem C80_little : forall (E K : Type) (key_of : E -> K) hash keq,
  (forall lim e, bo_first_insert Little key_of hash keq lim e =
     let* x := do_insert WORD key_of hash keq lim true empty_swiss e in Ok (fst x, option_map (fun y => fst (fst y)) (snd x))) /\
  (forall s k h, bo_find_node Little key_of keq s k h = find_node WORD key_of keq s k h) /\
  (forall (s : @swiss E) h, bo_find_available Little s h = find_available WORD s h).
Proof. exact (fun E K key_of hash keq => conj (first_little key_of hash keq) (conj (find_little key_of keq) available_little)). Qed.
Print Assumptions C80_little.
Theorem C80_refuted : exists e, (let* x := bo_first_insert Little ekey ehash ekeq 1 e in bo_contains Little ekey ehash ekeq (fst x) (ekey e)) = Ok true /\
  (let* x := bo_first_insert Big ekey ehash ekeq 1 e in bo_contains Big ekey ehash ekeq (fst x) (ekey e)) = Err OutOfBounds.
Proof. exists (6, 1). split; vm_compute; reflexivity. Qed.
Print Assumptions C80_refuted.
(** Key 6 is put into the only slot and then searched behind it; for key 5 the slot chosen is
    already behind the array. *)
Example C80_case_undefined :
  (let* x := bo_first_insert Big ekey ehash ekeq 1 (6, 1) in Ok (snd x)) = Ok (Some 0) /\ (let* x := bo_first_insert Big ekey ehash ekeq 1 (5, 1) in Ok (snd x)) = Err OutOfBounds.
Proof. vm_compute. auto. Qed.
