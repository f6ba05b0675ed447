(** The portable group operations on machines of either byte order, and the parts of the table
    that the first insertion and a lookup run through. *)
From Coq Require Import ZArith List Bool.
From Verif Require Import Base Bits SwissModel EndianSpec.
Import ListNotations.
Open Scope Z_scope.

(** read_unaligned -- utility.hpp 81-145, for unsigned T of 1, 2, 4 or 8 bytes.  [nth i] is
    bytes[i], 0 to 255.  Other sizes do not compile. *)
Definition byte (l : list Z) (i : nat) (sh : Z) : Z := shl64 (nth i l 0) sh.
Definition read_unaligned (o : order) (l : list Z) : option Z :=
  match o, length l with
  | _, 1%nat => Some (nth 0 l 0)                                                       (* 82-86 *)
  | Little, 8%nat =>                                                                   (* 88-100 *)
    Some (Z.lor (Z.lor (Z.lor (Z.lor (Z.lor (Z.lor (Z.lor (byte l 7 56) (byte l 6 48)) (byte l 5 40)) (byte l 4 32)) (byte l 3 24)) (byte l 2 16)) (byte l 1 8)) (nth 0 l 0))
  | Little, 4%nat => Some (Z.lor (Z.lor (Z.lor (byte l 3 24) (byte l 2 16)) (byte l 1 8)) (nth 0 l 0))   (* 101-109 *)
  | Little, 2%nat => Some (Z.lor (byte l 1 8) (nth 0 l 0))                             (* 110-115 *)
  | Big, 8%nat =>                                                                      (* 117-129 *)
    Some (Z.lor (Z.lor (Z.lor (Z.lor (Z.lor (Z.lor (Z.lor (byte l 0 56) (byte l 1 48)) (byte l 2 40)) (byte l 3 32)) (byte l 4 24)) (byte l 5 16)) (byte l 6 8)) (nth 7 l 0))
  | Big, 4%nat => Some (Z.lor (Z.lor (Z.lor (byte l 0 24) (byte l 1 16)) (byte l 2 8)) (nth 3 l 0))      (* 130-138 *)
  | Big, 2%nat => Some (Z.lor (byte l 0 8) (nth 1 l 0))                                (* 139-144 *)
  | _, _ => None
  end.

(** meta_block(bytes) -- swiss_table.hpp 205: the group as a word, least significant byte
    first, which is how [Bits] takes it. *)
Definition lanes_of (o : order) (blk : list Z) : list Z := match o with Little => blk | Big => rev blk end.
(** match_eq, match_empty, match_available, count_available -- swiss_table.hpp 304-326. *)
Definition bo_match_eq (o : order) (blk : list Z) (b : Z) : Z := match_eq WORD (lanes_of o blk) b.
Definition bo_match_empty (o : order) (blk : list Z) : Z := match_empty WORD (lanes_of o blk).
Definition bo_match_available (o : order) (blk : list Z) : Z := match_available WORD (lanes_of o blk).
Definition bo_count_available (o : order) (blk : list Z) : res Z := count_available WORD (lanes_of o blk).
(** reset_occupied -- swiss_table.hpp 332-338, stored by the memcpy of line 1404. *)
Definition bo_reset_occupied (o : order) (blk : list Z) : list Z := lanes_of o (reset_occupied WORD (lanes_of o blk)).

Section Table.
Context {E K : Type}.
Variable o : order.
Variable key_of : E -> K.
Variable hash : K -> Z.
Variable keq : K -> K -> bool.
Notation swiss := (@swiss E).

(** find_node -- swiss_table.hpp 1209-1234. *)
Fixpoint bo_find_loop (fuel : nat) (s : swiss) (k : K) (h : Z) (p : Z * Z) : res Z :=
  match fuel with
  | O => Err Diverges
  | S fu =>
    let* blk := load_block WORD s (snd p) in
    let* lanes := mask_lanes 65 3 (bo_match_eq o blk (h2_of h)) in
    let* hit := scan_lanes key_of keq s k p lanes in
    match hit with
    | Some off => Ok off
    | None =>
      if negb (mask_is_empty (bo_match_empty o blk)) then Ok (s_cap s)
      else let* _ := assert_probe s (fst p) in
           bo_find_loop fu s k h (probe_next WORD (s_cap s) p)
    end
  end.
Definition bo_find_node (s : swiss) (k : K) (h : Z) : res Z :=
  if s_size s =? 0 then Ok (s_cap s)
  else bo_find_loop (probe_fuel WORD s) s k h (probe_start (s_cap s) h).
(** find_available -- swiss_table.hpp 1235-1246. *)
Fixpoint bo_avail_loop (fuel : nat) (s : swiss) (p : Z * Z) : res Z :=
  match fuel with
  | O => Err Diverges
  | S fu =>
    let* blk := load_block WORD s (snd p) in
    let m := bo_match_available o blk in
    if negb (mask_is_empty m) then
      let* l := mask_lsb 3 m in Ok (probe_off (s_cap s) p l)
    else let* _ := assert_probe s (fst p) in bo_avail_loop fu s (probe_next WORD (s_cap s) p)
  end.
Definition bo_find_available (s : swiss) (h : Z) : res Z := bo_avail_loop (probe_fuel WORD s) s (probe_start (s_cap s) h).
(** do_insert of swiss_table.hpp 1339-1347 into a container that has never held memory, with
    emplace_node 1264-1300: lines 1267-1273 allocate one slot (do_rehash, 1376-1393, has
    nothing to move), the constructor does not throw. *)
Definition bo_first_insert (lim : Z) (e : E) : res (swiss * option Z) :=
  let h := hash (key_of e) in
  let* q := bo_find_node empty_swiss (key_of e) h in
  if q =? s_cap (@empty_swiss E) then
    if lim <? 1 then Ok (empty_swiss, None)
    else
      let s1 := mk Live 1 (fill_empty_meta 1) (fun _ => None) 0 (capacity_to_max_size WORD 1) in
      let* p := bo_find_available s1 h in
      let* s2 := put_node s1 p (e, h) in
      let* tm := get_meta WORD s2 p in
      let s3 := set_nempty s2 (sub64 (s_nempty s2) (if tm =? m_empty then 1 else 0)) in
      let* s4 := set_metadata WORD s3 p (h2_of h) in
      Ok (set_size s4 (add64 (s_size s4) 1), Some p)
  else Ok (empty_swiss, Some q).
(** contains -- swiss_table.hpp 933, as [SwissModel.contains]. *)
Definition bo_contains (s : swiss) (k : K) : res bool :=
  let* p := bo_find_node s k (hash k) in Ok (negb (p =? s_cap s)).
End Table.
