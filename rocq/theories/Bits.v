(** Model of the metadata bytes, group (block) operations, index masks and bit
    scans of /repo/tpp/detail/swiss_table.hpp lines 38-339. *)
From Coq Require Import ZArith List Bool.
From Verif Require Import Base.
Import ListNotations.
Open Scope Z_scope.

(** enum class meta_byte : int8_t -- swiss_table.hpp 38-43.  Bytes are signed. *)
Definition m_empty : Z := -128.
Definition m_deleted : Z := -2.
Definition m_sentinel : Z := -1.

(** is_occupied / is_available -- swiss_table.hpp 45-46. *)
Definition is_occupied (v : Z) : bool := m_sentinel <? v.
Definition is_available (v : Z) : bool := v <? m_sentinel.

(** ** Word arithmetic (uint64_t / size_t), wrap-around explicit. *)
Definition not64 (x : Z) : Z := two64 - 1 - x.
Definition shl64 (x n : Z) : Z := (x * 2 ^ n) mod two64.
Definition shr64 (x n : Z) : Z := Z.shiftr x n.
Definition add64 (x y : Z) : Z := (x + y) mod two64.
Definition sub64 (x y : Z) : Z := (x - y) mod two64.
Definition mul64 (x y : Z) : Z := (x * y) mod two64.

(** ** Bit scans. *)
Fixpoint pos_ctz (p : positive) : Z :=
  match p with xO q => 1 + pos_ctz q | _ => 0 end.

(** Meaning of the compiler intrinsics __builtin_ctz* / _BitScanForward: index of
    the lowest set bit; undefined for 0. *)
Definition scan_forward (x : Z) : res Z :=
  match x with Zpos p => Ok (pos_ctz p) | _ => Err BitScanZero end.
(** _BitScanReverse: index of the highest set bit; undefined for 0. *)
Definition scan_reverse (x : Z) : res Z :=
  match x with Zpos p => Ok (Z.log2 (Zpos p)) | _ => Err BitScanZero end.

(** generic_ctz -- swiss_table.hpp 84-91, T with [digits] bits.  The loop
    condition post-increments [result]; [r] is the value before the increment.
    A shift by [digits] or more is undefined. *)
Fixpoint generic_ctz_loop (fuel : nat) (digits value r : Z) : res Z :=
  match fuel with
  | O => Err Diverges
  | S f =>
    if digits <=? r then Err ShiftRange
    else if Z.land value (Z.shiftl 1 r) =? 0 then generic_ctz_loop f digits value (r + 1)
    else Ok (r + 1)
  end.
Definition generic_ctz (digits value : Z) : res Z :=
  generic_ctz_loop (S (Z.to_nat digits)) digits value 0.

(** generic_clz -- swiss_table.hpp 92-99. *)
Fixpoint generic_clz_loop (fuel : nat) (digits value r : Z) : res Z :=
  match fuel with
  | O => Err Diverges
  | S f =>
    if digits <=? r then Err ShiftRange
    else if Z.land value (Z.shiftr (Z.shiftl 1 (digits - 1)) r) =? 0
         then generic_clz_loop f digits value (r + 1)
    else Ok (r + 1)
  end.
Definition generic_clz (digits value : Z) : res Z :=
  generic_clz_loop (S (Z.to_nat digits)) digits value 0.

(** Compiler branches of ctz/clz -- swiss_table.hpp 101-177. *)
Inductive compiler := GNU | MSVC | Other.

(** ctz<T> on a 64-bit word: GNU lines 102-112, MSVC 134-152, other 173-174. *)
Definition ctz (c : compiler) (x : Z) : res Z :=
  match c with
  | GNU => scan_forward x
  | MSVC => scan_forward x
  | Other => generic_ctz 64 x
  end.

(** clz<T> on a 64-bit word: GNU lines 113-132 (diff is 0 for 64-bit T), MSVC
    153-171 (digits - index), other 175-176. *)
Definition clz (c : compiler) (x : Z) : res Z :=
  match c with
  | GNU => let* i := scan_reverse x in Ok (63 - i)
  | MSVC => let* i := scan_reverse x in Ok (64 - i)
  | Other => generic_clz 64 x
  end.

(** ** basic_index_mask<T, P> -- swiss_table.hpp 48-82, 179-182.  The value type
    is a 64-bit word.  From here on the GNU bit scan is used. *)
Definition mask_is_empty (m : Z) : bool := m =? 0.                   (* line 71 *)
Definition mask_next (m : Z) : Z := Z.land m (sub64 m 1).              (* lines 65-69 *)
Definition mask_lsb (P m : Z) : res Z :=                               (* line 180 *)
  let* c := scan_forward m in Ok (Z.shiftr c P).

(** The loop [for (match = m; !match.empty(); ++match) use(match.lsb_index())]
    (swiss_table.hpp 1221-1226) as the list of lane indices it visits. *)
Fixpoint mask_lanes (fuel : nat) (P m : Z) : res (list Z) :=
  match fuel with
  | O => Err Diverges
  | S f =>
    if mask_is_empty m then Ok []
    else let* i := mask_lsb P m in
         let* r := mask_lanes f P (mask_next m) in
         Ok (i :: r)
  end.

(** ** Groups.  A group is the list of its (signed) bytes, lowest address first. *)
Inductive simd := SSE2 | SSSE3 | NEON | WORD.

(** sizeof(meta_block) -- swiss_table.hpp 184-193, 218. *)
Definition width (f : simd) : Z :=
  match f with SSE2 | SSSE3 => 16 | NEON | WORD => 8 end.
(** Shift of the index mask type -- swiss_table.hpp 185, 188, 191. *)
Definition mask_shift (f : simd) : Z :=
  match f with SSE2 | SSSE3 => 0 | NEON | WORD => 3 end.

(** Lane-wise vector instructions: comparison yields all-ones (-1) or 0;
    _mm_sign_epi8(a, b) negates a where b < 0 (-128 stays -128) and clears it
    where b = 0; _mm_movemask_epi8 collects the sign bits. *)
Definition lane_eq (a b : Z) : Z := if a =? b then -1 else 0.
Definition lane_gt (a b : Z) : Z := if b <? a then -1 else 0.
Definition lane_le (a b : Z) : Z := if a <=? b then -1 else 0.
Definition lane_sign (a b : Z) : Z :=
  if b <? 0 then (if a =? -128 then -128 else - a) else if b =? 0 then 0 else a.
Fixpoint movemask (l : list Z) : Z :=
  match l with
  | [] => 0
  | x :: r => (if x <? 0 then 1 else 0) + 2 * movemask r
  end.

(** Little-endian load of bytes into a word: read_unaligned (line 205) and
    vget_lane_u64(vreinterpret_u64_u8 ..) (lines 276-291). *)
Fixpoint word_of_bytes (l : list Z) : Z :=
  match l with
  | [] => 0
  | b :: r => b mod 256 + 256 * word_of_bytes r
  end.
(** The reverse (store of a word), giving signed bytes: memcpy of line 1404. *)
Definition sign8 (b : Z) : Z := if b <? 128 then b else b - 256.
Fixpoint bytes_of_word (n : nat) (w : Z) : list Z :=
  match n with
  | O => []
  | S k => sign8 (w mod 256) :: bytes_of_word k (w / 256)
  end.

Definition msb_mask : Z := 0x8080808080808080.
Definition lsb_mask : Z := 0x0101010101010101.

(** meta_block::match_eq -- SSE2 254-257, NEON 282-287, WORD 314-320. *)
Definition match_eq (f : simd) (blk : list Z) (b : Z) : Z :=
  match f with
  | SSE2 | SSSE3 => movemask (map (lane_eq b) blk)
  | NEON => Z.land (word_of_bytes (map (lane_eq b) blk)) msb_mask
  | WORD =>
    let x := Z.lxor (word_of_bytes blk) (mul64 lsb_mask (b mod 256)) in
    Z.land (Z.land (sub64 x lsb_mask) (not64 x)) msb_mask
  end.

(** meta_block::match_empty -- SSE2 247, SSSE3 245, NEON 274-277, WORD 304-308. *)
Definition match_empty (f : simd) (blk : list Z) : Z :=
  match f with
  | SSE2 => match_eq SSE2 blk m_empty
  | SSSE3 => movemask (map (fun v => lane_sign v v) blk)
  | NEON => word_of_bytes (map (lane_eq m_empty) blk)
  | WORD =>
    let w := word_of_bytes blk in
    Z.land (Z.land w (shl64 (not64 w) 6)) msb_mask
  end.

(** meta_block::match_available -- SSE2 250-253, NEON 278-281, WORD 309-313. *)
Definition match_available (f : simd) (blk : list Z) : Z :=
  match f with
  | SSE2 | SSSE3 => movemask (map (lane_gt m_sentinel) blk)
  | NEON => word_of_bytes (map (lane_gt m_sentinel) blk)
  | WORD =>
    let w := word_of_bytes blk in
    Z.land (Z.land w (shl64 (not64 w) 7)) msb_mask
  end.

(** meta_block::count_available -- SSE2 259-262, NEON 289-292, WORD 322-326
    (defined a second time at 327-331). *)
Definition count_available (f : simd) (blk : list Z) : res Z :=
  match f with
  | SSE2 | SSSE3 => scan_forward (movemask (map (lane_gt m_sentinel) blk) + 1)
  | NEON =>
    let* c := scan_forward (word_of_bytes (map (lane_le m_sentinel) blk)) in
    Ok (shr64 c 3)
  | WORD =>
    let w := word_of_bytes blk in
    let* c := scan_forward (Z.land (Z.lor w (not64 (shr64 w 7))) lsb_mask) in
    Ok (shr64 c 3)
  end.

(** meta_block::reset_occupied -- SSE2 263-272, NEON 293-302, WORD 332-338.
    The SSE2/NEON versions select lane-wise between [deleted] and [empty]. *)
Definition reset_occupied (f : simd) (blk : list Z) : list Z :=
  match f with
  | SSE2 | SSSE3 | NEON =>
    map (fun v => if lane_gt v m_sentinel <? 0 then m_deleted else m_empty) blk
  | WORD =>
    let x := Z.land (word_of_bytes blk) msb_mask in
    bytes_of_word 8 (Z.land (add64 (not64 x) (shr64 x 7)) (not64 lsb_mask))
  end.

(** Lanes visited by the tag-match loop of find_node (line 1221). *)
Definition eq_lanes (f : simd) (blk : list Z) (b : Z) : res (list Z) :=
  mask_lanes 65 (mask_shift f) (match_eq f blk b).
