(** Running sequences of public calls on the model of the ordered swiss table. *)
From Coq Require Import ZArith List Bool.
From Verif Require Import Base Bits MapSpec SwissModel SwissRun LinkModel SwissOrderedSpec SwissOrdered.
Import ListNotations.
Open Scope Z_scope.

(** Admissible calls: rehash(0) is C05. *)
Definition zcall_ok {E K} (c : zcall E K) : Prop :=
  match c with
  | ZReserve n => 0 <= n < 2 ^ 64
  | ZRehash n => 0 < n < 2 ^ 64
  | _ => True
  end.
Definition zhistory_ok {E K} (h : list (senv * zcall E K)) : Prop :=
  Forall (fun vc => env_ok (sv_e (fst vc)) /\ zcall_ok (snd vc)) h.

Section Run.
Context {E K : Type}.
Variable f : simd.
Variable sz : Z.
Variable key_of : E -> K.
Variable hash : K -> Z.
Variable keq : K -> K -> bool.
Variable rep : E -> E -> E.
Definition zstate : Type := heap * oswiss E.

Definition z_give (x : heap * oswiss E * s_result) : res (zstate * ret E) :=
  let '(h, s, o) := x in
  match o with
  | None => Ok (h, s, RThrow)
  | Some (a, b) => let* e := s_value sz s a in Ok (h, s, RInserted e b)
  end.
Definition z_unit (x : heap * oswiss E * option unit) : res (zstate * ret E) :=
  let '(h, s, o) := x in Ok (h, s, match o with None => RThrow | Some _ => RUnit end).
Definition z_erased (x : heap * oswiss E * Z) (b : bool) : res (zstate * ret E) :=
  let '(h, s, a) := x in let* o := s_at sz s a in Ok (h, s, RErased o b).

(** One public call -- swiss_table.hpp 897-1131. *)
Definition zexec (v : senv) (hs : zstate) (c : zcall E K) : res (zstate * ret E) :=
  let '(h, s) := hs in
  match c with
  | ZInsert e => let* x := s_do_insert f sz key_of hash keq v h s 0 e in z_give x
  | ZAssign e => let* x := s_do_insert_or_assign f sz key_of hash keq rep v h s 0 e in z_give x
  | ZErase k => let* x := s_erase_key f sz key_of hash keq h s k in z_erased (fst x) (snd x)
  | ZEraseAt i => let* a := s_nth h s i in let* x := s_erase_at f sz h s a in z_erased x true
  | ZEraseRange i j =>
    let* a := s_nth h s i in
    let* b := s_nth h s j in
    let* x := s_erase_range f sz h s a b in z_erased x true
  | ZEraseIf pred => let* x := s_erase_if f sz pred h s in Ok (fst x, RNum (snd x))
  | ZFind k =>
    let* p := find_node f key_of keq (os_t s) k (hash k) in
    let* o := s_at sz s (s_iter sz s p) in Ok (h, s, RFound o)
  | ZContains k =>
    let* p := find_node f key_of keq (os_t s) k (hash k) in
    Ok (h, s, RBool (negb (p =? s_cap (os_t s))))
  | ZFront => let* e := s_front sz h s in Ok (h, s, RFound (Some e))
  | ZBack => let* e := s_back sz h s in Ok (h, s, RFound (Some e))
  | ZClear => let* x := s_clear f h s in Ok (x, RUnit)
  | ZReserve n => let* x := s_reserve f sz v h s n in z_unit x
  | ZRehash n => let* x := s_rehash f sz v h s n in z_unit x
  | ZSize => Ok (h, s, RNum (size (os_t s)))
  | ZIterate => let* l := s_iterate sz h s in Ok (h, s, RList l)
  | ZBackwards => let* l := s_backwards sz h s in Ok (h, s, RList l)
  end.

Fixpoint zrun (hs : zstate) (h : list (senv * zcall E K)) : res (zstate * list (ret E)) :=
  match h with
  | [] => Ok (hs, [])
  | (v, c) :: r =>
    let* x := zexec v hs c in
    let '(hs1, o) := x in
    let* y := zrun hs1 r in
    let '(hs2, os) := y in Ok (hs2, o :: os)
  end.

(** Inserting [e] reclaims erased slots in place and swaps two nodes on the way. *)
Definition zswaps (v : senv) (s : oswiss E) (e : E) : Prop :=
  find_node f key_of keq (os_t s) (key_of e) (hash (key_of e)) = Ok (s_cap (os_t s)) /\
  exists t p tr a b, make_room f (ev_lim (sv_e v)) (os_t s) (hash (key_of e)) = Ok (t, Some (p, tr)) /\ In (EvSwap a b) tr.

(** Why a call of a history is not covered: the caller passed an iterator that is not valid or
    asked an empty container for its first or last element; an insertion swaps two nodes while
    reclaiming erased slots; erase(first, last) with an empty range that is not at the end
    (C52); the allocator placed the node array over links in use. *)
Definition zblocked (v : senv) (hs : zstate) (c : zcall E K) : Prop :=
  let n := s_size (os_t (snd hs)) in
  match c with
  | ZEraseAt i => ~ 0 <= i < n
  | ZEraseRange i j => ~ (0 <= i <= j /\ j <= n) \/ (i = j /\ j < n)
  | ZFront | ZBack => n = 0
  | ZInsert e | ZAssign e => zswaps v (snd hs) e
  | _ => False
  end \/
  zexec v hs c = Err BadPlacement.

(** A default constructed table whose header is at [a]: both offsets are 0 (line 836,
    table_common.hpp 120, 179-180). *)
Definition s_new (a : Z) : oswiss E := mkos empty_swiss a 0.

(** The container iterates, forwards and backwards, over the list. *)
Definition zlists (hs : zstate) (l : list E) : Prop :=
  s_iterate sz (fst hs) (snd hs) = Ok l /\ s_backwards sz (fst hs) (snd hs) = Ok (rev l).

(** The table behaves as the list [l] along the history [h], up to the first call that is not
    covered, if there is one.  Links of other containers are not touched. *)
Definition zrefines (hs : zstate) (l : list E) (h : list (senv * zcall E K)) : Prop :=
  (exists hs' rs l', zrun hs h = Ok (hs', rs) /\ zspec_run key_of keq rep (map snd h) l l' rs /\ zlists hs' l' /\
     keys_distinct key_of keq l' /\
     forall a, a <> os_hdr (snd hs) -> slot_ix (os_base (snd hs)) sz (s_cap (os_t (snd hs))) a = None -> fst hs a <> None -> fst hs' a = fst hs a) \/
  (exists h1 v c h2 hs1 rs1 l1, h = h1 ++ (v, c) :: h2 /\ zrun hs h1 = Ok (hs1, rs1) /\ zspec_run key_of keq rep (map snd h1) l l1 rs1 /\
     zlists hs1 l1 /\ zblocked v hs1 c).

(** Calls that erase elements one by one and so leave erased slots behind. *)
Definition zerasing (c : zcall E K) : bool :=
  match c with ZErase _ | ZEraseAt _ | ZEraseRange _ _ | ZEraseIf _ => true | _ => false end.
End Run.
