(** Calls on ordered sparse and stable tables during which a function of the user throws: the
    hash function, key_equal, the predicate of erase_if.  Line numbers: swiss_table.hpp.

    Every operation takes the number [n] of calls of such functions that return during the
    call; the next one throws (see UserModel.v).  The links are changed only after a search
    has succeeded. *)
From Coq Require Import ZArith List Bool.
From Verif Require Import Base Bits MapSpec SwissModel SwissRun LinkModel SwissOrderedSpec SwissOrdered SwissOrderedRun UserModel OrderedUserSpec.
Import ListNotations.
Open Scope Z_scope.

Section Model.
Context {E K : Type}.
Variable f : simd.
Variable sz : Z.
Variable key_of : E -> K.
Variable hash : K -> Z.
Variable keq : K -> K -> bool.
Variable rep : E -> E -> E.
Notation oswiss := (oswiss E).
Notation search := (search f key_of hash keq).

(** emplace_node in do_insert, do_try_emplace, do_insert_or_assign -- lines 1330-1354. *)
Definition zu_new (v : senv) (h : heap) (s : oswiss) (e : E) : res (heap * oswiss * s_result) :=
  let* r := s_emplace_node f sz v (ev_ctor (sv_e v)) h s 0 (hash (key_of e)) e in
  let '(h1, s1, o) := r in
  Ok (h1, s1, match o with None => None | Some q => Some (s_iter sz s1 q, true) end).
(** do_insert, do_try_emplace -- lines 1330-1347. *)
Definition zu_insert (n : nat) (v : senv) (h : heap) (s : oswiss) (e : E) : res (heap * oswiss * s_result) :=
  let* x := search n (os_t s) (key_of e) in
  match x with
  | None => Ok (h, s, None)
  | Some (_, p) => if p =? s_cap (os_t s) then zu_new v h s e else Ok (h, s, Some (s_iter sz s p, false))
  end.
(** do_insert_or_assign -- lines 1348-1359.  The constructor of the mapped value (line 1356)
    does not throw here. *)
Definition zu_assign (n : nat) (v : senv) (h : heap) (s : oswiss) (e : E) : res (heap * oswiss * s_result) :=
  let* x := search n (os_t s) (key_of e) in
  match x with
  | None => Ok (h, s, None)
  | Some (_, p) =>
    if p =? s_cap (os_t s) then zu_new v h s e
    else
      let* y := get_node (os_t s) p in
      let t := os_t s in
      Ok (h, with_t s (mk (s_buf t) (s_cap t) (s_meta t) (upd (s_nodes t) p (Some (rep (fst y) e, snd y))) (s_size t) (s_nempty t)), Some (s_iter sz s p, false))
  end.
(** do_emplace -- lines 1318-1329: the element is constructed in a node of its own, which is
    destroyed at line 1327; an exception of do_insert skips that line.  The last result is the
    number of elements that stay alive in such a node. *)
Definition zu_emplace (n : nat) (v : senv) (h : heap) (s : oswiss) (e : E) : res (heap * oswiss * s_result * Z) :=
  if ev_ctor (sv_e v) then
    let* x := zu_insert n (mksv (mkenv (ev_lim (sv_e v)) true) (sv_base v) (sv_junk v)) h s e in
    Ok (x, match snd x with None => 1 | Some _ => 0 end)
  else Ok (h, s, None, 0).
(** erase(key) -- lines 1052-1059. *)
Definition zu_erase (n : nat) (h : heap) (s : oswiss) (k : K) : res (zstate * ret E) :=
  let* x := search n (os_t s) k in
  match x with
  | None => Ok (h, s, RThrow)
  | Some (_, p) =>
    if p =? s_cap (os_t s) then z_erased sz (h, s, os_hdr s) false
    else let* y := s_do_erase f sz h s p in z_erased sz y true
  end.
(** find, contains -- lines 932-938. *)
Definition zu_find (n : nat) (h : heap) (s : oswiss) (k : K) : res (zstate * ret E) :=
  let* x := search n (os_t s) k in
  match x with
  | None => Ok (h, s, RThrow)
  | Some (_, p) => let* o := s_at sz s (s_iter sz s p) in Ok (h, s, RFound o)
  end.
Definition zu_contains (n : nat) (h : heap) (s : oswiss) (k : K) : res (zstate * ret E) :=
  let* x := search n (os_t s) k in
  match x with
  | None => Ok (h, s, RThrow)
  | Some (_, p) => Ok (h, s, RBool (negb (p =? s_cap (os_t s))))
  end.
(** erase_if -- sparse_map.hpp 1170-1184 and the like: the predicate may throw at each element;
    [None] if it does. *)
Fixpoint zu_sweep (fuel n : nat) (pred : E -> bool) (h : heap) (s : oswiss) (i cnt : Z) : res (heap * oswiss * option Z) :=
  match fuel with
  | O => Err Diverges
  | S fu =>
    if i =? os_hdr s then Ok (h, s, Some cnt)
    else
      let* p := s_index sz s i in
      let* y := get_node (os_t s) p in
      match n with
      | O => Ok (h, s, None)
      | S n' =>
        if pred (fst y) then
          let* x := s_erase_at f sz h s i in
          let '(h1, s1, r) := x in zu_sweep fu n' pred h1 s1 r (cnt + 1)
        else let* i' := next_link h i in zu_sweep fu n' pred h s i' cnt
      end
  end.
Definition zu_erase_if (n : nat) (pred : E -> bool) (h : heap) (s : oswiss) : res (zstate * ret E) :=
  let* b := next_link h (os_hdr s) in
  let* x := zu_sweep (iter_fuel (os_t s)) n pred h s b 0 in
  let '(h1, s1, o) := x in Ok (h1, s1, match o with None => RThrow | Some m => RNum m end).

(** One call: memory and table, result, elements that stay alive outside the table. *)
Definition zuexec (n : nat) (v : senv) (hs : zstate) (c : zucall E K) : res (zstate * ret E * Z) :=
  let '(h, s) := hs in
  match c with
  | ZUCall (ZInsert e) => let* x := zu_insert n v h s e in let* y := z_give sz x in Ok (y, 0)
  | ZUCall (ZAssign e) => let* x := zu_assign n v h s e in let* y := z_give sz x in Ok (y, 0)
  | ZUCall (ZErase k) => let* y := zu_erase n h s k in Ok (y, 0)
  | ZUCall (ZEraseIf pred) => let* y := zu_erase_if n pred h s in Ok (y, 0)
  | ZUCall (ZFind k) => let* y := zu_find n h s k in Ok (y, 0)
  | ZUCall (ZContains k) => let* y := zu_contains n h s k in Ok (y, 0)
  | ZUCall c => let* y := zexec f sz key_of hash keq rep v hs c in Ok (y, 0)
  | ZUEmplace e => let* x := zu_emplace n v h s e in let* y := z_give sz (fst x) in Ok (y, snd x)
  end.
(** A sequence of calls; the last result is the number of elements that stay alive outside the
    table, [m] at the start. *)
Fixpoint zurun (hs : zstate) (m : Z) (h : list (nat * senv * zucall E K)) : res (zstate * list (ret E) * Z) :=
  match h with
  | [] => Ok (hs, [], m)
  | (n, v, c) :: r =>
    let* x := zuexec n v hs c in
    let '(hs1, o, d) := x in
    let* y := zurun hs1 (m + d) r in
    let '(hs2, os, m2) := y in Ok (hs2, o :: os, m2)
  end.

Definition zucall_ok (c : zucall E K) : Prop := match c with ZUCall c => zcall_ok c | _ => True end.
Definition zuhistory_ok (h : list (nat * senv * zucall E K)) : Prop :=
  Forall (fun x => env_ok (sv_e (snd (fst x))) /\ zucall_ok (snd x)) h.
Definition zucalls_of (h : list (nat * senv * zucall E K)) : list (nat * zucall E K) := map (fun x => (fst (fst x), snd x)) h.

(** The calls of emplace left by an exception after the element was constructed. *)
Definition zleaky (v : senv) (c : zucall E K) (r : ret E) : bool :=
  match c, r with ZUEmplace _, RThrow => ev_ctor (sv_e v) | _, _ => false end.
Fixpoint zleaks (h : list (nat * senv * zucall E K)) (rs : list (ret E)) : Z :=
  match h, rs with
  | (_, v, c) :: h', r :: rs' => (if zleaky v c r then 1 else 0) + zleaks h' rs'
  | _, _ => 0
  end.

(** Why a call is not covered: as in SwissOrderedRun, where an insertion counts only if its
    search does not throw. *)
Definition zublocked (n : nat) (v : senv) (hs : zstate) (c : zucall E K) : Prop :=
  let m := s_size (os_t (snd hs)) in
  match c with
  | ZUCall (ZEraseAt i) => ~ 0 <= i < m
  | ZUCall (ZEraseRange i j) => ~ (0 <= i <= j /\ j <= m) \/ (i = j /\ j < m)
  | ZUCall ZFront | ZUCall ZBack => m = 0
  | ZUCall (ZInsert e) | ZUCall (ZAssign e) | ZUEmplace e =>
    search n (os_t (snd hs)) (key_of e) <> Ok None /\ zswaps f key_of hash keq v (snd hs) e
  | _ => False
  end \/
  zuexec n v hs c = Err BadPlacement.

(** The table behaves as the list [l] along the history, up to the first call that is not
    covered, if there is one.  Links of other containers are not touched.  The elements that
    stay alive outside the table are those of the calls of emplace that threw. *)
Definition zurefines (hs : zstate) (l : list E) (h : list (nat * senv * zucall E K)) : Prop :=
  (exists hs' rs l' m, zurun hs 0 h = Ok (hs', rs, m) /\ zuspec_run key_of keq rep (zucalls_of h) l l' rs /\ zlists sz hs' l' /\
     keys_distinct key_of keq l' /\ m = zleaks h rs /\
     forall a, a <> os_hdr (snd hs) -> slot_ix (os_base (snd hs)) sz (s_cap (os_t (snd hs))) a = None -> fst hs a <> None -> fst hs' a = fst hs a) \/
  (exists h1 n v c h2 hs1 rs1 l1 m1, h = h1 ++ (n, v, c) :: h2 /\ zurun hs 0 h1 = Ok (hs1, rs1, m1) /\ zuspec_run key_of keq rep (zucalls_of h1) l l1 rs1 /\
     zlists sz hs1 l1 /\ m1 = zleaks h1 rs1 /\ zublocked n v hs1 c).

(** merge -- lines 1096-1113 (ordered).  The lambda is noexcept: an exception in it ends the
    program. *)
Fixpoint zu_merge_loop (fuel n : nat) (v : senv) (h : heap) (s o : oswiss) (pos last : Z) : res (heap * oswiss * oswiss * bool) :=
  match fuel with
  | O => Err Diverges
  | S fu =>
    let* p := prev_link h pos in
    if p =? last then Ok (h, s, o, true)
    else
      let* e := s_value sz o p in
      let* y := search n (os_t s) (key_of e) in
      match y with
      | None => Err Terminated
      | Some (n', q) =>
        if q =? s_cap (os_t s) then
          let* x := s_extract_at f sz h o p in
          let '(h1, o1, oe) := x in
          match oe with
          | None => Err NullDeref
          | Some e1 =>
            let* r := s_emplace_node f sz v true h1 s 0 (hash (key_of e)) e1 in
            let '(h2, s2, oo) := r in
            match oo with
            | None => Err Terminated
            | Some _ => zu_merge_loop fu n' v h2 s2 o1 p last
            end
          end
        else zu_merge_loop fu n' v h s o p last
      end
  end.
Definition zu_merge (n : nat) (v : senv) (h : heap) (s o : oswiss) : res (heap * oswiss * oswiss * bool) :=
  let* x := s_reserve f sz v h s (add64 (s_size (os_t s)) (s_size (os_t o))) in
  let '(h1, s1, r) := x in
  match r with
  | None => Ok (h1, s1, o, false)
  | Some _ =>
    let* last := next_link h1 (os_hdr o) in
    zu_merge_loop (iter_fuel (os_t o)) n v h1 s1 o (os_hdr o) last
  end.
End Model.
