(** Calls during which moving an element throws.  Only packed nodes move their values
    (table_common.hpp 262-271, 292-297); stable nodes move a pointer (443) and cannot throw. *)
From Coq Require Import ZArith List Bool Permutation.
From Verif Require Import Base Bits.
From Verif Require Import Float32 DenseSpec DenseModel DenseRun.
From Verif Require Import MapSpec SwissModel SwissRun CostSpec.
Import ListNotations.
Open Scope Z_scope.

(** ** Open-addressing tables.  [m] is the number of moves that succeed before one throws. *)
Section Swiss.
Context {E K : Type}.
Variable f : simd.
Variable key_of : E -> K.
Variable hash : K -> Z.
Variable keq : K -> K -> bool.
Variable rep : E -> E -> E.
Notation swiss := (@swiss E).

(** The loop of do_rehash -- swiss_table.hpp 1378-1390; relocate (line 1388) constructs the
    element in the new buffer, which throws before the byte of the slot is set (line 1389).
    [false]: the exception left the loop. *)
Fixpoint relocate_until (m : nat) (s : swiss) (l : list Z) (acc : swiss * list (Z * Z)) : res (swiss * list (Z * Z) * bool) :=
  match l with
  | [] => Ok (acc, true)
  | i :: r =>
    let* b := get_meta f s i in
    if is_occupied b then
      match m with
      | O =>
        let* n := get_node s i in
        let* _ := find_available f (fst acc) (snd n) in Ok (acc, false)
      | S m' => let* acc1 := rehash_step f s acc i in relocate_until m' s r acc1
      end
    else relocate_until m s r acc
  end.
(** do_rehash -- lines 1376-1393, with resize of the buffers -- lines 523-550, 681-693: the new
    buffers have replaced the old ones before the loop runs, there is no handler around it,
    m_size and m_num_empty keep their values, and the old buffers are not freed. *)
Definition m_rehash (m : nat) (lim : Z) (s : swiss) (c : Z) : res (swiss * option (list ev)) :=
  if lim <? c then Ok (s, None)
  else
    let fresh := mk Live c (fill_empty_meta c) (fun _ => None) (s_size s) (s_nempty s) in
    let* tm := (if c =? 0 then Ok ((fresh, []), true) else relocate_until m s (zrange (s_cap s)) (fresh, [])) in
    let '((t, mv), done) := tm in
    if done : bool then Ok (set_nempty t (sub64 (capacity_to_max_size f c) (s_size s)), Some [EvRehash c mv])
    else Ok (t, None).

(** The loop of rehash_deleted -- lines 1408-1442: a relocation (line 1431) is one move, an
    exchange of two elements (line 1438) counts as one as well.  Simplified: an exchange that
    throws has exchanged nothing.  [None]: the exception left the loop. *)
Fixpoint m_process (fuel : nat) (m : nat) (s : swiss) (i : Z) (tr : list ev) : res (swiss * list ev * option nat) :=
  match fuel with
  | O => Err Diverges
  | S fu =>
    let* n := get_node s i in
    let h := snd n in
    let* target := find_available f s h in
    if block_idx f (s_cap s) h target =? block_idx f (s_cap s) h i then
      let* s1 := set_metadata f s i (h2_of h) in Ok (s1, tr, Some m)
    else
      let* tm := get_meta f s target in
      match m with
      | O => Ok (s, tr, None)
      | S m' =>
        if tm =? m_empty then
          let* s1 := put_node s target n in
          let* s2 := kill_node s1 i in
          let* s3 := set_metadata f s2 i m_empty in
          let* s4 := set_metadata f s3 target (h2_of h) in
          Ok (s4, tr ++ [EvMove i target], Some m')
        else
          let* n2 := get_node s target in
          let s1 := mk (s_buf s) (s_cap s) (s_meta s)
                       (upd (upd (s_nodes s) i (Some n2)) target (Some n)) (s_size s) (s_nempty s) in
          let* s2 := set_metadata f s1 target (h2_of h) in
          m_process fu m' s2 i (tr ++ [EvSwap i target])
      end
  end.
Fixpoint m_relocate (m : nat) (l : list Z) (s : swiss) (tr : list ev) : res (swiss * list ev * bool) :=
  match l with
  | [] => Ok (s, tr, true)
  | i :: r =>
    let* b := get_meta f s i in
    if b =? m_deleted then
      let* x := m_process (S (Z.to_nat (s_cap s))) m s i tr in
      let '(s1, tr1, o) := x in
      match o with None => Ok (s1, tr1, false) | Some m' => m_relocate m' r s1 tr1 end
    else m_relocate m r s tr
  end.
(** rehash_deleted -- lines 1394-1446: every occupied slot is marked deleted first (lines
    1400-1406), and unmarked by the loop. *)
Definition m_rehash_deleted (m : nat) (s : swiss) : res (swiss * option (list ev)) :=
  let* s1 := foldM (reset_block f) (zrange ((s_cap s + width f - 1) / width f)) s in
  let* s2 := copy_tail f s1 in
  let* s3 := put_meta f s2 (s_cap s) m_sentinel in
  let* st := m_relocate m (zrange (s_cap s)) s3 [] in
  let '(s4, tr, done) := st in
  if done : bool then Ok (set_nempty s4 (sub64 (capacity_to_max_size f (s_cap s)) (s_size s)), Some tr)
  else Ok (s4, None).

(** The first half of emplace_node -- lines 1267-1287. *)
Definition m_make_room (m : nat) (lim : Z) (s : swiss) (h : Z) : res (swiss * option (Z * list ev)) :=
  if s_cap s =? 0 then
    let* r := m_rehash m lim s 1 in
    let '(s1, o) := r in
    match o with
    | None => Ok (s1, None)
    | Some tr => let* p := find_available f s1 h in Ok (s1, Some (p, tr))
    end
  else
    let* p := find_available f s h in
    let* tm := get_meta f s p in
    if (s_nempty s =? 0) && negb (tm =? m_deleted) then
      let* r :=
        (if (width f <? s_cap s) && (mul64 (s_size s) 32 <=? mul64 (s_cap s) 25)
         then m_rehash_deleted m s
         else m_rehash m lim s (sub64 (mul64 (add64 (s_cap s) 1) 2) 1)) in
      let '(s1, o) := r in
      match o with
      | None => Ok (s1, None)
      | Some tr => let* p2 := find_available f s1 h in Ok (s1, Some (p2, tr))
      end
    else Ok (s, Some (p, [])).

(** Insertions -- lines 1264-1360, reserve -- line 930, rehash -- lines 1124-1131: what can throw here is making room; a
    call in which that succeeds is the call of SwissModel. *)
Definition m_exec (m : nat) (v : env) (s : swiss) (c : call E K) : res (swiss * ret E) :=
  match c with
  | CInsert e | CAssign e =>
    let h := hash (key_of e) in
    let* p := find_node f key_of keq s (key_of e) h in
    if p =? s_cap s then
      let* x := m_make_room m (ev_lim v) s h in
      match snd x with
      | None => Ok (fst x, RThrow)
      | Some _ => exec f key_of hash keq rep v s c
      end
    else exec f key_of hash keq rep v s c
  | CReserve n =>
    if add64 (s_size s) (s_nempty s) <? n then
      let* k := align_capacity (size_to_min_capacity f n) in
      let* x := m_rehash m (ev_lim v) s k in
      Ok (fst x, match snd x with None => RThrow | Some _ => RUnit end)
    else exec f key_of hash keq rep v s c
  | CRehash n =>
    if (n =? 0) && (s_size s =? 0) then exec f key_of hash keq rep v s c
    else
      let* k := align_capacity (Z.lor n (size_to_min_capacity f n)) in
      if (n =? 0) || (s_cap s <? k) then
        let* x := m_rehash m (ev_lim v) s k in
        Ok (fst x, match snd x with None => RThrow | Some _ => RUnit end)
      else exec f key_of hash keq rep v s c
  | _ => exec f key_of hash keq rep v s c
  end.

(** Moves of single elements made by a call, an exchange of two elements counting as one as in
    [m_process]. *)
Definition ev_steps (x : ev) : Z := match x with EvRehash _ mv => Z.of_nat (length mv) | EvMove _ _ | EvSwap _ _ => 1 end.
Definition steps (tr : list ev) : Z := fold_right (fun x n => ev_steps x + n) 0 tr.
Definition steps_in (v : env) (s : swiss) (c : call E K) : Z :=
  match c with
  | CReserve n => match reserve f (ev_lim v) s n with Ok (_, Some tr) => steps tr | _ => 0 end
  | CRehash n => match rehash f (ev_lim v) s n with Ok (_, Some tr) => steps tr | _ => 0 end
  | CInsert e | CAssign e =>
    match find_node f key_of keq s (key_of e) (hash (key_of e)) with
    | Ok p =>
      if p =? s_cap s then
        match make_room f (ev_lim v) s (hash (key_of e)) with Ok (_, Some (_, tr)) => steps tr | _ => 0 end
      else 0
    | Err _ => 0
    end
  | _ => 0
  end.

(** What is left of a table of elements [l], in the order of the buffer, when the move after
    [m] others throws while it grows: the first [m] elements, under the old size; the others
    are not found any more. *)
Definition lost (m : nat) (l : list E) (t : swiss) : Prop :=
  size t = Z.of_nat (length l) /\
  (forall l1, iterate f t = Ok l1 -> Permutation (map snd l1) (firstn m l)) /\
  (f = SSE2 \/ f = SSSE3 -> exists l1, iterate f t = Ok l1) /\
  (forall x, In x (firstn m l) -> contains f key_of hash keq t (key_of x) = Ok true) /\
  (forall x, In x (skipn m l) -> contains f key_of hash keq t (key_of x) = Ok false).
(** What is left of it when a move throws while slots are reclaimed: some of the elements,
    under the old size; the others, at least one, are not found any more. *)
Definition mislaid (l : list E) (t : swiss) : Prop :=
  size t = Z.of_nat (length l) /\
  exists kept gone, Permutation l (kept ++ gone) /\ gone <> [] /\
  (forall l1, iterate f t = Ok l1 -> Permutation (map snd l1) kept) /\
  (f = SSE2 \/ f = SSSE3 -> exists l1, iterate f t = Ok l1) /\
  (forall x, In x kept -> contains f key_of hash keq t (key_of x) = Ok true) /\
  (forall x, In x gone -> contains f key_of hash keq t (key_of x) = Ok false).
End Swiss.

(** ** Dense tables. *)
Section Dense.
Import Float32 DenseSpec DenseModel DenseRun.
Context {E K : Type}.
Variable nk : nat.
Variable key_of : nat -> E -> K.
Variable hash : K -> Z.
Variable keq : K -> K -> bool.
Variable rep : E -> E -> E.
Notation dense := (dense E).

(** resize_data -- dense_table.hpp 783-801, with relocate -- utility.hpp 226-231.  The handler
    frees the new array (line 798); the [m] elements moved into it are not destroyed, and their
    sources have been destroyed by relocate (table_common.hpp 268-271). *)
Definition m_resize (m : nat) (lim : Z) (s : dense) (cap : Z) : res (dense * option unit) :=
  if (lim <? cap) || (d_size s <=? Z.of_nat m) then resize_data lim s cap
  else
    let* _ := foldM (relocate_step s cap) (zrange (Z.of_nat m)) (fun _ => None) in
    let* t := foldM kill_node (zrange (Z.of_nat m)) s in Ok (t, None).
(** Insertions -- dense_table.hpp 619-723, and reserve -- lines 358-363: a call in which replacing
    the element array succeeds, or is not needed, is the call of DenseModel.  (maybe_resize --
    lines 802-821.) *)
Definition md_exec (m : nat) (v : denv) (s : dense) (c : dcall E K) : res (dense * dret E) :=
  match c with
  | DInsert _ | DEmplace _ | DAssign _ =>
    if d_cap s =? d_size s then
      let* x := m_resize m (dv_dlim v) s (if d_cap s =? 0 then 1 else d_cap s * 2 mod two64) in
      match snd x with None => Ok (fst x, QThrow) | Some _ => dexec nk key_of hash keq rep v s c end
    else dexec nk key_of hash keq rep v s c
  | DReserve n =>
    if d_cap s <? n then
      let* x := m_resize m (dv_dlim v) s n in
      match snd x with None => Ok (fst x, QThrow) | Some _ => dexec nk key_of hash keq rep v s c end
    else dexec nk key_of hash keq rep v s c
  | _ => dexec nk key_of hash keq rep v s c
  end.

(** The call replaces the element array: a full one by one of twice the length, or one shorter
    than the argument of reserve. *)
Definition replaces (v : denv) (s : dense) (c : dcall E K) : Prop :=
  ((exists e, c = DInsert e \/ c = DEmplace e \/ c = DAssign e) /\ d_size s = d_cap s /\ 2 * d_cap s <= dv_dlim v) \/
  (exists n, c = DReserve n /\ d_cap s < n <= dv_dlim v).
End Dense.
