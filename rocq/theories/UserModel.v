(** Calls on unordered sparse tables during which a function of the user throws: the hash
    function, key_equal, the predicate of erase_if.  Line numbers: swiss_table.hpp.

    Every operation takes the number [n] of calls of such functions that return during the
    call; the next one throws.  Growth and rehash_deleted use the stored hashes
    (lines 1385, 1416) and call no such function.  Moves of elements do not throw here (C65).

    The operations also give the change in the number of live element objects. *)
From Coq Require Import ZArith List Bool.
From Verif Require Import Base Bits MapSpec SwissModel SwissRun UserSpec.
Import ListNotations.
Open Scope Z_scope.

Section Model.
Context {E K : Type}.
Variable f : simd.
Variable key_of : E -> K.
Variable hash : K -> Z.
Variable keq : K -> K -> bool.
Variable rep : E -> E -> E.
Notation swiss := (@swiss E).

(** find_node -- lines 1209-1234.  [None]: key_equal threw (line 1224); otherwise the number
    of calls left and the result. *)
Fixpoint u_scan (n : nat) (s : swiss) (k : K) (p : Z * Z) (lanes : list Z) {struct lanes} : res (option (nat * option Z)) :=
  match lanes with
  | [] => Ok (Some (n, None))
  | l :: r =>
    let off := probe_off (s_cap s) p l in
    let* x := get_node s off in
    match n with
    | O => Ok None
    | S n' => if keq (key_of (fst x)) k then Ok (Some (n', Some off)) else u_scan n' s k p r
    end
  end.
Fixpoint u_find_loop (fuel n : nat) (s : swiss) (k : K) (h : Z) (p : Z * Z) : res (option (nat * Z)) :=
  match fuel with
  | O => Err Diverges
  | S fu =>
    let* blk := load_block f s (snd p) in
    let* lanes := eq_lanes f blk (h2_of h) in
    let* x := u_scan n s k p lanes in
    match x with
    | None => Ok None
    | Some (n', Some off) => Ok (Some (n', off))
    | Some (n', None) =>
      if negb (mask_is_empty (match_empty f blk)) then Ok (Some (n', s_cap s))
      else let* _ := assert_probe s (fst p) in u_find_loop fu n' s k h (probe_next f (s_cap s) p)
    end
  end.
(** find_node(key, hash(key)), as every call on a key begins (lines 933-938, 1055, 1332-1333,
    1342-1343, 1351-1352). *)
Definition search (n : nat) (s : swiss) (k : K) : res (option (nat * Z)) :=
  match n with
  | O => Ok None
  | S n' =>
    if s_size s =? 0 then Ok (Some (n', s_cap s))
    else u_find_loop (probe_fuel f s) n' s k (hash k) (probe_start (s_cap s) (hash k))
  end.

(** emplace_node in do_insert, do_try_emplace, do_insert_or_assign -- lines 1330-1354: one
    object is constructed if the call ends normally. *)
Definition u_new (v : env) (s : swiss) (e : E) : res (swiss * ins_result * Z) :=
  let* r := emplace_node f (ev_lim v) (ev_ctor v) s (hash (key_of e)) e in
  let '(s1, o) := r in
  Ok (match o with None => (s1, None, 0) | Some (q, tr) => (s1, Some (q, true, tr), 1) end).
(** do_insert and do_try_emplace -- lines 1330-1347. *)
Definition u_insert (n : nat) (v : env) (s : swiss) (e : E) : res (swiss * ins_result * Z) :=
  let* x := search n s (key_of e) in
  match x with
  | None => Ok (s, None, 0)
  | Some (_, p) => if p =? s_cap s then u_new v s e else Ok (s, Some (p, false, []), 0)
  end.
(** do_emplace -- lines 1318-1329: [tmp] is constructed first; do_insert moves its object to the
    table (packed nodes: construct and, at line 1327, destroy the object left in [tmp]; stable
    nodes: the pointer is passed on) or leaves it to line 1327, which destroys it.  An exception
    in do_insert skips line 1327, and bucket_node has no destructor that destroys the object. *)
Definition u_emplace (n : nat) (v : env) (s : swiss) (e : E) : res (swiss * ins_result * Z) :=
  if ev_ctor v then
    let* x := u_insert n (mkenv (ev_lim v) true) s e in
    let '(s1, o, d) := x in
    Ok (s1, o, match o with None => 1 + d | Some _ => 1 + d - 1 end)
  else Ok (s, None, 0).
(** do_insert_or_assign -- lines 1348-1360.  The constructor of the mapped value (line 1356)
    does not throw here (C58). *)
Definition u_assign (n : nat) (v : env) (s : swiss) (e : E) : res (swiss * ins_result * Z) :=
  let* x := search n s (key_of e) in
  match x with
  | None => Ok (s, None, 0)
  | Some (_, p) =>
    if p =? s_cap s then u_new v s e
    else
      let* y := get_node s p in
      Ok (mk (s_buf s) (s_cap s) (s_meta s) (upd (s_nodes s) p (Some (rep (fst y) e, snd y))) (s_size s) (s_nempty s), Some (p, false, []), 0)
  end.
Definition u_given (x : swiss * ins_result * Z) : res (swiss * ret E * Z) :=
  let '(s, o, d) := x in let* y := give_inserted f (s, o) in Ok (y, d).
(** erase(key) -- lines 1052-1059, 1361-1368. *)
Definition u_erase (n : nat) (s : swiss) (k : K) : res (swiss * ret E * Z) :=
  let* x := search n s k in
  match x with
  | None => Ok (s, RThrow, 0)
  | Some (_, p) =>
    if p =? s_cap s then let* l := end_iter f s in let* o := deref f s l in Ok (s, RErased o false, 0)
    else
      let* r := do_erase f s p in
      let '(s1, q) := r in
      let* o := deref f s1 q in Ok (s1, RErased o true, -1)
  end.
(** find, contains -- lines 932-938. *)
Definition u_find (n : nat) (s : swiss) (k : K) : res (swiss * ret E * Z) :=
  let* x := search n s k in
  match x with
  | None => Ok (s, RThrow, 0)
  | Some (_, p) => let* q := to_iter f s p in let* o := deref f s q in Ok (s, RFound o, 0)
  end.
Definition u_contains (n : nat) (s : swiss) (k : K) : res (swiss * ret E * Z) :=
  let* x := search n s k in
  match x with
  | None => Ok (s, RThrow, 0)
  | Some (_, p) => Ok (s, RBool (negb (p =? s_cap s)), 0)
  end.
(** clear -- lines 916-929: the objects in occupied slots are destroyed. *)
Definition u_clear (s : swiss) : res (swiss * ret E * Z) :=
  let* s1 := clear f s in
  Ok (s1, RUnit, if s_size s =? 0 then 0 else - Z.of_nat (length (filter (fun i => is_occupied (s_meta s i)) (zrange (s_cap s))))).

(** erase_if -- sparse_map.hpp 574-589: the predicate may throw at each element; [None] if it
    does.  The last result is the number of elements erased. *)
Fixpoint u_sweep (fuel n : nat) (pred : E -> bool) (s : swiss) (p last cnt : Z) : res (swiss * bool * Z) :=
  match fuel with
  | O => Err Diverges
  | S fu =>
    if p =? last then Ok (s, true, cnt)
    else
      let* x := get_node s p in
      match n with
      | O => Ok (s, false, cnt)
      | S n' =>
        if pred (fst x) then
          let* r := erase_at f s p in
          let '(s1, q) := r in u_sweep fu n' pred s1 q last (cnt + 1)
        else
          let* q := iter_next f s p in u_sweep fu n' pred s q last cnt
      end
  end.
Definition u_erase_if (n : nat) (pred : E -> bool) (s : swiss) : res (swiss * ret E * Z) :=
  let* p := begin_iter f s in
  let* l := end_iter f s in
  let* x := u_sweep (iter_fuel s) n pred s p l 0 in
  let '(s1, b, m) := x in Ok (s1, if b then RNum m else RThrow, - m).

(** One call: new table, result, change in the number of live objects. *)
Definition uexec (n : nat) (v : env) (s : swiss) (c : ucall E K) : res (swiss * ret E * Z) :=
  match c with
  | UCall (CInsert e) => let* x := u_insert n v s e in u_given x
  | UCall (CAssign e) => let* x := u_assign n v s e in u_given x
  | UCall (CErase k) => u_erase n s k
  | UCall (CFind k) => u_find n s k
  | UCall (CContains k) => u_contains n s k
  | UCall CClear => u_clear s
  | UCall c => let* x := exec f key_of hash keq rep v s c in Ok (x, 0)
  | UEmplace e => let* x := u_emplace n v s e in u_given x
  | UEraseIf pred => u_erase_if n pred s
  end.
(** A sequence of calls; the last result is the number of live objects, [m] at the start. *)
Fixpoint urun (s : swiss) (m : Z) (h : list (nat * env * ucall E K)) : res (swiss * list (ret E) * Z) :=
  match h with
  | [] => Ok (s, [], m)
  | (n, v, c) :: r =>
    let* x := uexec n v s c in
    let '(s1, o, d) := x in
    let* y := urun s1 (m + d) r in
    let '(s2, os, m2) := y in Ok (s2, o :: os, m2)
  end.

Definition uscanning (c : ucall E K) : Prop :=
  match c with UCall c => scanning c | UEmplace _ => False | UEraseIf _ => True end.
Definition ucall_ok (c : ucall E K) : Prop := match c with UCall c => call_ok c | _ => True end.
Definition uhistory_ok (h : list (nat * env * ucall E K)) : Prop :=
  Forall (fun x => env_ok (snd (fst x)) /\ ucall_ok (snd x)) h.
Definition ucalls_of (h : list (nat * env * ucall E K)) : list (nat * ucall E K) := map (fun x => (fst (fst x), snd x)) h.

(** The calls of emplace left by an exception after the element was constructed. *)
Definition leaky (v : env) (c : ucall E K) (r : ret E) : bool :=
  match c, r with UEmplace _, RThrow => ev_ctor v | _, _ => false end.
Fixpoint leaks (h : list (nat * env * ucall E K)) (rs : list (ret E)) : Z :=
  match h, rs with
  | (_, v, c) :: h', r :: rs' => (if leaky v c r then 1 else 0) + leaks h' rs'
  | _, _ => 0
  end.

(** merge -- lines 1096-1113 (unordered).  The lambda is noexcept: an exception in it, also one of
    emplace_node for lack of memory, ends the program. *)
Fixpoint u_merge_loop (fuel n : nat) (lim : Z) (s o : swiss) (p last : Z) : res (swiss * swiss * bool) :=
  match fuel with
  | O => Err Diverges
  | S fu =>
    if p =? last then Ok (s, o, true)
    else
      let* x := get_node o p in
      let k := key_of (fst x) in
      let* y := search n s k in
      match y with
      | None => Err Terminated
      | Some (n', q) =>
        if q =? s_cap s then
          let* z := do_extract f o p in
          let '(o1, e) := z in
          let* r := emplace_node f lim true s (hash k) e in
          let '(s1, oo) := r in
          match oo with
          | None => Err Terminated
          | Some _ => let* p' := iter_next f o1 p in u_merge_loop fu n' lim s1 o1 p' last
          end
        else let* p' := iter_next f o p in u_merge_loop fu n' lim s o p' last
      end
  end.
Definition u_merge (n : nat) (lim : Z) (s o : swiss) : res (swiss * swiss * bool) :=
  let* x := reserve f lim s (add64 (s_size s) (s_size o)) in
  let '(s1, r) := x in
  match r with
  | None => Ok (s1, o, false)
  | Some _ =>
    let* p := begin_iter f o in
    let* l := end_iter f o in
    u_merge_loop (iter_fuel o) n lim s1 o p l
  end.
End Model.
