(** Running sequences of public calls on the model of the unordered open-addressing table.
    Iterators returned by the calls are dereferenced, as a caller would, so that results
    are elements. *)
From Coq Require Import ZArith List Bool.
From Verif Require Import Base Bits MapSpec SwissModel.
Import ListNotations.
Open Scope Z_scope.

(** The environment of one call: the largest bucket count the allocator can supply during
    the call, and whether constructing the new element succeeds. *)
Record env := mkenv { ev_lim : Z; ev_ctor : bool }.

(** The calls that scan metadata groups for the next element. *)
Definition scanning {E K} (c : call E K) : Prop :=
  match c with CErase _ | CIterate => True | _ => False end.

(** Arguments of the calls: counts are 64-bit numbers; rehash(0) is excluded. *)
Definition call_ok {E K} (c : call E K) : Prop :=
  match c with
  | CReserve n => 0 <= n < 2 ^ 64
  | CRehash n => 0 < n < 2 ^ 64
  | _ => True
  end.

(** No allocator supplies 2^59 slots (each takes at least 17 bytes). *)
Definition env_ok (v : env) : Prop := ev_lim v < 2 ^ 59.

Definition history_ok {E K} (h : list (env * call E K)) : Prop :=
  Forall (fun vc => env_ok (fst vc) /\ call_ok (snd vc)) h.

Section Run.
Context {E K : Type}.
Variable f : simd.
Variable key_of : E -> K.
Variable hash : K -> Z.
Variable keq : K -> K -> bool.
Variable rep : E -> E -> E.

(** Dereferencing a returned iterator after comparing it with end(). *)
Definition deref (s : swiss) (p : Z) : res (option E) :=
  let* l := end_iter f s in
  if p =? l then Ok None else let* n := get_node s p in Ok (Some (fst n)).

(** The pair returned by insert and friends -- swiss_table.hpp 950-1051 make an iterator
    from the node position. *)
Definition give_inserted (x : @swiss E * ins_result) : res (@swiss E * ret E) :=
  let '(s, o) := x in
  match o with
  | None => Ok (s, RThrow)
  | Some (p, b, _) =>
    let* q := to_iter f s p in
    let* n := get_node s q in
    Ok (s, RInserted (fst n) b)
  end.
Definition give_unit (x : @swiss E * option (list ev)) : res (@swiss E * ret E) :=
  let '(s, o) := x in Ok (s, match o with None => RThrow | Some _ => RUnit end).

(** One public call -- swiss_table.hpp 898-1059, 1124-1131. *)
Definition exec (v : env) (s : @swiss E) (c : call E K) : res (@swiss E * ret E) :=
  match c with
  | CInsert e => let* x := do_insert f key_of hash keq (ev_lim v) (ev_ctor v) s e in give_inserted x
  | CAssign e => let* x := do_insert_or_assign f key_of hash keq rep (ev_lim v) (ev_ctor v) s e in give_inserted x
  | CErase k =>
    let* x := erase_key f key_of hash keq s k in
    let '(s1, p, b) := x in
    let* o := deref s1 p in Ok (s1, RErased o b)
  | CFind k => let* o := find f key_of hash keq s k in Ok (s, RFound o)
  | CContains k => let* b := contains f key_of hash keq s k in Ok (s, RBool b)
  | CClear => let* s1 := clear f s in Ok (s1, RUnit)
  | CReserve n => let* x := reserve f (ev_lim v) s n in give_unit x
  | CRehash n => let* x := rehash f (ev_lim v) s n in give_unit x
  | CSize => Ok (s, RNum (size s))
  | CIterate => let* l := iterate f s in Ok (s, RList (map snd l))
  end.

Fixpoint run (s : @swiss E) (h : list (env * call E K)) : res (@swiss E * list (ret E)) :=
  match h with
  | [] => Ok (s, [])
  | (v, c) :: r =>
    let* x := exec v s c in
    let '(s1, o) := x in
    let* y := run s1 r in
    let '(s2, os) := y in Ok (s2, o :: os)
  end.

(** The tables reached from a default-constructed one by such histories. *)
Definition reachable (s : @swiss E) : Prop := exists h rs, history_ok h /\ run empty_swiss h = Ok (s, rs).

(** Slot p of the table holds the element e. *)
Definition holds (s : @swiss E) (p : Z) (e : E) : Prop := 0 <= p < s_cap s /\ exists h, s_nodes s p = Some (e, h).
End Run.
