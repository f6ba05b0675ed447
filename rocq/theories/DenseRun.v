(** Running sequences of public calls on the model of the unordered dense table.  Iterators
    returned by the calls are compared with end() and dereferenced, so that results are
    elements. *)
From Coq Require Import ZArith List Bool.
From Verif Require Import Base Float32 DenseSpec DenseModel.
Import ListNotations.
Open Scope Z_scope.

(** The environment of one call: the largest element array and the largest bucket array the
    allocator can supply during the call. *)
Record denv := mkdv { dv_dlim : Z; dv_slim : Z }.
(** An element node takes at least 17 bytes and a bucket 8. *)
Definition denv_ok (v : denv) : Prop := dv_dlim v < 2 ^ 59 /\ dv_slim v < 2 ^ 60.

(** Arguments: key indices exist, counts are 64-bit numbers (below 2^59 for reserve, where
    larger counts make the conversion of n / max_load_factor to an integer undefined), max
    load factors are at least 1/16; insert_or_assign needs a single key. *)
Definition dcall_ok {E K} (nk : nat) (c : dcall E K) : Prop :=
  match c with
  | DErase j _ | DFind j _ | DContains j _ => (j < nk)%nat
  | DAssign _ => nk = 1%nat
  | DReserve n => 0 <= n < 2 ^ 59
  | DRehash n => 0 <= n < 2 ^ 64
  | DMaxLoad p q => 0 < p /\ 0 < q /\ q <= 16 * p
  | _ => True
  end.
Definition dhistory_ok {E K} (nk : nat) (h : list (denv * dcall E K)) : Prop :=
  Forall (fun vc => denv_ok (fst vc) /\ dcall_ok nk (snd vc)) h.
(** Iterator arguments must be valid for the current contents. *)
Definition dcall_pre {E K} (c : dcall E K) (l : list E) : Prop :=
  match c with
  | DEraseAt i => 0 <= i < Z.of_nat (length l)
  | DEraseRange a b => 0 <= a <= b /\ b <= Z.of_nat (length l)
  | _ => True
  end.

Section Run.
Context {E K : Type}.
Variable nk : nat.
Variable key_of : nat -> E -> K.
Variable hash : K -> Z.
Variable keq : K -> K -> bool.
Variable rep : E -> E -> E.

Definition at_pos (s : dense E) (p : Z) : res (option E) :=
  if p =? d_size s then Ok None else let* n := get_node s p in Ok (Some (n_val n)).
Definition give_inserted (x : dense E * ins_result) : res (dense E * dret E) :=
  let '(s, o) := x in
  match o with
  | None => Ok (s, QThrow)
  | Some (p, b) => let* n := get_node s p in Ok (s, QInserted (n_val n) b)
  end.
Definition give_next (x : dense E * Z) : res (dense E * dret E) :=
  let '(s, p) := x in let* o := at_pos s p in Ok (s, QNext o).
Definition give_unit (x : dense E * option unit) : res (dense E * dret E) :=
  let '(s, o) := x in Ok (s, match o with None => QThrow | Some _ => QUnit end).

(** One public call -- dense_table.hpp 318-455. *)
Definition dexec (v : denv) (s : dense E) (c : dcall E K) : res (dense E * dret E) :=
  match c with
  | DInsert e => let* x := do_insert nk key_of hash keq (dv_dlim v) (dv_slim v) true s e in give_inserted x
  | DEmplace e => let* x := do_emplace nk key_of hash keq (dv_dlim v) (dv_slim v) true s e in give_inserted x
  | DAssign e => let* x := do_insert_or_assign nk key_of hash keq rep (dv_dlim v) (dv_slim v) true s e in give_inserted x
  | DErase j k => let* x := erase_key nk key_of hash keq s j k in give_next x
  | DEraseAt i => let* x := erase_at nk s i in give_next x
  | DEraseRange a b => let* x := erase_range nk s a b in give_next x
  | DFind j k => let* o := find key_of hash keq s j k in Ok (s, QFound o)
  | DContains j k => let* b := contains key_of hash keq s j k in Ok (s, QBool b)
  | DClear => let* s1 := clear s in Ok (s1, QUnit)
  | DReserve n => let* x := reserve nk (dv_dlim v) (dv_slim v) s n in give_unit x
  | DRehash n => let* x := rehash nk (dv_slim v) s n in give_unit x
  | DMaxLoad p q => Ok (set_mlf s (p, q), QUnit)
  | DSize => Ok (s, QNum (size s))
  | DIterate => let* l := iterate s in Ok (s, QList l)
  end.

Fixpoint drun (s : dense E) (h : list (denv * dcall E K)) : res (dense E * list (dret E)) :=
  match h with
  | [] => Ok (s, [])
  | (v, c) :: r =>
    let* x := dexec v s c in
    let '(s1, o) := x in
    let* y := drun s1 r in
    let '(s2, os) := y in Ok (s2, o :: os)
  end.

(** The elements in the slots 0 .. size-1. *)
Definition delems (s : dense E) : list E :=
  flat_map (fun i => match d_nodes s i with Some n => [n_val n] | None => [] end) (zrange (d_size s)).

(** Why a call of a history is not covered: the caller passed an iterator that is not valid,
    or called erase(key) on a container that has no buckets yet, or the allocator failed to
    supply a larger bucket array. *)
Definition blocked (v : denv) (s : dense E) (c : dcall E K) : Prop :=
  ~ dcall_pre c (delems s) \/
  (d_bc s = 0 /\ exists j k, c = DErase j k) \/
  (0 < d_bc s /\ exists s', dexec v s c = Ok (s', QThrow) /\ d_sok s' = false).

(** The tables reached by histories without such a call. *)
Definition dreachable (s : dense E) : Prop :=
  exists h rs, dhistory_ok nk h /\ drun empty_dense h = Ok (s, rs) /\ d_sok s = true /\
    forall h1 v c h2 s1 rs1, h = h1 ++ (v, c) :: h2 -> drun empty_dense h1 = Ok (s1, rs1) -> ~ blocked v s1 c.

(** The table answers a history as the list [l] does, up to the first call that is not
    covered, if there is one; once an insertion has returned, the table has buckets. *)
Definition drefines (s : dense E) (l : list E) (h : list (denv * dcall E K)) : Prop :=
  (exists s' rs, drun s h = Ok (s', rs) /\ dspec_run nk key_of keq rep (map snd h) l (delems s') rs /\ dkeys_distinct nk key_of keq (delems s')) \/
  (exists h1 v c h2 s1 rs1, h = h1 ++ (v, c) :: h2 /\ drun s h1 = Ok (s1, rs1) /\ dspec_run nk key_of keq rep (map snd h1) l (delems s1) rs1 /\
     blocked v s1 c /\ forall e b, In (QInserted e b) rs1 -> 0 < d_bc s1).
End Run.
