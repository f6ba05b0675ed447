(** Model of calls with another key type on unordered sparse and stable tables: the
    templates of tpp/detail/swiss_table.hpp instantiated with a key argument of type T.  Keys
    in comparisons are of either type; the left operand is always the key of a node (line
    1224).  Line numbers refer to swiss_table.hpp. *)
From Coq Require Import ZArith List Bool.
From Verif Require Import Base Bits MapSpec TransparentSpec SwissModel SwissRun.
Import ListNotations.
Open Scope Z_scope.

Definition tscanning {E K T V} (c : tcall E K T V) : Prop :=
  match c with TOn c => scanning c | TErase _ => True | _ => False end.
Definition tcall_ok {E K T V} (c : tcall E K T V) : Prop := match c with TOn c => call_ok c | _ => True end.
Definition thistory_ok {E K T V} (h : list (env * tcall E K T V)) : Prop :=
  Forall (fun vc => env_ok (fst vc) /\ tcall_ok (snd vc)) h.

Section Transparent.
Context {E K T V : Type}.
Variable f : simd.
Variable key_of : E -> K.
Variable hash : K -> Z.
Variable keq : K -> K -> bool.
Variable rep : E -> E -> E.
Variable hasht : T -> Z.
Variable eqt : K -> T -> bool.
(** The element made from the key argument and the mapped value (the emplace_node calls of
    lines 1330-1359: piecewise construction from the key and the value). *)
Variable make : T -> V -> E.

(** hash() and cmp() -- lines 1149-1152, overloaded on the type of the key. *)
Definition either_key (e : E) : K + T := inl (key_of e).
Definition either_hash (k : K + T) : Z := match k with inl k => hash k | inr t => hasht t end.
Definition either_eq (a b : K + T) : bool :=
  match a, b with inl a, inl b => keq a b | inl a, inr t => eqt a t | _, _ => false end.

(** do_try_emplace -- lines 1330-1338: the node keeps the hash of [t]. *)
Definition t_try (lim : Z) (ctor_ok : bool) (s : @swiss E) (t : T) (v : V) : res (@swiss E * ins_result) :=
  let h := hasht t in
  let* p := find_node f either_key either_eq s (inr t) h in
  if p =? s_cap s then
    let* r := emplace_node f lim ctor_ok s h (make t v) in
    let '(s1, o) := r in
    Ok (s1, match o with None => None | Some (q, tr) => Some (q, true, tr) end)
  else Ok (s, Some (p, false, [])).
(** do_insert_or_assign -- lines 1348-1359. *)
Definition t_assign (lim : Z) (ctor_ok : bool) (s : @swiss E) (t : T) (v : V) : res (@swiss E * ins_result) :=
  let h := hasht t in
  let* p := find_node f either_key either_eq s (inr t) h in
  if p =? s_cap s then
    let* r := emplace_node f lim ctor_ok s h (make t v) in
    let '(s1, o) := r in
    Ok (s1, match o with None => None | Some (q, tr) => Some (q, true, tr) end)
  else
    let* n := get_node s p in
    Ok (mk (s_buf s) (s_cap s) (s_meta s) (upd (s_nodes s) p (Some (rep (fst n) (make t v), snd n)))
           (s_size s) (s_nempty s), Some (p, false, [])).

(** One call; find, contains, erase(key) -- lines 932-938, 1052-1059. *)
Definition texec (v : env) (s : @swiss E) (c : tcall E K T V) : res (@swiss E * ret E) :=
  match c with
  | TOn c => exec f key_of hash keq rep v s c
  | TFind t => let* o := find f either_key either_hash either_eq s (inr t) in Ok (s, RFound o)
  | TContains t => let* b := contains f either_key either_hash either_eq s (inr t) in Ok (s, RBool b)
  | TErase t =>
    let* x := erase_key f either_key either_hash either_eq s (inr t) in
    let '(s1, p, b) := x in
    let* o := deref f s1 p in Ok (s1, RErased o b)
  | TTry t u => let* x := t_try (ev_lim v) (ev_ctor v) s t u in give_inserted f x
  | TAssign t u => let* x := t_assign (ev_lim v) (ev_ctor v) s t u in give_inserted f x
  end.

Fixpoint trun (s : @swiss E) (h : list (env * tcall E K T V)) : res (@swiss E * list (ret E)) :=
  match h with
  | [] => Ok (s, [])
  | (v, c) :: r =>
    let* x := texec v s c in
    let '(s1, o) := x in
    let* y := trun s1 r in
    let '(s2, os) := y in Ok (s2, o :: os)
  end.
End Transparent.
