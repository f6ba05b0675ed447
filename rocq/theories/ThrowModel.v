(** Calls on unordered dense tables during which a function of the user throws. *)
From Coq Require Import ZArith List Bool.
From Verif Require Import Base Float32 DenseSpec DenseModel DenseRun ThrowSpec.
Import ListNotations.
Open Scope Z_scope.

Section Model.
Context {E K : Type}.
Variable nk : nat.
Variable key_of : nat -> E -> K.
Variable hash : K -> Z.
Variable keq : K -> K -> bool.
Variable rep : E -> E -> E.
Notation dense := (dense E).

(** do_insert, do_try_emplace -- dense_table.hpp 648-697.  The keys are hashed and looked up
    (lines 655-656, 681-682) after maybe_resize and maybe_rehash; the lookup writes nothing,
    so it does not matter which of the calls of hash and key_equal throws. *)
Definition t_insert (f : fault) (dlim slim : Z) (s : dense) (e : E) : res (dense * ins_result) :=
  match f with
  | Fine => do_insert nk key_of hash keq dlim slim true s e
  | CtorThrows => do_insert nk key_of hash keq dlim slim false s e
  | SearchThrows => let* x := make_room nk dlim slim s in Ok (fst x, None)
  end.
(** do_emplace -- dense_table.hpp 619-639.  The element is constructed by push_node before its
    keys are hashed (lines 626-629); there is no handler that would call pop_node. *)
Definition t_emplace (f : fault) (dlim slim : Z) (s : dense) (e : E) : res (dense * ins_result) :=
  match f with
  | Fine => do_emplace nk key_of hash keq dlim slim true s e
  | CtorThrows => do_emplace nk key_of hash keq dlim slim false s e
  | SearchThrows =>
    let* x := make_room nk dlim slim s in
    let '(s1, o) := x in
    match o with
    | None => Ok (s1, None)
    | Some _ => let* y := push_node true s1 e in Ok (fst y, None)
    end
  end.
(** do_insert_or_assign -- dense_table.hpp 699-723.  Simplified: the constructor of the mapped
    value that replaces one (line 720) does not throw. *)
Definition t_assign (f : fault) (dlim slim : Z) (s : dense) (e : E) : res (dense * ins_result) :=
  match f with
  | Fine => do_insert_or_assign nk key_of hash keq rep dlim slim true s e
  | CtorThrows => do_insert_or_assign nk key_of hash keq rep dlim slim false s e
  | SearchThrows => let* x := make_room nk dlim slim s in Ok (fst x, None)
  end.

(** One public call -- dense_table.hpp 318-455.  find, contains and erase of a key hash the key
    before anything else (lines 365-370, 429); the other calls use the stored hashes only. *)
Definition texec (f : fault) (v : denv) (s : dense) (c : dcall E K) : res (dense * dret E) :=
  match c with
  | DInsert e => let* x := t_insert f (dv_dlim v) (dv_slim v) s e in give_inserted x
  | DEmplace e => let* x := t_emplace f (dv_dlim v) (dv_slim v) s e in give_inserted x
  | DAssign e => let* x := t_assign f (dv_dlim v) (dv_slim v) s e in give_inserted x
  | DErase _ _ | DFind _ _ | DContains _ _ => match f with SearchThrows => Ok (s, QThrow) | _ => dexec nk key_of hash keq rep v s c end
  | _ => dexec nk key_of hash keq rep v s c
  end.

Fixpoint trun (s : dense) (h : list (fault * denv * dcall E K)) : res (dense * list (dret E)) :=
  match h with
  | [] => Ok (s, [])
  | (f, v, c) :: r =>
    let* x := texec f v s c in
    let '(s1, o) := x in
    let* y := trun s1 r in
    let '(s2, os) := y in Ok (s2, o :: os)
  end.
Definition thistory_ok (h : list (fault * denv * dcall E K)) : Prop :=
  Forall (fun x => denv_ok (snd (fst x)) /\ dcall_ok nk (snd x)) h.

(** The arrays can be made large enough for another element. *)
Definition has_room (v : denv) (s : dense) : Prop := exists s1, make_room nk (dv_dlim v) (dv_slim v) s = Ok (s1, Some tt).

(** Why a call is not covered: as in DenseRun, or a constructor throws that has to be called,
    or the search of emplace throws after it has constructed the element. *)
Definition tblocked (f : fault) (v : denv) (s : dense) (c : dcall E K) : Prop :=
  ~ dcall_pre c (delems s) \/
  (d_bc s = 0 /\ f <> SearchThrows /\ exists j k, c = DErase j k) \/
  (0 < d_bc s /\ exists s', texec f v s c = Ok (s', QThrow) /\ d_sok s' = false) \/
  (f = CtorThrows /\ has_room v s /\
     ((exists e, (c = DInsert e \/ c = DAssign e) /\ dnew nk key_of keq e (delems s)) \/ exists e, c = DEmplace e)) \/
  (f = SearchThrows /\ has_room v s /\ exists e, c = DEmplace e).

(** The tables reached by histories without such a call. *)
Definition treachable (s : dense) : Prop :=
  exists h rs, thistory_ok h /\ trun empty_dense h = Ok (s, rs) /\
    forall h1 f v c h2 s1 rs1, h = h1 ++ (f, v, c) :: h2 -> trun empty_dense h1 = Ok (s1, rs1) -> ~ tblocked f v s1 c.

Definition calls_of (h : list (fault * denv * dcall E K)) : list (fault * dcall E K) := map (fun x => (fst (fst x), snd x)) h.
Definition trefines (s : dense) (l : list E) (h : list (fault * denv * dcall E K)) : Prop :=
  (exists s' rs, trun s h = Ok (s', rs) /\ tspec_run nk key_of keq rep (calls_of h) l (delems s') rs /\ dkeys_distinct nk key_of keq (delems s')) \/
  (exists h1 f v c h2 s1 rs1, h = h1 ++ (f, v, c) :: h2 /\ trun s h1 = Ok (s1, rs1) /\ tspec_run nk key_of keq rep (calls_of h1) l (delems s1) rs1 /\
     tblocked f v s1 c).
End Model.
