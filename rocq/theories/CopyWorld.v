(** Running programs that use several unordered sparse or stable containers and copy them. *)
From Coq Require Import ZArith List Bool Arith.
From Verif Require Import Base Bits MapSpec WorldSpec CopyWorldSpec SwissModel SwissInv SwissRun World.
Import ListNotations.
Open Scope Z_scope.

(** Admissible statements: a container is not constructed from itself. *)
Definition pcall_ok {E K} (c : pcall E K) : Prop :=
  match c with
  | PDo c => wcall_ok c
  | PCopyNew i j => i <> j
  | PCopy _ _ => True
  end.
Definition phistory_ok {E K} (h : list (env * pcall E K)) : Prop :=
  Forall (fun vc => env_ok (fst vc) /\ pcall_ok (snd vc)) h.

Section World.
Context {E K : Type}.
Variable f : simd.
Variable key_of : E -> K.
Variable hash : K -> Z.
Variable keq : K -> K -> bool.
Variable rep : E -> E -> E.
Variable clone : E -> E.
(** propagate_on_container_copy_assignment of the allocator (false for std::allocator). *)
Variable pocca : bool.

Local Notation world := (@world E).

(** One statement.  Copy construction: swiss_table.hpp 848-849 (if it throws there is no
    object; the program then uses a default constructed one); copy assignment: lines 856-869
    (assignment to itself is skipped, line 858).  The rest is World.v; allocators compare
    equal and propagate on move assignment, as std::allocator does. *)
Definition pexec (v : env) (w : world) (c : pcall E K) : res (world * wret E) :=
  match c with
  | PDo c => wexec f key_of hash keq rep v w c
  | PCopyNew i j =>
    let* x := copy_ctor f clone (ev_lim v) (w_c w j) in
    let '(s, b) := x in
    if b : bool then Ok (mkw (setn (w_c w) i s) (w_h w), WDone)
    else Ok (mkw (setn (w_c w) i empty_swiss) (w_h w), WThrow)
  | PCopy i j =>
    if Nat.eqb i j then Ok (w, WDone)
    else
      let* x := copy_assign f clone pocca (ev_lim v) (w_c w i) (w_c w j) in
      let '(s, b) := x in Ok (mkw (setn (w_c w) i s) (w_h w), if b : bool then WDone else WThrow)
  end.

Fixpoint prun (w : world) (h : list (env * pcall E K)) : res (world * list (wret E)) :=
  match h with
  | [] => Ok (w, [])
  | (v, c) :: r =>
    let* x := pexec v w c in
    let '(w1, o) := x in
    let* y := prun w1 r in
    let '(w2, os) := y in Ok (w2, o :: os)
  end.

(** The statement completes, but [ci] does not find the key of an element of [cj]. *)
Definition ploses (v : env) (w : world) (c : pcall E K) (i j : nat) : Prop :=
  exists w' x, pexec v w c = Ok (w', WDone) /\ In x (elems (w_c w j)) /\
    contains f key_of hash keq (w_c w' i) (key_of x) <> Ok true.

(** Statements that are not covered: the undefined bit scan of C22 on NEON and portable
    builds; a merge refused memory inside its noexcept transfer (C47); a copy that loses
    elements (C07); and, unless the allocator propagates, copy assignment to a container
    with more buckets (C08), of an empty container to one that has or had elements (C09), or
    refused memory after the buffer of the target was released (C27). *)
Definition pblocked (v : env) (w : world) (c : pcall E K) : Prop :=
  match c with
  | PDo c =>
    ((f = NEON \/ f = WORD) /\ wscanning c /\ wexec f key_of hash keq rep v w c = Err BitScanZero) \/
    (exists i j, c = WMerge i j /\ bucket_count (w_c w i) = 0 /\ elems (w_c w j) <> [] /\ wexec f key_of hash keq rep v w c = Err Terminated)
  | PCopyNew i j => ploses v w c i j
  | PCopy i j =>
    i <> j /\
    (pocca = false /\
       ((elems (w_c w j) <> [] /\ bucket_count (w_c w j) < bucket_count (w_c w i)) \/
        (elems (w_c w j) = [] /\ exists k, 0 <= k < bucket_count (w_c w i) /\ s_meta (w_c w i) k <> m_empty) \/
        (bucket_count (w_c w i) <> 0 /\ exists w', pexec v w c = Ok (w', WThrow))) \/
     ploses v w c i j)
  end.

(** The containers that occur in programs without such a statement. *)
Definition poccurs (s : @swiss E) : Prop :=
  exists h w rs i, phistory_ok h /\ prun winit h = Ok (w, rs) /\ s = w_c w i /\
    forall h1 v c h2 w1 rs1, h = h1 ++ (v, c) :: h2 -> prun winit h1 = Ok (w1, rs1) -> ~ pblocked v w1 c.
End World.
