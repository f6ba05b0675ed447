(** How many elements the calls of a history move. *)
From Coq Require Import ZArith List Bool.
From Verif Require Import Base Bits MapSpec SwissModel SwissRun PlaceSpec.
From Verif Require Float32 DenseSpec DenseModel DenseRun.
Import ListNotations.
Open Scope Z_scope.

(** Elements moved by one step of rebuilding a table. *)
Definition ev_moves (x : ev) : Z :=
  match x with EvRehash _ mv => Z.of_nat (length mv) | EvMove _ _ => 1 | EvSwap _ _ => 2 end.
Definition moves (tr : list ev) : Z := fold_right (fun x n => ev_moves x + n) 0 tr.

Section Cost.
Context {E K : Type}.
Variable f : simd.
Variable key_of : E -> K.
Variable hash : K -> Z.
Variable keq : K -> K -> bool.
Variable rep : E -> E -> E.

(** Elements moved by an insertion (also when the constructor of the new element throws
    afterwards): those moved to make room for a key that is absent.  Lookups and erasures move
    none (C61_call). *)
Definition moved (v : env) (s : @swiss E) (c : call E K) : Z :=
  match c with
  | CInsert e | CAssign e =>
    match find_node f key_of keq s (key_of e) (hash (key_of e)) with
    | Ok p =>
      if p =? s_cap s then
        match make_room f (ev_lim v) s (hash (key_of e)) with Ok (_, Some (_, tr)) => moves tr | _ => 0 end
      else 0
    | Err _ => 0
    end
  | _ => 0
  end.
(** Elements moved by the calls of a history. *)
Fixpoint moved_by (s : @swiss E) (h : list (env * call E K)) : Z :=
  match h with
  | [] => 0
  | (v, c) :: r => moved v s c + match exec f key_of hash keq rep v s c with Ok (s1, _) => moved_by s1 r | Err _ => 0 end
  end.
End Cost.

Section Dense.
Import Float32 DenseSpec DenseModel DenseRun.
(** The results of dense containers that tell of an addition, or of a failed one. *)
Definition dadds {E} (r : dret E) : bool := match r with QInserted _ true | QThrow => true | _ => false end.
Definition dadditions {E} (rs : list (dret E)) : Z := Z.of_nat (length (filter dadds rs)).
(** Elements of a dense container moved by an insertion: all of them if the element array is
    replaced, which changes its length d_cap. *)
Definition dmoved {E K} (s : dense E) (c : dcall E K) (t : dense E) : Z :=
  match c with DInsert _ | DEmplace _ | DAssign _ => if d_cap t =? d_cap s then 0 else DenseModel.size s | _ => 0 end.
Fixpoint dmoved_by {E K} nk (key_of : nat -> E -> K) hash keq rep (s : dense E) (h : list (denv * dcall E K)) : Z :=
  match h with
  | [] => 0
  | (v, c) :: r => match dexec nk key_of hash keq rep v s c with Ok (t, _) => dmoved s c t + dmoved_by nk key_of hash keq rep t r | Err _ => 0 end
  end.
End Dense.
