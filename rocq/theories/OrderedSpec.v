(** Specification of an ordered dense container: a list of elements in insertion order.
    Nothing here refers to the model of the library. *)
From Coq Require Import ZArith List Bool.
From Verif Require Import DenseSpec.
Import ListNotations.
Open Scope Z_scope.

(** Public calls.  The iterators returned by the erase functions are not used here. *)
Inductive ocall (E K : Type) : Type :=
| OInsert (e : E)                 (* insert, try_emplace *)
| OEmplace (e : E)                (* emplace *)
| OAssign (e : E)                 (* insert_or_assign (one key only) *)
| OErase (j : nat) (k : K)        (* erase<J>(key) *)
| OEraseAt (i : Z)                (* erase(it), it = begin() advanced i times *)
| OFind (j : nat) (k : K)
| OContains (j : nat) (k : K)
| OClear
| OReserve (n : Z)
| ORehash (n : Z)
| OMaxLoad (p q : Z)
| OSize
| OIterate                        (* begin() to end() *)
| OBackwards.                     (* rbegin() to rend() *)
Arguments OInsert {E K}. Arguments OEmplace {E K}. Arguments OAssign {E K}. Arguments OErase {E K}.
Arguments OEraseAt {E K}. Arguments OFind {E K}. Arguments OContains {E K}. Arguments OClear {E K}.
Arguments OReserve {E K}. Arguments ORehash {E K}. Arguments OMaxLoad {E K}. Arguments OSize {E K}.
Arguments OIterate {E K}. Arguments OBackwards {E K}.

Section Spec.
Context {E K : Type}.
Variable nk : nat.
Variable key_of : nat -> E -> K.
Variable keq : K -> K -> bool.
Variable rep : E -> E -> E.
Notation dabsent := (dabsent key_of keq). Notation dlocated := (dlocated key_of keq).
Notation dnew := (dnew nk key_of keq). Notation dclash := (dclash nk key_of keq).

Definition oallocating (c : ocall E K) : bool :=
  match c with OInsert _ | OEmplace _ | OAssign _ | OReserve _ | ORehash _ => true | _ => false end.

Inductive ospec : ocall E K -> list E -> list E -> dret E -> Prop :=
| os_insert_new : forall e l, dnew e l -> ospec (OInsert e) l (l ++ [e]) (QInserted e true)
| os_insert_old : forall e l x, dclash e l x -> ospec (OInsert e) l l (QInserted x false)
| os_emplace_new : forall e l, dnew e l -> ospec (OEmplace e) l (l ++ [e]) (QInserted e true)
| os_emplace_old : forall e l x, dclash e l x -> ospec (OEmplace e) l l (QInserted x false)
| os_assign_new : forall e l, dabsent 0 (key_of 0 e) l -> ospec (OAssign e) l (l ++ [e]) (QInserted e true)
| os_assign_old : forall e l a x b, dlocated 0 (key_of 0 e) l a x b ->
    ospec (OAssign e) l (a ++ rep x e :: b) (QInserted (rep x e) false)
| os_erase_absent : forall j k l, dabsent j k l -> ospec (OErase j k) l l QUnit
| os_erase : forall j k l a x b, dlocated j k l a x b -> ospec (OErase j k) l (a ++ b) QUnit
| os_erase_at : forall a x b, ospec (OEraseAt (Z.of_nat (length a))) (a ++ x :: b) (a ++ b) QUnit
| os_find_absent : forall j k l, dabsent j k l -> ospec (OFind j k) l l (QFound None)
| os_find : forall j k l a x b, dlocated j k l a x b -> ospec (OFind j k) l l (QFound (Some x))
| os_contains_absent : forall j k l, dabsent j k l -> ospec (OContains j k) l l (QBool false)
| os_contains : forall j k l a x b, dlocated j k l a x b -> ospec (OContains j k) l l (QBool true)
| os_clear : forall l, ospec OClear l [] QUnit
| os_reserve : forall n l, ospec (OReserve n) l l QUnit
| os_rehash : forall n l, ospec (ORehash n) l l QUnit
| os_max_load : forall p q l, ospec (OMaxLoad p q) l l QUnit
| os_size : forall l, ospec OSize l l (QNum (Z.of_nat (length l)))
| os_iterate : forall l, ospec OIterate l l (QList l)
| os_backwards : forall l, ospec OBackwards l l (QList (rev l))
| os_throw : forall c l, oallocating c = true -> ospec c l l QThrow.

Inductive ospec_run : list (ocall E K) -> list E -> list E -> list (dret E) -> Prop :=
| or_nil : forall l, ospec_run [] l l []
| or_cons : forall c cs l l1 l2 r rs, ospec c l l1 r -> ospec_run cs l1 l2 rs ->
    ospec_run (c :: cs) l l2 (r :: rs).
End Spec.

(** When erase_if by an array with links is defined.  An array holds [n] elements; [l] lists, in iteration order, those not yet
    visited, each with the slot it had when the call started; [now] maps such a slot to the
    present one.  An erased element is replaced by the one in the last slot.  The next element
    is determined before that, so the loop is lost if it is the one that moves. *)
Fixpoint sweeps {E} (pred : E -> bool) (n : Z) (now : Z -> Z) (l : list (Z * E)) : bool :=
  match l with
  | [] => true
  | (p, x) :: r =>
    if pred x then
      negb (match r with (k, _) :: _ => now k =? n - 1 | [] => false end) &&
      sweeps pred (n - 1) (fun i => if now i =? n - 1 then now p else now i) r
    else sweeps pred n now r
  end.
Definition matches {E} (pred : E -> bool) (l : list E) : Z := Z.of_nat (length (filter pred l)).
