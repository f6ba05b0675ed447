(** What calls on sparse containers should do when the functions of the user throw. *)
From Coq Require Import ZArith List Bool.
From Verif Require Import MapSpec.
Import ListNotations.
Open Scope Z_scope.

(** The calls of MapSpec (CInsert: insert and try_emplace only), emplace, erase_if. *)
Inductive ucall (E K : Type) : Type :=
| UCall (c : call E K)
| UEmplace (e : E)
| UEraseIf (pred : E -> bool).
Arguments UCall {E K}. Arguments UEmplace {E K}. Arguments UEraseIf {E K}.

(** The calls that hash a key and compare it with others. *)
Definition searches {E K} (c : call E K) : bool :=
  match c with CInsert _ | CAssign _ | CErase _ | CFind _ | CContains _ => true | _ => false end.

Section Spec.
Context {E K : Type}.
Variable key_of : E -> K.
Variable keq : K -> K -> bool.
Variable rep : E -> E -> E.
Local Notation step := (spec_step key_of keq rep).

(** [n] calls of user functions return, the next one throws.  A search that throws changes
    nothing, not even the order; erase_if has treated the first [n] elements. *)
Inductive uspec (n : nat) : ucall E K -> list E -> list E -> ret E -> Prop :=
| us_call : forall c l l' r, step c l l' r -> uspec n (UCall c) l l' r
| us_throw : forall c l, searches c = true -> uspec n (UCall c) l l RThrow
| us_emplace : forall e l l' r, step (CInsert e) l l' r -> uspec n (UEmplace e) l l' r
| us_emplace_throw : forall e l, uspec n (UEmplace e) l l RThrow
| us_sweep : forall pred l, (length l <= n)%nat ->
    uspec n (UEraseIf pred) l (filter (fun x => negb (pred x)) l) (RNum (Z.of_nat (length (filter pred l))))
| us_sweep_throw : forall pred l, (n < length l)%nat ->
    uspec n (UEraseIf pred) l (filter (fun x => negb (pred x)) (firstn n l) ++ skipn n l) RThrow.

Inductive uspec_run : list (nat * ucall E K) -> list E -> list E -> list (ret E) -> Prop :=
| ur_nil : forall l, uspec_run [] l l []
| ur_cons : forall n c cs l l1 l2 r rs, uspec n c l l1 r -> uspec_run cs l1 l2 rs -> uspec_run ((n, c) :: cs) l l2 (r :: rs).
End Spec.
