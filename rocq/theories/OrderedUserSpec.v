(** What calls on ordered sparse and stable containers should do when user functions throw. *)
From Coq Require Import ZArith List Bool.
From Verif Require Import MapSpec SwissOrderedSpec.
Import ListNotations.
Open Scope Z_scope.

(** The calls of SwissOrderedSpec (ZInsert: insert and try_emplace only) and emplace. *)
Inductive zucall (E K : Type) : Type :=
| ZUCall (c : zcall E K)
| ZUEmplace (e : E).
Arguments ZUCall {E K}. Arguments ZUEmplace {E K}.

(** The calls that hash a key and compare it with others. *)
Definition zsearches {E K} (c : zcall E K) : bool :=
  match c with ZInsert _ | ZAssign _ | ZErase _ | ZFind _ | ZContains _ => true | _ => false end.
Definition zsweeps {E K} (c : zcall E K) : bool := match c with ZEraseIf _ => true | _ => false end.

Section Spec.
Context {E K : Type}.
Variable key_of : E -> K.
Variable keq : K -> K -> bool.
Variable rep : E -> E -> E.
Local Notation step := (zspec key_of keq rep).

(** [n] calls of user functions return, the next one throws.  A search that throws changes
    nothing; if its hash function throws it cannot succeed.  erase_if has treated the first
    [n] elements in the order of insertion. *)
Inductive zuspec (n : nat) : zucall E K -> list E -> list E -> ret E -> Prop :=
| zus_call : forall c l l' r, zsweeps c = false -> (zsearches c = true -> (0 < n)%nat) -> step c l l' r -> zuspec n (ZUCall c) l l' r
| zus_throw : forall c l, zsearches c = true -> zuspec n (ZUCall c) l l RThrow
| zus_emplace : forall e l l' r, (0 < n)%nat -> step (ZInsert e) l l' r -> zuspec n (ZUEmplace e) l l' r
| zus_emplace_throw : forall e l, zuspec n (ZUEmplace e) l l RThrow
| zus_sweep : forall pred l, (length l <= n)%nat ->
    zuspec n (ZUCall (ZEraseIf pred)) l (filter (fun x => negb (pred x)) l) (RNum (Z.of_nat (length (filter pred l))))
| zus_sweep_throw : forall pred l, (n < length l)%nat ->
    zuspec n (ZUCall (ZEraseIf pred)) l (filter (fun x => negb (pred x)) (firstn n l) ++ skipn n l) RThrow.

Inductive zuspec_run : list (nat * zucall E K) -> list E -> list E -> list (ret E) -> Prop :=
| zur_nil : forall l, zuspec_run [] l l []
| zur_cons : forall n c cs l l1 l2 r rs, zuspec n c l l1 r -> zuspec_run cs l1 l2 rs -> zuspec_run ((n, c) :: cs) l l2 (r :: rs).
End Spec.
