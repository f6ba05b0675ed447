(** Specification of an ordered sparse or stable container: a list of elements in insertion
    order.  Nothing here refers to the model of the library. *)
From Coq Require Import ZArith List Bool.
From Verif Require Import MapSpec.
Import ListNotations.
Open Scope Z_scope.

(** Public calls. *)
Inductive zcall (E K : Type) : Type :=
| ZInsert (e : E)                 (* insert, emplace, try_emplace *)
| ZAssign (e : E)                 (* insert_or_assign *)
| ZErase (k : K)                  (* erase(key) *)
| ZEraseAt (i : Z)                (* erase(it), it = begin() advanced i times *)
| ZEraseRange (i j : Z)           (* erase(first, last), begin() advanced i and j times *)
| ZEraseIf (pred : E -> bool)     (* erase_if(c, pred) *)
| ZFind (k : K)
| ZContains (k : K)
| ZFront
| ZBack
| ZClear
| ZReserve (n : Z)
| ZRehash (n : Z)
| ZSize
| ZIterate                        (* begin() to end() *)
| ZBackwards.                     (* rbegin() to rend() *)
Arguments ZInsert {E K}. Arguments ZAssign {E K}. Arguments ZErase {E K}. Arguments ZEraseAt {E K}.
Arguments ZEraseRange {E K}. Arguments ZEraseIf {E K}. Arguments ZFind {E K}. Arguments ZContains {E K}.
Arguments ZFront {E K}. Arguments ZBack {E K}. Arguments ZClear {E K}. Arguments ZReserve {E K}.
Arguments ZRehash {E K}. Arguments ZSize {E K}. Arguments ZIterate {E K}. Arguments ZBackwards {E K}.

Section Spec.
Context {E K : Type}.
Variable key_of : E -> K.
Variable keq : K -> K -> bool.
Variable rep : E -> E -> E.
Notation absent := (absent key_of keq). Notation located := (located key_of keq).

(** One call: contents before, contents after, result.  Elements stand for the iterators
    pointing to them, [None] for end(); the erase functions give the element that followed
    the erased ones.  Calls that allocate may throw and then leave the contents alone. *)
Inductive zspec : zcall E K -> list E -> list E -> ret E -> Prop :=
| zs_insert_new : forall e l, absent (key_of e) l -> zspec (ZInsert e) l (l ++ [e]) (RInserted e true)
| zs_insert_old : forall e l a x b, located (key_of e) l a x b -> zspec (ZInsert e) l l (RInserted x false)
| zs_assign_new : forall e l, absent (key_of e) l -> zspec (ZAssign e) l (l ++ [e]) (RInserted e true)
| zs_assign_old : forall e l a x b, located (key_of e) l a x b ->
    zspec (ZAssign e) l (a ++ rep x e :: b) (RInserted (rep x e) false)
| zs_erase_absent : forall k l, absent k l -> zspec (ZErase k) l l (RErased None false)
| zs_erase : forall k l a x b, located k l a x b -> zspec (ZErase k) l (a ++ b) (RErased (hd_error b) true)
| zs_erase_at : forall a x b,
    zspec (ZEraseAt (Z.of_nat (length a))) (a ++ x :: b) (a ++ b) (RErased (hd_error b) true)
| zs_erase_range : forall a m b,
    zspec (ZEraseRange (Z.of_nat (length a)) (Z.of_nat (length (a ++ m)))) (a ++ m ++ b) (a ++ b) (RErased (hd_error b) true)
| zs_erase_if : forall pred l,
    zspec (ZEraseIf pred) l (filter (fun x => negb (pred x)) l) (RNum (Z.of_nat (length (filter pred l))))
| zs_find_absent : forall k l, absent k l -> zspec (ZFind k) l l (RFound None)
| zs_find : forall k l a x b, located k l a x b -> zspec (ZFind k) l l (RFound (Some x))
| zs_contains_absent : forall k l, absent k l -> zspec (ZContains k) l l (RBool false)
| zs_contains : forall k l a x b, located k l a x b -> zspec (ZContains k) l l (RBool true)
| zs_front : forall x l, zspec ZFront (x :: l) (x :: l) (RFound (Some x))
| zs_back : forall x l, zspec ZBack (l ++ [x]) (l ++ [x]) (RFound (Some x))
| zs_clear : forall l, zspec ZClear l [] RUnit
| zs_reserve : forall n l, zspec (ZReserve n) l l RUnit
| zs_rehash : forall n l, zspec (ZRehash n) l l RUnit
| zs_size : forall l, zspec ZSize l l (RNum (Z.of_nat (length l)))
| zs_iterate : forall l, zspec ZIterate l l (RList l)
| zs_backwards : forall l, zspec ZBackwards l l (RList (rev l))
| zs_throw_insert : forall e l, absent (key_of e) l -> zspec (ZInsert e) l l RThrow
| zs_throw_assign : forall e l, absent (key_of e) l -> zspec (ZAssign e) l l RThrow
| zs_throw_reserve : forall n l, zspec (ZReserve n) l l RThrow
| zs_throw_rehash : forall n l, zspec (ZRehash n) l l RThrow.

Inductive zspec_run : list (zcall E K) -> list E -> list E -> list (ret E) -> Prop :=
| zr_nil : forall l, zspec_run [] l l []
| zr_cons : forall c cs l l1 l2 r rs, zspec c l l1 r -> zspec_run cs l1 l2 rs ->
    zspec_run (c :: cs) l l2 (r :: rs).
End Spec.
