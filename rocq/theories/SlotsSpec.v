(** Which calls on ordered and on unordered containers correspond, and when their results
    agree. *)
From Coq Require Import ZArith List Bool.
From Verif Require Import MapSpec DenseSpec OrderedSpec SwissOrderedSpec.
Import ListNotations.
Open Scope Z_scope.

(** [Some [c]]: the call on an unordered sparse container; [Some []]: a call that only reads
    the order; [None]: there is no such call. *)
Definition plain {E K} (c : zcall E K) : option (list (call E K)) :=
  match c with
  | ZInsert e => Some [CInsert e]
  | ZAssign e => Some [CAssign e]
  | ZErase k => Some [CErase k]
  | ZFind k => Some [CFind k]
  | ZContains k => Some [CContains k]
  | ZClear => Some [CClear]
  | ZReserve n => Some [CReserve n]
  | ZRehash n => Some [CRehash n]
  | ZSize => Some [CSize]
  | ZFront | ZBack | ZIterate | ZBackwards => Some []
  | ZEraseAt _ | ZEraseRange _ _ | ZEraseIf _ => None
  end.
(** Results agree: erase returns an iterator to the element that follows in the order of the
    container, which may differ. *)
Definition agrees {E} (r r' : ret E) : Prop :=
  match r, r' with
  | RErased _ b, RErased _ b' => b = b'
  | _, _ => r = r'
  end.
(** The results [rs] of the calls [cs] without those of the calls that only read the order
    agree with [rs']. *)
Fixpoint agree_all {E K} (cs : list (zcall E K)) (rs rs' : list (ret E)) : Prop :=
  match cs, rs with
  | [], [] => rs' = []
  | c :: cs1, r :: rs1 =>
    match plain c, rs' with
    | Some [], _ => agree_all cs1 rs1 rs'
    | Some _, r' :: rs1' => agrees r r' /\ agree_all cs1 rs1 rs1'
    | _, _ => False
    end
  | _, _ => False
  end.

(** The same for dense containers, where the elements are also in the same places. *)
Definition dplain {E K} (c : ocall E K) : option (list (dcall E K)) :=
  match c with
  | OInsert e => Some [DInsert e]
  | OEmplace e => Some [DEmplace e]
  | OAssign e => Some [DAssign e]
  | OErase j k => Some [DErase j k]
  | OFind j k => Some [DFind j k]
  | OContains j k => Some [DContains j k]
  | OClear => Some [DClear]
  | OReserve n => Some [DReserve n]
  | ORehash n => Some [DRehash n]
  | OMaxLoad p q => Some [DMaxLoad p q]
  | OSize => Some [DSize]
  | OIterate | OBackwards => Some []
  | OEraseAt _ => None
  end.
(** erase(key) gives no information on ordered dense containers, which return an iterator. *)
Definition dagrees {E} (r r' : dret E) : Prop := match r, r' with QUnit, QNext _ => True | _, _ => r = r' end.
Fixpoint dagree_all {E K} (cs : list (ocall E K)) (rs rs' : list (dret E)) : Prop :=
  match cs, rs with
  | [], [] => rs' = []
  | c :: cs1, r :: rs1 =>
    match dplain c, rs' with
    | Some [], _ => dagree_all cs1 rs1 rs'
    | Some _, r' :: rs1' => dagrees r r' /\ dagree_all cs1 rs1 rs1'
    | _, _ => False
    end
  | _, _ => False
  end.
