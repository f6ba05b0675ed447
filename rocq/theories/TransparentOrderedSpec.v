(** Specification of calls whose key argument has another type than the keys, on ordered
    containers: lists in insertion order.  Nothing here refers to the model. *)
From Coq Require Import ZArith List Bool.
From Verif Require Import MapSpec DenseSpec OrderedSpec SwissOrderedSpec TransparentSpec TransparentDenseSpec.
Import ListNotations.
Open Scope Z_scope.

(** ** Ordered sparse and stable containers. *)
Inductive ztcall (E K T V : Type) : Type :=
| ZTOn (c : zcall E K)           (* a call with the container's own key type *)
| ZTFind (t : T)
| ZTContains (t : T)
| ZTErase (t : T)                (* erase(t) *)
| ZTTry (t : T) (v : V)          (* try_emplace(t, v); operator[](t) *)
| ZTAssign (t : T) (v : V).      (* insert_or_assign(t, v) *)
Arguments ZTOn {E K T V}. Arguments ZTFind {E K T V}. Arguments ZTContains {E K T V}. Arguments ZTErase {E K T V}.
Arguments ZTTry {E K T V}. Arguments ZTAssign {E K T V}.

Section Sparse.
Context {E K T V : Type}.
Variable key_of : E -> K.
Variable keq : K -> K -> bool.
Variable rep : E -> E -> E.
Variable eqt : K -> T -> bool.
Variable make : T -> V -> E.
Notation tabsent := (tabsent key_of eqt). Notation tlocated := (tlocated key_of eqt).

Inductive ztspec : ztcall E K T V -> list E -> list E -> ret E -> Prop :=
| zt_on : forall c l l' r, zspec key_of keq rep c l l' r -> ztspec (ZTOn c) l l' r
| zt_find_absent : forall t l, tabsent t l -> ztspec (ZTFind t) l l (RFound None)
| zt_find : forall t l a x b, tlocated t l a x b -> ztspec (ZTFind t) l l (RFound (Some x))
| zt_contains_absent : forall t l, tabsent t l -> ztspec (ZTContains t) l l (RBool false)
| zt_contains : forall t l a x b, tlocated t l a x b -> ztspec (ZTContains t) l l (RBool true)
| zt_erase_absent : forall t l, tabsent t l -> ztspec (ZTErase t) l l (RErased None false)
| zt_erase : forall t l a x b, tlocated t l a x b -> ztspec (ZTErase t) l (a ++ b) (RErased (hd_error b) true)
| zt_try_new : forall t v l, tabsent t l -> ztspec (ZTTry t v) l (l ++ [make t v]) (RInserted (make t v) true)
| zt_try_old : forall t v l a x b, tlocated t l a x b -> ztspec (ZTTry t v) l l (RInserted x false)
| zt_try_throw : forall t v l, tabsent t l -> ztspec (ZTTry t v) l l RThrow
| zt_assign_new : forall t v l, tabsent t l -> ztspec (ZTAssign t v) l (l ++ [make t v]) (RInserted (make t v) true)
| zt_assign_old : forall t v l a x b, tlocated t l a x b ->
    ztspec (ZTAssign t v) l (a ++ rep x (make t v) :: b) (RInserted (rep x (make t v)) false)
| zt_assign_throw : forall t v l, tabsent t l -> ztspec (ZTAssign t v) l l RThrow.

Inductive ztspec_run : list (ztcall E K T V) -> list E -> list E -> list (ret E) -> Prop :=
| ztr_nil : forall l, ztspec_run [] l l []
| ztr_cons : forall c cs l l1 l2 r rs, ztspec c l l1 r -> ztspec_run cs l1 l2 rs -> ztspec_run (c :: cs) l l2 (r :: rs).
End Sparse.

(** ** Ordered dense containers: try_emplace takes one argument per key. *)
Inductive otcall (E K T V : Type) : Type :=
| OTOn (c : ocall E K)
| OTFind (j : nat) (t : T)
| OTContains (j : nat) (t : T)
| OTErase (j : nat) (t : T)            (* erase<J>(t) *)
| OTTry (ts : nat -> T) (v : V)        (* try_emplace(ts, v); operator[](t) *)
| OTAssign (t : T) (v : V).            (* insert_or_assign(t, v), one key only *)
Arguments OTOn {E K T V}. Arguments OTFind {E K T V}. Arguments OTContains {E K T V}. Arguments OTErase {E K T V}.
Arguments OTTry {E K T V}. Arguments OTAssign {E K T V}.

Section Dense.
Context {E K T V : Type}.
Variable nk : nat.
Variable key_of : nat -> E -> K.
Variable keq : K -> K -> bool.
Variable rep : E -> E -> E.
Variable eqt : K -> T -> bool.
Variable make : (nat -> T) -> V -> E.
Notation uabsent := (uabsent key_of eqt). Notation ulocated := (ulocated key_of eqt).

Inductive otspec : otcall E K T V -> list E -> list E -> dret E -> Prop :=
| ot_on : forall c l l' r, ospec nk key_of keq rep c l l' r -> otspec (OTOn c) l l' r
| ot_find_absent : forall j t l, uabsent j t l -> otspec (OTFind j t) l l (QFound None)
| ot_find : forall j t l a x b, ulocated j t l a x b -> otspec (OTFind j t) l l (QFound (Some x))
| ot_contains_absent : forall j t l, uabsent j t l -> otspec (OTContains j t) l l (QBool false)
| ot_contains : forall j t l a x b, ulocated j t l a x b -> otspec (OTContains j t) l l (QBool true)
| ot_erase_absent : forall j t l, uabsent j t l -> otspec (OTErase j t) l l QUnit
| ot_erase : forall j t l a x b, ulocated j t l a x b -> otspec (OTErase j t) l (a ++ b) QUnit
| ot_try_new : forall ts v l, unew nk key_of eqt ts l -> otspec (OTTry ts v) l (l ++ [make ts v]) (QInserted (make ts v) true)
| ot_try_old : forall ts v l x, uclash nk key_of eqt ts l x -> otspec (OTTry ts v) l l (QInserted x false)
| ot_try_throw : forall ts v l, otspec (OTTry ts v) l l QThrow
| ot_assign_new : forall t v l, uabsent 0 t l -> otspec (OTAssign t v) l (l ++ [make (fun _ => t) v]) (QInserted (make (fun _ => t) v) true)
| ot_assign_old : forall t v l a x b, ulocated 0 t l a x b ->
    otspec (OTAssign t v) l (a ++ rep x (make (fun _ => t) v) :: b) (QInserted (rep x (make (fun _ => t) v)) false)
| ot_assign_throw : forall t v l, otspec (OTAssign t v) l l QThrow.

Inductive otspec_run : list (otcall E K T V) -> list E -> list E -> list (dret E) -> Prop :=
| otr_nil : forall l, otspec_run [] l l []
| otr_cons : forall c cs l l1 l2 r rs, otspec c l l1 r -> otspec_run cs l1 l2 rs -> otspec_run (c :: cs) l l2 (r :: rs).
End Dense.
