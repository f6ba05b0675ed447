(** How much memory the calls of a history may need: the numbers the statements about
    exceptions and array sizes refer to. *)
From Coq Require Import ZArith List.
From Verif Require Import Base Bits MapSpec SwissModel SwissRun.
From Verif Require DenseSpec DenseModel DenseRun SwissOrderedSpec OrderedSpec.
Import ListNotations.
Open Scope Z_scope.

(** ** Unordered open-addressing table. *)
(** The number of elements a call has to make room for, when n are present. *)
Definition demand {E K} (n : Z) (c : call E K) : Z :=
  match c with CInsert _ | CAssign _ => n | CReserve m | CRehash m => m | _ => 0 end.
(** Slots that suffice for n elements: three per element, but at least 15 (31 with
    16-byte groups). *)
Definition slots (f : simd) (n : Z) : Z := Z.max (2 * W f - 1) (3 * n).
(** The calls that construct an element: those given one whose key is absent. *)
Definition constructs {E K} (key_of : E -> K) (keq : K -> K -> bool) (l : list E) (c : call E K) : Prop :=
  match c with CInsert e | CAssign e => absent key_of keq (key_of e) l | _ => False end.
(** Histories in which neither the sizes nor the requests exceed m. *)
Definition within {E K} f (key_of : E -> K) hash keq rep (m : Z) (s : @swiss E) (h : list (env * call E K)) : Prop :=
  (forall h1 h2 t rs, h = h1 ++ h2 -> run f key_of hash keq rep s h1 = Ok (t, rs) -> size t <= m) /\
  (forall v n, In (v, CReserve n) h \/ In (v, CRehash n) h -> n <= m).

(** ** Unordered dense table. *)
Section Dense.
Import DenseSpec DenseModel DenseRun.
Definition ddemand {E K} (n : Z) (c : dcall E K) : Z :=
  match c with DInsert _ | DEmplace _ | DAssign _ => n | DReserve m | DRehash m => Z.max n m | _ => 0 end.
(** Element slots that suffice for n elements. *)
Definition nodes_for (n : Z) : Z := Z.max 1 (2 * n).
(** b buckets are within what n elements need when the max load factor is at least lp/lq. *)
Definition buckets_for (lp lq n b : Z) : Prop := b <= 8 \/ lp * b <= 3 * lq * n.
(** The max load factors set are at least lp/lq. *)
Definition load_ok {E K} (lp lq : Z) (c : dcall E K) : Prop := match c with DMaxLoad p q => lp * q <= p * lq | _ => True end.
(** Histories in which neither the sizes nor the requests exceed m. *)
Definition dwithin {E K} nk (key_of : nat -> E -> K) hash keq rep (m : Z) (s : dense E) (h : list (denv * dcall E K)) : Prop :=
  (forall h1 h2 t rs, h = h1 ++ h2 -> drun nk key_of hash keq rep s h1 = Ok (t, rs) -> DenseModel.size t <= m) /\
  (forall v n, In (v, DReserve n) h \/ In (v, DRehash n) h -> n <= m).
(** The caller passed an iterator that is not valid, or called erase(key) on a table that
    has no buckets. *)
Definition misused {E K} (s : dense E) (c : dcall E K) : Prop := ~ dcall_pre c (delems s) \/ (d_bc s = 0 /\ exists j k, c = DErase j k).
End Dense.

(** ** Ordered tables: as above, on the list of elements in insertion order. *)
Section Ordered.
Import SwissOrderedSpec OrderedSpec.
Definition zconstructs {E K} (key_of : E -> K) (keq : K -> K -> bool) (l : list E) (c : zcall E K) : Prop :=
  match c with ZInsert e | ZAssign e => absent key_of keq (key_of e) l | _ => False end.
Definition zdemand {E K} (n : Z) (c : zcall E K) : Z :=
  match c with ZInsert _ | ZAssign _ => n | ZReserve m | ZRehash m => m | _ => 0 end.
Definition odemand {E K} (n : Z) (c : ocall E K) : Z :=
  match c with OInsert _ | OEmplace _ | OAssign _ => n | OReserve m | ORehash m => Z.max n m | _ => 0 end.
End Ordered.
