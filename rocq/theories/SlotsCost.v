(** Bounds for programs on ordered containers: as [BoundsSpec] and [CostSpec] for unordered
    ones. *)
From Coq Require Import ZArith List Bool.
From Verif Require DenseSpec DenseModel DenseRun OrderedSpec OrderedDense OrderedRun LoadSpec.
From Verif Require Import Base Bits LinkModel MapSpec SwissModel SwissRun SwissOrderedSpec SwissOrdered SwissOrderedRun BoundsSpec PlaceSpec CostSpec.
Import ListNotations.
Open Scope Z_scope.

Section Sparse.
Context {E K : Type}.
Variable f : simd.
Variable sz : Z.
Variable key_of : E -> K.
Variable hash : K -> Z.
Variable keq : K -> K -> bool.
Variable rep : E -> E -> E.
Notation zrun := (zrun f sz key_of hash keq rep).

(** Programs in which neither the sizes nor the requests exceed m. *)
Definition zwithin (m : Z) (hs : heap * oswiss E) (h : list (senv * zcall E K)) : Prop :=
  (forall h1 h2 hs' rs, h = h1 ++ h2 -> zrun hs h1 = Ok (hs', rs) -> size (os_t (snd hs')) <= m) /\
  (forall v n, In (v, ZReserve n) h \/ In (v, ZRehash n) h -> n <= m).
(** The calls by which the caller asks for another number of slots. *)
Definition zsteady (c : zcall E K) : Prop := match c with ZReserve _ | ZRehash _ => False | _ => True end.
(** Elements moved by an insertion: those moved to make room for a key that is absent. *)
Definition zmoved (v : senv) (s : oswiss E) (c : zcall E K) : Z :=
  match c with
  | ZInsert e | ZAssign e =>
    match find_node f key_of keq (os_t s) (key_of e) (hash (key_of e)) with
    | Ok p =>
      if p =? s_cap (os_t s) then
        match make_room f (ev_lim (sv_e v)) (os_t s) (hash (key_of e)) with Ok (_, Some (_, tr)) => moves tr | _ => 0 end
      else 0
    | Err _ => 0
    end
  | _ => 0
  end.
Fixpoint zmoved_by (hs : heap * oswiss E) (h : list (senv * zcall E K)) : Z :=
  match h with
  | [] => 0
  | (v, c) :: r => zmoved v (snd hs) c + match zexec f sz key_of hash keq rep v hs c with Ok (hs1, _) => zmoved_by hs1 r | Err _ => 0 end
  end.
End Sparse.

Section Dense.
Import DenseSpec DenseModel DenseRun OrderedSpec OrderedDense OrderedRun LoadSpec.
Context {E K : Type}.
Variable sz : Z.
Variable nk : nat.
Variable key_of : nat -> E -> K.
Variable hash : K -> Z.
Variable keq : K -> K -> bool.
Variable rep : E -> E -> E.
Notation oexec := (oexec sz nk key_of hash keq rep). Notation orun := (orun sz nk key_of hash keq rep).

(** The same for dense containers. *)
Definition owithin (m : Z) (hs : heap * odense E) (h : list (oenv * ocall E K)) : Prop :=
  (forall h1 h2 hs' rs, h = h1 ++ h2 -> orun hs h1 = Ok (hs', rs) -> DenseModel.size (o_d (snd hs')) <= m) /\
  (forall v n, In (v, OReserve n) h \/ In (v, ORehash n) h -> n <= m).
Definition oload_ok (lp lq : Z) (c : ocall E K) : Prop := match c with OMaxLoad p q => lp * q <= p * lq | _ => True end.
Definition osteady (c : ocall E K) : Prop := match c with OReserve _ => False | _ => True end.
Definition okeeps_policy (c : ocall E K) : Prop := match c with OMaxLoad _ _ | OReserve _ => False | ORehash n => doubled n | _ => True end.
(** The call failed because the allocator could not supply a larger bucket array. *)
Definition ostarved (v : oenv) (hs : heap * odense E) (c : ocall E K) : Prop :=
  0 < d_bc (o_d (snd hs)) /\ exists hs', oexec v hs c = Ok (hs', QThrow) /\ d_sok (o_d (snd hs')) = false.
Definition fed (hs : heap * odense E) (h : list (oenv * ocall E K)) : Prop :=
  forall h1 v c h2 hs1 rs1, h = h1 ++ (v, c) :: h2 -> orun hs h1 = Ok (hs1, rs1) -> ~ ostarved v hs1 c.
Definition omoved (s : odense E) (c : ocall E K) (t : odense E) : Z :=
  match c with OInsert _ | OEmplace _ | OAssign _ => if d_cap (o_d t) =? d_cap (o_d s) then 0 else DenseModel.size (o_d s) | _ => 0 end.
Fixpoint omoved_by (hs : heap * odense E) (h : list (oenv * ocall E K)) : Z :=
  match h with
  | [] => 0
  | (v, c) :: r => match oexec v hs c with Ok (hs1, _) => omoved (snd hs) c (snd hs1) + omoved_by hs1 r | Err _ => 0 end
  end.
End Dense.
