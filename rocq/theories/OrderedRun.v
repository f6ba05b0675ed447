(** Running sequences of public calls on the model of the ordered dense table. *)
From Coq Require Import ZArith List Bool.
From Verif Require Import Base Float32 DenseSpec DenseModel DenseRun LinkModel OrderedSpec OrderedDense.
Import ListNotations.
Open Scope Z_scope.

Definition ocall_ok {E K} (nk : nat) (c : ocall E K) : Prop :=
  match c with
  | OErase j _ | OFind j _ | OContains j _ => (j < nk)%nat
  | OAssign _ => nk = 1%nat
  | OReserve n => 0 <= n < 2 ^ 59
  | ORehash n => 0 <= n < 2 ^ 64
  | OMaxLoad p q => 0 < p /\ 0 < q /\ q <= 16 * p
  | _ => True
  end.
Definition ohistory_ok {E K} (nk : nat) (h : list (oenv * ocall E K)) : Prop :=
  Forall (fun vc => denv_ok (ov_d (fst vc)) /\ ocall_ok nk (snd vc)) h.

Section Run.
Context {E K : Type}.
Variable sz : Z.
Variable nk : nat.
Variable key_of : nat -> E -> K.
Variable hash : K -> Z.
Variable keq : K -> K -> bool.
Variable rep : E -> E -> E.
Definition ostate : Type := heap * odense E.

Definition o_give (x : heap * odense E * o_result) : res (ostate * dret E) :=
  let '(h, s, o) := x in
  match o with
  | None => Ok (h, s, QThrow)
  | Some (a, b) =>
    let* e := o_at sz s a in
    match e with Some e => Ok (h, s, QInserted e b) | None => Err NullDeref end
  end.
Definition o_unit (x : heap * odense E * option unit) : res (ostate * dret E) :=
  let '(h, s, o) := x in Ok (h, s, match o with None => QThrow | Some _ => QUnit end).

(** One public call -- dense_table.hpp 318-455. *)
Definition oexec (v : oenv) (hs : ostate) (c : ocall E K) : res (ostate * dret E) :=
  let '(h, s) := hs in
  match c with
  | OInsert e => let* x := o_do_insert sz nk key_of hash keq v true h s 0 e in o_give x
  | OEmplace e => let* x := o_do_emplace sz nk key_of hash keq v true h s 0 e in o_give x
  | OAssign e => let* x := o_do_insert_or_assign sz nk key_of hash keq rep v true h s 0 e in o_give x
  | OErase j k => let* x := o_erase_key sz nk key_of hash keq h s j k in Ok (fst x, QUnit)
  | OEraseAt i => let* a := o_nth h s i in let* x := o_erase_at sz nk h s a in Ok (fst x, QUnit)
  | OFind j k =>
    let* r := find_node key_of keq (o_d s) j k (hash k) in
    let* o := o_at sz s (iter_of sz s (fst r)) in Ok (h, s, QFound o)
  | OContains j k =>
    let* r := find_node key_of keq (o_d s) j k (hash k) in
    Ok (h, s, QBool (negb (iter_of sz s (fst r) =? o_hdr s)))
  | OClear => let* x := o_clear h s in Ok (x, QUnit)
  | OReserve n => let* x := o_reserve sz nk v h s n in o_unit x
  | ORehash n =>
    let* y := rehash nk (dv_slim (ov_d v)) (o_d s) n in
    o_unit (h, with_d s (fst y), snd y)
  | OMaxLoad p q => Ok (h, with_d s (set_mlf (o_d s) (p, q)), QUnit)
  | OSize => Ok (h, s, QNum (size (o_d s)))
  | OIterate => let* l := o_iterate sz h s in Ok (h, s, QList l)
  | OBackwards => let* l := o_backwards sz h s in Ok (h, s, QList l)
  end.

Fixpoint orun (hs : ostate) (h : list (oenv * ocall E K)) : res (ostate * list (dret E)) :=
  match h with
  | [] => Ok (hs, [])
  | (v, c) :: r =>
    let* x := oexec v hs c in
    let '(hs1, o) := x in
    let* y := orun hs1 r in
    let '(hs2, os) := y in Ok (hs2, o :: os)
  end.

(** Why a call of a history is not covered: the caller passed an iterator that is not valid,
    or called erase(key) on a container that has no buckets yet, or the allocator failed to
    supply a larger bucket array, or placed the element array over links in use. *)
Definition oblocked (v : oenv) (hs : ostate) (c : ocall E K) : Prop :=
  (exists i, c = OEraseAt i /\ ~ 0 <= i < d_size (o_d (snd hs))) \/
  (d_bc (o_d (snd hs)) = 0 /\ exists j k, c = OErase j k) \/
  (0 < d_bc (o_d (snd hs)) /\ exists hs', oexec v hs c = Ok (hs', QThrow) /\ d_sok (o_d (snd hs')) = false) \/
  oexec v hs c = Err BadPlacement.

(** A default constructed table whose header is at [a]: both offsets are 0 (lines 214, 69,
    table_common.hpp 120, 179-180). *)
Definition o_new (a : Z) : odense E := mko empty_dense a 0.

(** The table behaves as the list [l] along the history [h], up to the first call that is not
    covered, if there is one.  Links of other containers are not touched. *)
Definition orefines (hs : ostate) (l : list E) (h : list (oenv * ocall E K)) : Prop :=
  (exists hs' rs l', orun hs h = Ok (hs', rs) /\ ospec_run nk key_of keq rep (map snd h) l l' rs /\
     o_iterate sz (fst hs') (snd hs') = Ok l' /\ o_backwards sz (fst hs') (snd hs') = Ok (rev l') /\
     dkeys_distinct nk key_of keq l' /\
     forall a, a <> o_hdr (snd hs) -> slot_ix (o_base (snd hs)) sz (d_cap (o_d (snd hs))) a = None -> fst hs a <> None -> fst hs' a = fst hs a) \/
  (exists h1 v c h2 hs1 rs1 l1, h = h1 ++ (v, c) :: h2 /\ orun hs h1 = Ok (hs1, rs1) /\ ospec_run nk key_of keq rep (map snd h1) l l1 rs1 /\
     oblocked v hs1 c).
End Run.
