(** Model of calls with another key type on ordered dense tables: the templates of
    tpp/detail/dense_table.hpp instantiated with key arguments of type T.  Line numbers refer to
    dense_table.hpp. *)
From Coq Require Import ZArith List Bool.
From Verif Require Import Base Float32 DenseSpec DenseModel DenseRun LinkModel OrderedSpec OrderedDense OrderedRun
  TransparentDenseSpec TransparentDenseModel TransparentOrderedSpec.
Import ListNotations.
Open Scope Z_scope.

Definition otcall_ok {E K T V} (nk : nat) (c : otcall E K T V) : Prop :=
  match c with
  | OTOn c => ocall_ok nk c
  | OTFind j _ | OTContains j _ | OTErase j _ => (j < nk)%nat
  | OTAssign _ _ => nk = 1%nat
  | OTTry _ _ => True
  end.
Definition othistory_ok {E K T V} (nk : nat) (h : list (oenv * otcall E K T V)) : Prop :=
  Forall (fun vc => denv_ok (ov_d (fst vc)) /\ otcall_ok nk (snd vc)) h.

Section Transparent.
Context {E K T V : Type}.
Variable sz : Z.
Variable nk : nat.
Variable key_of : nat -> E -> K.
Variable hash : K -> Z.
Variable keq : K -> K -> bool.
Variable rep : E -> E -> E.
Variable hasht : T -> Z.
Variable eqt : K -> T -> bool.
(** The element made from the key arguments and the mapped value (lines 665, 712-715). *)
Variable make : (nat -> T) -> V -> E.
Notation key := (@ueither_key E K T key_of).
Notation heq := (ueither_eq keq eqt).

(** do_try_emplace -- lines 648-672: the node keeps the hashes of the arguments. *)
Definition ot_try (v : oenv) (h : heap) (s : odense E) (hint : Z) (ts : nat -> T) (u : V) : res (heap * odense E * o_result) :=
  let* x := o_make_room sz nk v h s hint in
  let '(h1, s1, hint1, o) := x in
  match o with
  | None => Ok (h1, s1, None)
  | Some _ =>
    let* l := u_find_all key_of keq hasht eqt (o_d s1) ts (js nk) in
    let* c := u_first_clash (o_d s1) l in
    match c with
    | Some i => Ok (h1, s1, Some (iter_of sz s1 i, false))
    | None =>
      let* sl := slices l in
      let* y := o_emplace_node sz true h1 s1 hint1 sl (fun j => hasht (ts j)) (make ts u) in
      let '(h2, s2, o2) := y in
      Ok (h2, s2, match o2 with None => None | Some pos => Some (slot sz s2 pos, true) end)
    end
  end.
(** do_insert_or_assign -- lines 700-723. *)
Definition ot_assign (v : oenv) (h : heap) (s : odense E) (hint : Z) (t : T) (u : V) : res (heap * odense E * o_result) :=
  let* x := o_make_room sz nk v h s hint in
  let '(h1, s1, hint1, o) := x in
  match o with
  | None => Ok (h1, s1, None)
  | Some _ =>
    let* r := find_node key heq (o_d s1) 0 (inr t) (hasht t) in
    let '(i, op) := r in
    let* isnew := (match op with None => Ok false | Some p => let* w := load (o_d s1) 0%nat p in Ok (w =? npos) end) in
    if isnew : bool then
      let* p := deref op in
      let* y := o_emplace_node sz true h1 s1 hint1 [(0%nat, p)] (fun _ => hasht t) (make (fun _ => t) u) in
      let '(h2, s2, o2) := y in
      Ok (h2, s2, match o2 with None => None | Some pos => Some (slot sz s2 pos, true) end)
    else
      let* n := get_node (o_d s1) i in
      let* d2 := put_node (o_d s1) i (mkn (rep (n_val n) (make (fun _ => t) u)) (n_hash n) (n_next n)) in
      Ok (h1, with_d s1 d2, Some (slot sz s1 i, false))
  end.

(** One call; find, contains, erase<J>(key) -- lines 364-370, 428-429. *)
Definition otexec (v : oenv) (hs : heap * odense E) (c : otcall E K T V) : res (heap * odense E * dret E) :=
  let '(h, s) := hs in
  match c with
  | OTOn c => oexec sz nk key_of hash keq rep v (h, s) c
  | OTFind j t =>
    let* r := find_node key heq (o_d s) j (inr t) (hasht t) in
    let* o := o_at sz s (iter_of sz s (fst r)) in Ok (h, s, QFound o)
  | OTContains j t =>
    let* r := find_node key heq (o_d s) j (inr t) (hasht t) in
    Ok (h, s, QBool (negb (iter_of sz s (fst r) =? o_hdr s)))
  | OTErase j t => let* x := o_erase_key sz nk key (ueither_hash hash hasht) heq h s j (inr t) in Ok (fst x, QUnit)
  | OTTry ts u => let* x := ot_try v h s 0 ts u in o_give sz x
  | OTAssign t u => let* x := ot_assign v h s 0 t u in o_give sz x
  end.
Fixpoint otrun (hs : heap * odense E) (h : list (oenv * otcall E K T V)) : res (heap * odense E * list (dret E)) :=
  match h with
  | [] => Ok (hs, [])
  | (v, c) :: r =>
    let* x := otexec v hs c in
    let '(hs1, o) := x in
    let* y := otrun hs1 r in
    let '(hs2, os) := y in Ok (hs2, o :: os)
  end.

(** Why a call is not covered: as for the container's own keys ([oblocked]). *)
Definition otblocked (v : oenv) (hs : heap * odense E) (c : otcall E K T V) : Prop :=
  match c with
  | OTOn c => oblocked sz nk key_of hash keq rep v hs c
  | OTErase _ _ => d_bc (o_d (snd hs)) = 0 \/ otexec v hs c = Err BadPlacement
  | OTTry _ _ | OTAssign _ _ =>
    (0 < d_bc (o_d (snd hs)) /\ exists hs', otexec v hs c = Ok (hs', QThrow) /\ d_sok (o_d (snd hs')) = false) \/ otexec v hs c = Err BadPlacement
  | _ => otexec v hs c = Err BadPlacement
  end.
(** The table behaves as the list [l] along the history, up to the first call that is not
    covered, if there is one.  Links of other containers are not touched. *)
Definition otrefines (hs : heap * odense E) (l : list E) (h : list (oenv * otcall E K T V)) : Prop :=
  (exists hs' rs l', otrun hs h = Ok (hs', rs) /\ otspec_run nk key_of keq rep eqt make (map snd h) l l' rs /\
     o_iterate sz (fst hs') (snd hs') = Ok l' /\ o_backwards sz (fst hs') (snd hs') = Ok (rev l') /\ dkeys_distinct nk key_of keq l' /\
     forall a, a <> o_hdr (snd hs) -> slot_ix (o_base (snd hs)) sz (d_cap (o_d (snd hs))) a = None -> fst hs a <> None -> fst hs' a = fst hs a) \/
  (exists h1 v c h2 hs1 rs1 l1, h = h1 ++ (v, c) :: h2 /\ otrun hs h1 = Ok (hs1, rs1) /\ otspec_run nk key_of keq rep eqt make (map snd h1) l l1 rs1 /\
     otblocked v hs1 c).
End Transparent.
