(** Model of calls with another key type on ordered sparse and stable tables: the templates of
    tpp/detail/swiss_table.hpp instantiated with a key argument of type T.  Line numbers refer
    to swiss_table.hpp. *)
From Coq Require Import ZArith List Bool.
From Verif Require Import Base Bits MapSpec SwissModel SwissRun LinkModel SwissOrderedSpec SwissOrdered SwissOrderedRun
  TransparentSpec TransparentModel TransparentOrderedSpec.
Import ListNotations.
Open Scope Z_scope.

Definition ztcall_ok {E K T V} (c : ztcall E K T V) : Prop := match c with ZTOn c => zcall_ok c | _ => True end.
Definition zthistory_ok {E K T V} (h : list (senv * ztcall E K T V)) : Prop :=
  Forall (fun vc => env_ok (sv_e (fst vc)) /\ ztcall_ok (snd vc)) h.

Section Transparent.
Context {E K T V : Type}.
Variable f : simd.
Variable sz : Z.
Variable key_of : E -> K.
Variable hash : K -> Z.
Variable keq : K -> K -> bool.
Variable rep : E -> E -> E.
Variable hasht : T -> Z.
Variable eqt : K -> T -> bool.
(** The element made from the key argument and the mapped value (lines 1335, 1353). *)
Variable make : T -> V -> E.
Notation key := (@either_key E K T key_of).
Notation heq := (either_eq keq eqt).

(** do_try_emplace -- lines 1330-1338: the node keeps the hash of [t]. *)
Definition zt_try (v : senv) (h : heap) (s : oswiss E) (hint : Z) (t : T) (u : V) : res (heap * oswiss E * s_result) :=
  let hh := hasht t in
  let* p := find_node f key heq (os_t s) (inr t) hh in
  if p =? s_cap (os_t s) then
    let* r := s_emplace_node f sz v (ev_ctor (sv_e v)) h s hint hh (make t u) in
    let '(h1, s1, o) := r in
    Ok (h1, s1, match o with None => None | Some q => Some (s_iter sz s1 q, true) end)
  else Ok (h, s, Some (s_iter sz s p, false)).
(** do_insert_or_assign -- lines 1348-1359. *)
Definition zt_assign (v : senv) (h : heap) (s : oswiss E) (hint : Z) (t : T) (u : V) : res (heap * oswiss E * s_result) :=
  let hh := hasht t in
  let* p := find_node f key heq (os_t s) (inr t) hh in
  if p =? s_cap (os_t s) then
    let* r := s_emplace_node f sz v (ev_ctor (sv_e v)) h s hint hh (make t u) in
    let '(h1, s1, o) := r in
    Ok (h1, s1, match o with None => None | Some q => Some (s_iter sz s1 q, true) end)
  else
    let* n := get_node (os_t s) p in
    let b := os_t s in
    Ok (h, with_t s (mk (s_buf b) (s_cap b) (s_meta b) (upd (s_nodes b) p (Some (rep (fst n) (make t u), snd n))) (s_size b) (s_nempty b)),
        Some (s_iter sz s p, false)).

(** One call; find, contains, erase(key) -- lines 932-938, 1052-1059. *)
Definition ztexec (v : senv) (hs : heap * oswiss E) (c : ztcall E K T V) : res (heap * oswiss E * ret E) :=
  let '(h, s) := hs in
  match c with
  | ZTOn c => zexec f sz key_of hash keq rep v (h, s) c
  | ZTFind t =>
    let* p := find_node f key heq (os_t s) (inr t) (hasht t) in
    let* o := s_at sz s (s_iter sz s p) in Ok (h, s, RFound o)
  | ZTContains t =>
    let* p := find_node f key heq (os_t s) (inr t) (hasht t) in
    Ok (h, s, RBool (negb (p =? s_cap (os_t s))))
  | ZTErase t => let* x := s_erase_key f sz key (either_hash hash hasht) heq h s (inr t) in z_erased sz (fst x) (snd x)
  | ZTTry t u => let* x := zt_try v h s 0 t u in z_give sz x
  | ZTAssign t u => let* x := zt_assign v h s 0 t u in z_give sz x
  end.
Fixpoint ztrun (hs : heap * oswiss E) (h : list (senv * ztcall E K T V)) : res (heap * oswiss E * list (ret E)) :=
  match h with
  | [] => Ok (hs, [])
  | (v, c) :: r =>
    let* x := ztexec v hs c in
    let '(hs1, o) := x in
    let* y := ztrun hs1 r in
    let '(hs2, os) := y in Ok (hs2, o :: os)
  end.

(** Why a call is not covered: as for the container's own keys ([zblocked]). *)
Definition ztblocked (v : senv) (hs : heap * oswiss E) (c : ztcall E K T V) : Prop :=
  match c with
  | ZTOn c => zblocked f sz key_of hash keq rep v hs c
  | ZTTry t u | ZTAssign t u => zswaps f key_of hash keq v (snd hs) (make t u) \/ ztexec v hs c = Err BadPlacement
  | _ => ztexec v hs c = Err BadPlacement
  end.
(** The table behaves as the list [l] along the history, up to the first call that is not
    covered, if there is one.  Links of other containers are not touched. *)
Definition ztrefines (hs : heap * oswiss E) (l : list E) (h : list (senv * ztcall E K T V)) : Prop :=
  (exists hs' rs l', ztrun hs h = Ok (hs', rs) /\ ztspec_run key_of keq rep eqt make (map snd h) l l' rs /\ zlists sz hs' l' /\ keys_distinct key_of keq l' /\
     forall a, a <> os_hdr (snd hs) -> slot_ix (os_base (snd hs)) sz (s_cap (os_t (snd hs))) a = None -> fst hs a <> None -> fst hs' a = fst hs a) \/
  (exists h1 v c h2 hs1 rs1 l1, h = h1 ++ (v, c) :: h2 /\ ztrun hs h1 = Ok (hs1, rs1) /\ ztspec_run key_of keq rep eqt make (map snd h1) l l1 rs1 /\
     zlists sz hs1 l1 /\ ztblocked v hs1 c).
End Transparent.
