(** Calls on ordered dense tables during which a function of the user throws.  Line numbers:
    dense_table.hpp. *)
From Coq Require Import ZArith List Bool.
From Verif Require Import Base Float32 DenseSpec DenseModel DenseRun LinkModel OrderedSpec OrderedDense OrderedRun ThrowSpec OrderedThrowSpec.
Import ListNotations.
Open Scope Z_scope.

Section Model.
Context {E K : Type}.
Variable sz : Z.
Variable nk : nat.
Variable key_of : nat -> E -> K.
Variable hash : K -> Z.
Variable keq : K -> K -> bool.
Variable rep : E -> E -> E.
Notation odense := (odense E). Notation ostate := (@ostate E).

(** maybe_resize and maybe_rehash come before the keys are hashed (lines 651-656, 677-682,
    705-710); an exception of the hash function or of key_equal leaves what they did. *)
Definition ot_room (v : oenv) (h : heap) (s : odense) : res (heap * odense * o_result) :=
  let* x := o_make_room sz nk v h s 0 in
  let '(h1, s1, _, _) := x in Ok (h1, s1, None).
(** do_insert, do_try_emplace -- lines 648-697. *)
Definition ot_insert (f : fault) (v : oenv) (h : heap) (s : odense) (e : E) : res (heap * odense * o_result) :=
  match f with
  | Fine => o_do_insert sz nk key_of hash keq v true h s 0 e
  | CtorThrows => o_do_insert sz nk key_of hash keq v false h s 0 e
  | SearchThrows => ot_room v h s
  end.
(** do_emplace -- lines 620-639: the element is constructed by push_node before its keys are
    hashed (lines 626-629) and linked by commit_node after that (lines 638, 582); there is no
    handler that would call pop_node. *)
Definition ot_emplace (f : fault) (v : oenv) (h : heap) (s : odense) (e : E) : res (heap * odense * o_result) :=
  match f with
  | Fine => o_do_emplace sz nk key_of hash keq v true h s 0 e
  | CtorThrows => o_do_emplace sz nk key_of hash keq v false h s 0 e
  | SearchThrows =>
    let* x := o_make_room sz nk v h s 0 in
    let '(h1, s1, _, o) := x in
    match o with
    | None => Ok (h1, s1, None)
    | Some _ => let* y := push_node true (o_d s1) e in Ok (h1, with_d s1 (fst y), None)
    end
  end.
(** do_insert_or_assign -- lines 700-723.  Simplified: the constructor of the mapped value that
    replaces one (line 720) does not throw. *)
Definition ot_assign (f : fault) (v : oenv) (h : heap) (s : odense) (e : E) : res (heap * odense * o_result) :=
  match f with
  | Fine => o_do_insert_or_assign sz nk key_of hash keq rep v true h s 0 e
  | CtorThrows => o_do_insert_or_assign sz nk key_of hash keq rep v false h s 0 e
  | SearchThrows => ot_room v h s
  end.

(** One public call -- lines 318-455.  find, contains and erase of a key hash the key before
    anything else (lines 365-370, 429); the other calls use the stored hashes only. *)
Definition otexec (f : fault) (v : oenv) (hs : ostate) (c : ocall E K) : res (ostate * dret E) :=
  match c with
  | OInsert e => let* x := ot_insert f v (fst hs) (snd hs) e in o_give sz x
  | OEmplace e => let* x := ot_emplace f v (fst hs) (snd hs) e in o_give sz x
  | OAssign e => let* x := ot_assign f v (fst hs) (snd hs) e in o_give sz x
  | OErase _ _ | OFind _ _ | OContains _ _ => match f with SearchThrows => Ok (hs, QThrow) | _ => oexec sz nk key_of hash keq rep v hs c end
  | _ => oexec sz nk key_of hash keq rep v hs c
  end.

Fixpoint otrun (hs : ostate) (h : list (fault * oenv * ocall E K)) : res (ostate * list (dret E)) :=
  match h with
  | [] => Ok (hs, [])
  | (f, v, c) :: r =>
    let* x := otexec f v hs c in
    let '(hs1, o) := x in
    let* y := otrun hs1 r in
    let '(hs2, os) := y in Ok (hs2, o :: os)
  end.
Definition othistory_ok (h : list (fault * oenv * ocall E K)) : Prop :=
  Forall (fun x => denv_ok (ov_d (snd (fst x))) /\ ocall_ok nk (snd x)) h.

(** The arrays can be made large enough for another element. *)
Definition o_has_room (v : oenv) (hs : ostate) : Prop := exists h1 s1 p, o_make_room sz nk v (fst hs) (snd hs) 0 = Ok (h1, s1, p, Some tt).

(** Why a call is not covered: as in OrderedRun, or a constructor throws that has to be called,
    or the search of emplace throws after it has constructed the element. *)
Definition otblocked (f : fault) (v : oenv) (hs : ostate) (c : ocall E K) : Prop :=
  (exists i, c = OEraseAt i /\ ~ 0 <= i < d_size (o_d (snd hs))) \/
  (d_bc (o_d (snd hs)) = 0 /\ f <> SearchThrows /\ exists j k, c = OErase j k) \/
  (0 < d_bc (o_d (snd hs)) /\ exists hs', otexec f v hs c = Ok (hs', QThrow) /\ d_sok (o_d (snd hs')) = false) \/
  otexec f v hs c = Err BadPlacement \/
  (f = CtorThrows /\ o_has_room v hs /\
     ((exists e l, (c = OInsert e \/ c = OAssign e) /\ o_iterate sz (fst hs) (snd hs) = Ok l /\ dnew nk key_of keq e l) \/ exists e, c = OEmplace e)) \/
  (f = SearchThrows /\ o_has_room v hs /\ exists e, c = OEmplace e).

Definition ocalls_of (h : list (fault * oenv * ocall E K)) : list (fault * ocall E K) := map (fun x => (fst (fst x), snd x)) h.
(** The table behaves as the list [l] along the history, up to the first call that is not
    covered, if there is one.  Links of other containers are not touched. *)
Definition otrefines (hs : ostate) (l : list E) (h : list (fault * oenv * ocall E K)) : Prop :=
  (exists hs' rs l', otrun hs h = Ok (hs', rs) /\ otspec_run nk key_of keq rep (ocalls_of h) l l' rs /\
     o_iterate sz (fst hs') (snd hs') = Ok l' /\ o_backwards sz (fst hs') (snd hs') = Ok (rev l') /\ dkeys_distinct nk key_of keq l' /\
     forall a, a <> o_hdr (snd hs) -> slot_ix (o_base (snd hs)) sz (d_cap (o_d (snd hs))) a = None -> fst hs a <> None -> fst hs' a = fst hs a) \/
  (exists h1 f v c h2 hs1 rs1 l1, h = h1 ++ (f, v, c) :: h2 /\ otrun hs h1 = Ok (hs1, rs1) /\ otspec_run nk key_of keq rep (ocalls_of h1) l l1 rs1 /\
     otblocked f v hs1 c).
End Model.
