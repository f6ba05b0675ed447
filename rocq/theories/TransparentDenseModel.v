(** Model of calls with other key types on unordered dense tables: the templates of
    tpp/detail/dense_table.hpp instantiated with key arguments of type T.  In comparisons the
    left operand is the key argument and the right one the key of a node (line 542), the
    other way round than in sparse tables.  Line numbers refer to dense_table.hpp. *)
From Coq Require Import ZArith List Bool.
From Verif Require Import Base Float32 DenseSpec TransparentDenseSpec DenseModel DenseRun.
Import ListNotations.
Open Scope Z_scope.

Definition ucall_ok {E K T V} (nk : nat) (c : ucall E K T V) : Prop :=
  match c with
  | UOn c => dcall_ok nk c
  | UFind j _ | UContains j _ | UErase j _ => (j < nk)%nat
  | UAssign _ _ => nk = 1%nat
  | UTry _ _ => True
  end.
Definition uhistory_ok {E K T V} (nk : nat) (h : list (denv * ucall E K T V)) : Prop :=
  Forall (fun vc => denv_ok (fst vc) /\ ucall_ok nk (snd vc)) h.

Section Transparent.
Context {E K T V : Type}.
Variable nk : nat.
Variable key_of : nat -> E -> K.
Variable hash : K -> Z.
Variable keq : K -> K -> bool.
Variable rep : E -> E -> E.
Variable hasht : T -> Z.
Variable eqt : K -> T -> bool.
(** The element made from the key arguments and the mapped value (lines 665, 712-715). *)
Variable make : (nat -> T) -> V -> E.

(** hash() and cmp() -- lines 488-491, overloaded on the type of the key. *)
Definition ueither_key (j : nat) (e : E) : K + T := inl (key_of j e).
Definition ueither_hash (k : K + T) : Z := match k with inl k => hash k | inr t => hasht t end.
Definition ueither_eq (a b : K + T) : bool :=
  match a, b with inl a, inl b => keq a b | inr t, inl b => eqt b t | _, _ => false end.

(** The array of find_node results -- line 656. *)
Fixpoint u_find_all (s : dense E) (ts : nat -> T) (l : list nat) : res (list (nat * (Z * option cptr))) :=
  match l with
  | [] => Ok []
  | j :: r =>
    let* x := find_node ueither_key ueither_eq s j (inr (ts j)) (hasht (ts j)) in
    let* xs := u_find_all s ts r in
    Ok ((j, x) :: xs)
  end.
(** The first conflict in do_try_emplace -- lines 657-662: without a null test. *)
Fixpoint u_first_clash (s : dense E) (l : list (nat * (Z * option cptr))) : res (option Z) :=
  match l with
  | [] => Ok None
  | (j, (i, o)) :: r =>
    let* p := deref o in
    let* v := load s j p in if v =? npos then u_first_clash s r else Ok (Some i)
  end.
(** do_try_emplace -- lines 648-672: the node keeps the hashes of the arguments. *)
Definition u_try (dlim slim : Z) (s : dense E) (ts : nat -> T) (v : V) : res (dense E * ins_result) :=
  let* x := make_room nk dlim slim s in
  let '(s1, o) := x in
  match o with
  | None => Ok (s1, None)
  | Some _ =>
    let* l := u_find_all s1 ts (js nk) in
    let* c := u_first_clash s1 l in
    match c with
    | Some i => Ok (s1, Some (i, false))
    | None =>
      let* sl := slices l in
      let* y := emplace_node true s1 sl (fun j => hasht (ts j)) (make ts v) in
      let '(s2, o2) := y in
      Ok (s2, match o2 with None => None | Some pos => Some (pos, true) end)
    end
  end.
(** do_insert_or_assign -- lines 700-723. *)
Definition u_assign (dlim slim : Z) (s : dense E) (t : T) (v : V) : res (dense E * ins_result) :=
  let* x := make_room nk dlim slim s in
  let '(s1, o) := x in
  match o with
  | None => Ok (s1, None)
  | Some _ =>
    let* r := find_node ueither_key ueither_eq s1 0 (inr t) (hasht t) in
    let '(i, op) := r in
    let* isnew := (match op with None => Ok false | Some p => let* w := load s1 0%nat p in Ok (w =? npos) end) in
    if isnew : bool then
      let* p := deref op in
      let* y := emplace_node true s1 [(0%nat, p)] (fun _ => hasht t) (make (fun _ => t) v) in
      let '(s2, o2) := y in
      Ok (s2, match o2 with None => None | Some pos => Some (pos, true) end)
    else
      let* n := get_node s1 i in
      let* s2 := put_node s1 i (mkn (rep (n_val n) (make (fun _ => t) v)) (n_hash n) (n_next n)) in
      Ok (s2, Some (i, false))
  end.

(** One call; find, contains, erase<J>(key) -- lines 364-370, 428-429. *)
Definition uexec (v : denv) (s : dense E) (c : ucall E K T V) : res (dense E * dret E) :=
  match c with
  | UOn c => dexec nk key_of hash keq rep v s c
  | UFind j t => let* o := find ueither_key ueither_hash ueither_eq s j (inr t) in Ok (s, QFound o)
  | UContains j t => let* b := contains ueither_key ueither_hash ueither_eq s j (inr t) in Ok (s, QBool b)
  | UErase j t => let* x := erase_key nk ueither_key ueither_hash ueither_eq s j (inr t) in give_next x
  | UTry ts u => let* x := u_try (dv_dlim v) (dv_slim v) s ts u in give_inserted x
  | UAssign t u => let* x := u_assign (dv_dlim v) (dv_slim v) s t u in give_inserted x
  end.
Fixpoint urun (s : dense E) (h : list (denv * ucall E K T V)) : res (dense E * list (dret E)) :=
  match h with
  | [] => Ok (s, [])
  | (v, c) :: r =>
    let* x := uexec v s c in
    let '(s1, o) := x in
    let* y := urun s1 r in
    let '(s2, os) := y in Ok (s2, o :: os)
  end.

(** Why a call is not covered: as for the container's own keys ([blocked]). *)
Definition ublocked (v : denv) (s : dense E) (c : ucall E K T V) : Prop :=
  match c with
  | UOn c => blocked nk key_of hash keq rep v s c
  | UErase _ _ => d_bc s = 0
  | UTry _ _ | UAssign _ _ => 0 < d_bc s /\ exists s', uexec v s c = Ok (s', QThrow) /\ d_sok s' = false
  | _ => False
  end.
End Transparent.
