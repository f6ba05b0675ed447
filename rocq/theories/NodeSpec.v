(** What it means that the heap objects of stable containers are owned properly, and the
    statements after which they are not. *)
From Coq Require Import ZArith List.
From Verif Require Import Base NodeModel.
Import ListNotations.
Open Scope Z_scope.

(** Containers and handle variables hold objects. *)
Inductive holder : Type := HC (i : nat) | HH (j : nat).

Section Spec.
Context {K V : Type}.
Variable keq : K -> K -> bool.
Variables pocca pocma : bool.
Variable dflt : Z.

Definition held (w : nworld K V) (o : holder) : list Z :=
  match o with
  | HC i => t_nodes (w_c w i)
  | HH j => if h_ptr (w_h w j) =? 0 then [] else [h_ptr (w_h w j)]
  end.
Definition alloc_of (w : nworld K V) (o : holder) : Z :=
  match o with HC i => t_alloc (w_c w i) | HH j => h_alloc (w_h w j) end.

(** Every block that is in use has one holder, which holds it once and has an allocator equal
    to the one that supplied the block; and everything held is a live object. *)
Definition owned (w : nworld K V) : Prop :=
  (forall p c, m_cell (w_m w) p = Some c -> exists o, In p (held w o)) /\
  (forall o p, In p (held w o) -> exists k v, m_cell (w_m w) p = Some (Obj (alloc_of w o) k (Some v))) /\
  (forall o, NoDup (held w o)) /\
  (forall o o' p, In p (held w o) -> In p (held w o') -> o = o').

(** No object of c_i has the key k. *)
Definition absent (w : nworld K V) (i : nat) (k : K) : Prop :=
  forall p a k' v, In p (t_nodes (w_c w i)) -> m_cell (w_m w) p = Some (Obj a k' v) -> keq k' k = false.

(** The statements that are not covered. *)
Definition nblocked (v : nenv) (w : nworld K V) (c : ncall K V) : Prop :=
  let missing i k := absent w i k in
  let ta i := t_alloc (w_c w i) in
  let ha j := h_alloc (w_h w j) in
  match c with
  (* the constructor of a new element throws *)
  | NInsert i k _ => e_grow v = true /\ e_alloc v = true /\ e_ctor v = false /\ missing i k
  (* the same, or the table does not get the memory to grow *)
  | NEmplace i k _ => e_alloc v = true /\ (e_ctor v = false \/ (e_grow v = false /\ missing i k))
  (* the constructor of a new element or of a new mapped value throws *)
  | NAssign i k _ => e_ctor v = false /\ (~ missing i k \/ (e_grow v = true /\ e_alloc v = true))
  (* the handle has no element, or an allocator that is not equal to that of the container *)
  | NInsertNode i j | NAssignNode i j => h_ptr (w_h w j) = 0 \/ ha j <> ta i
  | NInsertBack i j => h_ptr (w_h w j) = 0 \/ ha j <> ta i \/ (pocma = false /\ ha j <> dflt)
  (* allocators that do not propagate and are not equal *)
  | NExtract i k j => pocma = false /\ (ha j <> ta i \/ ha j <> dflt)
  | NHandleMove j k => pocma = false /\ ha j <> ha k
  | NHandleSwap j k => ha j <> ha k
  | NMerge i j => ta i <> ta j
  | NSwap i j => ta i <> ta j
  | NMove i j => pocma = false /\ ta i <> ta j /\ t_nodes (w_c w j) <> []
  | NMoveNewIn i j a => a <> ta j /\ t_nodes (w_c w j) <> []
  | _ => False
  end.

(** A block in use that no container and no handle holds. *)
Definition leaked (w : nworld K V) : Prop :=
  exists p c, m_cell (w_m w) p = Some c /\ forall o, ~ In p (held w o).

(** Programs whose allocators are all equal (std::allocator), whose constructors do not throw and
    whose emplace calls get the memory to grow. *)
Definition plain (vc : nenv * ncall K V) : Prop :=
  e_ctor (fst vc) = true /\
  match snd vc with
  | NEmplace _ _ _ => e_grow (fst vc) = true
  | NNew _ a | NCopyNewIn _ _ a | NMoveNewIn _ _ a => a = dflt
  | _ => True
  end.
(** Reached by statements that are all covered. *)
Definition reached (w : nworld K V) : Prop :=
  exists al h bs, nrun keq pocca pocma dflt (nstart dflt al) h = Ok (w, bs) /\
    forall h1 v c h2 w1 bs1, h = h1 ++ (v, c) :: h2 -> nrun keq pocca pocma dflt (nstart dflt al) h1 = Ok (w1, bs1) -> ~ nblocked v w1 c.
(** A statement that inserts an empty handle. *)
Definition inserts_nothing (w : nworld K V) (c : ncall K V) : Prop :=
  match c with NInsertNode _ j | NInsertBack _ j | NAssignNode _ j => h_ptr (w_h w j) = 0 | _ => False end.
End Spec.
