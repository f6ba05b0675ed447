(** insert(first, last), assign(first, last) -- used by insert(initializer_list) and
    operator=(initializer_list) of every container -- and range construction.  The elements of the
    range lie outside of the container.  [ra]: the iterators are random access iterators.
    Every element of the range comes with the environment of its insertion.  The last result
    is [false] when an exception left the call. *)
From Coq Require Import ZArith List Bool.
From Verif Require Import Base Float32 LinkModel DenseModel DenseRun OrderedDense OrderedRun.
From Verif Require Import Bits SwissModel SwissRun SwissOrdered SwissOrderedRun.
Import ListNotations.
Open Scope Z_scope.

(** ** Unordered tables.  insert(first, last): SwissModel.insert_range,
    DenseModel.insert_range.  assign -- swiss_table.hpp 890-895, dense_table.hpp 311-316. *)
Section Unordered.
Context {E K : Type}.
Variable hash : K -> Z.
Variable keq : K -> K -> bool.
Definition assign_range (f : simd) (key_of : E -> K) (ra : bool) (lim : Z) (s : @swiss E) (l : list E) : res (swiss * bool) :=
  let* s1 := SwissModel.clear f s in SwissModel.insert_range f key_of hash keq ra lim s1 l.
Definition d_assign_range (nk : nat) (key_of : nat -> E -> K) (ra : bool) (dlim slim : Z) (s : dense E) (l : list E) : res (dense E * bool) :=
  let* s1 := DenseModel.clear s in DenseModel.insert_range nk key_of hash keq ra dlim slim s1 l.
End Unordered.

(** ** Ordered dense tables. *)
Section Dense.
Context {E K : Type}.
Variable sz : Z.
Variable nk : nat.
Variable key_of : nat -> E -> K.
Variable hash : K -> Z.
Variable keq : K -> K -> bool.
Notation odense := (odense E).
(** insert(first, last) -- dense_table.hpp 388-394. *)
Fixpoint o_insert_all (h : heap) (s : odense) (l : list (oenv * E)) : res (heap * odense * bool) :=
  match l with
  | [] => Ok (h, s, true)
  | (v, e) :: r =>
    let* x := o_do_insert sz nk key_of hash keq v true h s 0 e in
    let '(h1, s1, o) := x in
    match o with None => Ok (h1, s1, false) | Some _ => o_insert_all h1 s1 r end
  end.
Definition o_insert_range (ra : bool) (v : oenv) (h : heap) (s : odense) (l : list (oenv * E)) : res (heap * odense * bool) :=
  let* x := (if ra then o_reserve sz nk v h s ((d_size (o_d s) + Z.of_nat (length l)) mod two64) else Ok (h, s, Some tt)) in
  let '(h1, s1, o) := x in
  match o with None => Ok (h1, s1, false) | Some _ => o_insert_all h1 s1 l end.
(** assign(first, last) -- dense_table.hpp 311-316. *)
Definition o_assign_range (ra : bool) (v : oenv) (h : heap) (s : odense) (l : list (oenv * E)) : res (heap * odense * bool) :=
  let* x := o_clear h s in o_insert_range ra v (fst x) (snd x) l.
(** dense_table(n, ..) at [hdr] -- dense_table.hpp 217-225; [None]: an allocation threw.
    dense_table(first, last, n, ..) -- lines 227-228 with distance_or_n (utility.hpp 200-208);
    [v0] is the environment of the first step, [v] that of the insertion. *)
Definition o_ctor_n (v : oenv) (h : heap) (hdr n : Z) : res (option (heap * odense)) :=
  match DenseModel.ctor_n (dv_dlim (ov_d v)) (dv_slim (ov_d v)) n with
  | None => Ok None
  | Some d =>
    if n =? 0 then Ok (Some (h, mko d hdr 0))
    else let* h1 := place (ov_junk v) h (ov_base v) sz n in Ok (Some (h1, mko d hdr (ov_base v)))
  end.
Definition o_ctor_range (ra : bool) (v0 v : oenv) (h : heap) (hdr : Z) (l : list (oenv * E)) (n : Z) : res (option (heap * odense * bool)) :=
  let* o := o_ctor_n v0 h hdr (if ra then Z.max (Z.of_nat (length l)) n else n) in
  match o with
  | None => Ok None
  | Some (h1, s) => let* x := o_insert_range ra v h1 s l in Ok (Some x)
  end.

(** The container iterates over [l] in both directions and behaves like [l] from then on. *)
Definition o_holds (rep : E -> E -> E) (h : heap) (s : odense) (l : list E) : Prop :=
  o_iterate sz h s = Ok l /\ o_backwards sz h s = Ok (rev l) /\
  forall hist, ohistory_ok nk hist -> orefines sz nk key_of hash keq rep (h, s) l hist.
(** Links outside of the container [s] keep their values. *)
Definition o_keeps (h : heap) (s : odense) (h' : heap) : Prop :=
  forall a, a <> o_hdr s -> slot_ix (o_base s) sz (d_cap (o_d s)) a = None -> h a <> None -> h' a = h a.
End Dense.

(** ** Ordered sparse and stable tables. *)
Section Swiss.
Context {E K : Type}.
Variable f : simd.
Variable sz : Z.
Variable key_of : E -> K.
Variable hash : K -> Z.
Variable keq : K -> K -> bool.
Notation oswiss := (oswiss E).
(** insert(first, last) -- swiss_table.hpp 981-987. *)
Fixpoint s_insert_all (h : heap) (s : oswiss) (l : list (senv * E)) : res (heap * oswiss * bool) :=
  match l with
  | [] => Ok (h, s, true)
  | (v, e) :: r =>
    let* x := s_do_insert f sz key_of hash keq v h s 0 e in
    let '(h1, s1, o) := x in
    match o with None => Ok (h1, s1, false) | Some _ => s_insert_all h1 s1 r end
  end.
Definition s_insert_range (ra : bool) (v : senv) (h : heap) (s : oswiss) (l : list (senv * E)) : res (heap * oswiss * bool) :=
  let* x := (if ra then s_reserve f sz v h s (add64 (s_size (os_t s)) (Z.of_nat (length l))) else Ok (h, s, Some tt)) in
  let '(h1, s1, o) := x in
  match o with None => Ok (h1, s1, false) | Some _ => s_insert_all h1 s1 l end.
(** assign(first, last) -- swiss_table.hpp 890-895. *)
Definition s_assign_range (ra : bool) (v : senv) (h : heap) (s : oswiss) (l : list (senv * E)) : res (heap * oswiss * bool) :=
  let* x := s_clear f h s in s_insert_range ra v (fst x) (snd x) l.
(** swiss_table(n, ..) at [hdr] -- swiss_table.hpp 839-843 with buffer constructor 511-516,
    552-557; swiss_table(first, last, n, ..) -- lines 845-846. *)
Definition s_ctor_n (v : senv) (h : heap) (hdr n : Z) : res (option (heap * oswiss)) :=
  let* o := SwissModel.ctor_n f (ev_lim (sv_e v)) n in
  match o with
  | None => Ok None
  | Some t => let* h1 := place (sv_junk v) h (sv_base v) sz n in Ok (Some (h1, mkos t hdr (sv_base v)))
  end.
Definition s_ctor_range (ra : bool) (v0 v : senv) (h : heap) (hdr : Z) (l : list (senv * E)) (n : Z) : res (option (heap * oswiss * bool)) :=
  let* o := s_ctor_n v0 h hdr (distance_or_n ra (map snd l) n) in
  match o with
  | None => Ok None
  | Some (h1, s) => let* x := s_insert_range ra v h1 s l in Ok (Some x)
  end.

(** As for dense tables. *)
Definition s_holds (rep : E -> E -> E) (h : heap) (s : oswiss) (l : list E) : Prop :=
  zlists sz (h, s) l /\ forall hist, zhistory_ok hist -> zrefines f sz key_of hash keq rep (h, s) l hist.
Definition s_keeps (h : heap) (s : oswiss) (h' : heap) : Prop :=
  forall a, a <> os_hdr s -> slot_ix (os_base s) sz (s_cap (os_t s)) a = None -> h a <> None -> h' a = h a.
End Swiss.
