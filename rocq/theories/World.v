(** Running programs that use several unordered sparse or stable containers on the model. *)
From Coq Require Import ZArith List Bool Arith.
From Verif Require Import Base Bits MapSpec WorldSpec SwissModel SwissRun.
Import ListNotations.
Open Scope Z_scope.

Definition setn {A} (m : nat -> A) (i : nat) (x : A) : nat -> A := fun j => if Nat.eqb j i then x else m j.

(** Statements whose execution scans metadata groups for the next element. *)
Definition wscanning {E K} (c : wcall E K) : Prop :=
  match c with
  | WOn _ c => scanning c
  | WEraseIf _ _ | WExtract _ _ _ | WMerge _ _ => True
  | _ => False
  end.

(** Admissible statements: as for single calls; merge has two containers; ranges have
    2^k - 1 elements or are given a bucket count of that form (C16). *)
Definition wcall_ok {E K} (c : wcall E K) : Prop :=
  match c with
  | WOn _ c => call_ok c
  | WMerge i j => i <> j
  | WRange _ ra l n => Z.of_nat (length l) < 2 ^ 64 /\ exists k, 0 <= k /\ (if ra then Z.max (Z.of_nat (length l)) n else n) = 2 ^ k - 1
  | _ => True
  end.
Definition whistory_ok {E K} (h : list (env * wcall E K)) : Prop :=
  Forall (fun vc => env_ok (fst vc) /\ wcall_ok (snd vc)) h.

Section World.
Context {E K : Type}.
Variable f : simd.
Variable key_of : E -> K.
Variable hash : K -> Z.
Variable keq : K -> K -> bool.
Variable rep : E -> E -> E.

Record world : Type := mkw { w_c : nat -> @swiss E; w_h : nat -> option E }.
Definition winit : world := mkw (fun _ => empty_swiss) (fun _ => None).

(** One statement.  Containers use a propagating allocator that always compares equal,
    as std::allocator does.  erase_if: sparse_map.hpp 574-589; extract, insert of node
    handles, merge: swiss_table.hpp 962-979, 994-1008, 1061-1113; swap and move assignment: 870-883,
    1140-1146 (assignment to itself is skipped, line 872); range construction: 845-846. *)
Definition wexec (v : env) (w : world) (c : wcall E K) : res (world * wret E) :=
  match c with
  | WOn i c =>
    let* x := exec f key_of hash keq rep v (w_c w i) c in
    let '(s, r) := x in Ok (mkw (setn (w_c w) i s) (w_h w), WRet r)
  | WEraseIf i pred =>
    let* x := erase_if f pred (w_c w i) in
    let '(s, n) := x in Ok (mkw (setn (w_c w) i s) (w_h w), WCount n)
  | WExtract i k j =>
    let* x := extract_key f key_of hash keq (w_c w i) k in
    let '(s, o) := x in Ok (mkw (setn (w_c w) i s) (setn (w_h w) j o), WNode o)
  | WInsertNode i j =>
    match w_h w j with
    | None => Ok (w, WDone)
    | Some e =>
      let* x := insert_handle f key_of hash keq (ev_lim v) (w_c w i) (Some e) in
      let '(s, o) := x in
      match o with
      | None => Ok (mkw (setn (w_c w) i s) (w_h w), WThrow)
      | Some (p, b, hd, _) =>
        let* n := get_node s p in
        Ok (mkw (setn (w_c w) i s) (setn (w_h w) j hd), WNodeIn (fst n) b)
      end
    end
  | WAssignNode i j =>
    match w_h w j with
    | None => Ok (w, WDone)
    | Some e =>
      let* x := assign_handle f key_of hash keq (ev_lim v) (w_c w i) (Some e) in
      let '(s, o) := x in
      match o with
      | None => Ok (mkw (setn (w_c w) i s) (w_h w), WThrow)
      | Some (p, b, _) =>
        let* n := get_node s p in
        Ok (mkw (setn (w_c w) i s) (setn (w_h w) j None), WNodeIn (fst n) b)
      end
    end
  | WMerge i j =>
    let* x := merge f key_of hash keq (ev_lim v) (w_c w i) (w_c w j) in
    let '(s, o, b) := x in
    Ok (mkw (setn (setn (w_c w) i s) j o) (w_h w), if b then WDone else WThrow)
  | WSwap i j =>
    let* x := swap true (w_c w i) (w_c w j) in
    let '(s, o) := x in Ok (mkw (setn (setn (w_c w) j o) i s) (w_h w), WDone)
  | WMove i j =>
    if Nat.eqb i j then Ok (w, WDone)
    else
      let* x := move_assign f true true (ev_lim v) (w_c w i) (w_c w j) in
      let '(s, o, b) := x in
      Ok (mkw (setn (setn (w_c w) i s) j o) (w_h w), if b then WDone else WThrow)
  | WRange i ra l n =>
    let* x := ctor_range f key_of hash keq ra (ev_lim v) l n in
    match x with
    | Some (t, true) =>
      let* y := move_assign f true true (ev_lim v) (w_c w i) t in
      let '(s, _, b) := y in
      Ok (mkw (setn (w_c w) i s) (w_h w), if b then WDone else WThrow)
    | _ => Ok (w, WThrow)
    end
  end.

Fixpoint wrun (w : world) (h : list (env * wcall E K)) : res (world * list (wret E)) :=
  match h with
  | [] => Ok (w, [])
  | (v, c) :: r =>
    let* x := wexec v w c in
    let '(w1, o) := x in
    let* y := wrun w1 r in
    let '(w2, os) := y in Ok (w2, o :: os)
  end.

(** The containers that occur in such programs. *)
Definition occurs (s : @swiss E) : Prop :=
  exists h w rs i, whistory_ok h /\ wrun winit h = Ok (w, rs) /\ s = w_c w i.

(** From now on the table answers every history of calls as the list [l] does (up to the
    undefined bit scan of C22 on NEON and portable builds). *)
Definition behaves (s : @swiss E) (l : list E) : Prop := forall h, history_ok h ->
  (exists s' rs l', run f key_of hash keq rep s h = Ok (s', rs) /\ spec_run key_of keq rep (map snd h) l l' rs) \/
  ((f = NEON \/ f = WORD) /\ (exists v c, In (v, c) h /\ scanning c) /\ run f key_of hash keq rep s h = Err BitScanZero).
End World.
