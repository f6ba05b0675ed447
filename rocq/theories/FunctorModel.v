(** Unordered sparse and stable containers whose hash function and key_equal are objects with
    a state, different from container to container.  In a table they are the bases hash_base
    and cmp_base (swiss_table.hpp 745, 805-806). *)
From Coq Require Import ZArith List Bool Arith.
From Verif Require Import Base Bits MapSpec WorldSpec FunctorSpec SwissModel SwissRun World.
Import ListNotations.
Open Scope Z_scope.

(** Statements that scan metadata groups for the next element (C22). *)
Definition fscanning {E K G} (c : fcall E K G) : Prop :=
  match c with
  | FOn _ c => scanning c
  | FEraseIf _ _ | FExtract _ _ _ | FMerge _ _ | FMergeR _ _ => True
  | _ => False
  end.

(** Admissible statements, as in World.v. *)
Definition fcall_ok {E K G} (c : fcall E K G) : Prop :=
  match c with
  | FOn _ c => call_ok c
  | FMerge i j | FMergeR i j => i <> j
  | FRange _ _ ra l n => Z.of_nat (length l) < 2 ^ 64 /\ exists k, 0 <= k /\ (if ra then Z.max (Z.of_nat (length l)) n else n) = 2 ^ k - 1
  | _ => True
  end.
Definition fhistory_ok {E K G} (h : list (env * fcall E K G)) : Prop :=
  Forall (fun vc => env_ok (fst vc) /\ fcall_ok (snd vc)) h.

Section Functors.
Context {E K G : Type}.
Variable f : simd.
Variable key_of : E -> K.
Variable hash : G -> K -> Z.
Variable keq : G -> K -> K -> bool.
Variable rep : E -> E -> E.
Variable moved : G -> G.

Record fworld : Type := mkfw { fw_c : nat -> @swiss E; fw_h : nat -> option E; fw_g : nat -> G }.
Definition finit (g : nat -> G) : fworld := mkfw (fun _ => empty_swiss) (fun _ => None) g.

(** merge -- lines 1096-1113.  Only the target's hash function and key_equal are called: the
    source is used through begin(), end(), ++ and extract(iterator), none of which needs a key. *)
Definition f_merge (g : G) (lim : Z) (s o : @swiss E) : res (swiss * swiss * bool) := merge f key_of (hash g) (keq g) lim s o.

(** One statement.  Calls on a container and node insertion hash with the functor of that
    container, also when the node comes from another one (lines 963-970 compute the hash
    again).  swap exchanges hash_base and cmp_base (lines 1143-1144).  Move assignment moves
    them (lines 875-876), also when called by merge(swiss_table &&) for a target without
    elements (lines 1116-1119).  A range constructor stores the functor given (845-846). *)
Definition f_move (v : env) (w : fworld) (i j : nat) : res (fworld * wret E) :=
  if Nat.eqb i j then Ok (w, WDone)
  else
    let* x := move_assign f true true (ev_lim v) (fw_c w i) (fw_c w j) in
    let '(s, o, b) := x in
    Ok (mkfw (setn (setn (fw_c w) i s) j o) (fw_h w) (setn (setn (fw_g w) i (fw_g w j)) j (moved (fw_g w j))), if b then WDone else WThrow).
Definition f_merge_stmt (v : env) (w : fworld) (i j : nat) : res (fworld * wret E) :=
  let* x := f_merge (fw_g w i) (ev_lim v) (fw_c w i) (fw_c w j) in
  let '(s, o, b) := x in
  Ok (mkfw (setn (setn (fw_c w) i s) j o) (fw_h w) (fw_g w), if b then WDone else WThrow).

Definition fexec (v : env) (w : fworld) (c : fcall E K G) : res (fworld * wret E) :=
  match c with
  | FOn i c =>
    let* x := exec f key_of (hash (fw_g w i)) (keq (fw_g w i)) rep v (fw_c w i) c in
    let '(s, r) := x in Ok (mkfw (setn (fw_c w) i s) (fw_h w) (fw_g w), WRet r)
  | FEraseIf i pred =>
    let* x := erase_if f pred (fw_c w i) in
    let '(s, n) := x in Ok (mkfw (setn (fw_c w) i s) (fw_h w) (fw_g w), WCount n)
  | FExtract i k j =>
    let* x := extract_key f key_of (hash (fw_g w i)) (keq (fw_g w i)) (fw_c w i) k in
    let '(s, o) := x in Ok (mkfw (setn (fw_c w) i s) (setn (fw_h w) j o) (fw_g w), WNode o)
  | FInsertNode i j =>
    match fw_h w j with
    | None => Ok (w, WDone)
    | Some e =>
      let* x := insert_handle f key_of (hash (fw_g w i)) (keq (fw_g w i)) (ev_lim v) (fw_c w i) (Some e) in
      let '(s, o) := x in
      match o with
      | None => Ok (mkfw (setn (fw_c w) i s) (fw_h w) (fw_g w), WThrow)
      | Some (p, b, hd, _) =>
        let* n := get_node s p in
        Ok (mkfw (setn (fw_c w) i s) (setn (fw_h w) j hd) (fw_g w), WNodeIn (fst n) b)
      end
    end
  | FMerge i j => f_merge_stmt v w i j
  | FMergeR i j => if s_size (fw_c w i) =? 0 then f_move v w i j else f_merge_stmt v w i j
  | FSwap i j =>
    let* x := swap true (fw_c w i) (fw_c w j) in
    let '(s, o) := x in Ok (mkfw (setn (setn (fw_c w) j o) i s) (fw_h w) (setn (setn (fw_g w) j (fw_g w i)) i (fw_g w j)), WDone)
  | FMove i j => f_move v w i j
  | FRange i g ra l n =>
    let* x := ctor_range f key_of (hash g) (keq g) ra (ev_lim v) l n in
    match x with
    | Some (t, true) =>
      let* y := move_assign f true true (ev_lim v) (fw_c w i) t in
      let '(s, _, b) := y in
      Ok (mkfw (setn (fw_c w) i s) (fw_h w) (setn (fw_g w) i g), if b then WDone else WThrow)
    | _ => Ok (w, WThrow)
    end
  end.

Fixpoint frun (w : fworld) (h : list (env * fcall E K G)) : res (fworld * list (wret E)) :=
  match h with
  | [] => Ok (w, [])
  | (v, c) :: r =>
    let* x := fexec v w c in
    let '(w1, o) := x in
    let* y := frun w1 r in
    let '(w2, os) := y in Ok (w2, o :: os)
  end.
End Functors.
