(** Model of the functions of swiss_table.hpp and dense_table.hpp that take another
    container, called with the container itself. *)
From Coq Require Import ZArith List Bool.
From Verif Require Import Base Bits SelfSpec.
From Verif Require DenseModel DenseRun OrderedDense OrderedRun.
From Verif Require Import LinkModel MapSpec SwissModel SwissRun SwissOrderedSpec SwissOrdered SwissOrderedRun.
Import ListNotations.
Open Scope Z_scope.

(** Programs, for any kind of container: [on] are the other calls, [swp] is swap with itself,
    [mrg] merge with itself (false: it threw), [none] tells whether size() is 0. *)
Section Run.
Context {E St V C R : Type}.
Variable on : V -> St -> C -> res (St * R).
Variable swp : St -> res St.
Variable mrg : V -> St -> res (St * bool).
Variable none : St -> bool.

(** Copy and move assignment test this != &other first -- swiss_table.hpp 858, 872,
    dense_table.hpp 252, 278.  merge(&&) -- swiss_table.hpp 1116-1122: move assignment if the
    target is empty. *)
Definition lexec (v : V) (s : St) (c : lcall C) : res (St * lret R) :=
  match c with
  | LOn c => let* x := on v s c in Ok (fst x, LRet (snd x))
  | LSwap => let* s1 := swp s in Ok (s1, LDone)
  | LCopy | LMove => Ok (s, LDone)
  | LMerge => let* x := mrg v s in Ok (fst x, if snd x then LDone else LThrow)
  | LMergeMove =>
    if none s then Ok (s, LDone)
    else let* x := mrg v s in Ok (fst x, if snd x then LDone else LThrow)
  end.
Fixpoint lrun (s : St) (h : list (V * lcall C)) : res (St * list (lret R)) :=
  match h with
  | [] => Ok (s, [])
  | (v, c) :: r =>
    let* x := lexec v s c in
    let '(s1, o) := x in
    let* y := lrun s1 r in
    let '(s2, os) := y in Ok (s2, o :: os)
  end.

(** The container behaves as the list [l] along the program [h], up to the first call that is
    not covered ([blocked]), if there is one; [view s l]: the container [s] iterates over [l]. *)
Variable step : C -> list E -> list E -> R -> Prop.
Variable same : list E -> list E -> Prop.
Variable view : St -> list E -> Prop.
Variable blocked : V -> St -> lcall C -> Prop.
Definition lrefines (s : St) (l : list E) (h : list (V * lcall C)) : Prop :=
  (exists s' rs l', lrun s h = Ok (s', rs) /\ lspec_run step same (map snd h) l l' rs /\ view s' l') \/
  (exists h1 v c h2 s1 rs1 l1, h = h1 ++ (v, c) :: h2 /\ lrun s h1 = Ok (s1, rs1) /\
     lspec_run step same (map snd h1) l l1 rs1 /\ view s1 l1 /\ blocked v s1 c).
End Run.

(** Admissible programs: [ok] for the other calls. *)
Definition lhistory_ok {V C} (ok : V * C -> Prop) (env : V -> Prop) (h : list (V * lcall C)) : Prop :=
  Forall (fun vc => env (fst vc) /\ match snd vc with LOn c => ok (fst vc, c) | _ => True end) h.
(** Dense containers have no merge. *)
Definition no_merge {V C} (h : list (V * lcall C)) : Prop :=
  Forall (fun vc => snd vc <> LMerge /\ snd vc <> LMergeMove) h.

Section Sparse.
Context {E K : Type}.
Variable f : simd.
Variable sz : Z.
Variable key_of : E -> K.
Variable hash : K -> Z.
Variable keq : K -> K -> bool.
Variable rep : E -> E -> E.

(** swap -- swiss_table.hpp 1140-1146: every line exchanges a member with itself. *)
Definition u_swap_self (s : @swiss E) : res (@swiss E) := let* x := swap true s s in Ok (fst x).
(** merge -- lines 1096-1113: source and target are one table.  An insertion that moved the
    nodes would leave the loop with iterators into freed arrays. *)
Fixpoint u_merge_self_loop (fuel : nat) (lim : Z) (s : @swiss E) (p last : Z) : res (@swiss E * bool) :=
  match fuel with
  | O => Err Diverges
  | S fu =>
    if p =? last then Ok (s, true)
    else
      let* n := get_node s p in
      let k := key_of (fst n) in
      let h := hash k in
      let* q := find_node f key_of keq s k h in
      if q =? s_cap s then
        let* x := do_extract f s p in
        let '(s1, e) := x in
        let* r := emplace_node f lim true s1 h e in
        let '(s2, oo) := r in
        match oo with
        | None => Err Terminated
        | Some (_, []) => let* p' := iter_next f s2 p in u_merge_self_loop fu lim s2 p' last
        | Some _ => Err UseAfterFree
        end
      else let* p' := iter_next f s p in u_merge_self_loop fu lim s p' last
  end.
Definition u_merge_self (v : env) (s : @swiss E) : res (@swiss E * bool) :=
  let* x := reserve f (ev_lim v) s (add64 (s_size s) (s_size s)) in
  let '(s1, r) := x in
  match r with
  | None => Ok (s1, false)
  | Some _ =>
    let* p := begin_iter f s1 in
    let* l := end_iter f s1 in
    u_merge_self_loop (iter_fuel s1) (ev_lim v) s1 p l
  end.
Definition ulrun : @swiss E -> list (env * lcall (call E K)) -> res (@swiss E * list (lret (ret E))) :=
  lrun (exec f key_of hash keq rep) u_swap_self u_merge_self (fun s => s_size s =? 0).

(** Ordered: swap -- lines 1140-1146, table_common.hpp 170-176. *)
Definition z_swap_self (hs : heap * oswiss E) : res (heap * oswiss E) :=
  let '(h, s) := hs in let* x := s_swap h s s in let '(h1, s1, _) := x in Ok (h1, s1).
(** merge -- lines 1096-1113, backwards from end() down to but not including begin(). *)
Fixpoint z_merge_self_loop (fuel : nat) (v : senv) (h : heap) (s : oswiss E) (pos last : Z) : res (heap * oswiss E * bool) :=
  match fuel with
  | O => Err Diverges
  | S fu =>
    let* p := prev_link h pos in
    if p =? last then Ok (h, s, true)
    else
      let* e := s_value sz s p in
      let k := key_of e in
      let hh := hash k in
      let* q := find_node f key_of keq (os_t s) k hh in
      if q =? s_cap (os_t s) then
        let* x := s_extract_at f sz h s p in
        let '(h1, s1, oe) := x in
        match oe with
        | None => Err NullDeref
        | Some e1 =>
          let* r := s_emplace_node f sz v true h1 s1 0 hh e1 in
          let '(h2, s2, oo) := r in
          match oo with
          | None => Err Terminated
          | Some _ => z_merge_self_loop fu v h2 s2 p last
          end
        end
      else z_merge_self_loop fu v h s p last
  end.
Definition z_merge_self (v : senv) (hs : heap * oswiss E) : res (heap * oswiss E * bool) :=
  let '(h, s) := hs in
  let* x := s_reserve f sz v h s (add64 (s_size (os_t s)) (s_size (os_t s))) in
  let '(h1, s1, r) := x in
  match r with
  | None => Ok (h1, s1, false)
  | Some _ =>
    let* last := next_link h1 (os_hdr s1) in
    z_merge_self_loop (iter_fuel (os_t s1)) v h1 s1 (os_hdr s1) last
  end.
Definition zlrun : heap * oswiss E -> list (senv * lcall (zcall E K)) -> res (heap * oswiss E * list (lret (ret E))) :=
  lrun (zexec f sz key_of hash keq rep) z_swap_self z_merge_self (fun hs => s_size (os_t (snd hs)) =? 0).

(** Calls that are not covered: on narrow builds those that scan groups (C03); for ordered
    containers those of [zblocked], and a placement over links in use. *)
Definition ulblocked (v : env) (s : @swiss E) (c : lcall (call E K)) : Prop :=
  (f = NEON \/ f = WORD) /\
  match c with LOn c => scanning c | LMerge | LMergeMove => True | _ => False end /\
  lexec (exec f key_of hash keq rep) u_swap_self u_merge_self (fun s => s_size s =? 0) v s c = Err BitScanZero.
Definition zlblocked (v : senv) (hs : heap * oswiss E) (c : lcall (zcall E K)) : Prop :=
  match c with
  | LOn c => zblocked f sz key_of hash keq rep v hs c
  | LMerge | LMergeMove => z_merge_self v hs = Err BadPlacement
  | _ => False
  end.
End Sparse.

Section Dense.
Import DenseModel DenseRun OrderedDense OrderedRun.
Context {E K : Type}.
Variable sz : Z.
Variable nk : nat.
Variable key_of : nat -> E -> K.
Variable hash : K -> Z.
Variable keq : K -> K -> bool.
Variable rep : E -> E -> E.
(** There is no merge. *)
Definition no_function {V St} (v : V) (s : St) : res (St * bool) := Err AssertFailed.
(** swap -- dense_table.hpp 460-478. *)
Definition d_swap_self (s : dense E) : res (dense E) := let* x := DenseModel.swap true s s in Ok (fst x).
Definition dlrun : dense E -> list (denv * lcall (DenseSpec.dcall E K)) -> res (dense E * list (lret (DenseSpec.dret E))) :=
  lrun (dexec nk key_of hash keq rep) d_swap_self no_function (fun s => d_size s =? 0).
Definition dlblocked (v : denv) (s : dense E) (c : lcall (DenseSpec.dcall E K)) : Prop :=
  match c with LOn c => blocked nk key_of hash keq rep v s c | _ => False end.
Definition o_swap_self (hs : heap * odense E) : res (heap * odense E) :=
  let '(h, s) := hs in let* x := o_swap true h s s in let '(h1, s1, _) := x in Ok (h1, s1).
Definition olrun : heap * odense E -> list (oenv * lcall (OrderedSpec.ocall E K)) -> res (heap * odense E * list (lret (DenseSpec.dret E))) :=
  lrun (oexec sz nk key_of hash keq rep) o_swap_self no_function (fun hs => d_size (o_d (snd hs)) =? 0).
Definition olblocked (v : oenv) (hs : heap * odense E) (c : lcall (OrderedSpec.ocall E K)) : Prop :=
  match c with LOn c => oblocked sz nk key_of hash keq rep v hs c | _ => False end.
End Dense.
