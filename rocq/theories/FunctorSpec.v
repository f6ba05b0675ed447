(** Specification of programs over several containers with unique keys whose hash functions
    and key comparisons differ from container to container: each container is a list of
    elements together with its functors.  Nothing here refers to the model. *)
From Coq Require Import ZArith List Bool Permutation.
From Verif Require Import MapSpec WorldSpec.
Import ListNotations.
Open Scope Z_scope.

(** Statements.  [G] are the values of the functors. *)
Inductive fcall (E K G : Type) : Type :=
| FOn (i : nat) (c : call E K)                                  (* a call on ci *)
| FEraseIf (i : nat) (pred : E -> bool)                         (* erase_if(ci, pred) *)
| FExtract (i : nat) (k : K) (j : nat)                          (* hj = ci.extract(k) *)
| FInsertNode (i j : nat)                                       (* if (!hj.empty()) ci.insert(move(hj)) *)
| FMerge (i j : nat)                                            (* ci.merge(cj) *)
| FMergeR (i j : nat)                                           (* ci.merge(move(cj)) *)
| FSwap (i j : nat)                                             (* ci.swap(cj) *)
| FMove (i j : nat)                                             (* ci = move(cj) *)
| FRange (i : nat) (g : G) (ra : bool) (l : list E) (n : Z).    (* ci = container(l.begin(), l.end(), n, g) *)
Arguments FOn {E K G}. Arguments FEraseIf {E K G}. Arguments FExtract {E K G}. Arguments FInsertNode {E K G}.
Arguments FMerge {E K G}. Arguments FMergeR {E K G}. Arguments FSwap {E K G}. Arguments FMove {E K G}. Arguments FRange {E K G}.

Section Spec.
Context {E K G : Type}.
Variable key_of : E -> K.
Variable keq : G -> K -> K -> bool.
Variable rep : E -> E -> E.
(** What is left of a functor that was moved from. *)
Variable moved : G -> G.

Record fstate : Type := mkfs { fcon : wstate (E := E); ffun : nat -> G }.

(** The elements of [l] that stay when [l] is merged into [base]. *)
Fixpoint stay (q : K -> K -> bool) (base l : list E) : list E :=
  match l with
  | [] => []
  | e :: r => if present key_of q base e then e :: stay q base r else stay q (e :: base) r
  end.

Definition same_functors (w w' : fstate) : Prop := forall j, ffun w' j = ffun w j.

Inductive fspec : fcall E K G -> fstate -> fstate -> wret E -> Prop :=
| fs_on : forall i c w w' r, wspec key_of (keq (ffun w i)) rep (WOn i c) (fcon w) (fcon w') r ->
    same_functors w w' -> fspec (FOn i c) w w' r
| fs_erase_if : forall i p w w' r, wspec key_of (keq (ffun w i)) rep (WEraseIf i p) (fcon w) (fcon w') r ->
    same_functors w w' -> fspec (FEraseIf i p) w w' r
| fs_extract : forall i k j w w' r, wspec key_of (keq (ffun w i)) rep (WExtract i k j) (fcon w) (fcon w') r ->
    same_functors w w' -> fspec (FExtract i k j) w w' r
| fs_node : forall i j w w' r, wspec key_of (keq (ffun w i)) rep (WInsertNode i j) (fcon w) (fcon w') r ->
    same_functors w w' -> fspec (FInsertNode i j) w w' r
(** Merging: keys are compared as the target compares them. *)
| fs_merge : forall c i j w w', c = FMerge i j \/ c = FMergeR i j ->
    let q := keq (ffun w i) in
    Permutation (conts (fcon w') i) (firsts key_of q (conts (fcon w) i) (conts (fcon w) j) ++ conts (fcon w) i) ->
    conts (fcon w') j = stay q (conts (fcon w) i) (conts (fcon w) j) ->
    others [i; j] (fcon w) (fcon w') -> other_hands [] (fcon w) (fcon w') -> same_functors w w' -> fspec c w w' WDone
| fs_merge_throw : forall c i j w w', c = FMerge i j \/ c = FMergeR i j ->
    others [] (fcon w) (fcon w') -> other_hands [] (fcon w) (fcon w') -> same_functors w w' -> fspec c w w' WThrow
(** swap, move assignment and construction of a new container carry the functors along. *)
| fs_swap : forall i j w w', conts (fcon w') i = conts (fcon w) j -> conts (fcon w') j = conts (fcon w) i ->
    others [i; j] (fcon w) (fcon w') -> other_hands [] (fcon w) (fcon w') ->
    ffun w' i = ffun w j -> ffun w' j = ffun w i -> (forall x, x <> i -> x <> j -> ffun w' x = ffun w x) ->
    fspec (FSwap i j) w w' WDone
| fs_move_self : forall i w w', others [] (fcon w) (fcon w') -> other_hands [] (fcon w) (fcon w') -> same_functors w w' ->
    fspec (FMove i i) w w' WDone
| fs_move : forall i j w w', i <> j -> conts (fcon w') i = conts (fcon w) j -> conts (fcon w') j = [] ->
    others [i; j] (fcon w) (fcon w') -> other_hands [] (fcon w) (fcon w') ->
    ffun w' i = ffun w j -> ffun w' j = moved (ffun w j) -> (forall x, x <> i -> x <> j -> ffun w' x = ffun w x) ->
    fspec (FMove i j) w w' WDone
| fs_range : forall i g ra l n w w', Permutation (conts (fcon w') i) (firsts key_of (keq g) [] l) ->
    others [i] (fcon w) (fcon w') -> other_hands [] (fcon w) (fcon w') ->
    ffun w' i = g -> (forall x, x <> i -> ffun w' x = ffun w x) ->
    fspec (FRange i g ra l n) w w' WDone
| fs_range_throw : forall i g ra l n w w', others [] (fcon w) (fcon w') -> other_hands [] (fcon w) (fcon w') -> same_functors w w' ->
    fspec (FRange i g ra l n) w w' WThrow.

Inductive fspec_run : list (fcall E K G) -> fstate -> fstate -> list (wret E) -> Prop :=
| fr_nil : forall w, fspec_run [] w w []
| fr_cons : forall c cs w w1 w2 r rs, fspec c w w1 r -> fspec_run cs w1 w2 rs ->
    fspec_run (c :: cs) w w2 (r :: rs).

(** The start: empty containers, with functors of the program's choice. *)
Definition fstart (g : nat -> G) : fstate := mkfs wstart g.
End Spec.
