(** Specification of programs using several containers with unique keys and node handles:
    each container is a list of elements.  Nothing here refers to the model. *)
From Coq Require Import ZArith List Bool Permutation.
From Verif Require Import MapSpec.
Import ListNotations.
Open Scope Z_scope.

(** Statements of a program over containers c0, c1, .. and node handles h0, h1, .. *)
Inductive wcall (E K : Type) : Type :=
| WOn (i : nat) (c : call E K)                         (* a call on ci *)
| WEraseIf (i : nat) (pred : E -> bool)                (* erase_if(ci, pred) *)
| WExtract (i : nat) (k : K) (j : nat)                 (* hj = ci.extract(k) *)
| WInsertNode (i j : nat)                              (* if (!hj.empty()) ci.insert(move(hj)) *)
| WAssignNode (i j : nat)                              (* if (!hj.empty()) ci.insert_or_assign(move(hj)) *)
| WMerge (i j : nat)                                   (* ci.merge(cj) *)
| WSwap (i j : nat)                                    (* ci.swap(cj) *)
| WMove (i j : nat)                                    (* ci = move(cj) *)
| WRange (i : nat) (ra : bool) (l : list E) (n : Z).   (* ci = container(l.begin(), l.end(), n) *)

Inductive wret (E : Type) : Type :=
| WRet (r : ret E)
| WCount (n : Z)
| WNode (o : option E)
| WNodeIn (e : E) (inserted : bool)
| WDone
| WThrow.

Arguments WOn {E K}. Arguments WEraseIf {E K}. Arguments WExtract {E K}. Arguments WInsertNode {E K}. Arguments WAssignNode {E K}.
Arguments WMerge {E K}. Arguments WSwap {E K}. Arguments WMove {E K}. Arguments WRange {E K}.
Arguments WRet {E}. Arguments WCount {E}. Arguments WNode {E}. Arguments WNodeIn {E}. Arguments WDone {E}. Arguments WThrow {E}.

Section Spec.
Context {E K : Type}.
Variable key_of : E -> K.
Variable keq : K -> K -> bool.
Variable rep : E -> E -> E.

Record wstate : Type := mkws { conts : nat -> list E; hands : nat -> option E }.

(** Some element of the list has the key of [e]. *)
Definition present (l : list E) (e : E) : bool := existsb (fun y => keq (key_of y) (key_of e)) l.

(** The elements of [l] that come first with their key, and whose key is not in [base]. *)
Fixpoint firsts (base l : list E) : list E :=
  match l with
  | [] => []
  | e :: r => if present base e then firsts base r else e :: firsts (e :: base) r
  end.

(** Merging [lo] into [ls]: everything not present moves. *)
Definition merged (ls lo ls' lo' : list E) : Prop :=
  Permutation ls' (filter (fun x => negb (present ls x)) lo ++ ls) /\ lo' = filter (present ls) lo.

(** All containers except those listed are as before; likewise for handles. *)
Definition others (is : list nat) (w w' : wstate) : Prop := forall j, ~ In j is -> conts w' j = conts w j.
Definition other_hands (is : list nat) (w w' : wstate) : Prop := forall j, ~ In j is -> hands w' j = hands w j.

Inductive wspec : wcall E K -> wstate -> wstate -> wret E -> Prop :=
| ws_on : forall i c w w' r, spec_step key_of keq rep c (conts w i) (conts w' i) r ->
    others [i] w w' -> other_hands [] w w' -> wspec (WOn i c) w w' (WRet r)
| ws_erase_if : forall i pred w w', conts w' i = filter (fun x => negb (pred x)) (conts w i) ->
    others [i] w w' -> other_hands [] w w' ->
    wspec (WEraseIf i pred) w w' (WCount (Z.of_nat (length (filter pred (conts w i)))))
| ws_extract_absent : forall i k j w w', absent key_of keq k (conts w i) -> hands w' j = None ->
    others [] w w' -> other_hands [j] w w' -> wspec (WExtract i k j) w w' (WNode None)
| ws_extract : forall i k j w w' a x b, located key_of keq k (conts w i) a x b -> conts w' i = a ++ b -> hands w' j = Some x ->
    others [i] w w' -> other_hands [j] w w' -> wspec (WExtract i k j) w w' (WNode (Some x))
| ws_node_empty : forall i j w w', hands w j = None -> others [] w w' -> other_hands [] w w' ->
    wspec (WInsertNode i j) w w' WDone
| ws_node_new : forall i j w w' e, hands w j = Some e -> absent key_of keq (key_of e) (conts w i) ->
    Permutation (conts w' i) (e :: conts w i) -> hands w' j = None ->
    others [i] w w' -> other_hands [j] w w' -> wspec (WInsertNode i j) w w' (WNodeIn e true)
| ws_node_old : forall i j w w' e x, hands w j = Some e -> In x (conts w i) -> keq (key_of x) (key_of e) = true ->
    others [] w w' -> other_hands [] w w' -> wspec (WInsertNode i j) w w' (WNodeIn x false)
| ws_node_throw : forall i j w w' e, hands w j = Some e -> absent key_of keq (key_of e) (conts w i) ->
    others [] w w' -> other_hands [] w w' -> wspec (WInsertNode i j) w w' WThrow
| ws_assign_node_empty : forall i j w w', hands w j = None -> others [] w w' -> other_hands [] w w' ->
    wspec (WAssignNode i j) w w' WDone
| ws_assign_node_new : forall i j w w' e, hands w j = Some e -> absent key_of keq (key_of e) (conts w i) ->
    Permutation (conts w' i) (e :: conts w i) -> hands w' j = None ->
    others [i] w w' -> other_hands [j] w w' -> wspec (WAssignNode i j) w w' (WNodeIn e true)
| ws_assign_node_old : forall i j w w' e a x b, hands w j = Some e -> located key_of keq (key_of e) (conts w i) a x b ->
    conts w' i = a ++ e :: b -> hands w' j = None ->
    others [i] w w' -> other_hands [j] w w' -> wspec (WAssignNode i j) w w' (WNodeIn e false)
| ws_assign_node_throw : forall i j w w' e, hands w j = Some e -> absent key_of keq (key_of e) (conts w i) ->
    others [] w w' -> other_hands [] w w' -> wspec (WAssignNode i j) w w' WThrow
| ws_merge : forall i j w w', merged (conts w i) (conts w j) (conts w' i) (conts w' j) ->
    others [i; j] w w' -> other_hands [] w w' -> wspec (WMerge i j) w w' WDone
| ws_merge_throw : forall i j w w', others [] w w' -> other_hands [] w w' -> wspec (WMerge i j) w w' WThrow
| ws_swap : forall i j w w', conts w' i = conts w j -> conts w' j = conts w i ->
    others [i; j] w w' -> other_hands [] w w' -> wspec (WSwap i j) w w' WDone
| ws_move_self : forall i w w', others [] w w' -> other_hands [] w w' -> wspec (WMove i i) w w' WDone
| ws_move : forall i j w w', i <> j -> conts w' i = conts w j -> conts w' j = [] ->
    others [i; j] w w' -> other_hands [] w w' -> wspec (WMove i j) w w' WDone
| ws_range : forall i ra l n w w', Permutation (conts w' i) (firsts [] l) ->
    others [i] w w' -> other_hands [] w w' -> wspec (WRange i ra l n) w w' WDone
| ws_range_throw : forall i ra l n w w', others [] w w' -> other_hands [] w w' -> wspec (WRange i ra l n) w w' WThrow.

Inductive wspec_run : list (wcall E K) -> wstate -> wstate -> list (wret E) -> Prop :=
| wr_nil : forall w, wspec_run [] w w []
| wr_cons : forall c cs w w1 w2 r rs, wspec c w w1 r -> wspec_run cs w1 w2 rs ->
    wspec_run (c :: cs) w w2 (r :: rs).

(** The empty start. *)
Definition wstart : wstate := mkws (fun _ => []) (fun _ => None).
End Spec.
