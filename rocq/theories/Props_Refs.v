(** Comparison of map element references (C44). *)
From Coq Require Import Bool ZArith.
From Verif Require Import RefModel RefProofs.
Open Scope Z_scope.

(** C++20: the operators are consistent. *)
Theorem C44_cxx20 : forall (K M : Type) (ltk : K -> K -> bool) (ltm : M -> M -> bool), total ltk -> total ltm ->
  consistent (ref20_eq ltk ltm) (ref20_lt ltk ltm) (ref20_le ltk ltm) (ref20_gt ltk ltm) (ref20_ge ltk ltm) (ref20_ne ltk ltm).
Proof. exact (fun K M ltk ltm Tk Tm => ref20_consistent ltk ltm Tk Tm). Qed.
Print Assumptions C44_cxx20.
Example C44_cxx20_case : ref20_lt Z.ltb Z.ltb (1, 5) (2, 3) = true /\ ref20_le Z.ltb Z.ltb (1, 5) (1, 4) = false /\ ref20_gt Z.ltb Z.ltb (1, 5) (1, 4) = true.
Proof. repeat split; reflexivity. Qed.

(** C++17: equality, converses and transitivity, and everything for pairs whose parts are
    ordered alike.  Missing: pairs whose parts are not (next theorem). *)
Theorem C44_cxx17_partial : forall (K M : Type) (ltk : K -> K -> bool) (ltm : M -> M -> bool), total ltk -> total ltm ->
  (forall a b, ref17_eq ltk ltm a b = true <-> a = b) /\ (forall a b, ref17_ne ltk ltm a b = negb (ref17_eq ltk ltm a b)) /\
  (forall a b, ref17_gt ltk ltm a b = ref17_lt ltk ltm b a /\ ref17_ge ltk ltm a b = ref17_le ltk ltm b a) /\
  (forall a b c, ref17_lt ltk ltm a b = true -> ref17_lt ltk ltm b c = true -> ref17_lt ltk ltm a c = true) /\
  (forall a b, ref17_lt ltk ltm a b = true \/ ref17_eq ltk ltm a b = true -> ref17_le ltk ltm a b = true) /\
  (forall a b, ref17_lt ltk ltm a b = true -> ref17_eq ltk ltm a b = false /\ ref17_lt ltk ltm b a = false) /\
  forall a b, ltk (fst a) (fst b) = ltm (snd a) (snd b) -> ltk (fst b) (fst a) = ltm (snd b) (snd a) ->
    (ref17_le ltk ltm a b = true <-> ref17_lt ltk ltm a b = true \/ ref17_eq ltk ltm a b = true) /\
    (ref17_lt ltk ltm a b = true \/ ref17_eq ltk ltm a b = true \/ ref17_lt ltk ltm b a = true).
Proof. exact (fun K M ltk ltm Tk Tm => ref17_holds ltk ltm Tk Tm). Qed.
Print Assumptions C44_cxx17_partial.
Example C44_cxx17_case : ref17_lt Z.ltb Z.ltb (1, 2) (3, 4) = true /\ ref17_le Z.ltb Z.ltb (1, 2) (1, 2) = true /\ ref17_lt Z.ltb Z.ltb (3, 4) (1, 2) = false.
Proof. repeat split; reflexivity. Qed.
(** (1, 5) and (2, 3) are not ordered; (1, 3) <= (1, 5), but neither < nor == holds. *)
Theorem C44_cxx17_refuted : total Z.ltb /\
  (ref17_lt Z.ltb Z.ltb (1, 5) (2, 3) = false /\ ref17_eq Z.ltb Z.ltb (1, 5) (2, 3) = false /\ ref17_lt Z.ltb Z.ltb (2, 3) (1, 5) = false) /\
  (ref17_le Z.ltb Z.ltb (1, 3) (1, 5) = true /\ ref17_lt Z.ltb Z.ltb (1, 3) (1, 5) = false /\ ref17_eq Z.ltb Z.ltb (1, 3) (1, 5) = false).
Proof. split; [exact z_total|repeat split; reflexivity]. Qed.
Print Assumptions C44_cxx17_refuted.
