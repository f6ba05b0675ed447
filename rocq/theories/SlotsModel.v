(** The program over an unordered container that corresponds to one over an ordered container:
    the same calls with the same memory. *)
From Coq Require Import ZArith List Bool.
From Verif Require Import Base SlotsSpec.
From Verif Require DenseSpec DenseRun OrderedSpec OrderedDense OrderedRun.
From Verif Require Import MapSpec SwissModel SwissRun SwissOrderedSpec SwissOrdered SwissOrderedRun.
Import ListNotations.
Open Scope Z_scope.

(** is_ordered -- swiss_table.hpp 763, dense_table.hpp 89: one class template serves both; all
    calls of [plain] and [dplain] exist on both. *)
Definition unlinked {E K} (h : list (senv * zcall E K)) : list (env * call E K) :=
  flat_map (fun vc => match plain (snd vc) with Some l => map (fun c => (sv_e (fst vc), c)) l | None => [] end) h.
Definition paired {E K} (h : list (senv * zcall E K)) : Prop := Forall (fun vc => plain (snd vc) <> None) h.
Definition dunlinked {E K} (h : list (OrderedDense.oenv * OrderedSpec.ocall E K)) : list (DenseRun.denv * DenseSpec.dcall E K) :=
  flat_map (fun vc => match dplain (snd vc) with Some l => map (fun c => (OrderedDense.ov_d (fst vc), c)) l | None => [] end) h.
Definition dpaired {E K} (h : list (OrderedDense.oenv * OrderedSpec.ocall E K)) : Prop := Forall (fun vc => dplain (snd vc) <> None) h.
