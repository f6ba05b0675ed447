(** Common definitions: outcome type, index ranges, memories as functions.
    Nothing here models library code; it is vocabulary used by the model files. *)
From Coq Require Import ZArith List Bool Lia Permutation.
From Coq Require Import ZifyBool ZifyNat.
Import ListNotations.
Open Scope Z_scope.

(** Reasons for which a call is not defined (or does not end). *)
Inductive err : Type :=
| OutOfBounds      (* access outside an allocated array *)
| NullDeref        (* dereference of a null pointer / use of an absent buffer *)
| DeadObject       (* access to an unconstructed or destroyed element *)
| Overwrite        (* construction on top of a live element (which would be lost) *)
| UseAfterFree     (* access to a deallocated buffer *)
| AssertFailed     (* TPP_ASSERT violated: trap (debug) / unreachable (release) *)
| BitScanZero      (* __builtin_ctz(0), __builtin_clz(0) *)
| ShiftRange       (* shift by at least the word width *)
| DivByZero        (* integer division by zero *)
| BadFree          (* deallocate with a wrong pointer or size *)
| BadCast          (* float to integer conversion out of range *)
| Diverges         (* the loop does not terminate *)
| Terminated       (* std::terminate: an exception in a noexcept function *)
| BadPlacement.    (* the allocator returned memory that is in use: not a fault of the library *)

Inductive res (A : Type) : Type :=
| Ok (a : A)
| Err (e : err).
Arguments Ok {A} a.
Arguments Err {A} e.

Definition bind {A B} (x : res A) (k : A -> res B) : res B :=
  match x with Ok a => k a | Err e => Err e end.
Notation "'let*' x ':=' c 'in' k" := (bind c (fun x => k))
  (at level 200, x pattern, c at level 100, k at level 200, right associativity).
Definition guard (b : bool) (e : err) : res unit := if b then Ok tt else Err e.

(** The integers 0 .. n-1. *)
Definition zrange (n : Z) : list Z := map Z.of_nat (seq 0 (Z.to_nat n)).

(** Memory update. *)
Definition upd {A} (f : Z -> A) (i : Z) (v : A) : Z -> A :=
  fun j => if j =? i then v else f j.

Definition two64 : Z := 2 ^ 64.

(** Left fold with early exit on error. *)
Fixpoint foldM {S A} (f : S -> A -> res S) (l : list A) (s : S) : res S :=
  match l with
  | [] => Ok s
  | x :: r => let* s' := f s x in foldM f r s'
  end.
