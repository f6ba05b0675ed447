(** The bucket interface of dense tables: begin(n), end(n), bucket_size(n), bucket(key). *)
From Coq Require Import ZArith List Bool Permutation.
From Verif Require Import Base DenseModel.
Import ListNotations.
Open Scope Z_scope.

Section Buckets.
Context {E K : Type}.
Variable hash : K -> Z.
Notation dense := (dense E).

(** bucket_iterator -- dense_table.hpp 116-198.  [b_base]: m_base is not null.  The class
    keeps one position per key; its node() is m_base + m_pos (line 191), which has a meaning
    for one key only.  The model follows the chains of one key index [j].  (m_pos = 0 in line
    197 and m_base + m_pos in line 191 do not compile for std::array; they are taken as
    written for plain positions.) *)
Record biter := mkb { b_base : bool; b_pos : Z }.

(** begin(n) -- lines 338-339. *)
Definition bucket_begin (s : dense) (j : nat) (n : Z) : res biter :=
  let* _ := check_bucket s n in Ok (mkb (negb (d_cap s =? 0)) (d_sparse s n j)).
(** end(n) -- lines 340-341: a default constructed iterator, lines 164, 196-197. *)
Definition bucket_end : biter := mkb false 0.
(** operator== -- line 185. *)
Definition biter_eq (a b : biter) : bool := Bool.eqb (b_base a) (b_base b) && (b_pos a =? b_pos b).
(** node() -- line 191. *)
Definition biter_node (s : dense) (it : biter) : res (node E) :=
  let* _ := guard (b_base it) NullDeref in get_node s (b_pos it).
(** operator++ -- lines 170-180, 193-194. *)
Definition biter_next (s : dense) (j : nat) (it : biter) : res biter :=
  let* n := biter_node s it in Ok (mkb (b_base it) (n_next n j)).

(** for (it = first; it != end(n); ++it) visit ( *it): the elements visited, and how the loop
    ends. *)
Fixpoint bucket_loop (fuel : nat) (s : dense) (j : nat) (it : biter) : list E * res unit :=
  match fuel with
  | O => ([], Err Diverges)
  | S fu =>
    if biter_eq it bucket_end then ([], Ok tt)
    else
      match biter_node s it with
      | Err e => ([], Err e)
      | Ok n =>
        match biter_next s j it with
        | Err e => ([n_val n], Err e)
        | Ok it' => let '(l, r) := bucket_loop fu s j it' in (n_val n :: l, r)
        end
      end
  end.
Definition bucket_walk (s : dense) (j : nat) (n : Z) : list E * res unit :=
  match bucket_begin s j n with Err e => ([], Err e) | Ok it => bucket_loop (chain_fuel s) s j it end.
(** bucket_size -- line 345: std::distance(begin(n), end(n)). *)
Definition bucket_size (s : dense) (j : nat) (n : Z) : res Z :=
  let '(l, r) := bucket_walk s j n in let* _ := r in Ok (Z.of_nat (length l)).
(** bucket(key) -- line 347. *)
Definition bucket (s : dense) (k : K) : res Z :=
  let* _ := guard (negb (d_bc s =? 0)) DivByZero in Ok (hash k mod d_bc s).
End Buckets.

(** Specification, for a container with elements [l]: the iterators of bucket n visit the
    elements whose hash modulo the number of buckets is n, each once, then step outside of
    the element array; bucket(key) is the bucket that holds the element. *)
Definition walks {E K} (nk : nat) (key_of : nat -> E -> K) (hash : K -> Z) (s : dense E) (l : list E) : Prop := forall j, (j < nk)%nat ->
  (forall n, 0 <= n < d_bc s ->
    Permutation (fst (bucket_walk s j n)) (filter (fun x => hash (key_of j x) mod d_bc s =? n) l) /\
    snd (bucket_walk s j n) = Err (if d_cap s =? 0 then NullDeref else OutOfBounds)) /\
  (forall x, In x l -> exists n, bucket hash s (key_of j x) = Ok n /\ 0 <= n < d_bc s /\ In x (fst (bucket_walk s j n))).
