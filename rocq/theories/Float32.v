(** Single-precision arithmetic as far as dense_table.hpp uses it: conversion of sizes,
    quotients, comparisons, truncation.  Values are non-negative rationals (numerator,
    denominator > 0).  Overflow to infinity and subnormal numbers do not occur: the values
    are 0 or quotients of numbers between 1 and 2^64 by a max load factor. *)
From Coq Require Import ZArith Bool.
From Verif Require Import Base.
Open Scope Z_scope.

Definition rat : Type := (Z * Z)%type.
Definition rle (a b : rat) : bool := fst a * snd b <=? fst b * snd a.

(** n/d rounded to an integer, ties to even. *)
Definition round_even (n d : Z) : Z :=
  let q := n / d in
  let r := n mod d in
  if 2 * r <? d then q else if d <? 2 * r then q + 1 else if Z.even q then q else q + 1.

(** The exponent e with 2^23 <= (n/d) / 2^e < 2^24, for n > 0. *)
Definition f32_exp (n d : Z) : Z :=
  let e := Z.log2 n - Z.log2 d - 23 in
  if n * 2 ^ Z.max 0 (- e) <? d * 2 ^ Z.max 0 e * 2 ^ 23 then e - 1 else e.

(** The nearest float with 24 significant bits -- IEEE 754 binary32, round to nearest. *)
Definition f32 (x : rat) : rat :=
  let '(n, d) := x in
  if n =? 0 then (0, 1)
  else
    let e := f32_exp n d in
    let m := round_even (n * 2 ^ Z.max 0 (- e)) (d * 2 ^ Z.max 0 e) in
    (m * 2 ^ Z.max 0 e, 2 ^ Z.max 0 (- e)).

(** static_cast<float>(n) for an integer, quotient of two floats, static_cast<size_type>
    (undefined for values of 2^64 and more). *)
Definition f32_of (n : Z) : rat := f32 (n, 1).
Definition f32_div (a b : rat) : rat := f32 (fst a * snd b, snd a * fst b).
Definition f32_mul (a b : rat) : rat := f32 (fst a * fst b, snd a * snd b).
Definition f32_trunc (a : rat) : res Z :=
  let v := fst a / snd a in if v <? two64 then Ok v else Err BadCast.
