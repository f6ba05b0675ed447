(** Comparison of the element references of packed maps: packed_map_ref,
    tpp/detail/table_common.hpp 757-778.  Keys and mapped values have total orders given by a
    strict comparison. *)
From Coq Require Import Bool.

Section Ref.
Context {K M : Type}.
Variables (ltk : K -> K -> bool) (ltm : M -> M -> bool).
Notation ref := (K * M)%type.
(** The operators of the two types, from the strict comparison. *)
Definition eqk (a b : K) : bool := negb (ltk a b) && negb (ltk b a).
Definition eqm (a b : M) : bool := negb (ltm a b) && negb (ltm b a).

(** C++17: lines 758-769, each operator is the conjunction (or disjunction) over the parts. *)
Definition ref17_eq (a b : ref) : bool := eqk (fst a) (fst b) && eqm (snd a) (snd b).
Definition ref17_ne (a b : ref) : bool := negb (eqk (fst a) (fst b)) || negb (eqm (snd a) (snd b)).
Definition ref17_ge (a b : ref) : bool := negb (ltk (fst a) (fst b)) && negb (ltm (snd a) (snd b)).
Definition ref17_le (a b : ref) : bool := negb (ltk (fst b) (fst a)) && negb (ltm (snd b) (snd a)).
Definition ref17_gt (a b : ref) : bool := ltk (fst b) (fst a) && ltm (snd b) (snd a).
Definition ref17_lt (a b : ref) : bool := ltk (fst a) (fst b) && ltm (snd a) (snd b).

(** C++20: lines 770-782; operator<=> gives the order of the keys unless they are equal
    (synth_three_way, utility.hpp 261-272, gives [Lt] iff a < b, [Gt] iff b < a; as declared its
    second template parameter cannot be deduced, so that overload resolution finds no
    operator<=>; modelled is what the bodies say). *)
Definition three_way {A} (lt : A -> A -> bool) (a b : A) : comparison := if lt a b then Lt else if lt b a then Gt else Eq.
Definition ref20_eq (a b : ref) : bool := eqk (fst a) (fst b) && eqm (snd a) (snd b).
Definition ref20_cmp (a b : ref) : comparison :=
  match three_way ltk (fst a) (fst b) with Eq => three_way ltm (snd a) (snd b) | c => c end.
(** The operators the language derives from the two. *)
Definition ref20_ne (a b : ref) : bool := negb (ref20_eq a b).
Definition ref20_lt (a b : ref) : bool := match ref20_cmp a b with Lt => true | _ => false end.
Definition ref20_gt (a b : ref) : bool := match ref20_cmp a b with Gt => true | _ => false end.
Definition ref20_le (a b : ref) : bool := match ref20_cmp a b with Gt => false | _ => true end.
Definition ref20_ge (a b : ref) : bool := match ref20_cmp a b with Lt => false | _ => true end.
End Ref.
