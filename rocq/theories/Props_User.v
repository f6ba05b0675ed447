(** Throwing user functions on sparse containers (C66). *)
From Coq Require Import ZArith List Bool Lia.
From Verif Require Import Base Bits MapSpec SwissModel SwissInv SwissRun World Instances WorldProofs UserSpec UserModel UserProofs.
Import ListNotations.
Open Scope Z_scope.

(** Histories in which the hash function, key_equal or the predicate of erase_if throws at any
    of its calls: a search that throws changes nothing, erase_if has treated the elements before
    the one at which the predicate threw, and later calls work as before.  There are as many
    live elements as the container counts, and one more for each emplace that was left by an
    exception after it had constructed its element (missing for the full statement, with C22
    on narrow builds). *)
Theorem C66_partial : forall (E K : Type) f (key_of : E -> K) hash keq rep,
  key_laws hash keq -> (forall a b, keq (key_of a) (key_of b) = true -> key_of (rep a b) = key_of a) ->
  forall h, uhistory_ok h ->
  (exists s rs m, urun f key_of hash keq rep empty_swiss 0 h = Ok (s, rs, m) /\ uspec_run key_of keq rep (ucalls_of h) [] (elems s) rs /\ m = size s + leaks h rs) \/
  ((f = NEON \/ f = WORD) /\ (exists n v c, In (n, v, c) h /\ uscanning c) /\ urun f key_of hash keq rep empty_swiss 0 h = Err BitScanZero).
Proof. exact (fun E K f key_of hash keq rep KL R h Hh => uhistories f key_of hash keq KL rep R h Hh). Qed.
Print Assumptions C66_partial.
Definition us (n : nat) (c : ucall entry Z) : nat * env * ucall entry Z := (n, v0, c).
Definition urun1 := urun SSE2 ekey chash ekeq erep empty_swiss 0.
(** All keys collide.  insert of 9 throws in the hash function, then at the second comparison;
    erase_if treats two of three elements; emplace of 9 throws twice, the second time for lack
    of memory. *)
Example C66_case :
  let h := [us 9 (UCall (CInsert (1, 10))); us 9 (UCall (CInsert (2, 20))); us 9 (UCall (CInsert (3, 30))); us 0 (UCall (CInsert (9, 90))); us 2 (UCall (CInsert (9, 90)));
            us 0 (UCall (CErase 1)); us 1 (UCall (CFind 3)); us 2 (UEmplace (9, 91)); us 2 (UEraseIf (fun x => negb (fst x =? 2))); us 9 (UCall CSize); us 9 (UCall CIterate);
            us 9 (UCall (CInsert (4, 40))); (9%nat, mkenv 0 true, UEmplace (9, 92)); (0%nat, mkenv 9 false, UEmplace (9, 93)); us 9 (UEmplace (3, 33)); us 9 (UCall CIterate)] in
  uhistory_ok h /\
  match urun1 h with Ok (_, rs, m) => Some (rs, m, leaks h rs) | Err _ => None end =
  Some ([RInserted (1, 10) true; RInserted (2, 20) true; RInserted (3, 30) true; RThrow; RThrow; RThrow; RThrow; RThrow; RThrow; RNum 2; RList [(2, 20); (3, 30)];
         RInserted (4, 40) true; RThrow; RThrow; RInserted (3, 30) false; RList [(4, 40); (2, 20); (3, 30)]], 5, 2).
Proof. split; [repeat (apply Forall_cons; [split; [unfold env_ok; cbn; lia|cbn; auto]|]); apply Forall_nil|vm_compute; reflexivity]. Qed.

(** Each call that searches makes a certain number of calls of user functions: it has no effect
    if one of them throws and its usual effect otherwise. *)
Theorem C66_calls : forall (E K : Type) f (key_of : E -> K) hash keq rep,
  key_laws hash keq -> (forall a b, keq (key_of a) (key_of b) = true -> key_of (rep a b) = key_of a) ->
  forall v s c, occurs f key_of hash keq rep s -> searches c = true ->
  exists m, (0 < m)%nat /\ forall n,
    (n < m)%nat /\ uexec f key_of hash keq rep n v s (UCall c) = Ok (s, RThrow, 0) \/
    (m <= n)%nat /\ forall s' r, exec f key_of hash keq rep v s c = Ok (s', r) -> exists d, uexec f key_of hash keq rep n v s (UCall c) = Ok (s', r, d).
Proof. exact (fun E K f key_of hash keq rep KL R v s c Ho => call_throws f key_of hash keq KL rep v s c (occurs_wf f key_of hash keq KL rep R s Ho)). Qed.
Print Assumptions C66_calls.
(** In a table of one slot the metadata byte is seen twice: 1 hash and 2 comparisons. *)
Example C66_calls_case :
  map (fun n => match urun1 [us 9 (UCall (CInsert (1, 10))); us n (UCall (CContains 7))] with Ok (_, rs, _) => Some (nth 1 rs RUnit) | Err _ => None end) [0; 1; 2; 3; 4]%nat =
  [Some RThrow; Some RThrow; Some RThrow; Some (RBool false); Some (RBool false)].
Proof. vm_compute. reflexivity. Qed.

(** emplace keeps its element alive for ever when its search throws, in every container. *)
Theorem C66_emplace_refuted : forall (E K : Type) f (key_of : E -> K) hash keq rep,
  key_laws hash keq -> (forall a b, keq (key_of a) (key_of b) = true -> key_of (rep a b) = key_of a) ->
  forall v s e, occurs f key_of hash keq rep s -> ev_ctor v = true ->
  exists m, (0 < m)%nat /\ forall n, (n < m)%nat -> uexec f key_of hash keq rep n v s (UEmplace e) = Ok (s, RThrow, 1).
Proof. exact (fun E K f key_of hash keq rep KL R v s e Ho => emplace_leaks f key_of hash keq KL rep R v s e (occurs_wf f key_of hash keq KL rep R s Ho)). Qed.
Print Assumptions C66_emplace_refuted.
Example C66_emplace_case :
  map (fun n => match urun1 [us 9 (UCall (CInsert (1, 10))); us n (UEmplace (1, 11)); us 9 (UCall CClear)] with Ok (_, rs, m) => Some (nth 1 rs RUnit, m) | Err _ => None end) [0; 1; 2; 3]%nat =
  [Some (RThrow, 1); Some (RThrow, 1); Some (RInserted (1, 10) false, 0); Some (RInserted (1, 10) false, 0)].
Proof. vm_compute. reflexivity. Qed.

(** merge never lets an exception of a user function pass: the program ends. *)
Theorem C66_merge_refuted : forall (E K : Type) f (key_of : E -> K) hash keq rep,
  key_laws hash keq -> (forall a b, keq (key_of a) (key_of b) = true -> key_of (rep a b) = key_of a) ->
  forall lim s o s' o', occurs f key_of hash keq rep o -> merge f key_of hash keq lim s o = Ok (s', o', true) ->
  exists m, (elems o <> [] -> (0 < m)%nat) /\
    forall n, u_merge f key_of hash keq n lim s o = if (n <? m)%nat then Err Terminated else Ok (s', o', true).
Proof. exact (fun E K f key_of hash keq rep KL R lim s o s' o' Ho => merge_ticks f key_of hash keq rep R lim s o s' o' (occurs_wf f key_of hash keq KL rep R o Ho)). Qed.
Print Assumptions C66_merge_refuted.
(** Two elements each, one key in common. *)
Example C66_merge_case :
  let s := state (crun SSE2 [CInsert (1, 10); CInsert (2, 20)]) empty_swiss in let o := state (crun SSE2 [CInsert (2, 21); CInsert (3, 30)]) empty_swiss in
  map (fun n => match u_merge SSE2 ekey chash ekeq n 100 s o with Ok (s', o', b) => inl (elems s', elems o', b) | Err e => inr e end) [0; 1; 7; 8; 9]%nat =
  [inr Terminated; inr Terminated; inr Terminated; inl ([(1, 10); (2, 20); (3, 30)], [(2, 21)], true); inl ([(1, 10); (2, 20); (3, 30)], [(2, 21)], true)].
Proof. vm_compute. reflexivity. Qed.
