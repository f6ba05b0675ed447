(** Throwing user functions on ordered sparse and stable containers (C72). *)
From Coq Require Import ZArith List Bool Lia.
From Verif Require Import Base Bits MapSpec World WorldSpec SwissModel SwissRun LinkModel SwissOrderedSpec SwissOrdered SwissOrderedRun SwissOrderedWorldSpec SwissOrderedWorld
  Instances OrderedInstances SwissOrderedInstances UserModel OrderedUserSpec OrderedUserModel OrderedUserProofs.
Import ListNotations.
Open Scope Z_scope.

(** Histories in which the hash function, key_equal or the predicate of erase_if throws at any
    of its calls, on every ordered sparse or stable container that occurs: a search that throws
    changes neither the elements nor their order, forwards and backwards; erase_if has treated
    the elements inserted first; later calls work as before; links of other containers are not
    touched; up to the first call that C17 does not cover.  One element stays alive outside the
    container for each emplace left by an exception after the element was constructed. *)
Theorem C72_partial : forall (E K : Type) f sz (key_of : E -> K) hash keq rep clone pocca pocma, 0 < sz ->
  key_laws hash keq -> (forall a b, keq (key_of a) (key_of b) = true -> key_of (rep a b) = key_of a) -> (forall e, key_of (clone e) = key_of e) ->
  forall w i l hist, xoccurs f sz key_of hash keq rep clone pocca pocma w -> s_iterate sz (xw_m w) (xw_c w i) = Ok l -> zuhistory_ok hist ->
  zurefines f sz key_of hash keq rep (xw_m w, xw_c w i) l hist.
Proof. exact (fun E K f sz key_of hash keq rep clone pocca pocma Hsz KL R C => occurs_uhistory f sz key_of hash keq rep clone pocca pocma Hsz KL R C). Qed.
Print Assumptions C72_partial.
Definition sparse3 : xworld entry := smaps SSE2 [XOn 0 (ZInsert (5, 50)); XOn 0 (ZInsert (1, 10)); XOn 0 (ZInsert (7, 70)); XOn 0 (ZErase 5); XOn 0 (ZInsert (3, 30)); XOn 1 (ZInsert (7, 71)); XOn 1 (ZInsert (8, 80)); XOn 1 (ZInsert (3, 31))].
Definition ticked (l : list (nat * zucall entry Z)) : list (nat * senv * zucall entry Z) := map (fun x => (fst (snd x), fst x, snd (snd x))) (placed_from (2 ^ 20) l).
Definition zurun1 (h : list (nat * zucall entry Z)) : list (ret entry) * Z + err :=
  match zurun SSE2 48 ekey ehash ekeq erep (xw_m sparse3, xw_c sparse3 0%nat) 0 (ticked h) with Ok (_, rs, m) => inl (rs, m) | Err e => inr e end.
Definition zt (n : nat) (c : zucall entry Z) : nat * zucall entry Z := (n, c).
(** erase_if treats two of four elements; the array is moved by the sixth call. *)
Example C72_case :
  let h := [zt 0 (ZUCall (ZInsert (9, 90))); zt 9 (ZUCall (ZInsert (9, 90))); zt 0 (ZUCall (ZErase 1)); zt 1 (ZUCall (ZFind 3)); zt 1 (ZUCall (ZAssign (7, 77))); zt 9 (ZUCall (ZReserve 40));
            zt 2 (ZUCall (ZEraseIf (fun x => negb (fst x =? 7)))); zt 9 (ZUCall ZIterate); zt 0 (ZUEmplace (4, 40)); zt 9 (ZUEmplace (4, 41)); zt 9 (ZUEmplace (4, 42)); zt 9 (ZUCall ZIterate); zt 9 (ZUCall ZBackwards)] in
  xnormal SSE2 sparse3 /\ s_iterate 48 (xw_m sparse3) (xw_c sparse3 0%nat) = Ok [(1, 10); (7, 70); (3, 30)] /\ zuhistory_ok (ticked h) /\
  zurun1 h = inl ([RThrow; RInserted (9, 90) true; RThrow; RThrow; RThrow; RUnit; RThrow; RList [(7, 70); (3, 30); (9, 90)]; RThrow; RInserted (4, 41) true; RInserted (4, 41) false;
                   RList [(7, 70); (3, 30); (9, 90); (4, 41)]; RList [(4, 41); (9, 90); (3, 30); (7, 70)]], 1).
Proof.
  split; [apply smaps_occur; vm_compute; reflexivity|]. split; [vm_compute; reflexivity|]. split; [|vm_compute; reflexivity].
  repeat (apply Forall_cons; [split; [apply sat_ok|cbn; lia]|]). apply Forall_nil.
Qed.

(** Each call that searches makes a certain number of calls of user functions: it changes
    nothing, not even the memory, if one of them throws and has its usual effect otherwise. *)
Theorem C72_calls : forall (E K : Type) f sz (key_of : E -> K) hash keq rep clone pocca pocma, 0 < sz ->
  key_laws hash keq -> (forall a b, keq (key_of a) (key_of b) = true -> key_of (rep a b) = key_of a) -> (forall e, key_of (clone e) = key_of e) ->
  forall w v i c, xoccurs f sz key_of hash keq rep clone pocca pocma w -> zsearches c = true -> let hs := (xw_m w, xw_c w i) in
  exists m, (0 < m)%nat /\ forall n,
    (n < m)%nat /\ zuexec f sz key_of hash keq rep n v hs (ZUCall c) = Ok (hs, RThrow, 0) \/
    (m <= n)%nat /\ forall hs' r, zexec f sz key_of hash keq rep v hs c = Ok (hs', r) -> zuexec f sz key_of hash keq rep n v hs (ZUCall c) = Ok (hs', r, 0).
Proof. exact (fun E K f sz key_of hash keq rep clone pocca pocma Hsz KL R C => occurs_ucalls f sz key_of hash keq rep clone pocca pocma Hsz KL R C). Qed.
Print Assumptions C72_calls.
Example C72_calls_case :
  map (fun n => match zurun1 [(n, ZUCall (ZErase 7)); (9%nat, ZUCall ZIterate)] with inl (rs, _) => rs | inr _ => [] end) [0; 1; 2]%nat =
  [[RThrow; RList [(1, 10); (7, 70); (3, 30)]]; [RThrow; RList [(1, 10); (7, 70); (3, 30)]]; [RErased (Some (3, 30)) true; RList [(1, 10); (3, 30)]]].
Proof. vm_compute. reflexivity. Qed.

(** emplace keeps its element alive for ever when its search throws, in every container. *)
Theorem C72_emplace_refuted : forall (E K : Type) f sz (key_of : E -> K) hash keq rep clone pocca pocma, 0 < sz ->
  key_laws hash keq -> (forall a b, keq (key_of a) (key_of b) = true -> key_of (rep a b) = key_of a) -> (forall e, key_of (clone e) = key_of e) ->
  forall w v i e, xoccurs f sz key_of hash keq rep clone pocca pocma w -> ev_ctor (sv_e v) = true -> let hs := (xw_m w, xw_c w i) in
  exists m, (0 < m)%nat /\ forall n, (n < m)%nat -> zuexec f sz key_of hash keq rep n v hs (ZUEmplace e) = Ok (hs, RThrow, 1).
Proof. exact (fun E K f sz key_of hash keq rep clone pocca pocma Hsz KL R C => occurs_uemplace f sz key_of hash keq rep clone pocca pocma Hsz KL R C). Qed.
Print Assumptions C72_emplace_refuted.
Example C72_emplace_case :
  map (fun n => match zurun1 [(n, ZUEmplace (7, 77)); (9%nat, ZUCall ZClear)] with inl (rs, m) => Some (nth 0 rs RUnit, m) | inr _ => None end) [0; 1; 2]%nat =
  [Some (RThrow, 1); Some (RThrow, 1); Some (RInserted (7, 70) false, 0)].
Proof. vm_compute. reflexivity. Qed.

(** merge never lets an exception of a user function pass: the program ends, in every merge
    from a container of two or more elements. *)
Theorem C72_merge_refuted : forall (E K : Type) f sz (key_of : E -> K) hash keq rep clone pocca pocma, 0 < sz ->
  key_laws hash keq -> (forall a b, keq (key_of a) (key_of b) = true -> key_of (rep a b) = key_of a) -> (forall e, key_of (clone e) = key_of e) ->
  forall w v i j l h' s' o', xoccurs f sz key_of hash keq rep clone pocca pocma w -> env_ok (sv_e v) -> i <> j -> s_iterate sz (xw_m w) (xw_c w j) = Ok l ->
  s_merge f sz key_of hash keq v (xw_m w) (xw_c w i) (xw_c w j) = Ok (h', s', o', true) ->
  exists m, ((1 < length l)%nat -> (0 < m)%nat) /\
    forall n, zu_merge f sz key_of hash keq n v (xw_m w) (xw_c w i) (xw_c w j) = if (n <? m)%nat then Err Terminated else Ok (h', s', o', true).
Proof. exact (fun E K f sz key_of hash keq rep clone pocca pocma Hsz KL R C => occurs_umerge f sz key_of hash keq rep clone pocca pocma Hsz KL R C). Qed.
Print Assumptions C72_merge_refuted.
(** The source holds the keys 7, 8, 3; the first one is not looked at. *)
Example C72_merge_case :
  map (fun n => match zu_merge SSE2 48 ekey ehash ekeq n (sat (2 ^ 20)) (xw_m sparse3) (xw_c sparse3 0%nat) (xw_c sparse3 1%nat) with
                | Ok (h, s, o, b) => inl (s_iterate 48 h s, s_iterate 48 h o, b) | Err e => inr e end) [0; 1; 2; 3; 4]%nat =
  let done := inl (Ok [(1, 10); (7, 70); (3, 30); (8, 80)], Ok [(7, 71); (3, 31)], true) in
  [inr Terminated; inr Terminated; inr Terminated; done; done].
Proof. vm_compute. reflexivity. Qed.
