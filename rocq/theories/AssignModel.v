(** insert_or_assign on maps, with the steps of replace: the mapped value is destroyed, the
    argument is read, the new mapped value is constructed. *)
From Coq Require Import ZArith List Bool.
From Verif Require Import Base Bits MapSpec SwissModel SwissRun AssignSpec.
From Verif Require DenseModel DenseRun.
Import ListNotations.
Open Scope Z_scope.

Section Model.
Context {K V : Type}.
Local Notation elt := (K * option V)%type.

(** Use of a mapped value (element access of maps, destructor): it has to be alive --
    table_common.hpp 248-258 (the destructor call at line 254). *)
Definition mapped (e : elt) : res V := match snd e with Some x => Ok x | None => Err DeadObject end.

Section Sparse.
Variable f : simd.
Variable hash : K -> Z.
Variable keq : K -> K -> bool.

(** The value the argument has -- std::forward<Args>(args)... at table_common.hpp 257 and
    swiss_table.hpp 1291. *)
Definition s_value (s : @swiss elt) (a : argument V) : res V :=
  match a with Outside x => Ok x | Slot i => let* n := get_node s i in mapped (fst n) end.
(** Change of the mapped value in slot [p] -- table_common.hpp 250 (target). *)
Definition s_put (s : @swiss elt) (p : Z) (n : elt * Z) (o : option V) : @swiss elt :=
  mk (s_buf s) (s_cap s) (s_meta s) (upd (s_nodes s) p (Some ((fst (fst n), o), snd n))) (s_size s) (s_nempty s).
(** packed_node::replace -- table_common.hpp 247-258 (451-462 for stable nodes).  [triv]: the
    mapped type is trivially destructible (line 253).  [ctor]: its constructor returns; [false]
    in the result when it throws.  What a throwing constructor of a trivially destructible type
    has written is not modelled: the old value stays. *)
Definition s_replace (triv ctor : bool) (s : @swiss elt) (p : Z) (a : argument V) : res (@swiss elt * bool) :=
  let* n := get_node s p in
  let* t := (if triv then Ok s else let* _ := mapped (fst n) in Ok (s_put s p n None)) in
  let* x := s_value t a in
  if ctor then Ok (s_put s p n (Some x), true) else Ok (t, false).
(** do_insert_or_assign -- swiss_table.hpp 1348-1359.  A new key: emplace_node (1264-1300) makes
    room before it reads the argument; do_rehash always changes the capacity and frees the array
    the argument refers to.  The element is then placed as by emplace_node from the state
    before, which takes the same steps. *)
Definition s_assign (triv : bool) (v : env) (s : @swiss elt) (k : K) (a : argument V) : res (@swiss elt * ins_result) :=
  let* p := find_node f fst keq s k (hash k) in
  if p =? s_cap s then
    let* r := make_room f (ev_lim v) s (hash k) in
    match snd r with
    | None => Ok (fst r, None)
    | Some _ =>
      let* x := (match a with Outside x => Ok x | Slot _ => if s_cap (fst r) =? s_cap s then s_value (fst r) a else Err UseAfterFree end) in
      let* y := emplace_node f (ev_lim v) (ev_ctor v) s (hash k) (k, Some x) in
      Ok (fst y, match snd y with None => None | Some (q, tr) => Some (q, true, tr) end)
    end
  else
    let* y := s_replace triv (ev_ctor v) s p a in
    Ok (fst y, if snd y then Some (p, false, []) else None).
(** at -- sparse_map.hpp 501-510, with the mapped value read ([None]: std::out_of_range). *)
Definition s_read (s : @swiss elt) (k : K) : res (option V) :=
  let* o := find f fst hash keq s k in
  match o with None => Ok None | Some e => let* x := mapped e in Ok (Some x) end.
(** The destructor of the table -- swiss_table.hpp 885-889 with erase_nodes 1522-1530, as far as
    the mapped values are concerned. *)
Definition s_destroy (s : @swiss elt) : res unit :=
  if s_size s =? 0 then Ok tt
  else foldM (fun _ i => let* b := get_meta f s i in if is_occupied b then let* n := get_node s i in let* _ := mapped (fst n) in Ok tt else Ok tt) (zrange (s_cap s)) tt.
(** What the argument is worth when the call is made -- the value bound to Args &&...args,
    swiss_table.hpp 1349. *)
Definition denotes (s : @swiss elt) (a : argument V) (x : V) : Prop :=
  match a with Outside y => y = x | Slot i => exists k, holds s i (k, Some x) end.
End Sparse.

Section Dense.
Variable hash : K -> Z.
Variable keq : K -> K -> bool.
Local Notation dense := (DenseModel.dense elt).
Definition key0 (j : nat) (e : elt) : K := fst e.

(** As [s_value] -- table_common.hpp 257, dense_table.hpp 554. *)
Definition d_value (s : dense) (a : argument V) : res V :=
  match a with Outside x => Ok x | Slot i => let* n := DenseModel.get_node s i in mapped (DenseModel.n_val n) end.
(** As [s_put] -- table_common.hpp 250. *)
Definition d_put (s : dense) (i : Z) (n : DenseModel.node elt) (o : option V) : res dense :=
  DenseModel.put_node s i (DenseModel.mkn (fst (DenseModel.n_val n), o) (DenseModel.n_hash n) (DenseModel.n_next n)).
(** replace -- table_common.hpp 247-258; [freed]: the argument refers to an array that has been
    given back by maybe_resize (dense_table.hpp 706) of the same call. *)
Definition d_replace (triv ctor freed : bool) (s : dense) (p : Z) (a : argument V) : res (dense * bool) :=
  let* n := DenseModel.get_node s p in
  let* t := (if triv then Ok s else let* _ := mapped (DenseModel.n_val n) in d_put s p n None) in
  let* x := (if freed then Err UseAfterFree else d_value t a) in
  if ctor then let* u := d_put s p n (Some x) in Ok (u, true) else Ok (t, false).
(** do_insert_or_assign -- dense_table.hpp 700-723. *)
Definition d_assign (triv ctor : bool) (v : DenseRun.denv) (s : dense) (k : K) (a : argument V) : res (dense * DenseModel.ins_result) :=
  let* r := DenseModel.make_room 1 (DenseRun.dv_dlim v) (DenseRun.dv_slim v) s in
  match snd r with
  | None => Ok (fst r, None)
  | Some _ =>
    let s1 := fst r in
    let freed := match a with Outside _ => false | Slot _ => negb (DenseModel.d_cap s1 =? DenseModel.d_cap s) end in
    let* c := DenseModel.find_node key0 keq s1 0 k (hash k) in
    let* isnew := (match snd c with None => Ok false | Some p => let* x := DenseModel.load s1 0%nat p in Ok (x =? DenseModel.npos) end) in
    if isnew : bool then
      let* p := DenseModel.deref (snd c) in
      let* x := (if freed then Err UseAfterFree else d_value s1 a) in
      let* y := DenseModel.emplace_node ctor s1 [(0%nat, p)] (fun _ => hash k) (k, Some x) in
      Ok (fst y, match snd y with None => None | Some pos => Some (pos, true) end)
    else
      let* y := d_replace triv ctor freed s1 (fst c) a in
      Ok (fst y, if snd y then Some (fst c, false) else None)
  end.
(** at -- dense_map.hpp 532-541. *)
Definition d_read (s : dense) (k : K) : res (option V) :=
  let* o := DenseModel.find key0 hash keq s 0 k in
  match o with None => Ok None | Some e => let* x := mapped e in Ok (Some x) end.
(** The destructor of the element array -- dense_table.hpp 304-309, clear_data 901-905. *)
Definition d_destroy (s : dense) : res unit :=
  foldM (fun _ i => let* n := DenseModel.get_node s i in let* _ := mapped (DenseModel.n_val n) in Ok tt) (zrange (DenseModel.d_size s)) tt.
(** As [denotes] -- dense_table.hpp 702. *)
Definition ddenotes (s : dense) (a : argument V) (x : V) : Prop :=
  match a with Outside y => y = x | Slot i => 0 <= i /\ exists k, nth_error (DenseRun.delems s) (Z.to_nat i) = Some (k, Some x) end.
End Dense.
End Model.
